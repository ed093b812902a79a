From Coq Require Import Lia ZifyN ZifyNat.
From Verif Require Import Base BaseLemmas Types Crypto Encoding SpecDsa.
Local Open Scope N_scope.

Lemma prehash_iff q m h : N.size q = 160 -> (dsa_prehash m q = h <-> signed_number q m h).
Proof.
  intros S. assert (Q : q <> 0) by (intros ->; discriminate S).
  assert (B : be_val m mod q < 256 ^ N.of_nat 20).
  { apply N.lt_trans with q; [now apply N.mod_lt|]. pose proof (N.size_gt q) as G. rewrite S in G. exact G. }
  unfold dsa_prehash, signed_number. split.
  - intros <-. split; [apply be_bytes_length|]. apply be_val_be_bytes_small. exact B.
  - intros [L V]. rewrite <- V, <- L. apply be_bytes_be_val.
Qed.
Section WithCrypto.
Context (C : Crypto).
Lemma dsa_covers pk sg m : N.size (dsa_q pk) = 160 ->
  (dsa_validate C pk sg m = Ok tt <-> exists h, signed_number (dsa_q pk) m h /\ c_dsa_verify C pk h sg = true).
Proof.
  intros S. unfold dsa_validate. split.
  - intros H. exists (dsa_prehash m (dsa_q pk)). split; [now apply prehash_iff|]. destruct (c_dsa_verify _ _ _ _); [reflexivity|discriminate H].
  - intros (h & H & V). apply (prehash_iff _ _ _ S) in H. rewrite H, V. reflexivity.
Qed.
Lemma dsa_signs k nonce m h : N.size (dsa_q (dsa_pk k)) = 160 -> signed_number (dsa_q (dsa_pk k)) m h -> dsa_sign C k nonce m = c_dsa_sign C k nonce h.
Proof. intros S H. apply (prehash_iff _ _ _ S) in H. unfold dsa_sign. rewrite H. reflexivity. Qed.
Lemma dsa_other pk sg m m' : be_val m mod dsa_q pk = be_val m' mod dsa_q pk -> dsa_validate C pk sg m = dsa_validate C pk sg m'.
Proof. intros E. unfold dsa_validate, dsa_prehash. rewrite E. reflexivity. Qed.
Lemma dsa_key_size b pk rest : read_public_key C b = Ok (pk, rest) -> N.size (dsa_q pk) = 160.
Proof.
  unfold read_public_key. intros H. destruct (read_u16 b) as [[t b1]| |]; cbn [bind] in H; try discriminate H.
  destruct (negb (t =? 0)); [discriminate H|].
  destruct (read_mpi b1) as [[p b2]| |]; cbn [bind] in H; try discriminate H. destruct (read_mpi b2) as [[q b3]| |]; cbn [bind] in H; try discriminate H.
  destruct (read_mpi b3) as [[g b4]| |]; cbn [bind] in H; try discriminate H. destruct (read_mpi b4) as [[y b5]| |]; cbn [bind] in H; try discriminate H.
  unfold dsa_from_components in H. destruct (N.eqb_spec (N.size q) 160) as [E|E]; cbn [negb] in H; [|discriminate H].
  destruct (c_dsa_components_ok _ _); cbn [bind] in H; [|discriminate H]. assert (pk = mkDsaPub p q g y) as -> by congruence. exact E.
Qed.
End WithCrypto.
