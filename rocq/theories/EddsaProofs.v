(* EdDSA signatures of a key pair verify under its public key. *)
From Coq Require Import Lia ZifyN ZifyNat Znumtheory.
From Verif Require Import Base BaseLemmas Types Crypto CryptoProofs Encoding EncodingProofs DataV3Proofs SpecCurve EdGroup PointProofs
  RingProofs SpecSMP4 SMP4Proofs.
Local Open Scope Z_scope.

Section WithCrypto.
Context (C : Crypto) (GO : smp4_group C).
Notation G := (c_ed_g C).
Notation q := (c_ed_q C).

Lemma sign_verifies sym k m sg R : eddsa_of_symmetric C sym = Ok k -> eddsa_sign C k m = Ok sg ->
  pt_decode C (edsig_R sg) = Some R -> R <> pt_id -> le_val (edsig_s sg) <> 0%N ->
  eddsa_validate C (ed_public k) sg m = Ok tt.
Proof.
  unfold eddsa_of_symmetric, eddsa_sign. intros K S. pose proof (CO C GO) as CO.
  apply bind_ok in K. destruct K as (src & PR & K).
  assert (OI : forall A (a b : A), Ok a = Ok b -> b = a) by congruence. apply OI in K. subst k.
  cbn [ed_symmetric ed_public] in *. rewrite PR in S. cbn [bind] in S. apply OI in S. subst sg. clear OI.
  cbn [edsig_R edsig_s]. set (s := Z.of_N (le_val src)). set (r := Z.of_N (le_val (shake256 C 114 (DOM4 ++ skipn 57 _ ++ m)))).
  set (kk := Z.of_N (le_val (shake256 C 114 (DOM4 ++ pt_encode (pt_mul C G r) ++ pt_encode (pt_mul C G s) ++ m)))).
  assert (0 <= s) by (unfold s; lia). assert (0 <= r) by (unfold r; lia). assert (0 <= kk) by (unfold kk; lia).
  destruct GO as (_ & P34 & PB & _ & Q2 & QB & _).
  assert (DR : pt_decode C (pt_encode (pt_mul C G r)) = Some (pt_mul C G r)).
  { apply (point_round_trip C CO P34 PB). rewrite (gk_of C GO) by assumption. apply gk_valid. exact GO. }
  rewrite DR. intros E. assert (R = pt_mul C G r) as -> by congruence. clear E. intros NI.
  assert (MB : 0 <= (r + kk * s) mod q < q) by (apply Z.mod_pos_bound; lia).
  assert (LV : le_val (scalar_bytes ((r + kk * s) mod q)) = Z.to_N ((r + kk * s) mod q)).
  { unfold scalar_bytes. rewrite le_val_le_bytes_small.
    - clear - MB. lia.
    - apply N.lt_le_trans with (Z.to_N (2 ^ 448)).
      + clear - MB QB. lia.
      + vm_compute. discriminate. }
  rewrite LV. intros NZ. unfold eddsa_validate. cbn [edsig_R edsig_s]. rewrite DR.
  fold kk. clearbody kk r s. clear DR.
  rewrite (gk_of C GO r) in NI |- * by assumption. rewrite (gk_of C GO s) by assumption.
  assert (pt_verify C (at_g C r) = true) as ->.
  { apply gk_verify; [exact GO|]. intros D. apply NI. now apply gk_zero. }
  cbn [of_bool bind]. rewrite LV, Z2N.id by (clear - MB; lia).
  destruct (Z.leb_spec ((r + kk * s) mod q) 0) as [L|L]; [clear - L MB NZ; lia|].
  destruct (Z.leb_spec q ((r + kk * s) mod q)) as [L'|L']; [clear - L' MB; lia|]. cbn [orb].
  rewrite (gk_mul C GO) by assumption. rewrite (gk_add C GO).
  rewrite (gk_of C GO) by (clear - MB; lia). rewrite (gk_mod C GO).
  replace (s * kk) with (kk * s) by ring.
  assert (ct_compare (pt_encode (at_g C (r + kk * s))) (pt_encode (at_g C (r + kk * s))) = true) as ->; [|reflexivity].
  apply ct_compare_true. split; [reflexivity|]. apply gk_encode. exact GO.
Qed.
End WithCrypto.
