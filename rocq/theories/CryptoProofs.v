(* Facts about the concrete parts of Crypto.v. *)
From Verif Require Import Base BaseLemmas Crypto.
Local Open Scope N_scope.

Lemma fix_len_length n l : length (fix_len n l) = n.
Proof.
  unfold fix_len. rewrite firstn_length, app_length, repeat_length. lia.
Qed.

Lemma xor_bytes_length a : forall ks, length ks = length a -> length (xor_bytes a ks) = length a.
Proof.
  induction a as [|x a IH]; intros [|k ks] H; try discriminate; cbn; [reflexivity|].
  now rewrite IH by (cbn in H; lia).
Qed.

Lemma byte_xor_involutive x k : byte_xor (byte_xor x k) k = x.
Proof.
  unfold byte_xor. apply b2n_inj.
  assert (B : forall a b, N.lxor (b2n a) (b2n b) < 256).
  { intros a b. destruct (N.eq_dec (N.lxor (b2n a) (b2n b)) 0) as [->|Hn]; [lia|].
    apply N.log2_lt_pow2 with (b := 8); [lia|].
    pose proof (N.log2_lxor (b2n a) (b2n b)) as H.
    assert (L : forall c, N.log2 (b2n c) < 8).
    { intros c. destruct (N.eq_dec (b2n c) 0) as [->|]; [cbn; lia|].
      apply N.log2_lt_pow2; [lia|]. apply b2n_lt. }
    pose proof (L a). pose proof (L b). lia. }
  rewrite (b2n_n2b_small _ (B x k)), N.lxor_assoc, N.lxor_nilpotent, N.lxor_0_r.
  apply b2n_n2b_small, b2n_lt.
Qed.

Lemma xor_bytes_involutive a : forall ks,
  length ks = length a -> xor_bytes (xor_bytes a ks) ks = a.
Proof.
  induction a as [|x a IH]; intros [|k ks] H; try discriminate; cbn; [reflexivity|].
  rewrite byte_xor_involutive, IH by (cbn in H; lia). reflexivity.
Qed.

(* modular exponentiation is exponentiation *)
Lemma powmod_pos_spec b e m : m <> 0 -> powmod_pos b e m = (b ^ N.pos e) mod m.
Proof.
  intros Hm. induction e as [e IH|e IH|]; cbn [powmod_pos].
  - rewrite IH. rewrite <- N.mul_mod by assumption.
    rewrite N.mul_mod_idemp_l by assumption.
    replace (N.pos e~1) with (N.pos e + N.pos e + 1) by lia.
    rewrite !N.pow_add_r, N.pow_1_r. reflexivity.
  - rewrite IH. rewrite <- N.mul_mod by assumption.
    replace (N.pos e~0) with (N.pos e + N.pos e) by lia. now rewrite N.pow_add_r.
  - now rewrite N.pow_1_r.
Qed.

Lemma modpow_spec b e m : m <> 0 -> modpow b e m = (b ^ e) mod m.
Proof.
  intros Hm. destruct e as [|e]; cbn [modpow]; [now rewrite N.pow_0_r|]. now apply powmod_pos_spec.
Qed.

Lemma modpow_lt b e m : m <> 0 -> modpow b e m < m.
Proof. intros Hm. rewrite modpow_spec by assumption. now apply N.mod_lt. Qed.

Lemma modpow_mod b e m : m <> 0 -> modpow (b mod m) e m = modpow b e m.
Proof.
  intros Hm. rewrite !modpow_spec by assumption.
  induction e as [|e IH] using N.peano_ind; [now rewrite !N.pow_0_r|].
  rewrite !N.pow_succ_r by lia. rewrite N.mul_mod, IH, <- N.mul_mod by assumption.
  rewrite N.mul_mod, N.mod_mod, <- N.mul_mod by assumption. reflexivity.
Qed.

Lemma modpow_add b e1 e2 m : m <> 0 -> modpow b (e1 + e2) m = (modpow b e1 m * modpow b e2 m) mod m.
Proof.
  intros Hm. rewrite !modpow_spec by assumption. rewrite N.pow_add_r. now apply N.mul_mod.
Qed.

Lemma modpow_modpow b e1 e2 m : m <> 0 -> modpow (modpow b e1 m) e2 m = modpow b (e1 * e2) m.
Proof.
  intros Hm. rewrite (modpow_spec b e1 m Hm), modpow_mod by assumption.
  rewrite !modpow_spec by assumption. now rewrite N.pow_mul_r.
Qed.

(* Diffie-Hellman agreement: both orders give the same secret. *)
Lemma modpow_comm g a b m : m <> 0 -> modpow (modpow g a m) b m = modpow (modpow g b m) a m.
Proof. intros Hm. rewrite !modpow_modpow by assumption. now rewrite N.mul_comm. Qed.

Section WithCrypto.
Context (C : Crypto).
Lemma sha1_length d : length (sha1 C d) = 20%nat. Proof. apply fix_len_length. Qed.
Lemma sha256_length d : length (sha256 C d) = 32%nat. Proof. apply fix_len_length. Qed.
Lemma hmac_sha1_length k d : length (hmac_sha1 C k d) = 20%nat. Proof. apply fix_len_length. Qed.
Lemma hmac_sha256_length k d : length (hmac_sha256 C k d) = 32%nat. Proof. apply fix_len_length. Qed.
Lemma hmac160_length k d : length (hmac160 C k d) = 20%nat.
Proof. unfold hmac160. rewrite firstn_length, hmac_sha256_length. reflexivity. Qed.
Lemma shake256_length n d : length (shake256 C n d) = n. Proof. apply fix_len_length. Qed.
Lemma kdf_length n u d : length (kdf C n u d) = n. Proof. apply fix_len_length. Qed.
Lemma kdf2_length n u d1 d2 : length (kdf2 C n u d1 d2) = n. Proof. apply fix_len_length. Qed.

Lemma aes_crypt_length k iv d : length (aes_crypt C k iv d) = length d.
Proof. unfold aes_crypt. apply xor_bytes_length, fix_len_length. Qed.
Lemma aes_crypt_involutive k iv d : aes_crypt C k iv (aes_crypt C k iv d) = d.
Proof.
  unfold aes_crypt at 1. rewrite aes_crypt_length. unfold aes_crypt.
  apply xor_bytes_involutive, fix_len_length.
Qed.
Lemma chacha_crypt_length k d : length (chacha_crypt C k d) = length d.
Proof. unfold chacha_crypt. apply xor_bytes_length, fix_len_length. Qed.
Lemma chacha_crypt_involutive k d : chacha_crypt C k (chacha_crypt C k d) = d.
Proof.
  unfold chacha_crypt at 1. rewrite chacha_crypt_length. unfold chacha_crypt.
  apply xor_bytes_involutive, fix_len_length.
Qed.

(* Decoding yields points that survive the wire (only the parity of the modulus matters). *)
Lemma pt_decode_encode enc p :
  (0 < c_ed_p C)%Z -> Z.odd (c_ed_p C) = true ->
  pt_decode C enc = Some p -> pt_decode C (pt_encode p) = Some p.
Proof.
  intros HP HO. unfold pt_decode. set (P := c_ed_p C) in *.
  set (xb := N.testbit (b2n (nth 56 enc x00)) 7).
  assert (HB : le_val (firstn 56 enc) < 256 ^ N.of_nat 56).
  { eapply N.lt_le_trans; [apply le_val_bound|]. apply N.pow_le_mono_r; [lia|].
    rewrite firstn_length. lia. }
  set (y := Z.of_N (le_val (firstn 56 enc))).
  destruct (Z.leb_spec P y) as [?|Hy]; [discriminate|].
  set (num := (y * y - 1)%Z). set (den := (y * y * c_ed_d C - 1)%Z).
  set (pw := Z.of_N (modpow _ _ _)).
  set (x := ((num * num * num * den * pw) mod P)%Z).
  destruct (negb _) eqn:E1; [discriminate|].
  destruct ((x =? 0)%Z && xb) eqn:E2; [discriminate|].
  assert (Hx : (0 <= x < P)%Z) by (apply Z.mod_pos_bound; assumption).
  intros H.
  assert (HY : py p = y).
  { destruct (Bool.eqb (Z.even x) (negb xb)); injection H as <-; reflexivity. }
  assert (HXB : Z.odd (px p) = xb).
  { destruct (Bool.eqb (Z.even x) (negb xb)) eqn:E3; injection H as <-; cbn [px].
    - apply Bool.eqb_prop in E3. rewrite <- Z.negb_even, E3. apply negb_involutive.
    - rewrite Z.odd_sub, HO, <- Z.negb_even. destruct (Z.even x), xb; cbn in *; congruence. }
  unfold pt_encode. rewrite HXB, HY.
  assert (L : length (le_bytes 56 (Z.to_N y)) = 56%nat) by apply le_bytes_length.
  assert (F : firstn 56 (le_bytes 56 (Z.to_N y) ++ [if xb then x80 else x00]) = le_bytes 56 (Z.to_N y)).
  { rewrite <- L at 1. rewrite firstn_app, Nat.sub_diag, firstn_O, app_nil_r, firstn_all. reflexivity. }
  assert (NT : nth 56 (le_bytes 56 (Z.to_N y) ++ [if xb then x80 else x00]) x00
               = if xb then x80 else x00).
  { rewrite app_nth2 by (rewrite L; lia). rewrite L. reflexivity. }
  rewrite F, NT.
  assert (V : le_val (le_bytes 56 (Z.to_N y)) = Z.to_N y).
  { apply le_val_le_bytes_small. unfold y. rewrite N2Z.id. exact HB. }
  rewrite V.
  assert (TB : N.testbit (b2n (if xb then x80 else x00)) 7 = xb) by (destruct xb; reflexivity).
  rewrite TB.
  assert (YY : Z.of_N (Z.to_N y) = y) by (unfold y; now rewrite N2Z.id).
  rewrite YY.
  destruct (Z.leb_spec P y); [lia|].
  fold num den. fold pw. fold x. rewrite E1, E2. exact H.
Qed.
End WithCrypto.
