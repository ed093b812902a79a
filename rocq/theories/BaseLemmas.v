(* Lemmas about the shared vocabulary. *)
From Verif Require Import Base.
From Coq Require Export Lia ZifyBool ZifyNat ZifyN.
From Coq Require Import ZArith.
Ltac Zify.zify_post_hook ::= Z.div_mod_to_equations.
#[global] Arguments N.add : simpl never.
#[global] Arguments N.mul : simpl never.
#[global] Arguments N.div : simpl never.
#[global] Arguments N.modulo : simpl never.
#[global] Arguments N.sub : simpl never.
#[global] Arguments N.pow : simpl never.
#[global] Arguments n2b : simpl never.
#[global] Arguments b2n : simpl never.

Lemma b2n_lt b : (b2n b < 256)%N.
Proof. unfold b2n. pose proof (Byte.to_N_bounded b). lia. Qed.

Lemma n2b_b2n b : n2b (b2n b) = b.
Proof.
  unfold n2b. rewrite N.mod_small by apply b2n_lt. unfold b2n. now rewrite Byte.of_to_N.
Qed.

Lemma b2n_n2b n : b2n (n2b n) = (n mod 256)%N.
Proof.
  unfold n2b, b2n. destruct (Byte.of_N (n mod 256)) eqn:E.
  - now apply Byte.to_of_N.
  - apply Byte.of_N_None_iff in E. lia.
Qed.

Lemma b2n_n2b_small n : (n < 256)%N -> b2n (n2b n) = n.
Proof. intros H. rewrite b2n_n2b. now apply N.mod_small. Qed.

Lemma n2b_mod n : n2b (n mod 256) = n2b n.
Proof. unfold n2b. now rewrite N.mod_mod by lia. Qed.

Lemma b2n_inj a b : b2n a = b2n b -> a = b.
Proof. intros H. rewrite <- (n2b_b2n a), <- (n2b_b2n b). now rewrite H. Qed.

Lemma byte_eqb_eq a b : byte_eqb a b = true <-> a = b.
Proof.
  unfold byte_eqb. split; intros H.
  - now apply Byte.byte_dec_bl.
  - now apply Byte.byte_dec_lb.
Qed.

Lemma byte_eqb_refl a : byte_eqb a a = true.
Proof. now apply byte_eqb_eq. Qed.

Lemma byte_eqb_neq a b : byte_eqb a b = false <-> a <> b.
Proof.
  split; intros H.
  - intros ->. rewrite byte_eqb_refl in H. discriminate.
  - destruct (byte_eqb a b) eqn:E; [|reflexivity]. apply byte_eqb_eq in E. contradiction.
Qed.

Lemma bytes_eqb_eq a b : bytes_eqb a b = true <-> a = b.
Proof.
  revert b; induction a as [|x a IH]; intros [|y b]; cbn [bytes_eqb]; split; intros H;
    try reflexivity; try discriminate.
  - apply andb_true_iff in H. destruct H as [H1 H2].
    apply byte_eqb_eq in H1. apply IH in H2. now subst.
  - inversion H; subst. rewrite byte_eqb_refl. cbn. now apply IH.
Qed.

Lemma bytes_eqb_refl a : bytes_eqb a a = true.
Proof. now apply bytes_eqb_eq. Qed.

Lemma bytes_eqb_neq a b : bytes_eqb a b = false <-> a <> b.
Proof.
  split; intros H.
  - intros ->. rewrite bytes_eqb_refl in H. discriminate.
  - destruct (bytes_eqb a b) eqn:E; [|reflexivity]. apply bytes_eqb_eq in E. contradiction.
Qed.

(* Fixed-length big-endian *)

Lemma be_bytes_length k n : length (be_bytes k n) = k.
Proof.
  revert n; induction k as [|k IH]; intros n; cbn [be_bytes]; [reflexivity|].
  rewrite app_length, IH. cbn [length]. lia.
Qed.

Lemma be_val_app a b : be_val (a ++ b) = (be_val a * 256 ^ N.of_nat (length b) + be_val b)%N.
Proof.
  unfold be_val. rewrite fold_left_app.
  generalize (fold_left (fun acc b0 => acc * 256 + b2n b0)%N a 0%N). intros acc.
  revert acc. induction b as [|x b IH] using rev_ind; intros acc.
  - cbn [fold_left length]. change (256 ^ N.of_nat 0)%N with 1%N. lia.
  - rewrite !fold_left_app, app_length. cbn [fold_left length]. rewrite IH.
    replace (N.of_nat (length b + 1)) with (N.of_nat (length b) + 1)%N by lia.
    rewrite N.pow_add_r, N.pow_1_r. lia.
Qed.

Lemma be_val_snoc a x : be_val (a ++ [x]) = (be_val a * 256 + b2n x)%N.
Proof. unfold be_val. rewrite fold_left_app. reflexivity. Qed.

Lemma be_val_cons x a : be_val (x :: a) = (b2n x * 256 ^ N.of_nat (length a) + be_val a)%N.
Proof.
  change (x :: a) with ([x] ++ a). rewrite be_val_app. f_equal.
Qed.

Lemma be_val_bound l : (be_val l < 256 ^ N.of_nat (length l))%N.
Proof.
  induction l as [|x l IH] using rev_ind.
  - cbn. lia.
  - rewrite be_val_snoc, app_length. cbn [length].
    replace (N.of_nat (length l + 1)) with (N.of_nat (length l) + 1)%N by lia.
    rewrite N.pow_add_r, N.pow_1_r. pose proof (b2n_lt x). nia.
Qed.

Lemma be_val_be_bytes k n : be_val (be_bytes k n) = (n mod 256 ^ N.of_nat k)%N.
Proof.
  revert n; induction k as [|k IH]; intros n; cbn [be_bytes].
  - cbn. now rewrite N.mod_1_r.
  - rewrite be_val_snoc, IH, b2n_n2b.
    replace (N.of_nat (S k)) with (1 + N.of_nat k)%N by lia.
    rewrite N.pow_add_r, N.pow_1_r.
    rewrite N.mod_mul_r by (try apply N.pow_nonzero; lia). lia.
Qed.

Lemma be_val_be_bytes_small k n : (n < 256 ^ N.of_nat k)%N -> be_val (be_bytes k n) = n.
Proof. intros H. rewrite be_val_be_bytes. now apply N.mod_small. Qed.

Lemma be_bytes_be_val l : be_bytes (length l) (be_val l) = l.
Proof.
  induction l as [|x l IH] using rev_ind; [reflexivity|].
  rewrite app_length, be_val_snoc. cbn [length]. rewrite Nat.add_1_r. cbn [be_bytes].
  pose proof (b2n_lt x) as Hx.
  replace ((be_val l * 256 + b2n x) / 256)%N with (be_val l) by lia.
  rewrite IH. f_equal. f_equal. rewrite <- n2b_mod.
  replace ((be_val l * 256 + b2n x) mod 256)%N with (b2n x) by lia. apply n2b_b2n.
Qed.

Lemma be_val_inj a b : length a = length b -> be_val a = be_val b -> a = b.
Proof.
  intros HL HV. rewrite <- (be_bytes_be_val a), <- (be_bytes_be_val b). now rewrite HL, HV.
Qed.

(* Fixed-length little-endian *)

Lemma le_bytes_length k n : length (le_bytes k n) = k.
Proof.
  revert n; induction k as [|k IH]; intros n; cbn [le_bytes length]; [reflexivity|]. now rewrite IH.
Qed.

Lemma le_val_le_bytes k n : le_val (le_bytes k n) = (n mod 256 ^ N.of_nat k)%N.
Proof.
  revert n; induction k as [|k IH]; intros n; cbn [le_bytes le_val].
  - cbn. now rewrite N.mod_1_r.
  - rewrite IH, b2n_n2b.
    replace (N.of_nat (S k)) with (1 + N.of_nat k)%N by lia.
    rewrite N.pow_add_r, N.pow_1_r.
    rewrite N.mod_mul_r by (try apply N.pow_nonzero; lia). lia.
Qed.

Lemma le_val_le_bytes_small k n : (n < 256 ^ N.of_nat k)%N -> le_val (le_bytes k n) = n.
Proof. intros H. rewrite le_val_le_bytes. now apply N.mod_small. Qed.

Lemma le_bytes_le_val l : le_bytes (length l) (le_val l) = l.
Proof.
  induction l as [|x l IH]; [reflexivity|]. cbn [length le_bytes le_val].
  pose proof (b2n_lt x) as Hx. f_equal.
  - rewrite <- n2b_mod. replace ((b2n x + 256 * le_val l) mod 256)%N with (b2n x) by lia.
    apply n2b_b2n.
  - replace ((b2n x + 256 * le_val l) / 256)%N with (le_val l) by lia. exact IH.
Qed.

Lemma le_val_bound l : (le_val l < 256 ^ N.of_nat (length l))%N.
Proof.
  induction l as [|x l IH]; cbn [le_val length]; [cbn; lia|].
  replace (N.of_nat (S (length l))) with (1 + N.of_nat (length l))%N by lia.
  rewrite N.pow_add_r, N.pow_1_r. pose proof (b2n_lt x). nia.
Qed.

(* Minimal length *)

Lemma byte_len_0 : byte_len 0 = O.
Proof. reflexivity. Qed.

Lemma byte_len_bound n : (n < 256 ^ N.of_nat (byte_len n))%N.
Proof.
  unfold byte_len. rewrite N2Nat.id.
  change 256%N with (2 ^ 8)%N. rewrite <- N.pow_mul_r.
  apply N.lt_le_trans with (2 ^ N.size n)%N; [apply N.size_gt|].
  apply N.pow_le_mono_r; lia.
Qed.

Lemma byte_len_lower n : n <> 0%N -> (256 ^ N.of_nat (byte_len n - 1) <= n)%N.
Proof.
  intros Hn. unfold byte_len.
  pose proof (N.size_le n) as H.
  assert (N.size n <> 0)%N as Hs by (destruct n; [lia|discriminate]).
  rewrite Nat2N.inj_sub, N2Nat.id. change (N.of_nat 1) with 1%N.
  change 256%N with (2 ^ 8)%N. rewrite <- N.pow_mul_r.
  apply N.le_trans with (2 ^ (N.size n - 1))%N; [apply N.pow_le_mono_r; lia|].
  assert (2 ^ N.size n = 2 * 2 ^ (N.size n - 1))%N as E.
  { rewrite <- N.pow_succ_r by lia. f_equal. lia. }
  rewrite E in H. rewrite N.succ_double_spec in H. lia.
Qed.

Lemma byte_len_pos n : n <> 0%N -> (byte_len n <> 0)%nat.
Proof.
  intros Hn E. pose proof (byte_len_bound n) as H. rewrite E in H. cbn in H. lia.
Qed.

Lemma byte_len_le n k : (n < 256 ^ N.of_nat k)%N -> (byte_len n <= k)%nat.
Proof.
  intros H. destruct (N.eq_dec n 0) as [->|Hn]; [rewrite byte_len_0; lia|].
  pose proof (byte_len_lower n Hn) as HL.
  destruct (Nat.le_gt_cases (byte_len n) k) as [|Hgt]; [assumption|exfalso].
  assert (256 ^ N.of_nat k <= 256 ^ N.of_nat (byte_len n - 1))%N by (apply N.pow_le_mono_r; lia).
  lia.
Qed.

Lemma byte_len_unique n k :
  (256 ^ N.of_nat k <= n < 256 ^ N.of_nat (S k))%N -> byte_len n = S k.
Proof.
  intros [H1 H2]. apply Nat.le_antisymm; [now apply byte_len_le|].
  destruct (Nat.le_gt_cases (S k) (byte_len n)) as [|Hgt]; [assumption|exfalso].
  pose proof (byte_len_bound n) as HB.
  assert (256 ^ N.of_nat (byte_len n) <= 256 ^ N.of_nat k)%N by (apply N.pow_le_mono_r; lia).
  lia.
Qed.

Lemma be_val_minimal n : be_val (biguint_to_bytes_be n) = n.
Proof.
  unfold biguint_to_bytes_be. destruct (N.eqb_spec n 0) as [->|Hn]; [reflexivity|].
  apply be_val_be_bytes_small, byte_len_bound.
Qed.

Lemma le_val_minimal n : le_val (biguint_to_bytes_le n) = n.
Proof.
  unfold biguint_to_bytes_le. destruct (N.eqb_spec n 0) as [->|Hn]; [reflexivity|].
  apply le_val_le_bytes_small, byte_len_bound.
Qed.

Lemma biguint_to_bytes_be_hd n b l :
  n <> 0%N -> biguint_to_bytes_be n = b :: l -> b <> x00.
Proof.
  intros Hn E Hb. subst b.
  pose proof (be_val_minimal n) as HV.
  assert (length (biguint_to_bytes_be n) = byte_len n) as HL.
  { unfold biguint_to_bytes_be. destruct (N.eqb_spec n 0); [contradiction|]. apply be_bytes_length. }
  rewrite E in HV, HL. rewrite be_val_cons in HV. change (b2n x00) with 0%N in HV.
  pose proof (be_val_bound l) as HB. cbn [length] in HL.
  pose proof (byte_len_lower n Hn) as HLow. rewrite <- HL in HLow.
  replace (S (length l) - 1)%nat with (length l) in HLow by lia. lia.
Qed.

(* take_bytes *)

Lemma take_bytes_app n a rest : length a = n -> take_bytes n (a ++ rest) = Ok (a, rest).
Proof.
  intros H. unfold take_bytes. rewrite app_length.
  destruct (Nat.ltb_spec (length a + length rest) n); [lia|]. subst n.
  rewrite firstn_app, skipn_app, Nat.sub_diag, firstn_all, skipn_all, firstn_O, skipn_O, app_nil_r.
  reflexivity.
Qed.

Lemma take_bytes_ok n l a rest :
  take_bytes n l = Ok (a, rest) -> l = a ++ rest /\ length a = n.
Proof.
  unfold take_bytes. destruct (Nat.ltb_spec (length l) n); [discriminate|].
  intros E; inversion E; subst. split; [now rewrite firstn_skipn|]. now rewrite firstn_length_le.
Qed.

Lemma take_bytes_no_panic n l : take_bytes n l <> Panic.
Proof. unfold take_bytes. destruct (Nat.ltb _ _); discriminate. Qed.

Lemma take_bytes_short n l : (length l < n)%nat -> take_bytes n l = Err IncompleteMessage.
Proof. intros H. unfold take_bytes. destruct (Nat.ltb_spec (length l) n); [reflexivity|lia]. Qed.

(* prefixes *)

Lemma starts_with_app p l : starts_with p (p ++ l) = true.
Proof. induction p as [|x p IH]; cbn; [reflexivity|]. now rewrite byte_eqb_refl, IH. Qed.

Lemma starts_with_iff p l : starts_with p l = true <-> exists r, l = p ++ r.
Proof.
  split.
  - revert l; induction p as [|x p IH]; intros l H; [now exists l|].
    destruct l as [|y l]; [discriminate|]. cbn in H. apply andb_true_iff in H. destruct H as [H1 H2].
    apply byte_eqb_eq in H1. subst y. apply IH in H2. destruct H2 as [r ->]. now exists r.
  - intros [r ->]. apply starts_with_app.
Qed.

Lemma ends_with_app s l : ends_with s (l ++ s) = true.
Proof. unfold ends_with. rewrite rev_app_distr. apply starts_with_app. Qed.

Lemma ends_with_iff s l : ends_with s l = true <-> exists r, l = r ++ s.
Proof.
  unfold ends_with. rewrite starts_with_iff. split; intros [r E].
  - exists (rev r). rewrite <- (rev_involutive l), E, rev_app_distr, rev_involutive. reflexivity.
  - exists (rev r). rewrite E, rev_app_distr. reflexivity.
Qed.

Lemma all_zero_iff l : all_zero l = true <-> Forall (fun b => b = x00) l.
Proof.
  unfold all_zero. rewrite forallb_forall, Forall_forall. split; intros H x Hx; specialize (H x Hx).
  - now apply byte_eqb_eq.
  - now apply byte_eqb_eq.
Qed.

Lemma all_zero_be_val l : all_zero l = true <-> be_val l = 0%N.
Proof.
  split.
  - intros H. induction l as [|x l IH]; [reflexivity|].
    cbn in H. apply andb_true_iff in H. destruct H as [H1 H2]. apply byte_eqb_eq in H1. subst x.
    rewrite be_val_cons, IH by assumption. change (b2n x00) with 0%N. lia.
  - intros H. induction l as [|x l IH]; [reflexivity|].
    rewrite be_val_cons in H. assert (b2n x = 0)%N as Hx.
    { destruct (N.eq_dec (b2n x) 0); [assumption|].
      assert (0 < 256 ^ N.of_nat (length l))%N by (apply N.neq_0_lt_0, N.pow_nonzero; lia). nia. }
    change (byte_eqb x x00 && all_zero l = true).
    rewrite IH by (rewrite Hx in H; lia). rewrite andb_true_r. apply byte_eqb_eq.
    now apply b2n_inj.
Qed.

(* lexicographic comparison of equal-length byte strings is comparison of big-endian values *)
Lemma bytes_cmp_val a b :
  length a = length b -> bytes_cmp_same_len a b = N.compare (be_val a) (be_val b).
Proof.
  revert b; induction a as [|x a IH]; intros [|y b] HL; try discriminate; [reflexivity|].
  cbn [bytes_cmp_same_len]. cbn in HL. injection HL as HL.
  rewrite !be_val_cons, HL.
  pose proof (be_val_bound a) as Ba. pose proof (be_val_bound b) as Bb. rewrite HL in Ba.
  set (P := (256 ^ N.of_nat (length b))%N) in *.
  destruct (N.compare_spec (b2n x) (b2n y)) as [E|L|G].
  - rewrite E, IH by assumption.
    destruct (N.compare_spec (be_val a) (be_val b)); symmetry;
      [apply N.compare_eq_iff|apply N.compare_lt_iff|apply N.compare_gt_iff]; nia.
  - symmetry. apply N.compare_lt_iff. nia.
  - symmetry. apply N.compare_gt_iff. nia.
Qed.
