(* Powers of an element of prime order. *)
From Coq Require Import Lia ZifyN ZArith Znumtheory.
From Verif Require Import Base BaseLemmas Types Crypto CryptoProofs SpecCurve EdGroup PointProofs SpecSchedule SpecContrib.
Local Open Scope N_scope.

Section Cyclic.
Context {A : Type} (f : N -> A) (op : A -> A -> A) (q : N).
Context (ADD : forall a b, f (a + b) = op (f a) (f b)) (FQ : f q = f 0) (F1 : f 1 <> f 0) (PQ : prime (Z.of_N q)).

Lemma cyc_more a k : f (a + k * q) = f a.
Proof.
  induction k as [|k IH] using N.peano_ind; [f_equal; lia|].
  replace (a + N.succ k * q) with ((a + k * q) + q) by lia. rewrite ADD, FQ, <- ADD, N.add_0_r. exact IH.
Qed.
Lemma cyc_zero d k : f d = f 0 -> f (k * d) = f 0.
Proof.
  intros D. induction k as [|k IH] using N.peano_ind; [f_equal; lia|].
  replace (N.succ k * d) with (k * d + d) by lia. rewrite ADD, IH, D, <- ADD. reflexivity.
Qed.
Lemma cyc_gcd d : d mod q <> 0 -> N.gcd d q = 1.
Proof.
  intros D. pose proof (prime_ge_2 _ PQ) as Q2. destruct (N.gcd_divide_r d q) as (k & K). destruct (N.gcd_divide_l d q) as (j & J).
  set (g := N.gcd d q) in *. assert (DV : (Z.of_N g | Z.of_N q)%Z) by (exists (Z.of_N k); lia).
  apply prime_divisors in DV; [|assumption]. destruct DV as [E|[E|[E|E]]]; [lia|lia| |lia].
  exfalso. apply D. assert (g = q) by lia. rewrite J, H. apply N.mod_mul. lia.
Qed.
Lemma cyc_le x x' : x <= x' -> f x = f x' -> x mod q = x' mod q.
Proof.
  intros L E. pose proof (prime_ge_2 _ PQ) as Q2. set (d := x' - x).
  assert (D : f d = f 0).
  { rewrite <- (cyc_more d x). replace (d + x * q) with (x' + x * (q - 1)) by (subst d; nia).
    rewrite ADD, <- E, <- ADD. replace (x + x * (q - 1)) with (0 + x * q) by nia. apply cyc_more. }
  destruct (N.eq_dec (d mod q) 0) as [Z|NZ].
  - replace x' with (x + d) by (subst d; lia). rewrite N.add_mod, Z, N.add_0_r, N.mod_mod by lia. reflexivity.
  - exfalso. apply F1. pose proof (cyc_gcd d NZ) as G. destruct (N.gcd_bezout_pos d q) as (a & b & B); [destruct d; [rewrite N.mod_0_l in NZ|]; lia|].
    rewrite G in B. rewrite <- (cyc_more 1 b), <- B. now apply cyc_zero.
Qed.
Lemma cyc_order x x' : f x = f x' -> x mod q = x' mod q.
Proof. intros E. destruct (N.le_ge_cases x x') as [L|L]; [now apply cyc_le|symmetry; now apply cyc_le]. Qed.
End Cyclic.

Section WithCrypto.
Context (C : Crypto).

(* a number of prime order *)
Lemma number_order v q p : 1 < v -> v < p -> modpow v q p = 1 -> prime (Z.of_N q) ->
  forall x x', modpow v x p = modpow v x' p -> x mod q = x' mod q.
Proof.
  intros V VP M PQ x x'. apply (cyc_order (fun n => modpow v n p) (fun a b => (a * b) mod p)); [| | |assumption].
  - intros a b. apply modpow_add. lia.
  - rewrite M. rewrite modpow_spec by lia. rewrite N.pow_0_r, N.mod_small by lia. reflexivity.
  - rewrite !modpow_spec by lia. rewrite N.pow_0_r, N.pow_1_r, !N.mod_small by lia. lia.
Qed.
(* a point of prime order *)
Lemma point_order P : curve_ok C -> pt_valid C P -> P <> pt_id -> pt_mul C P (c_ed_q C) = pt_id -> prime (c_ed_q C) ->
  forall x x', (0 <= x)%Z -> (0 <= x')%Z -> pt_mul C P x = pt_mul C P x' -> (x mod c_ed_q C = x' mod c_ed_q C)%Z.
Proof.
  intros CO V NI M PQ x x' X X' E. pose proof (prime_ge_2 _ PQ) as Q2.
  assert (O : Z.to_N x mod Z.to_N (c_ed_q C) = Z.to_N x' mod Z.to_N (c_ed_q C)).
  { apply (cyc_order (fun n => pt_mul C P (Z.of_N n)) (pt_add C)); rewrite ?Z2N.id by lia; [| | |assumption|assumption].
    - intros a b. rewrite N2Z.inj_add. apply (mul_add C CO); [assumption|lia..].
    - rewrite M. symmetry. apply mul_0.
    - change (Z.of_N 1) with 1%Z. change (Z.of_N 0) with 0%Z. rewrite mul_1, mul_0. assumption. }
  apply (f_equal Z.of_N) in O. rewrite !N2Z.inj_mod, !Z2N.id in O by lia. exact O.
Qed.
(* a number other than 1 and -1 modulo a safe prime *)
Lemma safe_order y p : prime (Z.of_N p) -> prime (Z.of_N ((p - 1) / 2)) -> 1 < y -> y <= p - 2 ->
  forall x x', modpow y x p = modpow y x' p -> x mod ((p - 1) / 2) = x' mod ((p - 1) / 2).
Proof.
  intros PP PQ Y1 Y2 x x' E. set (q := (p - 1) / 2) in *. pose proof (prime_ge_2 _ PQ) as Q2. pose proof (prime_ge_2 _ PP) as P2.
  assert (PE : p = 2 * q + 1).
  { pose proof (N.div_mod (p - 1) 2 ltac:(lia)) as DM. fold q in DM. pose proof (N.mod_lt (p - 1) 2 ltac:(lia)) as B.
    destruct (N.eq_dec ((p - 1) mod 2) 0) as [Z|NZ]; [lia|]. exfalso.
    assert (D : (2 | Z.of_N p)%Z) by (exists (Z.of_N (q + 1)); lia).
    apply prime_divisors in D; [|assumption]. lia. }
  assert (ND : ~ (Z.of_N p | Z.of_N y)%Z) by (intros D; apply Z.divide_pos_le in D; lia).
  assert (SQ : modpow y 2 p <> 1).
  { intros S. rewrite modpow_spec in S by lia. apply (f_equal Z.of_N) in S. rewrite N2Z.inj_mod, N2Z.inj_pow in S by lia. change (Z.of_N 2) with 2%Z in S.
    assert (D : (Z.of_N p | (Z.of_N y - 1) * (Z.of_N y + 1))%Z).
    { replace ((Z.of_N y - 1) * (Z.of_N y + 1))%Z with (Z.of_N y ^ 2 - 1)%Z by ring.
      apply Z.mod_divide; [lia|]. rewrite Zminus_mod, S, Z.mod_1_l by lia. rewrite Z.mod_small; lia. }
    apply prime_mult in D; [|assumption]. destruct D as [D|D]; apply Z.divide_pos_le in D; lia. }
  assert (ADD : forall a b, modpow y (2 * (a + b)) p = ((modpow y (2 * a) p * modpow y (2 * b) p) mod p)%N).
  { intros a b. rewrite N.mul_add_distr_l. apply modpow_add. lia. }
  apply (cyc_order (fun n => modpow y (2 * n) p) (fun a b => (a * b) mod p)); [assumption| | |assumption|].
  - change (2 * 0) with 0. rewrite !modpow_spec by lia. rewrite N.pow_0_r, (N.mod_small 1) by lia.
    replace (2 * q) with (p - 1) by lia. apply N2Z.inj. rewrite N2Z.inj_mod, N2Z.inj_pow by lia.
    pose proof (fermat _ PP _ ND) as F. rewrite N2Z.inj_sub by lia. exact F.
  - change (2 * 0) with 0. change (2 * 1) with 2. rewrite (modpow_spec y 0) by lia. rewrite N.pow_0_r, (N.mod_small 1) by lia. exact SQ.
  - rewrite !(N.mul_comm 2). rewrite <- !modpow_modpow by lia. now rewrite E.
Qed.

Lemma proper_contributes3 y : safe_prime C -> proper3 C y -> contributes3 C y.
Proof. intros (PP & PQ & G) [A B]. intros x x'. apply safe_order; [assumption..|lia|assumption]. Qed.
Lemma proper_contributes4 u : curve_ok C -> prime_orders C -> proper4 C u -> contributes4 C u.
Proof.
  intros CO (PE & PD & G) (V & NI & M & B & D). split.
  - now apply point_order.
  - apply number_order; [lia..|assumption|assumption].
Qed.
End WithCrypto.
