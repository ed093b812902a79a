(* Every point of the curve survives the 57-byte encoding: the decoder's square root is right. *)
From Coq Require Import Lia ZifyN ZifyNat Znumtheory Zpow_facts Permutation.
From Verif Require Import Base BaseLemmas Crypto CryptoProofs SpecWire SpecCurve EdGroup.
Local Open Scope Z_scope.

(** ** Fermat's little theorem *)

Definition zprod (l : list Z) : Z := fold_right Z.mul 1 l.
Lemma zprod_perm l l' : Permutation l l' -> zprod l = zprod l'.
Proof. intros P. induction P; cbn [zprod fold_right] in *; unfold zprod in *; lia. Qed.

Section Prime.
Context (p : Z) (PP : prime p).

Lemma prime_p1 : 1 < p. Proof. apply PP. Qed.

Definition residues : list Z := map Z.of_nat (seq 1 (Z.to_nat (p - 1))).
Lemma in_residues i : In i residues <-> 1 <= i < p.
Proof.
  unfold residues. rewrite in_map_iff. pose proof prime_p1. split.
  - intros (n & <- & I). apply in_seq in I. lia.
  - intros R. exists (Z.to_nat i). split; [lia|]. apply in_seq. lia.
Qed.
Lemma nodup_residues : NoDup residues.
Proof. apply FinFun.Injective_map_NoDup; [|apply seq_NoDup]. intros a b E. lia. Qed.

Lemma not_div_mul a b : ~ (p | a) -> ~ (p | b) -> ~ (p | a * b).
Proof. intros A B D. apply prime_mult in D; [|exact PP]. tauto. Qed.
Lemma not_div_residue i : In i residues -> ~ (p | i).
Proof. rewrite in_residues. intros R D. apply Z.divide_pos_le in D; lia. Qed.
Lemma not_div_prod l : Forall (fun i => ~ (p | i)) l -> ~ (p | zprod l).
Proof.
  induction 1 as [|i l I _ IH]; cbn [zprod fold_right].
  - intros D. apply Z.divide_pos_le in D; [|lia]. pose proof prime_p1. lia.
  - now apply not_div_mul.
Qed.
Lemma mod_div a b : a mod p = b mod p <-> (p | a - b).
Proof.
  pose proof prime_p1. split; intros H0.
  - apply Z.mod_divide; [lia|]. rewrite Zminus_mod, H0, Z.sub_diag. apply Z.mod_0_l. lia.
  - destruct H0 as [k K]. replace a with (b + k * p) by lia. apply Z_mod_plus_full.
Qed.
Lemma prod_map a l : (zprod (map (fun i => (a * i) mod p) l)) mod p = (a ^ Z.of_nat (length l) * zprod l) mod p.
Proof.
  pose proof prime_p1. induction l as [|i l IH]; [reflexivity|].
  cbn [map length]. change (zprod (?x :: ?r)) with (x * zprod r).
  rewrite Nat2Z.inj_succ, Z.pow_succ_r by lia.
  rewrite Z.mul_mod, IH, Z.mod_mod, <- Z.mul_mod by lia. f_equal. ring.
Qed.

Lemma fermat a : ~ (p | a) -> (a ^ (p - 1)) mod p = 1.
Proof.
  intros A. pose proof prime_p1 as P1.
  set (f := fun i => (a * i) mod p).
  assert (PM : Permutation (map f residues) residues).
  { apply NoDup_Permutation_bis.
    - assert (INJ : forall x y, In x residues -> In y residues -> f x = f y -> x = y).
      { intros x y X Y E. apply in_residues in X, Y. unfold f in E. apply mod_div in E.
        replace (a * x - a * y) with (a * (x - y)) in E by ring.
        apply prime_mult in E; [|exact PP]. destruct E as [E|E]; [contradiction|].
        destruct (Z.eq_dec x y) as [|N]; [assumption|]. exfalso.
        destruct (Z.lt_trichotomy x y) as [L|[L|L]]; [|contradiction|].
        - apply Z.divide_opp_r in E. apply Z.divide_pos_le in E; lia.
        - apply Z.divide_pos_le in E; lia. }
      pose proof nodup_residues as ND. revert INJ ND. generalize residues as l.
      induction l as [|i l IH]; intros INJ ND; [constructor|]. inversion ND as [|? ? NI ND']. subst. cbn [map].
      constructor.
      + rewrite in_map_iff. intros (j & E & J). apply NI. rewrite (INJ i j); auto; [left; reflexivity|right; exact J].
      + apply IH; [|exact ND']. intros x y X Y. apply INJ; right; assumption.
    - now rewrite map_length.
    - intros v V. apply in_map_iff in V. destruct V as (i & <- & I). apply in_residues. unfold f.
      pose proof (Z.mod_pos_bound (a * i) p ltac:(lia)) as B.
      assert (NZ : (a * i) mod p <> 0); [|lia].
      intros E. apply Z.mod_divide in E; [|lia]. revert E. apply not_div_mul; [exact A|now apply not_div_residue]. }
  apply zprod_perm in PM. apply (f_equal (fun z => z mod p)) in PM. unfold f in PM. rewrite prod_map in PM.
  apply mod_div in PM.
  replace (Z.of_nat (length residues)) with (p - 1) in PM
    by (unfold residues; rewrite map_length, seq_length; lia).
  replace (a ^ (p - 1) * zprod residues - zprod residues) with ((a ^ (p - 1) - 1) * zprod residues) in PM by ring.
  apply prime_mult in PM; [|exact PP]. destruct PM as [D|D].
  - apply mod_div in D. rewrite D. apply Z.mod_small. lia.
  - exfalso. revert D. apply not_div_prod. apply Forall_forall. intros i. apply not_div_residue.
Qed.

(* a^((p-1)/2) is 1 or -1 *)
Lemma euler a h : ~ (p | a) -> p = 2 * h + 1 -> 0 <= h -> (p | a ^ h - 1) \/ (p | a ^ h + 1).
Proof.
  intros A H H0. pose proof (fermat a A) as F. replace (p - 1) with (h + h) in F by lia. rewrite Z.pow_add_r in F by lia.
  apply prime_mult; [exact PP|]. replace ((a ^ h - 1) * (a ^ h + 1)) with (a ^ h * a ^ h - 1) by ring.
  apply mod_div. rewrite F. symmetry. apply Z.mod_small. pose proof prime_p1. lia.
Qed.
End Prime.

Section WithCrypto.
Context (C : Crypto) (CO : curve_ok C) (P34 : c_ed_p C mod 4 = 3).
Notation p := (c_ed_p C).
Notation d := (c_ed_d C).

Lemma PP : prime p. Proof. apply CO. Qed.

(* the denominator is not zero *)
Lemma den_nz y : ~ (p | y * y * d - 1).
Proof.
  intros D. pose proof PP as PR. assert (P1 : 1 < p) by apply PR.
  assert (Y : ~ (p | y)).
  { intros Y. assert (D1 : (p | 1)).
    { replace 1 with (y * (y * d) - (y * y * d - 1)) by ring. apply Z.divide_sub_r; [now apply Z.divide_mul_l|exact D]. }
    apply Z.divide_pos_le in D1; lia. }
  (* the inverse of y squares to d *)
  pose proof (fermat p PR y Y) as F. set (i := y ^ (p - 2)).
  assert (YI : (p | y * i - 1)).
  { apply (mod_div p PR). unfold i. rewrite <- Z.pow_succ_r by lia. replace (Z.succ (p - 2)) with (p - 1) by lia.
    rewrite F. symmetry. apply Z.mod_small. lia. }
  destruct CO as (_ & _ & NSQ & _). apply (NSQ i). apply (mod_div p PR).
  replace (i * i - d) with (- (i * i) * (y * y * d - 1) + d * ((y * i - 1) * (y * i + 1))) by ring.
  apply Z.divide_add_r; [now apply Z.divide_mul_r|].
  apply Z.divide_mul_r. now apply Z.divide_mul_l.
Qed.

Lemma root x y : pt_valid C (mkPoint x y) ->
  let num := y * y - 1 in let den := y * y * d - 1 in
  let w := num * num * num * num * num * den * den * den in
  let r := (num * num * num * den * Z.of_N (modpow (Z.to_N (w mod p)) (Z.to_N ((p - 3) / 4)) (Z.to_N p))) mod p in
  num mod p = (r * r * den) mod p /\ (r = x \/ (x <> 0 /\ r = p - x)).
Proof.
  intros (XR & YR & ON) num den w r. cbn [px py] in *. pose proof PP as PR.
  assert (P1 : 1 < p) by apply PR. assert (P2 : 2 < p) by apply CO.
  pose proof (den_nz y) as ND. change (y * y * d - 1) with den in ND.
  set (k := (p - 3) / 4) in *.
  assert (PK : p = 4 * k + 3) by (unfold k; pose proof (Z.div_mod (p - 3) 4 ltac:(lia));
    assert ((p - 3) mod 4 = 0) by (rewrite Zminus_mod, P34; reflexivity); lia).
  assert (K0 : 0 <= k) by lia.
  (* num = x^2 den *)
  assert (NU : num mod p = (x * x * den) mod p).
  { apply (mod_div p PR). apply (mod_div p PR) in ON. unfold num, den.
    replace (y * y - 1 - x * x * (y * y * d - 1)) with (x * x + y * y - (1 + d * x * x * y * y)) by ring. exact ON. }
  assert (PN : p <> 0) by (clear - P1; lia). assert (PQ : 0 < p) by (clear - P1; lia).
  assert (NK : exists t, num = x * x * den + t * p).
  { apply (mod_div p PR) in NU. destruct NU as [t T]. exists t. clear - T. lia. }
  clear NU ON. clearbody num den. destruct NK as [t N1].
  set (s := x * x * x * x * x * den * den * den * den).
  assert (MP : Z.of_N (modpow (Z.to_N (w mod p)) (Z.to_N k) (Z.to_N p)) = (s ^ (2 * k)) mod p).
  { assert (W0 : 0 <= w mod p) by (apply Z.mod_pos_bound; exact PQ).
    rewrite modpow_spec by (clear - PQ; lia). rewrite N2Z.inj_mod, N2Z.inj_pow.
    rewrite (Z2N.id p) by (clear - PQ; lia). rewrite (Z2N.id k K0), (Z2N.id _ W0).
    rewrite Z.pow_mul_r by (clear - K0; lia).
    rewrite (Zpower_mod (s ^ 2)) by exact PQ. rewrite (Zpower_mod (w mod p)) by exact PQ.
    rewrite Z.mod_mod by exact PN. f_equal. f_equal.
    apply (mod_div p PR). subst w r. rewrite N1. unfold s. clear.
    set (u := x * x * den). set (e := t * p).
    exists (t * (5 * u ^ 4 + 10 * u ^ 3 * e + 10 * u ^ 2 * e ^ 2 + 5 * u * e ^ 3 + e ^ 4) * den * den * den).
    unfold u, e. ring. }
  assert (R : r = (x * s ^ (2 * k + 1)) mod p).
  { unfold r. rewrite MP. rewrite Z.mul_mod_idemp_r by exact PN.
    rewrite (Z.pow_add_r s (2 * k) 1) by (clear - K0; lia). rewrite Z.pow_1_r. apply (mod_div p PR).
    rewrite N1. generalize (s ^ (2 * k)) as S. intros S. unfold s. clear.
    set (u := x * x * den). set (e := t * p).
    exists (t * (3 * u ^ 2 + 3 * u * e + e ^ 2) * den * S).
    unfold u, e. ring. }
  assert (RX : r = x \/ (x <> 0 /\ r = p - x)).
  { rewrite R. destruct (Z.eq_dec x 0) as [E0|X0]; [left; rewrite E0, Z.mul_0_l; apply Z.mod_0_l; exact PN|].
    assert (NX : ~ (p | x)) by (intros D; apply Z.divide_pos_le in D; clear - XR X0 D; lia).
    assert (NS : ~ (p | s)).
    { unfold s. repeat (apply (not_div_mul p PR); [|assumption]). assumption. }
    destruct (euler p PR s (2 * k + 1) NS) as [[v V]|[v V]]; [clear - PK; lia|clear - K0; lia| |].
    - left. replace (s ^ (2 * k + 1)) with (1 + v * p) by (clear - V; lia).
      replace (x * (1 + v * p)) with (x + (x * v) * p) by ring. rewrite Z_mod_plus_full. now apply Z.mod_small.
    - right. split; [exact X0|]. replace (s ^ (2 * k + 1)) with (-1 + v * p) by (clear - V; lia).
      replace (x * (-1 + v * p)) with (p - x + (x * v - 1) * p) by ring. rewrite Z_mod_plus_full. apply Z.mod_small.
      clear - XR X0. lia. }
  split; [|exact RX]. replace (num mod p) with ((x * x * den) mod p)
    by (rewrite N1; symmetry; apply Z_mod_plus_full).
  destruct RX as [-> | [_ ->]]; [reflexivity|].
  apply (mod_div p PR). exists ((2 * x - p) * den). ring.
Qed.

Context (PB : c_ed_p C <= 2 ^ 448).

Theorem point_round_trip a : pt_valid C a -> pt_decode C (pt_encode a) = Some a.
Proof.
  destruct a as [x y]. intros V. pose proof (root x y V) as RT. cbv zeta in RT.
  pose proof V as (XR & YR & _). cbn [px py] in XR, YR. assert (P2 : 2 < p) by apply CO.
  unfold pt_decode, pt_encode. cbn [px py].
  assert (L : length (le_bytes 56 (Z.to_N y)) = 56%nat) by apply le_bytes_length.
  rewrite (app_nth2 (le_bytes 56 (Z.to_N y))) by (rewrite L; lia). rewrite L. cbn [Nat.sub nth].
  assert (F : forall l, firstn 56 (le_bytes 56 (Z.to_N y) ++ l) = le_bytes 56 (Z.to_N y)).
  { intros l. generalize dependent (le_bytes 56 (Z.to_N y)). intros m L. rewrite <- L.
    rewrite firstn_app, firstn_all, Nat.sub_diag. apply app_nil_r. }
  rewrite F.
  rewrite le_val_le_bytes_small.
  2: { change (256 ^ N.of_nat 56)%N with (Z.to_N (2 ^ 448)). apply Z2N.inj_lt;
       [apply YR|now apply Z.pow_nonneg|apply Z.lt_le_trans with p; [apply YR|exact PB]]. }
  rewrite (Z2N.id y) by lia.
  replace (N.testbit (b2n (if Z.odd x then x80 else x00)) 7) with (Z.odd x) by (destruct (Z.odd x); reflexivity).
  destruct (Z.leb_spec p y) as [|_]; [lia|].
  set (r := (_ * Z.of_N _) mod p) in *. destruct RT as [CH RX]. clearbody r.
  rewrite (proj2 (Z.eqb_eq _ _) CH). cbn [negb].
  assert (PO : Z.odd p = true).
  { rewrite Zodd_mod. replace (p mod 2) with 1; [reflexivity|]. rewrite (Z.div_mod p 4), P34 by lia.
    replace (4 * (p / 4) + 3) with (1 + (2 * (p / 4) + 1) * 2) by ring. now rewrite Z_mod_plus_full. }
  rewrite <- Z.negb_odd.
  destruct RX as [-> | [X0 ->]].
  - destruct (Z.eqb_spec x 0) as [-> | X0]; [reflexivity|]. cbn [andb].
    now rewrite Bool.eqb_reflx.
  - destruct (Z.eqb_spec (p - x) 0) as [|_]; [lia|]. cbn [andb].
    rewrite Z.odd_sub, PO. destruct (Z.odd x); cbn [xorb negb Bool.eqb]; do 2 f_equal; lia.
Qed.

Lemma encode_inj a b : pt_valid C a -> pt_valid C b -> pt_encode a = pt_encode b -> a = b.
Proof.
  intros A B E. apply point_round_trip in A, B. rewrite E in A. congruence.
Qed.

End WithCrypto.
