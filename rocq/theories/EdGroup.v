(* The points of the curve form an abelian group under the program's addition, whenever the modulus is a
   prime above two and the curve constant is not a square. *)
From Verif Require Import Base Crypto SpecCurve.
From Coq Require Import ZArith Znumtheory Zdiv Lia ZifyN ZifyNat Setoid Morphisms NsatzTactic.
Local Open Scope Z_scope.

(** * Modular inverse *)

Lemma egcd_loop_ok a m : forall k f r0 s0 r1 s1, 0 <= r1 < r0 -> r1 < 2 ^ Z.of_nat k -> (2 * k + 1 <= f)%nat ->
  (m | r0 - s0 * a) -> (m | r1 - s1 * a) ->
  exists s, egcd_loop f r0 s0 r1 s1 = Some (Z.gcd r0 r1, s) /\ (m | Z.gcd r0 r1 - s * a).
Proof.
  induction k as [|k IH]; intros f r0 s0 r1 s1 R LT FU D0 D1.
  - assert (r1 = 0) by (cbn in LT; lia). subst r1. destruct f as [|f]; [lia|].
    exists s0. cbn [egcd_loop]. rewrite Z.gcd_0_r, Z.abs_eq by lia. auto.
  - destruct f as [|[|f]]; [lia|lia|]. cbn [egcd_loop].
    destruct (Z.eqb_spec r1 0) as [->|NZ].
    { exists s0. rewrite Z.gcd_0_r, Z.abs_eq by lia. auto. }
    assert (G1 : Z.gcd r1 (r0 mod r1) = Z.gcd r0 r1).
    { rewrite Z.gcd_comm, Z.gcd_mod by exact NZ. apply Z.gcd_comm. }
    pose proof (Z.mod_pos_bound r0 r1 ltac:(lia)) as B1.
    assert (D2 : (m | r0 mod r1 - (s0 - r0 / r1 * s1) * a)).
    { replace (r0 mod r1 - (s0 - r0 / r1 * s1) * a) with ((r0 - s0 * a) - (r0 / r1) * (r1 - s1 * a)).
      - apply Z.divide_sub_r; [exact D0|now apply Z.divide_mul_r].
      - rewrite (Z.mod_eq r0 r1) by exact NZ. ring. }
    destruct (Z.eqb_spec (r0 mod r1) 0) as [Z2|NZ2].
    { exists s1. rewrite <- G1, Z2, Z.gcd_0_r, Z.abs_eq by lia. auto. }
    set (r2 := r0 mod r1) in *. set (s2 := s0 - r0 / r1 * s1) in *.
    pose proof (Z.mod_pos_bound r1 r2 ltac:(lia)) as B2.
    assert (Q : 1 <= r1 / r2) by (apply Z.div_le_lower_bound; lia).
    assert (HALF : 2 * (r1 mod r2) < r1).
    { pose proof (Z.div_mod r1 r2 NZ2). nia. }
    assert (G2 : Z.gcd r2 (r1 mod r2) = Z.gcd r0 r1).
    { rewrite Z.gcd_comm, Z.gcd_mod by exact NZ2. rewrite Z.gcd_comm. exact G1. }
    rewrite <- G2. apply IH; [lia| |lia|exact D2|].
    + rewrite Nat2Z.inj_succ, Z.pow_succ_r in LT by lia. lia.
    + replace (r1 mod r2 - (s1 - r1 / r2 * s2) * a) with ((r1 - s1 * a) - (r1 / r2) * (r2 - s2 * a)).
      * apply Z.divide_sub_r; [exact D1|now apply Z.divide_mul_r].
      * rewrite (Z.mod_eq r1 r2) by exact NZ2. ring.
Qed.

Lemma mod_inverse_ok a m : 1 < m -> Z.gcd a m = 1 ->
  exists i, mod_inverse a m = Some i /\ (m | a * i - 1) /\ 0 <= i < m.
Proof.
  intros M GC. unfold mod_inverse.
  pose proof (Z.mod_pos_bound a m ltac:(lia)) as B.
  destruct (egcd_loop_ok (a mod m) m (Z.to_nat (Z.log2_up (m + 1)))
    (2 * Z.to_nat (Z.log2_up (m + 1)) + 4) m 0 (a mod m) 1) as (s & E & D); try lia.
  - rewrite Z2Nat.id by apply Z.log2_up_nonneg.
    pose proof (Z.log2_log2_up_spec (m + 1) ltac:(lia)). lia.
  - rewrite Z.mul_0_l, Z.sub_0_r. apply Z.divide_refl.
  - rewrite Z.mul_1_l, Z.sub_diag. apply Z.divide_0_r.
  - rewrite E. assert (GG : Z.gcd m (a mod m) = 1).
    { rewrite Z.gcd_comm, Z.gcd_mod by lia. rewrite Z.gcd_comm. exact GC. }
    rewrite GG in *. cbn [Z.eqb]. change (1 =? 1) with true. cbv iota. exists (s mod m). split; [reflexivity|].
    split; [|apply Z.mod_pos_bound; lia].
    destruct D as [c D].
    exists (- c - (s / m) * a + s * (a / m)).
    pose proof (Z.mod_eq a m ltac:(lia)). pose proof (Z.mod_eq s m ltac:(lia)). nia.
Qed.

(** * The field *)

Section Field.
Context (p : Z) (Pp : prime p).

Inductive F : Type := toF (z : Z).
Definition ofF (a : F) : Z := let 'toF z := a in z.
Inductive feq (a b : F) : Prop := feq_intro (D : (p | ofF a - ofF b)).
Definition fadd (a b : F) : F := toF (ofF a + ofF b).
Definition fmul (a b : F) : F := toF (ofF a * ofF b).
Definition fsub (a b : F) : F := toF (ofF a - ofF b).
Definition fopp (a : F) : F := toF (- ofF a).

Lemma feq_div a b : feq a b <-> (p | ofF a - ofF b).
Proof. split; [intros [D]; exact D|apply feq_intro]. Qed.

Global Instance feq_equiv : Equivalence feq.
Proof.
  split.
  - intros a. apply feq_div. rewrite Z.sub_diag. apply Z.divide_0_r.
  - intros a b H. apply feq_div in H. apply feq_div. replace (ofF b - ofF a) with (- (ofF a - ofF b)) by ring.
    now apply Z.divide_opp_r.
  - intros a b c H1 H2. apply feq_div in H1, H2. apply feq_div.
    replace (ofF a - ofF c) with ((ofF a - ofF b) + (ofF b - ofF c)) by ring. now apply Z.divide_add_r.
Qed.

Global Instance fops : @Ring_ops F (toF 0) (toF 1) fadd fmul fsub fopp feq := {}.

(* goals between polynomials in the representatives *)
Ltac rg := unfold addition, multiplication, subtraction, opposite, equality, zero, one,
    add_notation, mul_notation, sub_notation, opp_notation, zero_notation, one_notation, eq_notation;
    unfold fadd, fmul, fsub, fopp; unfold ofF; repeat match goal with |- context [match ?x with toF _ => _ end] => destruct x end; ring.
Global Instance fring : Ring (Ro := fops).
Proof.
  assert (R : forall a b : F, ofF a = ofF b -> feq a b).
  { intros a b H. apply feq_div. rewrite H, Z.sub_diag. apply Z.divide_0_r. }
  split; try exact feq_equiv.
  - intros a a' H b b' H'. apply feq_div in H, H'. apply feq_div. cbn.
    replace (ofF a + ofF b - (ofF a' + ofF b')) with ((ofF a - ofF a') + (ofF b - ofF b')) by ring.
    now apply Z.divide_add_r.
  - intros a a' H b b' H'. apply feq_div in H, H'. apply feq_div. cbn.
    replace (ofF a * ofF b - (ofF a' * ofF b')) with (ofF b * (ofF a - ofF a') + ofF a' * (ofF b - ofF b')) by ring.
    apply Z.divide_add_r; now apply Z.divide_mul_r.
  - intros a a' H b b' H'. apply feq_div in H, H'. apply feq_div. cbn.
    replace (ofF a - ofF b - (ofF a' - ofF b')) with ((ofF a - ofF a') - (ofF b - ofF b')) by ring.
    now apply Z.divide_sub_r.
  - intros a a' H. apply feq_div in H. apply feq_div. cbn.
    replace (- ofF a - - ofF a') with (- (ofF a - ofF a')) by ring. now apply Z.divide_opp_r.
  - intros x. apply R. rg.
  - intros x y. apply R. rg.
  - intros x y z. apply R. rg.
  - intros x. apply R. rg.
  - intros x. apply R. rg.
  - intros x y z. apply R. rg.
  - intros x y z. apply R. rg.
  - intros x y z. apply R. rg.
  - intros x y. apply R. rg.
  - intros x. apply R. rg.
Qed.

Global Instance fcring : Cring (Rr := fring).
Proof. intros a b. apply feq_div. cbn. replace (_ - _) with 0 by ring. apply Z.divide_0_r. Qed.

Global Instance fdom : Integral_domain (Rcr := fcring).
Proof.
  split.
  - intros a b H. apply feq_div in H. cbn in H. rewrite Z.sub_0_r in H.
    apply prime_mult in H; [|exact Pp]. destruct H as [H|H]; [left|right]; apply feq_div; cbn; now rewrite Z.sub_0_r.
  - intros H. apply feq_div in H. cbn in H. apply Z.divide_1_r in H. destruct Pp. lia.
Qed.
Declare Scope F_scope.
Delimit Scope F_scope with F.
Infix "+" := fadd : F_scope. Infix "*" := fmul : F_scope. Infix "-" := fsub : F_scope.
Infix "==" := feq (at level 70) : F_scope.
Notation "1" := (toF 1) : F_scope.
Notation "0" := (toF 0) : F_scope.
Local Open Scope F_scope.

End Field.

Declare Scope F_scope.
Delimit Scope F_scope with F.
Infix "+" := fadd : F_scope.
Infix "*" := fmul : F_scope.
Infix "-" := fsub : F_scope.

(** * The curve *)

Section Curve.
Context (p : Z) (Pp : prime p) (P2 : 2 < p) (dz : Z).
Local Notation "a == b" := (feq p a b) (at level 70) : F_scope.
Local Notation "1" := (toF 1) : F_scope.
Local Notation "0" := (toF 0) : F_scope.
Local Notation d := (toF dz).
Context (nonsquare : forall x, ~ (p | x * x - dz)).
#[local] Existing Instance feq_equiv.
Local Instance fops' : @Ring_ops F (toF 0) (toF 1) fadd fmul fsub fopp (feq p) := fops p.
Local Instance fring' : Ring (Ro := fops') := fring p.
Local Instance fcring' : Cring (Rr := fring') := fcring p.
Local Instance fdom' : Integral_domain (Rcr := fcring') := fdom p Pp.
Local Instance fadd_proper : Proper (feq p ==> feq p ==> feq p) fadd := @ring_plus_comp _ _ _ _ _ _ _ _ _ fring'.
Local Instance fmul_proper : Proper (feq p ==> feq p ==> feq p) fmul := @ring_mult_comp _ _ _ _ _ _ _ _ _ fring'.
Local Instance fsub_proper : Proper (feq p ==> feq p ==> feq p) fsub := @ring_sub_comp _ _ _ _ _ _ _ _ _ fring'.
Local Open Scope F_scope.

(* polynomial identities *)
Ltac fr := apply feq_div; cbn [ofF fadd fmul fsub];
  match goal with |- (_ | ?e)%Z => replace e with 0%Z by ring; apply Z.divide_0_r end.

Definition onF (x y : F) : Prop := x * x + y * y == 1 + d * x * x * y * y.

Lemma onF_same x y x' y' : x' == x -> y' == y -> onF x y -> onF x' y'.
Proof. unfold onF. intros E1 E2 H. rewrite E1, E2. exact H. Qed.

Lemma f_zero_mul a b : a * b == 0 -> a == 0 \/ b == 0.
Proof. apply (@integral_domain_product _ _ _ _ _ _ _ _ _ _ _ fdom'). Qed.
Lemma f_one_zero : ~ 1 == 0.
Proof. apply (@integral_domain_one_zero _ _ _ _ _ _ _ _ _ _ _ fdom'). Qed.
Lemma f_mul_0 a b : a == 0 -> a * b == 0.
Proof.
  intros H. apply feq_div in H. apply feq_div. cbn [ofF fmul] in *. rewrite Z.sub_0_r in *. now apply Z.divide_mul_l.
Qed.
Lemma f_cancel a b c : a * c == b * c -> ~ c == 0 -> a == b.
Proof.
  intros H N. assert (Q : (a - b) * c == 0) by nsatz.
  apply f_zero_mul in Q. destruct Q as [Q|Q]; [nsatz|contradiction].
Qed.

Lemma inverse_exists a : ~ a == 0 -> exists i, a * i == 1.
Proof.
  intros N. destruct a as [a]. assert (GC : Z.gcd a p = 1%Z).
  { rewrite Z.gcd_comm. apply Zgcd_1_rel_prime. apply prime_rel_prime; [exact Pp|].
    intros D. apply N. apply feq_div. cbn. now rewrite Z.sub_0_r. }
  destruct (mod_inverse_ok a p ltac:(lia) GC) as (i & _ & D & _). exists (toF i). apply feq_div. exact D.
Qed.

Lemma d_nonsquare u v : u * u == d * (v * v) -> v == 0.
Proof.
  intros H. destruct (Z.eq_dec (ofF v mod p) 0) as [Z0|NZ].
  { apply feq_div. cbn. rewrite Z.sub_0_r. apply Z.mod_divide; [lia|exact Z0]. }
  exfalso. destruct (inverse_exists v) as [i I].
  { intros Q. apply NZ. apply feq_div in Q. cbn in Q. rewrite Z.sub_0_r in Q.
    apply Z.mod_divide in Q; [exact Q|lia]. }
  assert (Q : (u * i) * (u * i) == d) by nsatz.
  apply feq_div in Q. exact (nonsquare _ Q).
Qed.

Lemma two_nonzero : ~ toF 2 == 0.
Proof.
  intros H. apply feq_div in H. cbn in H. apply Z.divide_pos_le in H; lia.
Qed.

(* the denominators of the addition formulas never vanish *)
Lemma complete e x1 y1 x2 y2 : onF x1 y1 -> onF x2 y2 -> e * e == 1 -> ~ d * x1 * x2 * y1 * y2 == e.
Proof.
  unfold onF. intros H1 H2 E T.
  assert (S1 : (x1 + e * y1) * (x1 + e * y1) == d * ((x1 * y1 * (x2 + y2)) * (x1 * y1 * (x2 + y2)))).
  { assert (A1 : d * d * x1 * x1 * y1 * y1 * x2 * x2 * y2 * y2 == 1) by nsatz.
    assert (A2 : e * x1 * y1 == d * x1 * x1 * y1 * y1 * x2 * y2) by nsatz.
    nsatz. }
  assert (S2 : (x1 - e * y1) * (x1 - e * y1) == d * ((x1 * y1 * (x2 - y2)) * (x1 * y1 * (x2 - y2)))).
  { assert (A1 : d * d * x1 * x1 * y1 * y1 * x2 * x2 * y2 * y2 == 1) by nsatz.
    assert (A2 : e * x1 * y1 == d * x1 * x1 * y1 * y1 * x2 * y2) by nsatz.
    nsatz. }
  apply d_nonsquare in S1, S2.
  assert (NE : ~ e == 0).
  { intros Q. apply f_one_zero. nsatz. }
  apply f_zero_mul in S1, S2.
  assert (N1 : ~ x1 * y1 == 0) .
  { intros Q. apply NE. rewrite <- T. apply (f_mul_0 _ (d * x2 * y2)) in Q. rewrite <- Q. nsatz. }
  destruct S1 as [S1|S1]; [contradiction|]. destruct S2 as [S2|S2]; [contradiction|].
  assert (X : toF 2 * x2 == 0).
  { replace (toF 2) with (1 + 1) by reflexivity. nsatz. }
  apply f_zero_mul in X. destruct X as [X|X]; [now apply two_nonzero|]. apply NE. rewrite <- T.
  apply (f_mul_0 _ (d * x1 * y1 * y2)) in X. rewrite <- X. nsatz.
Qed.

Lemma denominators x1 y1 x2 y2 : onF x1 y1 -> onF x2 y2 ->
  ~ 1 + d * x1 * x2 * y1 * y2 == 0 /\ ~ 1 - d * x1 * x2 * y1 * y2 == 0.
Proof.
  intros H1 H2. split; intros Q.
  - apply (complete (toF (-1)) x1 y1 x2 y2 H1 H2); [reflexivity|].
    replace (toF (-1)) with (0 - 1) by reflexivity. nsatz.
  - apply (complete 1 x1 y1 x2 y2 H1 H2); [reflexivity|]. nsatz.
Qed.

(* (x3, y3) is the sum of the first two *)
Definition sumF (x1 y1 x2 y2 x3 y3 : F) : Prop :=
  x3 * (1 + d * x1 * x2 * y1 * y2) == x1 * y2 + y1 * x2 /\
  y3 * (1 - d * x1 * x2 * y1 * y2) == y1 * y2 - x1 * x2.

Lemma sumF_on x1 y1 x2 y2 x3 y3 : onF x1 y1 -> onF x2 y2 -> sumF x1 y1 x2 y2 x3 y3 -> onF x3 y3.
Proof.
  intros H1 H2 [S1 S2]. destruct (denominators _ _ _ _ H1 H2) as [D1 D2].
  set (t := d * x1 * x2 * y1 * y2) in *.
  set (n := x1 * y2 + y1 * x2) in *. set (m := y1 * y2 - x1 * x2) in *.
  assert (K : n * n * (1 - t) * (1 - t) + m * m * (1 + t) * (1 + t)
              == (1 - t * t) * (1 - t * t) + d * n * n * m * m).
  { unfold onF in *. unfold t, n, m. clear - Pp H1 H2. nsatz. }
  unfold onF. apply (f_cancel _ _ ((1 + t) * (1 + t))).
  2: { intros Q. apply f_zero_mul in Q. tauto. }
  apply (f_cancel _ _ ((1 - t) * (1 - t))).
  2: { intros Q. apply f_zero_mul in Q. tauto. }
  clearbody t n m. clear - Pp S1 S2 K. nsatz.
Qed.

Lemma sumF_unique x1 y1 x2 y2 x3 y3 x4 y4 : onF x1 y1 -> onF x2 y2 ->
  sumF x1 y1 x2 y2 x3 y3 -> sumF x1 y1 x2 y2 x4 y4 -> x3 == x4 /\ y3 == y4.
Proof.
  intros H1 H2 [S1 S2] [S3 S4]. destruct (denominators _ _ _ _ H1 H2) as [D1 D2].
  split; [apply (f_cancel _ _ _ (transitivity S1 (symmetry S3)) D1)
         |apply (f_cancel _ _ _ (transitivity S2 (symmetry S4)) D2)].
Qed.

Lemma sumF_comm x1 y1 x2 y2 x3 y3 : sumF x1 y1 x2 y2 x3 y3 -> sumF x2 y2 x1 y1 x3 y3.
Proof. intros [S1 S2]. split; nsatz. Qed.

Lemma assoc_x x1 y1 x2 y2 x3 y3 : onF x1 y1 -> onF x2 y2 -> onF x3 y3 ->
  let t12 := d*x1*x2*y1*y2 in let n12 := x1*y2+y1*x2 in let m12 := y1*y2-x1*x2 in
  let t23 := d*x2*x3*y2*y3 in let n23 := x2*y3+y2*x3 in let m23 := y2*y3-x2*x3 in
  (n12*y3*(1-t12) + m12*x3*(1+t12)) * ((1-t23*t23) + d*x1*n23*y1*m23)
  == (x1*m23*(1+t23) + y1*n23*(1-t23)) * ((1-t12*t12) + d*n12*x3*m12*y3).
Proof. unfold onF. intros. nsatz. Qed.

Lemma assoc_y x1 y1 x2 y2 x3 y3 : onF x1 y1 -> onF x2 y2 -> onF x3 y3 ->
  let t12 := d*x1*x2*y1*y2 in let n12 := x1*y2+y1*x2 in let m12 := y1*y2-x1*x2 in
  let t23 := d*x2*x3*y2*y3 in let n23 := x2*y3+y2*x3 in let m23 := y2*y3-x2*x3 in
  (m12*y3*(1+t12) - n12*x3*(1-t12)) * ((1-t23*t23) - d*x1*n23*y1*m23)
  == (y1*m23*(1+t23) - x1*n23*(1-t23)) * ((1-t12*t12) - d*n12*x3*m12*y3).
Proof. unfold onF. intros. nsatz. Qed.

Lemma sumF_assoc x1 y1 x2 y2 x3 y3 x12 y12 x23 y23 xl yl xr yr :
  onF x1 y1 -> onF x2 y2 -> onF x3 y3 ->
  sumF x1 y1 x2 y2 x12 y12 -> sumF x2 y2 x3 y3 x23 y23 ->
  sumF x12 y12 x3 y3 xl yl -> sumF x1 y1 x23 y23 xr yr -> xl == xr /\ yl == yr.
Proof.
  intros H1 H2 H3 S12 S23 SL SR.
  pose proof (sumF_on _ _ _ _ _ _ H1 H2 S12) as H12. pose proof (sumF_on _ _ _ _ _ _ H2 H3 S23) as H23.
  destruct (denominators _ _ _ _ H1 H2) as [A1 A2]. destruct (denominators _ _ _ _ H2 H3) as [B1 B2].
  destruct (denominators _ _ _ _ H12 H3) as [L1 L2]. destruct (denominators _ _ _ _ H1 H23) as [R1 R2].
  pose proof (assoc_x _ _ _ _ _ _ H1 H2 H3) as AX. pose proof (assoc_y _ _ _ _ _ _ H1 H2 H3) as AY.
  cbv zeta in AX, AY.
  destruct S12 as [S1 S2], S23 as [S3 S4], SL as [S5 S6], SR as [S7 S8].
  set (t12 := d * x1 * x2 * y1 * y2) in *. set (t23 := d * x2 * x3 * y2 * y3) in *.
  set (n12 := x1 * y2 + y1 * x2) in *. set (m12 := y1 * y2 - x1 * x2) in *.
  set (n23 := x2 * y3 + y2 * x3) in *. set (m23 := y2 * y3 - x2 * x3) in *.
  assert (PL : ~ (1 + t12) * (1 - t12) == 0) by (intros Q; apply f_zero_mul in Q; tauto).
  assert (PR : ~ (1 + t23) * (1 - t23) == 0) by (intros Q; apply f_zero_mul in Q; tauto).
  clearbody t12 t23 n12 m12 n23 m23.
  split.
  - assert (EL : (1 - t12 * t12) + d * n12 * x3 * m12 * y3
                 == ((1 + t12) * (1 - t12)) * (1 + d * x12 * x3 * y12 * y3)) by (rewrite <- S1, <- S2; fr).
    assert (ER : (1 - t23 * t23) + d * x1 * n23 * y1 * m23
                 == ((1 + t23) * (1 - t23)) * (1 + d * x1 * x23 * y1 * y23)) by (rewrite <- S3, <- S4; fr).
    assert (QL : xl * ((1 - t12 * t12) + d * n12 * x3 * m12 * y3) == n12*y3*(1-t12) + m12*x3*(1+t12))
      by (transitivity ((1 + t12) * (1 - t12) * (xl * (1 + d * x12 * x3 * y12 * y3)));
          [rewrite EL; fr|rewrite S5, <- S1, <- S2; fr]).
    assert (QR : xr * ((1 - t23 * t23) + d * x1 * n23 * y1 * m23) == x1*m23*(1+t23) + y1*n23*(1-t23))
      by (transitivity ((1 + t23) * (1 - t23) * (xr * (1 + d * x1 * x23 * y1 * y23)));
          [rewrite ER; fr|rewrite S7, <- S3, <- S4; fr]).
    apply (f_cancel _ _ (((1 - t12 * t12) + d * n12 * x3 * m12 * y3) * ((1 - t23 * t23) + d * x1 * n23 * y1 * m23))).
    + set (dl := (1 - t12 * t12) + d * n12 * x3 * m12 * y3) in *.
      set (dr := (1 - t23 * t23) + d * x1 * n23 * y1 * m23) in *.
      set (nl := n12*y3*(1-t12) + m12*x3*(1+t12)) in *. set (nr := x1*m23*(1+t23) + y1*n23*(1-t23)) in *.
      clearbody dl dr nl nr. clear - Pp QL QR AX. nsatz.
    + intros Q. apply f_zero_mul in Q. rewrite EL, ER in Q.
      destruct Q as [Q|Q]; apply f_zero_mul in Q; tauto.
  - assert (EL : (1 - t12 * t12) - d * n12 * x3 * m12 * y3
                 == ((1 + t12) * (1 - t12)) * (1 - d * x12 * x3 * y12 * y3)) by (rewrite <- S1, <- S2; fr).
    assert (ER : (1 - t23 * t23) - d * x1 * n23 * y1 * m23
                 == ((1 + t23) * (1 - t23)) * (1 - d * x1 * x23 * y1 * y23)) by (rewrite <- S3, <- S4; fr).
    assert (QL : yl * ((1 - t12 * t12) - d * n12 * x3 * m12 * y3) == m12*y3*(1+t12) - n12*x3*(1-t12))
      by (transitivity ((1 + t12) * (1 - t12) * (yl * (1 - d * x12 * x3 * y12 * y3)));
          [rewrite EL; fr|rewrite S6, <- S1, <- S2; fr]).
    assert (QR : yr * ((1 - t23 * t23) - d * x1 * n23 * y1 * m23) == y1*m23*(1+t23) - x1*n23*(1-t23))
      by (transitivity ((1 + t23) * (1 - t23) * (yr * (1 - d * x1 * x23 * y1 * y23)));
          [rewrite ER; fr|rewrite S8, <- S3, <- S4; fr]).
    apply (f_cancel _ _ (((1 - t12 * t12) - d * n12 * x3 * m12 * y3) * ((1 - t23 * t23) - d * x1 * n23 * y1 * m23))).
    + set (dl := (1 - t12 * t12) - d * n12 * x3 * m12 * y3) in *.
      set (dr := (1 - t23 * t23) - d * x1 * n23 * y1 * m23) in *.
      set (nl := m12*y3*(1+t12) - n12*x3*(1-t12)) in *. set (nr := y1*m23*(1+t23) - x1*n23*(1-t23)) in *.
      clearbody dl dr nl nr. clear - Pp QL QR AY. nsatz.
    + intros Q. apply f_zero_mul in Q. rewrite EL, ER in Q.
      destruct Q as [Q|Q]; apply f_zero_mul in Q; tauto.
Qed.
End Curve.

(** * Points of the program *)

Section Points.
Context (C : Crypto).
Local Notation p := (c_ed_p C).
Local Notation dz := (c_ed_d C).

Context (CO : curve_ok C).
Let Pp : prime p := proj1 CO.
Let P2 : 2 < p := proj1 (proj2 CO).

Lemma mod_eq_divide a b : a mod p = b mod p <-> (p | a - b).
Proof.
  split; intros H.
  - apply Z.mod_divide; [lia|]. rewrite Zminus_mod, H, Z.sub_diag. apply Z.mod_0_l. lia.
  - destruct H as [k H]. replace a with (b + k * p) by lia. apply Z_mod_plus_full.
Qed.

Lemma nonsq x : ~ (p | x * x - dz).
Proof. intros H. apply mod_eq_divide in H. now apply (proj1 (proj2 (proj2 CO)) x). Qed.

Definition X (a : point) : F := toF (px a).
Definition Y (a : point) : F := toF (py a).

Lemma valid_on a : pt_valid C a -> onF p dz (X a) (Y a).
Proof. intros (_ & _ & H). apply mod_eq_divide in H. apply feq_div. exact H. Qed.

Lemma valid_eq a b : pt_valid C a -> pt_valid C b -> feq p (X a) (X b) -> feq p (Y a) (Y b) -> a = b.
Proof.
  intros (A1 & A2 & _) (B1 & B2 & _) H1 H2. apply feq_div in H1, H2. cbn in H1, H2.
  apply mod_eq_divide in H1, H2. rewrite !Z.mod_small in H1, H2 by lia.
  destruct a, b; cbn in *; congruence.
Qed.

Lemma valid_id : pt_valid C pt_id.
Proof.
  unfold pt_valid, pt_id. cbn [px py]. split; [lia|]. split; [lia|]. apply (f_equal (fun z => z mod p)). ring.
Qed.

Lemma feq_mod x : feq p (toF (x mod p)) (toF x).
Proof. apply feq_div. cbn. apply mod_eq_divide. apply Zmod_mod. Qed.

Lemma valid_of x y : onF p dz (toF x) (toF y) -> pt_valid C (mkPoint (x mod p) (y mod p)).
Proof.
  intros H. apply (onF_same p dz _ _ (toF (x mod p)) (toF (y mod p)) (feq_mod x) (feq_mod y)) in H.
  apply feq_div in H. apply mod_eq_divide in H. cbn [px py].
  split; [apply Z.mod_pos_bound; lia|]. split; [apply Z.mod_pos_bound; lia|]. exact H.
Qed.

Lemma inv_ok a : ~ feq p (toF a) (toF 0) -> feq p (toF (a * inv_or_zero C a)) (toF 1).
Proof.
  intros N. assert (GC : Z.gcd a p = 1%Z).
  { rewrite Z.gcd_comm. apply Zgcd_1_rel_prime. apply prime_rel_prime; [exact Pp|].
    intros D. apply N. apply feq_div. cbn. now rewrite Z.sub_0_r. }
  unfold inv_or_zero. destruct (mod_inverse_ok a p ltac:(lia) GC) as (i & -> & D & _). apply feq_div. exact D.
Qed.

Lemma is_identity_eq a : is_identity a = true -> a = pt_id.
Proof.
  unfold is_identity. rewrite Bool.andb_true_iff, !Z.eqb_eq. destruct a; cbn. intros [-> ->]. reflexivity.
Qed.

Local Infix "+p" := (pt_add C) (at level 50, left associativity).

Lemma add_ok a b : pt_valid C a -> pt_valid C b ->
  pt_valid C (a +p b) /\ sumF p dz (X a) (Y a) (X b) (Y b) (X (a +p b)) (Y (a +p b)).
Proof.
  intros VA VB. unfold pt_add.
  destruct (is_identity a) eqn:IA.
  { apply is_identity_eq in IA. subst a. split; [exact VB|]. split; apply feq_div; unfold X, Y, pt_id; cbn [ofF fadd fmul fsub px py];
    match goal with |- (_ | ?e) => replace e with 0 by ring; apply Z.divide_0_r end. }
  destruct (is_identity b) eqn:IB.
  { apply is_identity_eq in IB. subst b. split; [exact VA|]. split; apply feq_div; unfold X, Y, pt_id; cbn [ofF fadd fmul fsub px py];
    match goal with |- (_ | ?e) => replace e with 0 by ring; apply Z.divide_0_r end. }
  pose proof (valid_on _ VA) as OA. pose proof (valid_on _ VB) as OB.
  destruct (denominators p Pp P2 dz nonsq _ _ _ _ OA OB) as [D1 D2].
  set (t := dz * px a * px b * py a * py b) in *.
  assert (S : forall x y, feq p x (toF ((px a * py b + py a * px b) * inv_or_zero C (1 + t))) ->
     feq p y (toF ((py a * py b - px a * px b) * inv_or_zero C (1 - t))) ->
     sumF p dz (X a) (Y a) (X b) (Y b) x y).
  { intros x y E1 E2. pose proof (inv_ok (1 + t) D1) as I1. pose proof (inv_ok (1 - t) D2) as I2.
    apply feq_div in E1, E2, I1, I2. destruct E1 as [k1 E1], E2 as [k2 E2], I1 as [l1 I1], I2 as [l2 I2].
    cbn [ofF] in *. split; apply feq_div; destruct x as [x], y as [y]; unfold X, Y; cbn [ofF fadd fmul fsub] in *; fold t.
    - exists (k1 * (1 + t) + (px a * py b + py a * px b) * l1).
      transitivity ((x - (px a * py b + py a * px b) * inv_or_zero C (1 + t)) * (1 + t)
        + (px a * py b + py a * px b) * ((1 + t) * inv_or_zero C (1 + t) - 1)); [ring|].
      rewrite E1, I1. ring.
    - exists (k2 * (1 - t) + (py a * py b - px a * px b) * l2).
      transitivity ((y - (py a * py b - px a * px b) * inv_or_zero C (1 - t)) * (1 - t)
        + (py a * py b - px a * px b) * ((1 - t) * inv_or_zero C (1 - t) - 1)); [ring|].
      rewrite E2, I2. ring. }
  split.
  - apply valid_of. apply (sumF_on p Pp P2 dz nonsq _ _ _ _ _ _ OA OB). apply S; reflexivity.
  - apply S; apply feq_mod.
Qed.

Lemma valid_add a b : pt_valid C a -> pt_valid C b -> pt_valid C (a +p b).
Proof. intros. now apply add_ok. Qed.

Lemma add_comm a b : pt_valid C a -> pt_valid C b -> a +p b = b +p a.
Proof.
  intros VA VB. destruct (add_ok a b VA VB) as [V1 S1]. destruct (add_ok b a VB VA) as [V2 S2].
  destruct (sumF_unique p Pp P2 dz nonsq _ _ _ _ _ _ _ _ (valid_on _ VA) (valid_on _ VB) S1
             (sumF_comm p Pp dz _ _ _ _ _ _ S2)) as [E1 E2].
  now apply valid_eq.
Qed.

Lemma add_assoc a b c : pt_valid C a -> pt_valid C b -> pt_valid C c -> a +p b +p c = a +p (b +p c).
Proof.
  intros VA VB VC. destruct (add_ok a b VA VB) as [V1 S1]. destruct (add_ok b c VB VC) as [V2 S2].
  destruct (add_ok (a +p b) c V1 VC) as [V3 S3]. destruct (add_ok a (b +p c) VA V2) as [V4 S4].
  destruct (sumF_assoc p Pp P2 dz nonsq _ _ _ _ _ _ _ _ _ _ _ _ _ _ (valid_on _ VA) (valid_on _ VB)
     (valid_on _ VC) S1 S2 S3 S4) as [E1 E2].
  now apply valid_eq.
Qed.

Lemma add_id_l a : pt_id +p a = a.
Proof. reflexivity. Qed.
Lemma add_id_r a : a +p pt_id = a.
Proof.
  unfold pt_add. destruct (is_identity a) eqn:I; [|reflexivity]. apply is_identity_eq in I. now subst.
Qed.

(* the opposite point *)
Definition opposite (a : point) : point := mkPoint ((- px a) mod p) (py a mod p).
Lemma add_opposite a : pt_valid C a -> pt_valid C (opposite a) /\ a +p opposite a = pt_id.
Proof.
  intros VA. set (b := opposite a).
  pose proof (valid_on _ VA) as OA.
  assert (VB : pt_valid C b).
  { apply valid_of. apply feq_div. apply feq_div in OA. unfold X, Y in OA. cbn [ofF fadd fmul fsub] in *.
    match goal with |- (_ | ?e) => match type of OA with (_ | ?f) => replace e with f by ring end end. exact OA. }
  split; [exact VB|]. destruct (add_ok a b VA VB) as [V S]. apply valid_eq; [exact V|exact valid_id| |].
  - destruct (denominators p Pp P2 dz nonsq _ _ _ _ OA (valid_on _ VB)) as [D1 _]. destruct S as [S _].
    refine (f_cancel p Pp _ _ _ _ D1). etransitivity; [exact S|].
    unfold X, Y, pt_id, b, opposite. cbn [px py]. apply feq_div. cbn [ofF fadd fmul fsub].
    apply mod_eq_divide. rewrite Z.mul_0_l.
    replace (px a * (py a mod p) + py a * (- px a mod p))
      with (py a * (- px a mod p) + px a * (py a mod p)) by ring.
    rewrite Zplus_mod, (Zmult_mod (py a)), (Zmult_mod (px a)), !Zmod_mod, <- !Zmult_mod, <- Zplus_mod.
    f_equal. ring.
  - destruct (denominators p Pp P2 dz nonsq _ _ _ _ OA (valid_on _ VB)) as [_ D2]. destruct S as [_ S].
    refine (f_cancel p Pp _ _ _ _ D2). etransitivity; [exact S|].
    unfold X, Y, pt_id, b, opposite. cbn [px py]. apply feq_div. cbn [ofF fadd fmul fsub].
    destruct VA as (_ & B & H). apply mod_eq_divide in H. destruct H as [k H].
    rewrite (Z.mod_small (py a)) by lia.
    pose proof (Z.mod_eq (- px a) p ltac:(lia)) as E. set (q := - px a / p) in *. rewrite E.
    exists (k + q * px a - q * px a * py a * py a * dz). nia.
Qed.
Lemma add_neg a : pt_valid C a -> exists b, pt_valid C b /\ a +p b = pt_id.
Proof. intros VA. exists (opposite a). now apply add_opposite. Qed.

(* the points of order two and four *)
Lemma double_x0 a : pt_valid C a -> px a = 0 -> a +p a = pt_id.
Proof.
  intros VA X0. destruct (add_ok a a VA VA) as [V [S1 S2]]. apply valid_eq; [exact V|exact valid_id| |].
  - apply feq_div. apply feq_div in S1. unfold X, Y, pt_id in *. cbn [ofF fadd fmul fsub px py] in *. rewrite X0 in S1.
    match goal with |- (_ | ?e) => match type of S1 with (_ | ?f) => replace e with f by ring end end. exact S1.
  - apply feq_div. apply feq_div in S2. unfold X, Y, pt_id in *. cbn [ofF fadd fmul fsub px py] in *. rewrite X0 in S2.
    destruct VA as (_ & _ & H). rewrite X0 in H. apply mod_eq_divide in H.
    match goal with |- (_ | ?e) => match type of S2 with (_ | ?f) => match type of H with (_ | ?g) =>
      replace e with (f + g) by ring end end end. now apply Z.divide_add_r.
Qed.
Lemma double_y0 a : pt_valid C a -> py a = 0 -> px (a +p a) = 0.
Proof.
  intros VA Y0. destruct (add_ok a a VA VA) as [V [S1 S2]].
  assert (E : feq p (X (a +p a)) (toF 0)).
  { apply feq_div. apply feq_div in S1. unfold X, Y in *. cbn [ofF fadd fmul fsub px py] in *. rewrite Y0 in S1.
    match goal with |- (_ | ?e) => match type of S1 with (_ | ?f) => replace e with f by ring end end. exact S1. }
  apply feq_div in E. unfold X in E. cbn [ofF] in E. destruct V as (B & _). rewrite Z.sub_0_r in E.
  destruct (Z.eq_dec (px (a +p a)) 0) as [|N]; [assumption|]. exfalso. apply Z.divide_pos_le in E; lia.
Qed.

(** ** Scalar multiplication *)

Fixpoint pt_rep (n : nat) (a : point) : point :=
  match n with O => pt_id | S n => a +p pt_rep n a end.

Lemma valid_rep n a : pt_valid C a -> pt_valid C (pt_rep n a).
Proof. intros V. induction n; cbn [pt_rep]; [exact valid_id|now apply valid_add]. Qed.

Lemma rep_add n m a : pt_valid C a -> pt_rep (n + m) a = pt_rep n a +p pt_rep m a.
Proof.
  intros V. induction n as [|n IH]; cbn [pt_rep Nat.add]; [now rewrite add_id_l|].
  rewrite IH, add_assoc; auto using valid_rep.
Qed.

Lemma rep_plus n a b : pt_valid C a -> pt_valid C b -> pt_rep n (a +p b) = pt_rep n a +p pt_rep n b.
Proof.
  intros VA VB. induction n as [|n IH]; cbn [pt_rep]; [now rewrite add_id_l|].
  assert (VN := valid_rep n a VA). assert (VM := valid_rep n b VB). rewrite IH.
  rewrite !add_assoc; auto using valid_add. f_equal.
  rewrite <- !add_assoc by auto using valid_add. f_equal. now apply add_comm.
Qed.

Lemma rep_mul n m a : pt_valid C a -> pt_rep n (pt_rep m a) = pt_rep (n * m) a.
Proof.
  intros V. induction n as [|n IH]; cbn [pt_rep Nat.mul]; [reflexivity|]. now rewrite IH, rep_add.
Qed.

Lemma rep_id n : pt_rep n pt_id = pt_id.
Proof. induction n; cbn [pt_rep]; [reflexivity|]. now rewrite add_id_l. Qed.

Lemma mul_loop_ok e : forall acc temp, pt_valid C acc -> pt_valid C temp ->
  pt_mul_loop C acc temp e = acc +p pt_rep (Pos.to_nat e) temp.
Proof.
  assert (D : forall n a, pt_valid C a -> pt_rep n (a +p a) = pt_rep (2 * n) a).
  { intros n a V. rewrite rep_plus by assumption. rewrite <- rep_add by assumption. f_equal. lia. }
  induction e as [e IH|e IH|]; intros acc temp VA VT; cbn [pt_mul_loop].
  - rewrite IH by auto using valid_add. rewrite D by assumption.
    rewrite add_assoc by auto using valid_add, valid_rep. f_equal.
    rewrite Pos2Nat.inj_xI. reflexivity.
  - rewrite IH by auto using valid_add. rewrite D by assumption. now rewrite Pos2Nat.inj_xO.
  - rewrite Pos2Nat.inj_1. cbn [pt_rep]. now rewrite add_id_r.
Qed.

Lemma mul_rep a s : pt_valid C a -> pt_mul C a s = pt_rep (Z.abs_nat s) a.
Proof.
  intros V. unfold pt_mul. destruct s as [|e|e]; cbn [Z.abs_N Z.abs_nat]; [reflexivity| |];
  now rewrite mul_loop_ok by (assumption || exact valid_id).
Qed.

Lemma valid_mul a s : pt_valid C a -> pt_valid C (pt_mul C a s).
Proof. intros V. rewrite mul_rep by exact V. now apply valid_rep. Qed.

Lemma mul_add a s t : pt_valid C a -> 0 <= s -> 0 <= t -> pt_mul C a (s + t) = pt_mul C a s +p pt_mul C a t.
Proof.
  intros V S T. rewrite !mul_rep by exact V. rewrite <- rep_add by exact V. f_equal. lia.
Qed.

Lemma mul_mul a s t : pt_valid C a -> pt_mul C (pt_mul C a s) t = pt_mul C a (s * t).
Proof.
  intros V. rewrite (mul_rep (pt_mul C a s)) by now apply valid_mul. rewrite !mul_rep by exact V.
  rewrite rep_mul by exact V. f_equal. rewrite Zabs2Nat.inj_mul. lia.
Qed.

Lemma mul_plus a b s : pt_valid C a -> pt_valid C b -> pt_mul C (a +p b) s = pt_mul C a s +p pt_mul C b s.
Proof. intros VA VB. rewrite !mul_rep by auto using valid_add. now apply rep_plus. Qed.

Lemma mul_id s : pt_mul C pt_id s = pt_id.
Proof. rewrite mul_rep by exact valid_id. apply rep_id. Qed.

Lemma mul_comm a s t : pt_valid C a -> pt_mul C (pt_mul C a s) t = pt_mul C (pt_mul C a t) s.
Proof. intros V. rewrite !mul_mul by exact V. f_equal. ring. Qed.

Lemma mul_0 a : pt_mul C a 0 = pt_id.
Proof. reflexivity. Qed.
Lemma mul_1 a : pt_mul C a 1 = a.
Proof. reflexivity. Qed.

(* scalars may be reduced modulo the order *)
Lemma mul_mod a s q : pt_valid C a -> 0 < q -> 0 <= s -> pt_mul C a q = pt_id ->
  pt_mul C a (s mod q) = pt_mul C a s.
Proof.
  intros V Q S O. rewrite (Z.div_mod s q) at 2 by lia.
  pose proof (Z.mod_pos_bound s q Q). pose proof (Z.div_pos s q S Q).
  rewrite mul_add by (assumption || nia). rewrite <- mul_mul by exact V. rewrite O, mul_id. now rewrite add_id_l.
Qed.

Lemma base_mul_comm : forall a b,
  pt_mul C (pt_mul C (c_ed_g C) a) b = pt_mul C (pt_mul C (c_ed_g C) b) a.
Proof. intros a b. apply mul_comm. apply CO. Qed.

(* cancellation *)
Lemma add_cancel a b c : pt_valid C a -> pt_valid C b -> pt_valid C c -> a +p b = a +p c -> b = c.
Proof.
  intros VA VB VC H. destruct (add_neg a VA) as (n & VN & E).
  rewrite add_comm in E by assumption.
  apply (f_equal (fun z => n +p z)) in H. rewrite <- !add_assoc in H by assumption.
  rewrite E, !add_id_l in H. exact H.
Qed.

End Points.
