(* The built-in numbers meet the conditions on the groups. *)
From Verif Require Import Base BaseLemmas Crypto SpecWire SpecCurve PointProofs SpecAKE SpecData3 SpecData4 SMP SpecSMP SMP4 SpecSMP4 SpecCrash SpecParams.
From Coq Require Import ZArith Znumtheory Zpow_facts Lia.
Local Open Scope Z_scope.

(** ** Squares modulo a prime *)

Lemma pow_mod a b n p : 0 < p -> a mod p = b mod p -> (a ^ n) mod p = (b ^ n) mod p.
Proof. intros P E. rewrite (Zpower_mod a), E by assumption. symmetry. now apply Zpower_mod. Qed.
Lemma prime_square p x : prime p -> (p | x * x) -> (p | x).
Proof. intros P D. now destruct (prime_mult p P x x D). Qed.
Lemma mod_divides p a b : 0 < p -> a mod p = b mod p -> (p | a) -> (p | b).
Proof. intros P E D. apply Z.mod_divide; [lia|]. rewrite <- E. now apply Z.mod_divide; [lia|]. Qed.

(* a square to the power (p - 1) / 2 *)
Lemma square_euler p h s e : prime p -> p = 2 * h + 1 -> 0 <= h -> ~ (p | e) -> (s * s) mod p = e mod p -> (e ^ h) mod p = 1.
Proof.
  intros P H H0 E S. pose proof (prime_ge_2 p P).
  rewrite <- (pow_mod (s * s) e h p) by (assumption || lia). rewrite <- Z.pow_2_r, <- Z.pow_mul_r by lia. replace (2 * h) with (p - 1) by lia.
  apply fermat; [assumption|]. intros D. apply E. apply (mod_divides p (s * s)); [lia|assumption|]. now apply Z.divide_mul_l.
Qed.
(* if p = 3 mod 4 then the opposite of a square is no square *)
Lemma opposite_not_square p k s e : prime p -> p = 4 * k + 3 -> 0 <= k -> ~ (p | e) -> (s * s) mod p = e mod p ->
  forall x, (x * x) mod p <> (- e) mod p.
Proof.
  intros P K K0 E S x X. pose proof (prime_ge_2 p P) as P2.
  assert (E' : ~ (p | - e)) by (rewrite Z.divide_opp_r; assumption).
  assert (H1 : p = 2 * (2 * k + 1) + 1) by (clear - K; lia). assert (H2 : 0 <= 2 * k + 1) by (clear - K0; lia).
  assert (P0 : p <> 0) by (clear - P2; lia).
  pose proof (square_euler p (2 * k + 1) s e P H1 H2 E S) as A.
  pose proof (square_euler p (2 * k + 1) x (- e) P H1 H2 E' X) as B.
  rewrite Z.pow_opp_odd in B by (exists k; reflexivity).
  rewrite Z.mod_opp_l_nz in B; [|exact P0|rewrite A; discriminate]. rewrite A in B. clear - B K. lia.
Qed.

(** ** The numbers *)

(* square roots of 2 and of 39081 *)
Definition root_2 : N := 0xa9c3543f35cb174faebd2fc2d8ac6e3639ca8ead18a67672d9251850cc2092cce3736398e9ba46f93783c197fea5de2075a3e767f4da89a9ef6820cd5feee789d1ed7a245e4b0fe9ecfc81e963646ef5fb82635f1e5e3dec53881f29f9f7df6092c03790bf3409d24a768e41b8aea032e60c0f437b30249b5b4fca276ce0db939755bf5de0bb6dbc01ef46e8a9654745b83bb3a7a057f955ea4b5b1eaba121aaf554645d2540fe3edbbd5c562ea51d354512e44d1810534e65a56ff1bce74c4%N.
Definition root_2_quotient : N := 0x70937a44e90ba3159cd2306ae81cb6873675871a3b07062376e2232acdddb868d373eecc04c36a7d25c35f124eee4dcb974a4b001c2d43d0b1227dff947305f0bfdb9c872c2fb791a7e773ca74b344bb2f6a6c6959be8343b04145400fd99c49b1d8e3e7a20058096eb5ca2c83005ac78f6a73e87dd7fc879218ba08c273014c9b3a56cd32346b847582a993865a72d313a8e06660e596bf598cc9f834aa310b62e8f49890c7eb0fb8831b1e0d691c6deebb91e517404e976a7e66874dc9f2%N.
Lemma root_2_ok : N.eqb (root_2 * root_2) (2 + root_2_quotient * modulus_1536) = true. Proof. vm_compute. reflexivity. Qed.
Definition root_d : Z := 98944233647732219769177004876929019128417576295529901074099889598043702116001257856802131563896515373927712232092845883226922417596214.
Definition root_d_quotient : Z := 13469234707637049589078747719467429194970301928367283325142565207821081821085790962380140454865381819476525828401835541580493955471685.
Lemma root_d_ok : Z.eqb (root_d * root_d) (39081 + root_d_quotient * ed448_p) = true. Proof. vm_compute. reflexivity. Qed.
Lemma p_form : Z.eqb ed448_p (4 * (ed448_p / 4) + 3) = true. Proof. vm_compute. reflexivity. Qed.
Lemma g_on_curve : Z.eqb ((px ed448_g * px ed448_g + py ed448_g * py ed448_g) mod ed448_p)
  ((1 + -39081 * px ed448_g * px ed448_g * py ed448_g * py ed448_g) mod ed448_p) = true.
Proof. vm_compute. reflexivity. Qed.

Lemma sizes : (1 < modulus_1536 /\ modulus_1536 < 2 ^ 1536 /\ modulus_1536 = 2 * ((modulus_1536 - 1) / 2) + 1)%N /\
  2 < ed448_p /\ ed448_p <= 2 ^ 448 /\ ed448_p mod 4 = 3 /\ 2 < ed448_q /\ ed448_q <= 2 ^ 448.
Proof.
  split; [split; [|split]|repeat apply conj]; try reflexivity;
    try (apply N.eqb_eq; vm_compute; reflexivity); try (apply Z.leb_le; vm_compute; reflexivity).
Qed.

Section WithCrypto.
Context (C : Crypto) (B : built_in C).

Lemma built_dh_params : dh_params_ok C.
Proof.
  destruct B as (E & E2 & _). unfold dh_params_ok. rewrite E, E2. split; [reflexivity|]. split; [reflexivity|]. unfold mpi_range. vm_compute. reflexivity.
Qed.
Lemma built_dh_group : dh_group_ok C.
Proof. destruct B as (E & E2 & _). unfold dh_group_ok. rewrite E, E2. split; [reflexivity|]. vm_compute. reflexivity. Qed.

Lemma generator_order : primes -> ((2 ^ ((modulus_1536 - 1) / 2)) mod modulus_1536 = 1)%N.
Proof.
  intros (P & _). destruct sizes as ((L & _ & O) & _). pose proof root_2_ok as R. apply N.eqb_eq in R.
  revert P L O R. generalize modulus_1536 as p, root_2 as r, root_2_quotient as k. intros p r k P L O R.
  set (h := ((p - 1) / 2)%N) in *. clearbody h.
  assert (X : (2 ^ Z.of_N h) mod Z.of_N p = 1).
  { apply (square_euler (Z.of_N p) (Z.of_N h) (Z.of_N r) 2); [assumption|clear - O; lia|apply N2Z.is_nonneg| |].
    - intros D. apply Z.divide_pos_le in D; [|reflexivity]. pose proof (prime_ge_2 _ P) as G.
      clear - D G O. lia.
    - assert (Z.of_N r * Z.of_N r = 2 + Z.of_N k * Z.of_N p) as -> by (clear - R; lia). apply Z_mod_plus_full. }
  apply N2Z.inj. rewrite N2Z.inj_mod, N2Z.inj_pow. exact X.
Qed.
Lemma built_smp : primes -> smp_group C.
Proof.
  intros PR. pose proof (generator_order PR) as G. destruct PR as (P & Q & _). destruct B as (E & E2 & _).
  unfold smp_group, dh_q. rewrite E, E2. split; [exact P|]. split; [exact Q|]. split; [split; reflexivity|]. split; [exact G|].
  unfold mpi_range. vm_compute. reflexivity.
Qed.

Lemma d_no_square : primes -> forall x, (x * x) mod ed448_p <> (-39081) mod ed448_p.
Proof.
  intros (_ & _ & P & _). pose proof root_d_ok as R. apply Z.eqb_eq in R. pose proof p_form as F. apply Z.eqb_eq in F.
  assert (G : 0 <= ed448_p / 4) by (apply Z.leb_le; vm_compute; reflexivity).
  assert (L : 39081 < ed448_p) by reflexivity. revert P R F G L.
  generalize ed448_p as p, root_d as r, root_d_quotient as k. intros p r k P R F G L. generalize dependent (p / 4). intros j F G.
  apply (opposite_not_square p j r 39081); [assumption|assumption|assumption| |].
  - intros D. apply Z.divide_pos_le in D; [|reflexivity]. clear - D L. lia.
  - rewrite R. apply Z_mod_plus_full.
Qed.
Lemma built_curve : primes -> base_order C -> curve_ok C.
Proof.
  intros PR O. pose proof (d_no_square PR) as D. destruct PR as (_ & _ & P & _). destruct sizes as (_ & L & _).
  destruct B as (_ & _ & _ & _ & _ & E1 & E2 & E3 & E4).
  unfold curve_ok, pt_valid. rewrite E1, E2, E3, E4. split; [exact P|]. split; [exact L|]. split; [exact D|]. split; [|split; [reflexivity|exact O]].
  split; [split; [apply Z.leb_le|apply Z.ltb_lt]; vm_compute; reflexivity|]. split; [split; [apply Z.leb_le|apply Z.ltb_lt]; vm_compute; reflexivity|].
  apply Z.eqb_eq. exact g_on_curve.
Qed.
Lemma built_groups4 : primes -> base_order C -> groups_ok4 C.
Proof.
  intros PR O. split; [now apply built_curve|]. destruct B as (_ & _ & E & _ & E2 & _). rewrite E, E2. split; discriminate.
Qed.
Lemma built_smp4 : primes -> base_order C -> smp4_group C.
Proof.
  intros PR O. pose proof (built_curve PR O) as CO. destruct sizes as (_ & _ & L1 & M & L2 & L3). destruct PR as (_ & _ & _ & Q).
  unfold smp4_group. destruct B as (_ & _ & _ & _ & _ & E1 & E2 & _ & E4). rewrite E1, E2, E4.
  split; [exact CO|]. split; [exact M|]. split; [exact L1|]. split; [exact Q|]. split; [exact L2|]. split; [exact L3|]. discriminate.
Qed.
Lemma built_sound : primes -> base_order C -> groups_sound C.
Proof.
  intros PR O. split; [now apply built_smp4|]. split; [now apply built_smp|]. destruct sizes as ((_ & L & _) & _).
  destruct B as (E & _ & _ & _ & E2 & _). rewrite E, E2. split; [exact L|reflexivity].
Qed.
Lemma subgroup_3072 : (modulus_3072 = 2 * order_3072 + 1)%N.
Proof. apply N.eqb_eq. vm_compute. reflexivity. Qed.

Lemma built_numbers :
  (c_dh_p C = 2 * dh_q C + 1 /\ 2 ^ 1535 < c_dh_p C < 2 ^ 1536 /\ c_dh_g C = 2 /\ (exists r, (r * r) mod c_dh_p C = c_dh_g C) /\
   c_dh3_p C = 2 * c_dh3_q C + 1 /\ 2 ^ 3071 < c_dh3_p C < 2 ^ 3072 /\ c_dh3_g C = 2)%N /\
  c_ed_p C = 2 ^ 448 - 2 ^ 224 - 1 /\ c_ed_p C mod 4 = 3 /\ 2 ^ 445 < c_ed_q C < 2 ^ 446 /\ pt_valid C (c_ed_g C) /\ c_ed_g C <> pt_id.
Proof.
  unfold dh_q, pt_valid. destruct B as (E1 & E2 & E3 & E4 & E5 & E6 & E7 & E8 & E9). rewrite E1, E2, E3, E4, E5, E6, E7, E8, E9.
  destruct sizes as ((_ & _ & O) & _).
  split; [|split; [|split; [|split; [|split]]]].
  - split; [exact O|]. split; [split; vm_compute; reflexivity|]. split; [reflexivity|]. split.
    { exists root_2. pose proof root_2_ok as R. apply N.eqb_eq in R. rewrite R. rewrite N.mod_add by discriminate. reflexivity. }
    split; [exact subgroup_3072|]. split; [split; vm_compute; reflexivity|]. reflexivity.
  - apply Z.eqb_eq. vm_compute. reflexivity.
  - apply sizes.
  - split; apply Z.ltb_lt; vm_compute; reflexivity.
  - split; [split; [apply Z.leb_le|apply Z.ltb_lt]; vm_compute; reflexivity|]. split; [split; [apply Z.leb_le|apply Z.ltb_lt]; vm_compute; reflexivity|].
    apply Z.eqb_eq. exact g_on_curve.
  - discriminate.
Qed.
End WithCrypto.
