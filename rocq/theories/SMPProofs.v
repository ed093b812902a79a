(* The algebra of the OTRv3 SMP: powers of the generator are exponents modulo q. *)
From Verif Require Import Base BaseLemmas Types Crypto Encoding SpecWire EncodingProofs CryptoProofs EdGroup SMP SpecSMP.
From Coq Require Import Lia ZifyN ZifyNat Znumtheory.
Local Open Scope N_scope.

Section WithCrypto.
Context (C : Crypto) (GO : smp_group C).
Local Notation p := (c_dh_p C).
Local Notation q := (dh_q C).
Local Notation g := (c_dh_g C).

Lemma p_pos : 1 < p. Proof. destruct GO as (_ & _ & H & _). lia. Qed.
Lemma p_nz : p <> 0. Proof. pose proof p_pos. lia. Qed.
Lemma q_pos : 1 < q. Proof. destruct GO as (_ & [H _] & _). lia. Qed.
Lemma q_nz : q <> 0. Proof. pose proof q_pos. lia. Qed.

(* g to the power k, for any integer k *)
Definition ge (k : Z) : N := modpow g (Z.to_N (k mod Z.of_N q)) p.

Lemma g_order : modpow g q p = 1.
Proof. rewrite modpow_spec by apply p_nz. apply GO. Qed.

Lemma modpow_1 e : modpow 1 e p = 1.
Proof. rewrite modpow_spec, N.pow_1_l by apply p_nz. apply N.mod_1_l, p_pos. Qed.

Lemma modpow_mod_q e : modpow g (e mod q) p = modpow g e p.
Proof.
  rewrite (N.div_mod e q) at 2 by apply q_nz. rewrite modpow_add, <- modpow_modpow, g_order, modpow_1, N.mul_1_l
    by apply p_nz.
  symmetry. apply N.mod_small, modpow_lt, p_nz.
Qed.

Lemma pw_g e : pw C g e = ge (Z.of_N e).
Proof.
  unfold pw, ge. rewrite <- N2Z.inj_mod, N2Z.id. symmetry. apply modpow_mod_q.
Qed.

Lemma ge_cong a b : (Z.of_N q | a - b)%Z -> ge a = ge b.
Proof.
  intros D. unfold ge. do 2 f_equal. pose proof q_pos.
  destruct D as [k E]. replace a with (b + k * Z.of_N q)%Z by lia. apply Z_mod_plus_full.
Qed.

Lemma ge_lt k : ge k < p. Proof. apply modpow_lt, p_nz. Qed.

Lemma ge_of_nat (a : Z) : (0 <= a)%Z -> ge a = modpow g (Z.to_N a) p.
Proof.
  intros P. rewrite <- (Z2N.id a P) at 1. rewrite <- pw_g. reflexivity.
Qed.

Lemma nonneg a : (0 <= a mod Z.of_N q)%Z.
Proof. pose proof q_pos. apply Z.mod_pos_bound. lia. Qed.

Lemma ge_red a : ge (a mod Z.of_N q) = ge a.
Proof. unfold ge. now rewrite Zmod_mod. Qed.

Lemma ge_mul a b : mm C (ge a * ge b) = ge (a + b).
Proof.
  unfold mm. rewrite <- (ge_red (a + b)), Zplus_mod, ge_red. rewrite <- (ge_red a), <- (ge_red b).
  pose proof (nonneg a). pose proof (nonneg b).
  rewrite !ge_of_nat by lia. rewrite <- modpow_add by apply p_nz. f_equal. lia.
Qed.

Lemma ge_mul3 a b c : mm C (ge a * ge b * ge c) = ge (a + b + c).
Proof.
  rewrite <- ge_mul, <- ge_mul. unfold mm. now rewrite N.mul_mod_idemp_l by apply p_nz.
Qed.

Lemma ge_pow a e : pw C (ge a) e = ge (a * Z.of_N e).
Proof.
  unfold pw. rewrite <- (ge_red (a * Z.of_N e)), Zmult_mod, <- Zmult_mod_idemp_r, Zmod_mod, Zmult_mod_idemp_r, ge_red.
  rewrite <- (ge_red a). pose proof (nonneg a).
  rewrite !ge_of_nat by lia. rewrite modpow_modpow by apply p_nz. f_equal. lia.
Qed.

Lemma ge_0 : ge 0 = 1.
Proof. unfold ge. rewrite Zmod_0_l. cbn [Z.to_N modpow]. apply N.mod_1_l, p_pos. Qed.

(* the generator has order exactly q *)
Lemma ge_one k : ge k = 1 -> (Z.of_N q | k)%Z.
Proof.
  intros E. destruct GO as (_ & PQ & [G1 G2] & _).
  destruct (Zdivide_dec (Z.of_N q) k) as [D|ND]; [exact D|exfalso].
  pose proof (prime_rel_prime _ PQ k ND) as R.
  apply rel_prime_sym in R. apply rel_prime_bezout in R. destruct R as [u v B].
  assert (E1 : ge 1 = 1).
  { rewrite (ge_cong 1 (k * (u mod Z.of_N q))).
    - pose proof (nonneg u). rewrite <- (Z2N.id (u mod Z.of_N q)) by assumption.
      rewrite <- ge_pow, E. unfold pw. apply modpow_1.
    - pose proof q_pos. pose proof (Z.div_mod u (Z.of_N q) ltac:(lia)) as DM.
      set (w := (u / Z.of_N q)%Z) in *. set (r := (u mod Z.of_N q)%Z) in *.
      exists (v + w * k)%Z. rewrite <- B, DM. ring. }
  rewrite ge_of_nat in E1 by lia. change (Z.to_N 1) with 1 in E1.
  cbn [modpow powmod_pos] in E1. rewrite N.mod_small in E1 by exact G2. lia.
Qed.

Lemma ge_inj a b : ge a = ge b -> (Z.of_N q | a - b)%Z.
Proof.
  intros E. apply ge_one. unfold Z.sub. rewrite <- ge_mul, E, ge_mul, Z.add_opp_diag_r. apply ge_0.
Qed.

(* division *)
Lemma inv_exists v : (exists w, mm C (v * w) = 1) ->
  exists i, dh_inv C v = Ok i /\ mm C (v * i) = 1 /\ i < p.
Proof.
  intros [w W]. unfold mm in *. pose proof p_pos.
  assert (GC : Z.gcd (Z.of_N v) (Z.of_N p) = 1%Z).
  { apply Zgcd_1_rel_prime. apply bezout_rel_prime.
    apply Bezout_intro with (u := Z.of_N w) (v := (- Z.of_N (v * w / p))%Z).
    pose proof (N.div_mod (v * w) p p_nz) as DM. rewrite W in DM. nia. }
  destruct (mod_inverse_ok (Z.of_N v) (Z.of_N p) ltac:(lia) GC) as (i & E & D & B).
  exists (Z.to_N i). unfold dh_inv. rewrite E. split; [reflexivity|]. split; [|lia].
  destruct D as [k D]. apply N2Z.inj. rewrite N2Z.inj_mod, N2Z.inj_mul, Z2N.id by lia.
  replace (Z.of_N v * i)%Z with (1 + k * Z.of_N p)%Z by lia. rewrite Z_mod_plus_full. apply Z.mod_1_l. lia.
Qed.

Lemma dh_inv_ge k : dh_inv C (ge k) = Ok (ge (- k)).
Proof.
  destruct (inv_exists (ge k)) as (i & E & M & L).
  { exists (ge (- k)). rewrite ge_mul, Z.add_opp_diag_r. apply ge_0. }
  rewrite E. f_equal.
  assert (W : mm C (ge k * ge (- k)) = 1) by (rewrite ge_mul, Z.add_opp_diag_r; apply ge_0).
  (* i = i * (ge k * ge (-k)) = ge (-k) *)
  unfold mm in *.
  assert (S1 : (i * (ge k * ge (- k))) mod p = i).
  { rewrite <- N.mul_mod_idemp_r, W, N.mul_1_r by apply p_nz. now apply N.mod_small. }
  rewrite <- S1. replace (i * (ge k * ge (- k))) with (ge k * i * ge (- k)) by ring.
  rewrite <- N.mul_mod_idemp_l, M, N.mul_1_l by apply p_nz. apply N.mod_small, ge_lt.
Qed.

(* responses of the proofs *)
Lemma smp_d_cong r a c : (Z.of_N q | Z.of_N (smp_d C r a c) - (Z.of_N r - Z.of_N a * Z.of_N c))%Z.
Proof.
  unfold smp_d. pose proof q_pos as Q. pose proof (N.mod_lt (a * c) q q_nz) as L.
  rewrite N2Z.inj_mod, N2Z.inj_sub, N2Z.inj_add, N2Z.inj_mod, N2Z.inj_mul by lia.
  set (Q' := Z.of_N q) in *. set (A := (Z.of_N a * Z.of_N c)%Z).
  pose proof (Z.div_mod A Q' ltac:(lia)) as D1.
  pose proof (Z.div_mod (Z.of_N r + Q' - A mod Q') Q' ltac:(lia)) as D2.
  set (k1 := (A / Q')%Z) in *. set (k2 := ((Z.of_N r + Q' - A mod Q') / Q')%Z) in *.
  exists (1 - k2 + k1)%Z. nia.
Qed.

Lemma smp_d_lt r a c : smp_d C r a c < q.
Proof. apply N.mod_lt, q_nz. Qed.

Lemma prove_log r a c : ge (Z.of_N (smp_d C r a c) + Z.of_N a * Z.of_N c) = ge (Z.of_N r).
Proof.
  apply ge_cong. destruct (smp_d_cong r a c) as [k K]. exists k. lia.
Qed.

(* a power with base g^b *)
Lemma prove_log_base b r a c : ge (b * Z.of_N (smp_d C r a c) + b * Z.of_N a * Z.of_N c) = ge (b * Z.of_N r).
Proof.
  apply ge_cong. destruct (smp_d_cong r a c) as [k K]. exists (b * k)%Z. nia.
Qed.

(** ** Ranges *)

Lemma small_range v n : v < 256 ^ n -> n < 4294967296 -> mpi_range v.
Proof.
  intros L B. unfold mpi_range. apply N.le_lt_trans with (m := n); [|exact B].
  unfold byte_len. rewrite N2Nat.id.
  assert (S : N.size v <= 8 * n).
  { destruct (N.eq_dec v 0) as [->|Z]; [cbn; lia|].
    rewrite N.size_log2 by exact Z. apply N.le_succ_l. apply N.log2_lt_pow2; [lia|].
    rewrite N.mul_comm. change 256 with (2 ^ 8) in L. rewrite <- N.pow_mul_r in L.
    now rewrite (N.mul_comm n 8). }
  assert ((N.size v + 7) / 8 < n + 1); [apply N.div_lt_upper_bound; lia|lia].
Qed.

Lemma hash_range d : mpi_range (be_val (sha256 C d)).
Proof.
  apply small_range with (n := 32); [|lia].
  pose proof (be_val_bound (sha256 C d)) as H. rewrite sha256_length in H. exact H.
Qed.

Lemma range_le v w : v <= w -> mpi_range w -> mpi_range v.
Proof.
  intros L R. unfold mpi_range in *. apply N.le_lt_trans with (m := N.of_nat (byte_len w)); [|exact R].
  unfold byte_len. rewrite !N2Nat.id. apply N.div_le_mono; [lia|].
  assert (N.size v <= N.size w); [|lia].
  destruct (N.eq_dec v 0) as [->|Z]; [cbn; lia|].
  rewrite !N.size_log2 by lia. apply -> N.succ_le_mono. apply N.log2_le_mono. exact L.
Qed.
Lemma p_range v : v < p -> mpi_range v.
Proof. intros L. apply range_le with (w := p); [lia|apply GO]. Qed.
Lemma q_lt_p : q < p.
Proof. unfold dh_q. pose proof p_pos. apply N.div_lt_upper_bound; lia. Qed.
Lemma q_range v : v < q -> mpi_range v.
Proof. intros L. apply p_range. pose proof q_lt_p. lia. Qed.

End WithCrypto.
