(* Proofs about runs of the OTRv4 Socialist Millionaire Protocol. *)
From Coq Require Import Lia ZifyN ZifyNat Znumtheory.
From Verif Require Import Base BaseLemmas Types Crypto CryptoProofs Encoding SpecWire EncodingProofs SpecCurve EdGroup
  PointProofs DataV3Proofs RingProofs SMP SMP4 SpecSMP4.
Local Open Scope Z_scope.

Section WithCrypto.
Context (C : Crypto) (GO : smp4_group C).
Local Notation G := (c_ed_g C).
Local Notation q := (c_ed_q C).
Local Notation p := (c_ed_p C).
Local Notation gk := (at_g C).
Local Infix "+p" := (pt_add C) (at level 50, left associativity).
Local Infix "*p" := (pt_mul C) (at level 40, left associativity).

Lemma CO : curve_ok C. Proof. apply GO. Qed.
Lemma qp : 0 < q. Proof. apply CO. Qed.
Lemma qn : q <> 0. Proof. pose proof qp. lia. Qed.
Lemma GV : pt_valid C G. Proof. apply CO. Qed.
Lemma pr_q : prime q. Proof. apply GO. Qed.
Lemma q2 : 2 < q. Proof. apply GO. Qed.
Lemma mod_q k : 0 <= k mod q. Proof. apply Z.mod_pos_bound, qp. Qed.

Lemma gk_valid k : pt_valid C (gk k).
Proof. apply (valid_mul C CO), GV. Qed.
Lemma gk_of s : 0 <= s -> G *p s = gk s.
Proof. intros S. unfold at_g. symmetry. apply (G_mod C CO s S). Qed.
Lemma gk_cong a b : (q | a - b) -> gk a = gk b.
Proof. intros [k K]. unfold at_g. f_equal. replace a with (b + k * q) by lia. apply Z_mod_plus_full. Qed.
Lemma gk_mod a : gk (a mod q) = gk a.
Proof. unfold at_g. now rewrite Z.mod_mod by apply qn. Qed.
Lemma gk_add a b : gk a +p gk b = gk (a + b).
Proof.
  unfold at_g. rewrite <- (mul_add C CO) by (apply GV || apply mod_q).
  rewrite <- (G_mod C CO) by (pose proof (mod_q a); pose proof (mod_q b); lia).
  now rewrite <- Z.add_mod by apply qn.
Qed.
Lemma gk_mul a s : 0 <= s -> gk a *p s = gk (a * s).
Proof.
  intros S. unfold at_g. rewrite (mul_mul C CO) by apply GV.
  rewrite <- (G_mod C CO) by (apply Z.mul_nonneg_nonneg; [apply mod_q|exact S]).
  now rewrite Z.mul_mod_idemp_l by apply qn.
Qed.
Lemma gk_zero k : (q | k) -> gk k = pt_id.
Proof.
  intros D. rewrite (gk_cong k 0) by now rewrite Z.sub_0_r. unfold at_g. rewrite Z.mod_0_l by apply qn. apply (mul_0 C).
Qed.
Lemma gk_id k : gk k = pt_id -> (q | k).
Proof.
  intros E. destruct (Zdivide_dec q k) as [|N]; [assumption|]. exfalso.
  assert (RP : rel_prime k q) by (apply rel_prime_sym, prime_rel_prime; [exact pr_q|exact N]).
  destruct (rel_prime_bezout _ _ RP) as [u v B].
  assert (G1 : G = gk 1).
  { rewrite <- gk_of by lia. symmetry. apply (mul_1 C). }
  destruct GO as (_ & _ & _ & _ & _ & _ & NG). apply NG. rewrite G1.
  rewrite (gk_cong 1 (k * (u mod q))).
  - rewrite <- gk_mul by apply mod_q. rewrite E. apply (mul_id C CO).
  - exists (v + k * (u / q)). rewrite (Z.mod_eq u q) by apply qn. rewrite <- B. ring.
Qed.
Lemma gk_inj a b : gk a = gk b -> (q | a - b).
Proof.
  intros E. apply gk_id. apply (add_cancel C CO (gk b)); [apply gk_valid|apply gk_valid|apply (valid_id C CO)|].
  rewrite gk_add. replace (b + (a - b)) with a by ring. rewrite E. symmetry. apply (add_id_r C).
Qed.
Lemma gk_verify k : pt_verify C (gk k) = true <-> ~ (q | k).
Proof.
  rewrite (verify_iff C). split.
  - intros (N & _) D. apply N. now apply gk_zero.
  - intros N. pose proof (gk_valid k) as (X & Y & _). split; [intros E; now apply N, gk_id|].
    split; [lia|]. split; [lia|]. rewrite gk_mul by (pose proof qp; lia). apply gk_zero. now exists k.
Qed.
Lemma ne_div k : ne C k <-> ~ (q | k).
Proof. unfold ne. rewrite Z.mod_divide by apply qn. tauto. Qed.
Lemma half k : (q | 2 * k) -> (q | k).
Proof.
  intros D. apply prime_mult in D; [|exact pr_q]. destruct D as [D|D]; [|assumption].
  apply Z.divide_pos_le in D; pose proof q2; lia.
Qed.
Lemma gk_px k : ~ (q | k) -> px (gk k) <> 0.
Proof.
  intros N X0. apply N, half. apply gk_id. replace (2 * k) with (k + k) by ring. rewrite <- gk_add.
  apply (double_x0 C CO); [apply gk_valid|exact X0].
Qed.
Lemma gk_py k : py (gk k) <> 0.
Proof.
  intros Y0. assert (X2 : px (gk (k + k)) = 0).
  { rewrite <- gk_add. apply (double_y0 C CO); [apply gk_valid|exact Y0]. }
  assert (D : (q | k)).
  { apply half. destruct (Zdivide_dec q (2 * k)) as [|N]; [assumption|]. exfalso. apply (gk_px (2 * k) N).
    replace (2 * k) with (k + k) by ring. exact X2. }
  rewrite (gk_zero k D) in Y0. discriminate Y0.
Qed.
Lemma gk_sub a b : ~ (q | b) -> pt_sub C (gk a) (gk b) = gk (a - b).
Proof.
  intros N. unfold pt_sub. pose proof (gk_px b N) as PX. pose proof (gk_valid b) as V.
  assert (E : pt_neg C (gk b) = opposite C (gk b)).
  { unfold pt_neg, opposite. pose proof V as (X & Y & _). rewrite (Z.mod_small (py _)) by exact Y. f_equal.
    rewrite <- (Z_mod_plus_full _ 1). symmetry. rewrite Z.mod_small; lia. }
  destruct (add_opposite C CO (gk b) V) as [VO AO]. rewrite E.
  assert (O : opposite C (gk b) = gk (- b)).
  { apply (add_cancel C CO (gk b)); [exact V|exact VO|apply gk_valid|]. rewrite AO, gk_add.
    replace (b + - b) with 0 by ring. symmetry. apply gk_zero. apply Z.divide_0_r. }
  rewrite O, gk_add. reflexivity.
Qed.
Lemma gk_encode k : any_nonzero (pt_encode (gk k)) = true.
Proof.
  unfold any_nonzero. destruct (all_zero (pt_encode (gk k))) eqn:Z0; [|reflexivity]. exfalso.
  apply (gk_py k). pose proof (gk_valid k) as (_ & Y & _).
  unfold pt_encode in Z0. apply all_zero_iff in Z0. apply Forall_app in Z0. destruct Z0 as [Z0 _].
  apply all_zero_iff in Z0. apply le_val_zero in Z0. rewrite le_val_le_bytes_small in Z0; [lia|].
  change (256 ^ N.of_nat 56)%N with (Z.to_N (2 ^ 448)).
  apply Z2N.inj_lt; [apply Y|now apply Z.pow_nonneg|].
  apply Z.lt_le_trans with p; [apply Y|apply GO].
Qed.
Lemma gk_same a b : same_pt (gk a) (gk b) = true <-> (q | a - b).
Proof.
  unfold same_pt. rewrite ct_compare_true. split.
  - intros [E _]. apply gk_inj. refine (encode_inj C CO _ _ _ _ (gk_valid a) (gk_valid b) E); apply GO.
  - intros D. rewrite (gk_cong a b D). split; [reflexivity|]. apply gk_encode.
Qed.

(** ** The wire *)

Lemma read_gk k rest : read_ed448_point C (wp (gk k) ++ rest) = Ok (gk k, rest).
Proof.
  apply read_ed448_point_write. apply (point_round_trip C CO); [apply GO|apply GO|apply gk_valid].
Qed.
Lemma read_sc s rest : 0 <= s < q -> s <> 0 -> read_ed448_scalar C (ws s ++ rest) = Ok (s, rest).
Proof.
  intros S N. apply read_ed448_scalar_write. unfold scalar_range. split; [clear - S N; lia|].
  apply Z.lt_le_trans with q; [apply S|]. apply Z.le_trans with (2 ^ 448); [apply GO|]. now apply Z.pow_le_mono_r.
Qed.

Lemma hash_range usage data c : hash_to_scalar C usage data = Ok c -> 0 <= c < q.
Proof.
  unfold hash_to_scalar, decode_scalar. destruct (all_zero _); [discriminate|]. intros H.
  replace c with (Z.of_N (le_val (hwc C 57 usage data)) mod q) by congruence. apply Z.mod_pos_bound, qp.
Qed.
Lemma d_range r a c : 0 <= smp4_d C r a c < q.
Proof. apply Z.mod_pos_bound, qp. Qed.
Lemma d_ne r a c : ne C (r - a * c) -> smp4_d C r a c <> 0.
Proof. unfold ne, smp4_d. now rewrite Zminus_mod_idemp_r. Qed.

(* the commitment of a proof: d + a c = r *)
Lemma d_div r a c k : (q | k * smp4_d C r a c + k * a * c - k * r).
Proof.
  unfold smp4_d. rewrite Zminus_mod_idemp_r. rewrite (Z.mod_eq _ q) by apply qn.
  exists (- (k * ((r - a * c) / q))). ring.
Qed.
Lemma zk a r c : 0 <= c -> G *p smp4_d C r a c +p gk a *p c = gk r.
Proof.
  intros K. rewrite gk_of by apply d_range. rewrite gk_mul by exact K. rewrite gk_add. apply gk_cong.
  pose proof (d_div r a c 1) as D. replace (_ + a * c - r) with (1 * smp4_d C r a c + 1 * a * c - 1 * r) by ring. exact D.
Qed.
Lemma zk_at k a r c : 0 <= c -> gk k *p smp4_d C r a c +p gk (k * a) *p c = gk (k * r).
Proof.
  intros K. rewrite !gk_mul by (exact K || apply d_range). rewrite gk_add. apply gk_cong. apply d_div.
Qed.
Lemma zk_pq k2 r5 r4 r6 x c : 0 <= c ->
  G *p smp4_d C r5 r4 c +p gk k2 *p smp4_d C r6 x c +p gk (r4 + k2 * x) *p c = gk (r5 + k2 * r6).
Proof.
  intros K. rewrite gk_of by apply d_range. rewrite !gk_mul by (exact K || apply d_range). rewrite !gk_add. apply gk_cong.
  pose proof (d_div r5 r4 c 1) as D1. pose proof (d_div r6 x c k2) as D2.
  replace (_ - _) with ((1 * smp4_d C r5 r4 c + 1 * r4 * c - 1 * r5) + (k2 * smp4_d C r6 x c + k2 * x * c - k2 * r6)) by ring.
  now apply Z.divide_add_r.
Qed.

Lemma same_scalar_ok a : 0 <= a -> a <> 0 -> same_scalar a a = Ok tt.
Proof.
  intros A N. unfold same_scalar. rewrite (proj2 (compare_scalars_true a a A A)) by auto. reflexivity.
Qed.

(* a proof from [proof_ok] *)
Lemma proof_1 usage k rs : proof_ok C usage [gk k] rs ->
  exists c, hash_pt C usage (gk k) = Ok c /\ 0 <= c < q /\ c <> 0 /\ Forall (fun p => ne C (fst p - snd p * c)) rs.
Proof.
  intros (c & H & N & F). cbn [map concat] in H. rewrite app_nil_r in H. exists c. split; [exact H|].
  split; [eapply hash_range; exact H|]. auto.
Qed.
Lemma proof_2 usage k l rs : proof_ok C usage [gk k; gk l] rs ->
  exists c, hash_pt2 C usage (gk k) (gk l) = Ok c /\ 0 <= c < q /\ c <> 0 /\ Forall (fun p => ne C (fst p - snd p * c)) rs.
Proof.
  intros (c & H & N & F). cbn [map concat] in H. rewrite app_nil_r in H. exists c. split; [exact H|].
  split; [eapply hash_range; exact H|]. auto.
Qed.

Definition with_state (c : smp4_context) (s : smp4_status) (st : smp4_state) : smp4_context :=
  mkSmp4 s st (s4_us c) (s4_them c) (s4_ssid c).

(* reading what was written *)
Ltac rd := repeat first
  [ rewrite read_gk
  | rewrite read_sc by (first [assumption | apply d_range | apply d_ne; assumption])
  | progress cbn [bind] ].
Ltac vf k := rewrite (proj2 (gk_verify k)) by assumption; cbn [of_bool bind negb].

Section Steps.
Context (ra1 rb1 ra2 rb2 : smp4_rnd) (x y : Z).
Context (X0 : 0 <= x) (Y0 : 0 <= y) (U : usual_choices C ra1 rb1 ra2 rb2 x y).

Local Notation a2 := (s4_2 ra1). Local Notation a3 := (s4_3 ra1).
Local Notation b2 := (s4_2 rb1). Local Notation b3 := (s4_3 rb1).
Local Notation k2 := (a2 * b2). Local Notation k3 := (a3 * b3).
Local Notation D := (log_q ra1 rb1 ra2 x y).

Definition m1 (c2 c3 : Z) : bytes :=
  wp (gk a2) ++ ws c2 ++ ws (smp4_d C (s4_r2 ra1) a2 c2) ++ wp (gk a3) ++ ws c3 ++ ws (smp4_d C (s4_r3 ra1) a3 c3).

Lemma range_of r : scalars C r -> 0 <= s4_2 r /\ 0 <= s4_3 r /\ 0 <= s4_r2 r /\ 0 <= s4_r3 r /\ 0 <= s4_r4 r /\
  0 <= s4_r5 r /\ 0 <= s4_r6 r /\ 0 <= s4_r7 r.
Proof.
  unfold scalars. rewrite Forall_forall. cbn [In]. intros F.
  repeat split; apply F; tauto.
Qed.

(* Alice starts *)
Lemma run_1 a secret question : s4_status a <> S4InProgress ->
  smp4_secret C (s4_us a) (s4_them a) (s4_ssid a) secret = Ok x ->
  exists c2 c3,
    (hash_pt C x01 (gk (s4_r2 ra1)) = Ok c2 /\ 0 <= c2 < q /\ c2 <> 0 /\ ne C (s4_r2 ra1 - a2 * c2)) /\
    (hash_pt C x02 (gk (s4_r3 ra1)) = Ok c3 /\ 0 <= c3 < q /\ c3 <> 0 /\ ne C (s4_r3 ra1 - a3 * c3)) /\
    smp4_initiate C ra1 a secret question
    = (with_state a S4InProgress (Expect4_2 x a2 a3), Ok (mkTlv TLV_SMP_1 (write_data question ++ m1 c2 c3))).
Proof.
  intros NS XE. destruct U as (S1 & _ & _ & _ & (N2 & N3 & P1 & P2) & _).
  apply range_of in S1. destruct S1 as (R1 & R2 & R3 & R4 & _).
  apply proof_1 in P1. destruct P1 as (c2 & H2 & C2 & NC2 & F2). apply proof_1 in P2. destruct P2 as (c3 & H3 & C3 & NC3 & F3).
  apply Forall_inv in F2, F3. cbn [fst snd] in F2, F3. apply ne_div in N2, N3.
  exists c2, c3. split; [auto|]. split; [auto|].
  unfold smp4_initiate. rewrite !gk_of by assumption. rewrite H2, H3. cbn [bind]. vf (s4_2 ra1). vf (s4_3 ra1). rewrite XE. cbn [bind].
  destruct (s4_status a); [reflexivity|contradiction|reflexivity|reflexivity].
Qed.


Lemma mul_div a b : ~ (q | a) -> ~ (q | b) -> ~ (q | a * b).
Proof. intros A B E. apply prime_mult in E; [tauto|exact pr_q]. Qed.

Definition c_ok (usage : byte) (r a c : Z) : Prop :=
  hash_pt C usage (gk r) = Ok c /\ 0 <= c < q /\ c <> 0 /\ ne C (r - a * c).

Lemma check_1 usage r a c : c_ok usage r a c ->
  hash_pt C usage (G *p smp4_d C r a c +p gk a *p c) = Ok c.
Proof. intros (H & K & _). rewrite zk by (clear - K; lia). exact H. Qed.
Lemma c_same usage r a c : c_ok usage r a c -> same_scalar c c = Ok tt.
Proof. intros (_ & K & N & _). apply same_scalar_ok; [clear - K; lia|exact N]. Qed.

Definition m2 (c2 c3 cp : Z) : bytes :=
  wp (gk b2) ++ ws c2 ++ ws (smp4_d C (s4_r2 rb1) b2 c2) ++ wp (gk b3) ++ ws c3 ++ ws (smp4_d C (s4_r3 rb1) b3 c3)
  ++ wp (gk (k3 * s4_r4 rb1)) ++ wp (gk (s4_r4 rb1 + k2 * y))
  ++ ws cp ++ ws (smp4_d C (s4_r5 rb1) (s4_r4 rb1) cp) ++ ws (smp4_d C (s4_r6 rb1) y cp).
Definition cp_ok (usage : byte) (r5 r6 r4 s c : Z) : Prop :=
  hash_pt2 C usage (gk (k3 * r5)) (gk (r5 + k2 * r6)) = Ok c /\ 0 <= c < q /\ c <> 0 /\
  ne C (r5 - r4 * c) /\ ne C (r6 - s * c).
Definition cr_ok (usage : byte) (r7 e c : Z) : Prop :=
  hash_pt2 C usage (gk r7) (gk (D * r7)) = Ok c /\ 0 <= c < q /\ c <> 0 /\ ne C (r7 - e * c).

(* Bob answers *)
Lemma run_2 ans b secret question c2 c3 : idle4 b ->
  (N.of_nat (length question) < 4294967296)%N -> ans question = Some secret ->
  smp4_secret C (s4_them b) (s4_us b) (s4_ssid b) secret = Ok y ->
  c_ok x01 (s4_r2 ra1) a2 c2 -> c_ok x02 (s4_r3 ra1) a3 c3 ->
  exists e2 e3 cp, c_ok x03 (s4_r2 rb1) b2 e2 /\ c_ok x04 (s4_r3 rb1) b3 e3 /\
    cp_ok x05 (s4_r5 rb1) (s4_r6 rb1) (s4_r4 rb1) y cp /\
    smp4_handle C ans rb1 b (mkTlv TLV_SMP_1 (write_data question ++ m1 c2 c3))
    = (with_state b S4InProgress
         (Expect4_3 (gk a3) (gk k2) (gk k3) b3 (gk (k3 * s4_r4 rb1)) (gk (s4_r4 rb1 + k2 * y))),
       Ok (Some (mkTlv TLV_SMP_2 (m2 e2 e3 cp)))).
Proof.
  intros ID QL AE YE K2 K3. destruct U as (S1 & S2 & _ & _ & (N2 & N3 & _) & (M2 & M3 & M4 & M5 & P1 & P2 & P3) & _).
  apply range_of in S1, S2. destruct S1 as (A2 & A3 & _). destruct S2 as (B2 & B3 & R2 & R3 & R4 & R5 & R6 & _).
  apply proof_1 in P1. destruct P1 as (e2 & H2 & E2 & NE2 & F2). apply proof_1 in P2. destruct P2 as (e3 & H3 & E3 & NE3 & F3).
  apply Forall_inv in F2, F3. cbn [fst snd] in F2, F3.
  apply proof_2 in P3. destruct P3 as (cp & HP & EP & NEP & FP).
  pose proof (Forall_inv FP) as FP1. apply Forall_inv_tail, Forall_inv in FP. cbn [fst snd] in FP, FP1.
  apply ne_div in N2, N3, M2, M3, M4, M5.
  exists e2, e3, cp. split; [unfold c_ok; auto|]. split; [unfold c_ok; auto|]. split; [unfold cp_ok; auto|].
  unfold smp4_handle, smp4_dispatch. cbn [tlv_type]. change (TLV_SMP_1 =? TLV_SMP_ABORT)%N with false.
  change (TLV_SMP_1 =? TLV_SMP_1)%N with true. cbv iota. unfold smp4_message_1. rewrite ID. cbn [tlv_value].
  rewrite read_data_write by exact QL. cbn [bind]. unfold m1.
  pose proof K2 as (_ & KR2 & KN2 & KD2). pose proof K3 as (_ & KR3 & KN3 & KD3).
  rd. vf (s4_2 ra1). rd. vf (s4_3 ra1). rd. rewrite <- (app_nil_r (ws (smp4_d C (s4_r3 ra1) a3 c3))). rd. cbn [done bind].
  rewrite (check_1 _ _ _ _ K2). cbn [bind]. rewrite (c_same _ _ _ _ K2). cbn [bind].
  rewrite (check_1 _ _ _ _ K3). cbn [bind]. rewrite (c_same _ _ _ _ K3). cbn [bind].
  rewrite AE. rewrite !gk_of by assumption. rewrite H2. cbn [bind]. rewrite H3. cbn [bind].
  rewrite !gk_mul by assumption.
  rewrite (proj2 (gk_verify k2)) by (now apply mul_div). cbn [of_bool bind].
  rewrite (proj2 (gk_verify k3)) by (now apply mul_div). cbn [of_bool bind].
  rewrite YE. cbn [bind]. rewrite !gk_add, !gk_mul, !gk_add by assumption.
  rewrite (proj2 (gk_verify (k3 * s4_r4 rb1))) by (apply mul_div; [now apply mul_div|assumption]). cbn [of_bool bind].
  vf (s4_r4 rb1 + k2 * y). rewrite HP. cbn [bind]. reflexivity.
Qed.

(** Alice's second message *)
Lemma d_mod r s c : smp4_d C r (s mod q) c = smp4_d C r s c.
Proof. unfold smp4_d. now rewrite Z.mul_mod_idemp_l by apply qn. Qed.
Lemma gk_mod_k2 r : gk (r + k2 * (x mod q)) = gk (r + k2 * x).
Proof. apply gk_cong. rewrite (Z.mod_eq x q) by apply qn. exists (- (k2 * (x / q))). ring. Qed.
Lemma check_pq usage r5 r6 r4 s c : 0 <= r5 -> 0 <= r6 -> cp_ok usage r5 r6 r4 s c ->
  hash_pt2 C usage (gk k3 *p smp4_d C r5 r4 c +p gk (k3 * r4) *p c)
    (G *p smp4_d C r5 r4 c +p gk k2 *p smp4_d C r6 s c +p gk (r4 + k2 * s) *p c) = Ok c.
Proof.
  intros R5 R6 (H & K & _). rewrite zk_at, zk_pq by (clear - K; lia). exact H.
Qed.
Lemma check_r usage r7 e c : cr_ok usage r7 e c ->
  hash_pt2 C usage (G *p smp4_d C r7 e c +p gk e *p c) (gk D *p smp4_d C r7 e c +p gk (D * e) *p c) = Ok c.
Proof. intros (H & K & _). rewrite zk, zk_at by (clear - K; lia). exact H. Qed.

Definition m3 (cp cr : Z) : bytes :=
  wp (gk (k3 * s4_r4 ra2)) ++ wp (gk (s4_r4 ra2 + k2 * x))
  ++ ws cp ++ ws (smp4_d C (s4_r5 ra2) (s4_r4 ra2) cp) ++ ws (smp4_d C (s4_r6 ra2) x cp)
  ++ wp (gk (D * a3)) ++ ws cr ++ ws (smp4_d C (s4_r7 ra2) a3 cr).

Lemma run_3 ans a e2 e3 cp :
  c_ok x03 (s4_r2 rb1) b2 e2 -> c_ok x04 (s4_r3 rb1) b3 e3 -> cp_ok x05 (s4_r5 rb1) (s4_r6 rb1) (s4_r4 rb1) y cp ->
  exists cp' cr, cp_ok x06 (s4_r5 ra2) (s4_r6 ra2) (s4_r4 ra2) x cp' /\ cr_ok x07 (s4_r7 ra2) a3 cr /\
    smp4_handle C ans ra2 (with_state a S4InProgress (Expect4_2 x a2 a3)) (mkTlv TLV_SMP_2 (m2 e2 e3 cp))
    = (with_state a S4InProgress (Expect4_4 (gk b3) (gk (k3 * (s4_r4 ra2 - s4_r4 rb1))) (gk D) a3),
       Ok (Some (mkTlv TLV_SMP_3 (m3 cp' cr)))).
Proof.
  intros K2 K3 KP.
  destruct U as (S1 & S2 & S3 & _ & (N2 & N3 & _) & (M2 & M3 & M4 & M5 & _) & (L1 & L2 & L3 & P1 & P2) & _).
  apply range_of in S1, S2, S3. destruct S1 as (A2 & A3 & _). destruct S2 as (B2 & B3 & _ & _ & R4 & R5 & R6 & _).
  destruct S3 as (_ & _ & _ & _ & T4 & T5 & T6 & T7).
  apply proof_2 in P1. destruct P1 as (cp' & HP & EP & NEP & FP).
  pose proof (Forall_inv FP) as FP1. apply Forall_inv_tail, Forall_inv in FP. cbn [fst snd] in FP, FP1.
  apply proof_2 in P2. destruct P2 as (cr & HR & ER & NER & FR). apply Forall_inv in FR. cbn [fst snd] in FR.
  apply ne_div in N2, N3, M2, M3, M4, M5, L1, L2, L3.
  exists cp', cr. split; [unfold cp_ok; auto|]. split; [unfold cr_ok; auto|].
  unfold smp4_handle, smp4_dispatch. cbn [tlv_type]. change (TLV_SMP_2 =? TLV_SMP_ABORT)%N with false.
  change (TLV_SMP_2 =? TLV_SMP_1)%N with false. change (TLV_SMP_2 =? TLV_SMP_2)%N with true. cbv iota.
  unfold smp4_message_2. unfold with_state at 1. cbn [s4_state tlv_value].
  pose proof K2 as (_ & KR2 & KN2 & KD2). pose proof K3 as (_ & KR3 & KN3 & KD3).
  pose proof KP as (_ & KRP & KNP & KD5 & KD6).
  unfold m2. rewrite <- (app_nil_r (ws (smp4_d C (s4_r6 rb1) y cp))). rd. cbn [done bind].
  vf (s4_2 rb1). vf (s4_3 rb1).
  rewrite (check_1 _ _ _ _ K2). cbn [bind]. rewrite (c_same _ _ _ _ K2). cbn [bind].
  rewrite (check_1 _ _ _ _ K3). cbn [bind]. rewrite (c_same _ _ _ _ K3). cbn [bind].
  rewrite (gk_mul b2), (gk_mul b3) by assumption. rewrite (Z.mul_comm b2), (Z.mul_comm b3).
  rewrite (proj2 (gk_verify k2)) by (now apply mul_div). cbn [of_bool bind].
  rewrite (proj2 (gk_verify k3)) by (now apply mul_div). cbn [of_bool bind].
  rewrite (check_pq _ _ _ _ _ _ R5 R6 KP). cbn [bind]. rewrite same_scalar_ok by (clear - KRP KNP; lia). cbn [bind].
  rewrite !gk_of by assumption. rewrite (gk_mul k2 (x mod q)) by apply mod_q.
  rewrite !(gk_mul k3), !(gk_mul k2) by assumption. rewrite !gk_add, gk_mod_k2.
  rewrite HP. cbn [bind].
  rewrite !gk_sub by (assumption || now repeat apply mul_div).
  change (s4_r4 ra2 + k2 * x - (s4_r4 rb1 + k2 * y)) with D.
  rewrite !(gk_mul D) by assumption. rewrite HR. cbn [bind].
  rewrite <- Z.mul_sub_distr_l, d_mod. reflexivity.
Qed.

Definition m4 (cr : Z) : bytes := wp (gk (D * b3)) ++ ws cr ++ ws (smp4_d C (s4_r7 rb2) b3 cr).

Lemma verdict_eq : (q | D * a3 * b3 - (k3 * (s4_r4 ra2 - s4_r4 rb1))) <-> (q | x - y).
Proof.
  destruct U as (_ & _ & _ & _ & (N2 & N3 & _) & (M2 & M3 & _) & _).
  apply ne_div in N2, N3, M2, M3.
  replace (D * a3 * b3 - _) with ((k3 * k2) * (x - y)) by (unfold log_q; ring).
  split.
  - intros E. apply prime_mult in E; [|exact pr_q]. destruct E as [E|E]; [|exact E].
    exfalso. revert E. now repeat apply mul_div.
  - intros E. now apply Z.divide_mul_r.
Qed.
Lemma verdict_eq' : (q | D * b3 * a3 - (k3 * (s4_r4 ra2 - s4_r4 rb1))) <-> (q | x - y).
Proof. rewrite <- verdict_eq. now rewrite <- !Z.mul_assoc, (Z.mul_comm b3 a3). Qed.

(* the verdict of Bob *)
Lemma run_4 ans b cp' cr (same : bool) : (same = true <-> (q | x - y)) ->
  cp_ok x06 (s4_r5 ra2) (s4_r6 ra2) (s4_r4 ra2) x cp' -> cr_ok x07 (s4_r7 ra2) a3 cr ->
  exists cr', cr_ok x08 (s4_r7 rb2) b3 cr' /\
    smp4_handle C ans rb2
      (with_state b S4InProgress
         (Expect4_3 (gk a3) (gk k2) (gk k3) b3 (gk (k3 * s4_r4 rb1)) (gk (s4_r4 rb1 + k2 * y))))
      (mkTlv TLV_SMP_3 (m3 cp' cr))
    = (with_state b (if same then S4Completed else S4Aborted Differ4) Expect4_1, Ok (Some (mkTlv TLV_SMP_4 (m4 cr')))).
Proof.
  intros SE KP KR.
  destruct U as (S1 & S2 & S3 & S4 & (N2 & N3 & _) & (M2 & M3 & M4 & M5 & _) & (L1 & L2 & L3 & _) & P).
  apply range_of in S1, S2, S3, S4. destruct S1 as (A2 & A3 & _). destruct S2 as (B2 & B3 & _ & _ & R4 & R5 & R6 & _).
  destruct S3 as (_ & _ & _ & _ & T4 & T5 & T6 & T7). destruct S4 as (_ & _ & _ & _ & _ & _ & _ & V7).
  apply proof_2 in P. destruct P as (cr' & HR & ER & NER & FR). apply Forall_inv in FR. cbn [fst snd] in FR.
  apply ne_div in N2, N3, M2, M3, M4, M5, L1, L2, L3.
  exists cr'. split; [unfold cr_ok; auto|].
  unfold smp4_handle, smp4_dispatch. cbn [tlv_type]. change (TLV_SMP_3 =? TLV_SMP_ABORT)%N with false.
  change (TLV_SMP_3 =? TLV_SMP_1)%N with false. change (TLV_SMP_3 =? TLV_SMP_2)%N with false.
  change (TLV_SMP_3 =? TLV_SMP_3)%N with true. cbv iota.
  unfold smp4_message_3. unfold with_state at 1. cbn [s4_state tlv_value].
  pose proof KP as (_ & KRP & KNP & KD5 & KD6). pose proof KR as (_ & KRR & KNR & KD7).
  unfold m3. rewrite <- (app_nil_r (ws (smp4_d C (s4_r7 ra2) a3 cr))). rd. cbn [done bind].
  rewrite (proj2 (gk_verify (k3 * s4_r4 ra2))) by (now repeat apply mul_div). cbn [of_bool bind].
  vf (s4_r4 ra2 + k2 * x).
  rewrite (proj2 (gk_verify (D * a3))) by (now apply mul_div). cbn [of_bool bind].
  rewrite (check_pq _ _ _ _ _ _ T5 T6 KP). cbn [bind]. rewrite same_scalar_ok by (clear - KRP KNP; lia). cbn [bind].
  rewrite !gk_sub by (assumption || now repeat apply mul_div).
  change (s4_r4 ra2 + k2 * x - (s4_r4 rb1 + k2 * y)) with D.
  rewrite (check_r _ _ _ _ KR). cbn [bind]. rewrite same_scalar_ok by (clear - KRR KNR; lia). cbn [bind].
  rewrite !gk_of, !(gk_mul D) by assumption. rewrite HR. cbn [bind].
  rewrite gk_mul by assumption. rewrite <- Z.mul_sub_distr_l.
  replace (same_pt _ _) with same; [reflexivity|].
  apply Bool.eq_iff_eq_true. rewrite gk_same. rewrite SE. symmetry. apply verdict_eq.
Qed.

(* the verdict of Alice *)
Lemma run_5 ans rnd a cr (same : bool) : (same = true <-> (q | x - y)) -> cr_ok x08 (s4_r7 rb2) b3 cr ->
  smp4_handle C ans rnd
    (with_state a S4InProgress (Expect4_4 (gk b3) (gk (k3 * (s4_r4 ra2 - s4_r4 rb1))) (gk D) a3))
    (mkTlv TLV_SMP_4 (m4 cr))
  = (with_state a (if same then S4Completed else S4Aborted Error4) Expect4_1, Ok None).
Proof.
  intros SE KR.
  destruct U as (S1 & S2 & S3 & S4 & (N2 & N3 & _) & (M2 & M3 & M4 & M5 & _) & (L1 & L2 & L3 & _) & _).
  apply range_of in S1, S2, S4. destruct S1 as (A2 & A3 & _). destruct S2 as (B2 & B3 & _).
  destruct S4 as (_ & _ & _ & _ & _ & _ & _ & V7).
  apply ne_div in N2, N3, M2, M3, L3.
  unfold smp4_handle, smp4_dispatch. cbn [tlv_type]. change (TLV_SMP_4 =? TLV_SMP_ABORT)%N with false.
  change (TLV_SMP_4 =? TLV_SMP_1)%N with false. change (TLV_SMP_4 =? TLV_SMP_2)%N with false.
  change (TLV_SMP_4 =? TLV_SMP_3)%N with false. change (TLV_SMP_4 =? TLV_SMP_4)%N with true. cbv iota.
  unfold smp4_message_4. unfold with_state at 1. cbn [s4_state tlv_value].
  pose proof KR as (_ & KRR & KNR & KD7).
  unfold m4. rewrite <- (app_nil_r (ws (smp4_d C (s4_r7 rb2) b3 cr))). rd. cbn [done bind].
  rewrite (proj2 (gk_verify (D * b3))) by (now apply mul_div). cbn [of_bool bind].
  rewrite (check_r _ _ _ _ KR). cbn [bind]. rewrite same_scalar_ok by (clear - KRR KNR; lia). cbn [bind].
  rewrite gk_mul by assumption.
  replace (same_pt _ _) with same; [destruct same; reflexivity|].
  apply Bool.eq_iff_eq_true. rewrite gk_same. rewrite SE. symmetry. apply verdict_eq'.
Qed.

Lemma run_all ans_a ans_b a b secret_a secret_b question ra3 (same : bool) :
  s4_status a <> S4InProgress -> idle4 b -> smp4_peers a b ->
  (N.of_nat (length question) < 4294967296)%N -> ans_b question = Some secret_b ->
  smp4_secret C (s4_us a) (s4_them a) (s4_ssid a) secret_a = Ok x ->
  smp4_secret C (s4_us a) (s4_them a) (s4_ssid a) secret_b = Ok y ->
  (same = true <-> (q | x - y)) ->
  honest_run4 C ans_a ans_b a b secret_a question ra1 rb1 ra2 rb2 ra3
    (if same then S4Completed else S4Aborted Error4) (if same then S4Completed else S4Aborted Differ4).
Proof.
  intros NS ID (P1 & P2 & P3) QL AE XE YE SE.
  destruct (run_1 a secret_a question NS XE) as (c2 & c3 & K2 & K3 & E1).
  destruct (run_2 ans_b b secret_b question c2 c3 ID QL AE) as (e2 & e3 & cp & H2 & H3 & HP & E2);
    [now rewrite <- P1, <- P2, <- P3|exact K2|exact K3|].
  destruct (run_3 ans_a a e2 e3 cp H2 H3 HP) as (cp' & cr & HP' & HR & E3).
  destruct (run_4 ans_b b cp' cr same SE HP' HR) as (cr' & HR' & E4).
  pose proof (run_5 ans_a ra3 a cr' same SE HR') as E5.
  unfold honest_run4. do 9 eexists. repeat (split; [eassumption|]). repeat split; reflexivity.
Qed.
End Steps.
End WithCrypto.
