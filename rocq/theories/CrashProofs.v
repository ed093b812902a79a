(* When the primitives panic. *)
From Verif Require Import Base BaseLemmas Types Crypto CryptoProofs Encoding ClientProfile Messages Fragment KeyManager
  KeyManagerProofs DataV3 DataV3Proofs Ratchet DataV4 DataV4Proofs AKE DAKE SMP SMP4 SpecWire SpecCurve SpecData3
  SpecData4 SpecSMP SpecSMP4 SpecDAKE EdGroup PointProofs RingProofs SpecCrash.
From Coq Require Import Znumtheory.
Local Open Scope Z_scope.

Section WithCrypto.
Context (C : Crypto) (GO : smp4_group C).

Lemma cr_CO : curve_ok C. Proof. apply GO. Qed.
Lemma cr_q : 0 < c_ed_q C. Proof. apply cr_CO. Qed.

Lemma q_odd : exists h, 0 <= h /\ c_ed_q C = 2 * h + 1.
Proof.
  assert (P : prime (c_ed_q C)) by apply GO. assert (Q : 2 < c_ed_q C) by apply GO.
  destruct (Zeven_odd_dec (c_ed_q C)) as [E|E].
  - exfalso. apply Zeven_ex in E. destruct E as [m M].
    assert (D : (2 | c_ed_q C)) by (exists m; lia). apply prime_divisors in D; [|exact P]. lia.
  - apply Zodd_ex in E. destruct E as [m M]. exists m. lia.
Qed.

(* no point of the subgroup has the second coordinate zero *)
Lemma subgroup_py b : pt_valid C b -> pt_mul C b (c_ed_q C) = pt_id -> py b <> 0.
Proof.
  intros V O Y0. pose proof cr_CO as CO. destruct q_odd as (h & H & Q).
  set (b2 := pt_add C b b). assert (V2 : pt_valid C b2) by (apply (valid_add C CO); assumption).
  assert (X2 : px b2 = 0) by (apply (double_y0 C CO); assumption).
  assert (F4 : pt_add C b2 b2 = pt_id) by (apply (double_x0 C CO); assumption).
  assert (E2 : b2 = pt_mul C b 2).
  { change 2 with (1 + 1). rewrite (mul_add C CO) by (assumption || lia). rewrite (mul_1 C). reflexivity. }
  assert (E4 : pt_mul C b 4 = pt_id).
  { change 4 with (2 + 2). rewrite (mul_add C CO) by (assumption || lia). now rewrite <- E2. }
  assert (EB : b = pt_id).
  { rewrite <- (mul_1 C b). replace (pt_mul C b 1) with (pt_mul C b (4 * (h * h + h) + 1)).
    - replace (4 * (h * h + h) + 1) with (c_ed_q C * c_ed_q C) by (rewrite Q; ring).
      rewrite <- (mul_mul C CO) by assumption. rewrite O. apply (mul_id C CO).
    - rewrite (mul_add C CO) by (assumption || nia). rewrite <- (mul_mul C CO) by assumption. rewrite E4, (mul_id C CO).
      apply (add_id_l C). }
  rewrite EB in Y0. discriminate Y0.
Qed.
Lemma py_encode b : pt_valid C b -> py b <> 0 -> all_zero (pt_encode b) = false.
Proof.
  intros (_ & Y & _) N. destruct (all_zero (pt_encode b)) eqn:Z0; [|reflexivity]. exfalso. apply N.
  unfold pt_encode in Z0. apply all_zero_iff in Z0. apply Forall_app in Z0. destruct Z0 as [Z0 _].
  apply all_zero_iff, le_val_zero in Z0. rewrite le_val_le_bytes in Z0.
  assert (P : c_ed_p C <= 2 ^ 448) by apply GO.
  assert (B : (Z.to_N (py b) < 256 ^ N.of_nat 56)%N).
  { change (256 ^ N.of_nat 56)%N with (Z.to_N (2 ^ 448)). apply Z2N.inj_lt; [apply Y|now apply Z.pow_nonneg|].
    eapply Z.lt_le_trans; [apply Y|exact P]. }
  rewrite N.mod_small in Z0 by exact B. destruct Y as [Y _]. clear - Z0 Y. lia.
Qed.
Lemma verify_order a : pt_verify C a = true -> pt_mul C a (c_ed_q C) = pt_id.
Proof. intros V. now apply (verify_iff C) in V. Qed.
Lemma verified_mul_encode a s : pt_valid C a -> pt_verify C a = true -> all_zero (pt_encode (pt_mul C a s)) = false.
Proof.
  intros V P. pose proof cr_CO as CO. assert (VM : pt_valid C (pt_mul C a s)) by (apply (valid_mul C CO); assumption).
  apply py_encode; [exact VM|]. apply subgroup_py; [exact VM|]. rewrite (mul_comm C CO) by assumption.
  rewrite (verify_order a P). apply (mul_id C CO).
Qed.
Lemma verified_encode a : pt_valid C a -> pt_verify C a = true -> all_zero (pt_encode a) = false.
Proof. intros V P. rewrite <- (mul_1 C a). now apply verified_mul_encode. Qed.

(** ** Hashes and random values *)

Lemma hash_panic u data : hash_to_scalar C u data = Panic -> zero_scalar C u data.
Proof.
  unfold hash_to_scalar, decode_scalar, zero_scalar. change hwc with kdf. destruct (all_zero _) eqn:Z0; [|discriminate].
  intros _. rewrite (le_val_zero _ Z0). apply Z.mod_0_l. pose proof cr_q. lia.
Qed.
Lemma hash_ok u data c : hash_to_scalar C u data = Ok c -> c = (Z.of_N (le_val (kdf C 57 u data)) mod c_ed_q C)%Z.
Proof. unfold hash_to_scalar, decode_scalar. change hwc with kdf. destruct (all_zero _); [discriminate|]. congruence. Qed.
Lemma compare_panic a b : compare_scalars a b = Panic -> (a = 0 /\ b <> 0) \/ (a <> 0 /\ b = 0).
Proof.
  unfold compare_scalars. destruct (Bool.eqb (a =? 0) (b =? 0)) eqn:E; [discriminate|]. intros _.
  apply Bool.eqb_false_iff in E. destruct (Z.eqb_spec a 0), (Z.eqb_spec b 0); try congruence; tauto.
Qed.
Lemma prune_panic v : length v = 57%nat \/ length v = 114%nat -> prune v = Panic -> all_zero (firstn 57 v) = true.
Proof.
  intros L. unfold prune. destruct (Nat.ltb_spec (length v) 57); [exfalso; lia|].
  destruct (all_zero (firstn 57 v)); [reflexivity|discriminate].
Qed.
Lemma prune_nonzero v w : (57 <= length v)%nat -> prune v = Ok w -> all_zero w = false.
Proof.
  intros L. unfold prune. destruct (Nat.ltb _ _); [discriminate|]. destruct (all_zero (firstn 57 v)); [discriminate|].
  intros H. assert (E : w = set_nth 56 x00 (set_nth 55 (n2b (N.lor (b2n (nth 55 v x00)) 128))
    (set_nth 0 (n2b (N.land (b2n (nth 0 v x00)) 252)) v))) by congruence. clear H. subst w.
  destruct (all_zero _) eqn:Z0; [|reflexivity]. exfalso.
  apply all_zero_iff in Z0. rewrite Forall_forall in Z0.
  specialize (Z0 (n2b (N.lor (b2n (nth 55 v x00)) 128))). 
  assert (I : n2b (N.lor (b2n (nth 55 v x00)) 128) = x00).
  { apply Z0. set (v1 := set_nth 0 _ v). unfold set_nth at 1.
    apply in_or_app. left. unfold set_nth.
    assert (L1 : (57 <= length v1)%nat).
    { unfold v1, set_nth. rewrite app_length. cbn [length]. rewrite firstn_length, skipn_length. lia. }
    rewrite firstn_app, firstn_length. replace (56 - Nat.min 55 (length v1))%nat with 1%nat by lia.
    apply in_or_app. right. cbn [firstn]. now left. }
  apply (f_equal b2n) in I. assert (B : (N.lor (b2n (nth 55 v x00)) 128 < 256)%N).
  { pose proof (b2n_lt (nth 55 v x00)). destruct (N.eq_dec (N.lor (b2n (nth 55 v x00)) 128) 0) as [->|NZ]; [lia|].
    apply N.log2_lt_pow2 with (b := 8%N); [lia|]. rewrite N.log2_lor. apply N.max_lub_lt; [|reflexivity].
    destruct (N.eq_dec (b2n (nth 55 v x00)) 0) as [->|NZ']; [reflexivity|]. apply N.log2_lt_pow2; lia. }
  rewrite b2n_n2b, N.mod_small in I by exact B. change (b2n x00) with 0%N in I. apply N.lor_eq_0_iff in I. lia.
Qed.
Lemma random_panic rnd : random_in_Zq C rnd = Panic -> all_zero (shake256 C 57 rnd) = true.
Proof.
  unfold random_in_Zq. destruct (all_zero (shake256 C 57 rnd)) eqn:Z0; [reflexivity|]. intros H. exfalso.
  pose proof (shake256_length C 57 rnd) as L.
  destruct (prune (shake256 C 57 rnd)) as [w|x|] eqn:P; cbn [bind] in H.
  - unfold decode_scalar in H. rewrite (prune_nonzero (shake256 C 57 rnd) w) in H by (exact P || lia). discriminate.
  - discriminate.
  - apply prune_panic in P; [|lia]. rewrite firstn_all2 in P by lia. congruence.
Qed.
Lemma random_not_err rnd x : random_in_Zq C rnd <> Err x.
Proof.
  unfold random_in_Zq, prune, decode_scalar. destruct (all_zero _); [discriminate|]. destruct (Nat.ltb _ _); [discriminate|].
  destruct (all_zero _); [discriminate|]. cbn [bind]. destruct (all_zero _); discriminate.
Qed.
Lemma ecdh_panic rnd : ecdh_generate C rnd = Panic -> bad_seed C rnd.
Proof.
  unfold ecdh_generate, bad_seed. intros H. destruct (random_in_Zq C rnd) as [r|x|] eqn:R; cbn [bind] in H.
  - right. exists r. split; [reflexivity|].
    destruct (prune _) as [w|x|] eqn:P in H; cbn [bind] in H; try discriminate.
    apply prune_panic in P; [exact P|right; apply shake256_length].
  - discriminate.
  - left. now apply random_panic.
Qed.
Lemma ecdh_not_err rnd x : ecdh_generate C rnd <> Err x.
Proof.
  unfold ecdh_generate. destruct (random_in_Zq C rnd) eqn:R; cbn [bind]; try discriminate.
  - unfold prune. destruct (Nat.ltb _ _); [discriminate|]. destruct (all_zero _); discriminate.
  - intros _. now apply (random_not_err rnd e).
Qed.

(** ** Ring signatures *)

Lemma ring_text_eq A1 A2 A3 T1 T2 T3 m : ring_hash_input C A1 A2 A3 T1 T2 T3 m = ring_text C A1 A2 A3 T1 T2 T3 m.
Proof. reflexivity. Qed.
Lemma ring_validate_panic sg A1 A2 A3 m : ring_validate C sg A1 A2 A3 m = Panic -> ring_peer C sg \/ ring_chance C sg A1 A2 A3 m.
Proof.
  unfold ring_validate. intros H. cbv zeta in H. unfold ring_peer, ring_chance.
  destruct (hash_to_scalar _ _ _) as [c|x|] eqn:E; cbn [bind] in H; [|discriminate|].
  - destruct (compare_scalars c _) as [b|x|] eqn:K; cbn [bind] in H; [|discriminate|].
    + destruct b; discriminate.
    + apply hash_ok in E. apply compare_panic in K. destruct K as [[K _]|[_ K]]; [right|left; exact K].
      unfold zero_scalar. rewrite <- ring_text_eq. congruence.
  - right. now apply hash_panic in E.
Qed.

Lemma b2z_sum a b c A1 A2 A3 own : bytes_eqb (pt_encode own) (pt_encode A1) = a -> bytes_eqb (pt_encode own) (pt_encode A2) = b ->
  bytes_eqb (pt_encode own) (pt_encode A3) = c -> (b2z a + b2z b + b2z c = Z.of_nat (length (in_ring own [A1; A2; A3])))%Z.
Proof. intros <- <- <-. unfold in_ring. cbn [filter]. repeat destruct (bytes_eqb _ _); reflexivity. Qed.

Lemma ring_sign_panic kp A1 A2 A3 m rnd : pt_valid C A1 -> pt_valid C A2 -> pt_valid C A3 ->
  In (ed_public kp) [A1; A2; A3] ->
  ring_sign C kp A1 A2 A3 m rnd = Panic -> sign_peer kp A1 A2 A3 \/ sign_chance C kp A1 A2 A3 m rnd.
Proof.
  intros V1 V2 V3 I. unfold ring_sign. cbv zeta.
  destruct (pt_verify C A1) eqn:P1; [|discriminate]. destruct (pt_verify C A2) eqn:P2; [|discriminate].
  destruct (pt_verify C A3) eqn:P3; [|discriminate]. cbn [of_bool bind].
  pose proof (verified_encode _ V1 P1) as Z1. pose proof (verified_encode _ V2 P2) as Z2.
  pose proof (verified_encode _ V3 P3) as Z3.
  assert (Z0 : all_zero (pt_encode (ed_public kp)) = false) by (destruct I as [<-|[<-|[<-|[]]]]; assumption).
  unfold same_point. rewrite Z0, Z1, Z2, Z3. cbn [orb bind].
  pose proof (b2z_sum _ _ _ A1 A2 A3 (ed_public kp) eq_refl eq_refl eq_refl) as S. rewrite S.
  destruct (Z.eqb_spec (Z.of_nat (length (in_ring (ed_public kp) [A1; A2; A3]))) 1) as [E|N]; cbn [negb].
  2: { intros _. left. unfold sign_peer. lia. }
  intros H. right. destruct (hash_to_scalar _ _ _) as [c|x|] eqn:HH in H; cbn [bind] in H; try discriminate.
  clear H. apply hash_panic in HH. unfold sign_chance. cbv zeta. revert HH. rewrite ring_text_eq.
  assert (T : forall A rr cc, pt_add C (pt_mul C (c_ed_g C) (b2z (bytes_eqb (pt_encode (ed_public kp)) (pt_encode A)) * rr_t rnd))
      (pt_add C (pt_mul C (c_ed_g C) ((1 - b2z (bytes_eqb (pt_encode (ed_public kp)) (pt_encode A))) * rr))
                (pt_mul C A ((1 - b2z (bytes_eqb (pt_encode (ed_public kp)) (pt_encode A))) * cc)))
    = if bytes_eqb (pt_encode (ed_public kp)) (pt_encode A) then pt_mul C (c_ed_g C) (rr_t rnd)
      else pt_add C (pt_mul C (c_ed_g C) rr) (pt_mul C A cc)).
  { clear. intros A rr cc. destruct (bytes_eqb (pt_encode (ed_public kp)) (pt_encode A)); cbn [b2z].
    - rewrite Z.mul_1_l. cbn [Z.sub Z.add Z.opp Z.pos_sub Z.mul]. rewrite !(mul_0 C).
      rewrite (add_id_l C). apply (add_id_r C).
    - rewrite Z.sub_0_r, !Z.mul_1_l, Z.mul_0_l, (mul_0 C). apply (add_id_l C). }
  rewrite !T. trivial.
Qed.

(** ** Mixed secrets *)

Lemma mixed_next_panic ecdh dh y b third brace : pt_valid C y -> mixed_next C ecdh dh y b third brace = Panic ->
  third = false /\ all_zero brace = true.
Proof.
  intros V. unfold mixed_next. destruct (pt_verify C y) eqn:P; [|discriminate]. cbn [of_bool bind].
  destruct (dh3_verify C b); [|discriminate]. cbn [of_bool bind]. unfold ecdh_shared.
  rewrite (verified_mul_encode y (ec_private ecdh) V P). destruct third; [discriminate|].
  destruct (all_zero brace); [auto|discriminate].
Qed.
Lemma mixed_new_panic ecdh dh y b : pt_valid C y -> mixed_new C ecdh dh y b <> Panic.
Proof. intros V H. apply mixed_next_panic in H; [|exact V]. now destruct H. Qed.

Lemma rotate_sender_panic d er dr now : pt_valid C (mx_public_ecdh (dr_shared d)) ->
  pt_verify C (mx_public_ecdh (dr_shared d)) = true -> dh3_verify C (mx_public_dh (dr_shared d)) = true ->
  dr_next d = SENDER -> dr_rotate_sender C d er dr now = Panic ->
  bad_seed C er \/ ((dr_i d mod 3 <> 0)%N /\ all_zero (mx_brace_key (dr_shared d)) = true) \/ dr_i d = LAST32.
Proof.
  intros V P D SN. unfold dr_rotate_sender. rewrite SN. cbn [selector_eqb negb]. intros H.
  unfold mixed_rotate_keypairs in H. destruct (ecdh_generate C er) as [k|x|] eqn:E; cbn [bind] in H.
  - destruct (mixed_next C k _ _ _ _ _) as [sh|x|] eqn:M in H; cbn [expect bind] in H.
    + unfold u32_succ in H. destruct (N.eqb_spec (dr_i d) 4294967295) as [I|I]; [|discriminate]. right. right. exact I.
    + exfalso. unfold mixed_next in M. rewrite P, D in M. cbn [of_bool bind] in M. destruct (all_zero _); [discriminate|].
      destruct (_ =? 0)%N; [discriminate|]. destruct (all_zero _); discriminate.
    + right. left. apply mixed_next_panic in M; [|exact V]. destruct M as [M1 M2]. split; [|exact M2].
      intros M3. rewrite M3 in M1. discriminate.
  - exfalso. now apply (ecdh_not_err er x).
  - left. now apply ecdh_panic.
Qed.

End WithCrypto.
