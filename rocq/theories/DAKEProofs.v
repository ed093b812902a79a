(* The OTRv4 key exchange: what each handler accepts, and the honest exchange. *)
From Coq Require Import Lia ZifyN ZifyNat.
From Verif Require Import Base BaseLemmas Types Crypto CryptoProofs Encoding EncodingProofs ClientProfile
  ClientProfileProofs Messages SpecWire DataV3 Ratchet DataV4 SpecCurve EdGroup SpecData4 DataV4Proofs
  History4Proofs Conv4Proofs DAKE SpecDAKE RingProofs.
Local Open Scope N_scope.

Section WithCrypto.
Context (C : Crypto).

Lemma ok_inj {A} (a b : A) : Ok a = Ok b -> a = b.
Proof. congruence. Qed.

(** ** Texts *)

Lemma auth_r_text_eq v :
  dake_t_keys C x00 USAGE_AUTH_R_BOB_CLIENT_PROFILE USAGE_AUTH_R_ALICE_CLIENT_PROFILE
    (vw_bob v) (vw_alice v) (vw_y v) (vw_x v) (vw_b v) (vw_a v)
  ++ dake_phi C USAGE_AUTH_R_PHI (vw_alice_tag v) (vw_bob_tag v) (vw_alice_ecdh0 v) (vw_alice_dh0 v)
       (vw_bob_ecdh0 v) (vw_bob_dh0 v) (vw_alice_name v) (vw_bob_name v)
  = auth_r_text C v.
Proof.
  unfold dake_t_keys, dake_phi, auth_r_text, dake_keys_text, half_phi. rewrite <- ?app_assoc. cbn [app].
  rewrite <- ?app_assoc. reflexivity.
Qed.
Lemma auth_i_text_eq v :
  dake_t_keys C x01 USAGE_AUTH_I_BOB_CLIENT_PROFILE USAGE_AUTH_I_ALICE_CLIENT_PROFILE
    (vw_bob v) (vw_alice v) (vw_y v) (vw_x v) (vw_b v) (vw_a v)
  ++ dake_phi C USAGE_AUTH_I_PHI (vw_bob_tag v) (vw_alice_tag v) (vw_bob_ecdh0 v) (vw_bob_dh0 v)
       (vw_alice_ecdh0 v) (vw_alice_dh0 v) (vw_bob_name v) (vw_alice_name v)
  = auth_i_text C v.
Proof.
  unfold dake_t_keys, dake_phi, auth_i_text, dake_keys_text, half_phi. rewrite <- ?app_assoc. cbn [app].
  rewrite <- ?app_assoc. reflexivity.
Qed.

(** ** Validation *)

Lemma validate_keys_iff p y b e d cp :
  validate_keys C p y b e d = Ok cp <-> offer_ok C p cp y b e d.
Proof.
  unfold validate_keys, offer_ok. rewrite <- payload_validate_iff.
  destruct (payload_validate C p) as [c| |]; cbn [bind]; [|split; [discriminate|intros [H _]; discriminate H]..].
  destruct (pt_verify C y), (dh3_verify C b), (pt_verify C e), (dh3_verify C d); cbn [of_bool bind];
    (split; [intros H; first [discriminate H|exact (conj H (conj eq_refl (conj eq_refl (conj eq_refl eq_refl))))]
            |intros (H & ? & ? & ? & ?); first [discriminate|exact H]]).
Qed.

Lemma ecdh_generate_ok r k : ecdh_generate C r = Ok k -> exists s, k = ecdh_of_secret C s.
Proof.
  unfold ecdh_generate. intros H. destruct (random_in_Zq C r) as [z| |]; cbn [bind] in H; try discriminate H.
  destruct (prune _) as [bf| |]; cbn [bind] in H; try discriminate H. apply ok_inj in H. eauto.
Qed.
Lemma prune_not_err v e : prune v <> Err e.
Proof. unfold prune. destruct (Nat.ltb _ _); [discriminate|]. destruct (all_zero _); discriminate. Qed.
Lemma ecdh_generate_not_err r e : ecdh_generate C r <> Err e.
Proof.
  unfold ecdh_generate, random_in_Zq, decode_scalar.
  destruct (all_zero (shake256 C 57 r)); cbn [bind]; [discriminate|].
  destruct (prune (shake256 C 57 r)) eqn:E; cbn [bind]; try discriminate; [|now apply prune_not_err in E].
  destruct (all_zero a); cbn [bind]; [discriminate|].
  destruct (prune (shake256 C 114 _)) eqn:E2; cbn [bind]; try discriminate. now apply prune_not_err in E2.
Qed.

Lemma mixed_not_err e d y b third br x :
  pt_verify C y = true -> dh3_verify C b = true -> mixed_next C e d y b third br <> Err x.
Proof.
  intros V1 V2. unfold mixed_next. rewrite V1, V2. cbn [of_bool bind].
  destruct (all_zero _); [discriminate|]. destruct third; cbn [bind]; [discriminate|].
  destruct (all_zero br); cbn [bind]; discriminate.
Qed.

Lemma mixed_new_key e d y b s : mixed_new C e d y b = Ok s ->
  mx_k s = mixed_key C (ecdh_shared C e y) (dh3_shared C d b).
Proof.
  unfold mixed_new. intros H. apply mixed_next_ok in H.
  destruct H as (_ & _ & _ & _ & _ & _ & _ & _ & B & K). rewrite K, B. reflexivity.
Qed.

(** ** The states *)

Definition waiting_ok (w : awaiting_auth_i) : Prop :=
  exists bob x a shared,
    offer_ok C (wi_profile_bob w) bob (wi_y w) (wi_b w) (wi_ecdh0_other w) (wi_dh0_other w) /\
    wi_x w = ec_public x /\ wi_a w = dh3_public a /\ mixed_new C x a (wi_y w) (wi_b w) = Ok shared /\
    wi_k w = mx_k shared.

Lemma answer_ok h rnd ring m bob account contact w r :
  identity_validate C m = Ok bob ->
  answer_identity C h rnd ring m bob account contact = Ok (w, r) -> waiting_ok w.
Proof.
  intros V H. unfold answer_identity in H.
  destruct (decode_profile C (dh_profile h)) as [p| |]; cbn [bind] in H; try discriminate H.
  destruct (ecdh_generate C (dn_ecdh rnd)) as [x| |]; cbn [bind] in H; try discriminate H.
  destruct (payload_validate C p) as [cp| |]; cbn [bind] in H; try discriminate H.
  destruct (ecdh_generate C (dn_ecdh0 rnd)) as [x0| |]; cbn [bind] in H; try discriminate H.
  destruct (ring_sign _ _ _ _ _ _ _) as [sg| |]; cbn [bind] in H; try discriminate H.
  destruct (mixed_new _ _ _ _ _) as [sh| |] eqn:MX; cbn [bind] in H; try discriminate H.
  apply ok_inj in H. assert (W := f_equal fst H). cbn [fst] in W. subst w. clear H.
  apply validate_keys_iff in V.
  exists bob, x, (dh3_generate C (dn_dh rnd)), sh.
  cbn [wi_profile_bob wi_y wi_b wi_ecdh0_other wi_dh0_other wi_x wi_a wi_k]. auto.
Qed.

Lemma identity_state h rnd ring st m account contact st' r :
  dake_handle_identity C h rnd ring st m account contact = (st', r) ->
  (st' = st /\ forall ar, r <> Ok (ReplyAuthR ar)) \/
  (exists bob w ar, identity_validate C m = Ok bob /\
     answer_identity C h rnd ring m bob account contact = Ok (w, ar) /\
     st' = DakeAwaitingAuthI w /\ r = Ok (ReplyAuthR ar)).
Proof.
  unfold dake_handle_identity. destruct (identity_validate C m) as [bob|e|] eqn:V; [|intros H; left..].
  2, 3: injection H as <- <-; split; [reflexivity|discriminate].
  cbv zeta.
  destruct (answer_identity C h rnd ring m bob account contact) as [[w ar]|e|] eqn:A; intros H.
  - assert (X : (st' = st /\ exists i, r = Ok (ReplyIdentity i)) \/ (st' = DakeAwaitingAuthI w /\ r = Ok (ReplyAuthR ar))).
    { destruct st as [|w'|w']; [right|destruct (_ <? _); [left|right]|right]; injection H as <- <-; eauto. }
    destruct X as [[-> [i ->]]|[-> ->]]; [left; split; [reflexivity|discriminate]|]. right. exists bob, w, ar. auto.
  - left. destruct st as [|w'|w']; [|destruct (_ <? _)|]; injection H as <- <-; split; auto; discriminate.
  - left. destruct st as [|w'|w']; [|destruct (_ <? _)|]; injection H as <- <-; split; auto; discriminate.
Qed.

Lemma dake_run_inv h account contact st : dake_run C h account contact st ->
  match st with DakeAwaitingAuthI w => waiting_ok w | _ => True end.
Proof.
  induction 1 as [|st rnd st' r R IH H _|st st' R IH H|st rnd ring m st' r R IH H _
                  |st ring er dr now m st' r R IH H _|st now m st' r R IH H _].
  - exact I.
  - destruct st as [|w|w]; cbn [dake_initiate] in H; [|injection H as <- <-; exact IH..].
    match type of H with match ?x with _ => _ end = _ => destruct x end; injection H as <- <-; exact I.
  - destruct st; cbn [dake_transfer] in H; try discriminate H. apply ok_inj in H. subst st'. exact I.
  - apply identity_state in H. destruct H as [[-> _]|(bob & w & ar & V & A & -> & _)]; [exact IH|].
    eapply answer_ok; eassumption.
  - destruct st as [|w|w]; cbn [dake_handle_auth_r] in H; [injection H as <- <-; exact IH| |injection H as <- <-; exact IH].
    match type of H with match ?x with _ => _ end = _ => destruct x end; injection H as <- <-; exact I.
  - destruct st as [|w|w]; cbn [dake_handle_auth_i] in H; injection H as <- <-; exact IH.
Qed.

(** ** What completes the exchange *)

Context (CO : curve_ok C).

Lemma auth_r_needs_proof h ring er dr now st m account contact st' mat i :
  dake_handle_auth_r C h ring er dr now st m account contact = (st', Ok (mat, i)) ->
  exists w alice bob d,
    st = DakeAwaitingAuthR w /\ st' = DakeInitial /\
    payload_accepted C (wr_payload w) bob /\
    offer_ok C (ar_profile m) alice (ar_x m) (ar_a m) (ar_ecdh0 m) (ar_dh0 m) /\
    ring_valid C (ar_sigma m) (cp_forging bob) (cp_identity alice) (ec_public (wr_y w))
      (auth_r_text C (bob_view w m bob alice account contact)) /\
    session_from C RECEIVER
      (mixed_key C (ecdh_shared C (wr_y w) (ar_x m)) (dh3_shared C (wr_b w) (ar_a m)))
      (wr_ecdh0 w) (wr_dh0 w) (ar_ecdh0 m) (ar_dh0 m) now (dm_ssid mat) d /\
    dr_rotate_sender C d er dr now = Ok (dm_ratchet mat) /\
    dm_us mat = profile_fingerprint C bob /\ dm_them mat = profile_fingerprint C alice.
Proof.
  destruct st as [|w|w]; cbn [dake_handle_auth_r]; intros H; try discriminate H.
  match type of H with match ?x with _ => _ end = _ => destruct x as [[mat' i']| |] eqn:E end; try discriminate H.
  assert (st' = DakeInitial) by congruence. assert (mat' = mat) by congruence. subst st' mat'. clear H.
  destruct (authr_validate C m) as [alice| |] eqn:V; cbn [bind] in E; try discriminate E.
  destruct (payload_validate C (wr_payload w)) as [bob| |] eqn:V2; cbn [bind] in E; try discriminate E.
  destruct (ring_validate _ _ _ _ _ _) as [[]| |] eqn:RV; cbn [bind] in E; try discriminate E.
  destruct (ring_sign _ _ _ _ _ _ _) as [sg| |] eqn:RS; cbn [bind] in E; try discriminate E.
  destruct (mixed_new C (wr_y w) _ _ _) as [s1| |] eqn:M1; cbn [bind] in E; try discriminate E.
  destruct (mixed_new C (wr_ecdh0 w) _ _ _) as [s2| |] eqn:M2; cbn [bind] in E; try discriminate E.
  destruct (dr_rotate_sender _ _ _ _ _) as [d| |] eqn:RO; cbn [bind] in E; try discriminate E.
  apply ok_inj in E. assert (W := f_equal fst E). cbn [fst] in W. subst mat. clear E.
  apply validate_keys_iff in V. apply payload_validate_iff in V2. apply ring_validate_iff in RV; [|exact CO].
  exists w, alice, bob, (dr_initialize C RECEIVER s2 (dake_root C (mx_k s1)) now).
  cbn [dm_ssid dm_ratchet dm_us dm_them].
  split; [reflexivity|]. split; [reflexivity|]. split; [exact V2|]. split; [exact V|].
  split; [rewrite <- auth_r_text_eq; exact RV|].
  split; [split; [rewrite <- (mixed_new_key _ _ _ _ _ M1); reflexivity|]|].
  - exists s2. split; [exact M2|]. rewrite <- (mixed_new_key _ _ _ _ _ M1). reflexivity.
  - split; [exact RO|]. split; reflexivity.
Qed.

Lemma auth_i_needs_proof h now st m account contact st' mat :
  dake_run C h account contact st ->
  dake_handle_auth_i C now st m account contact = (st', Ok mat) ->
  exists w alice bob x a,
    st = DakeAwaitingAuthI w /\ st' = st /\
    payload_accepted C (wi_profile_alice w) alice /\ ec_public x = wi_x w /\ dh3_public a = wi_a w /\
    offer_ok C (wi_profile_bob w) bob (wi_y w) (wi_b w) (wi_ecdh0_other w) (wi_dh0_other w) /\
    ring_valid C (ai_sigma m) (cp_identity bob) (cp_forging alice) (wi_x w)
      (auth_i_text C (alice_view w bob alice account contact)) /\
    session_from C SENDER
      (mixed_key C (ecdh_shared C x (wi_y w)) (dh3_shared C a (wi_b w)))
      (wi_ecdh0 w) (wi_dh0 w) (wi_ecdh0_other w) (wi_dh0_other w) now (dm_ssid mat) (dm_ratchet mat) /\
    dm_us mat = profile_fingerprint C alice /\ dm_them mat = profile_fingerprint C bob.
Proof.
  intros R. apply dake_run_inv in R.
  destruct st as [|w|w]; cbn [dake_handle_auth_i]; intros H; try discriminate H.
  destruct R as (bob & x & a & s1 & O & X & A & M1 & K).
  injection H as <- E.
  destruct (payload_validate C (wi_profile_alice w)) as [alice| |] eqn:V; cbn [bind] in E; try discriminate E.
  destruct (payload_validate C (wi_profile_bob w)) as [bob'| |] eqn:V2; cbn [bind] in E; try discriminate E.
  assert (bob' = bob). { destruct O as [O _]. apply payload_validate_iff in O. congruence. } subst bob'.
  destruct (ring_validate _ _ _ _ _ _) as [[]| |] eqn:RV; cbn [bind] in E; try discriminate E.
  destruct (mixed_new C (wi_ecdh0 w) _ _ _) as [s2| |] eqn:M2; cbn [bind] in E; try discriminate E.
  apply ok_inj in E. subst mat. apply payload_validate_iff in V. apply ring_validate_iff in RV; [|exact CO].
  exists w, alice, bob, x, a. cbn [dm_ssid dm_ratchet dm_us dm_them].
  split; [reflexivity|]. split; [reflexivity|]. split; [exact V|]. split; [now symmetry|]. split; [now symmetry|].
  split; [exact O|]. split; [rewrite <- auth_i_text_eq; exact RV|].
  rewrite <- (mixed_new_key _ _ _ _ _ M1), <- K.
  split; [|split; reflexivity]. split; [reflexivity|]. exists s2. split; [exact M2|reflexivity].
Qed.

End WithCrypto.

Lemma dake_failure_no_effect C h rnd ring er dr now st account contact st' e :
  (dake_initiate C h rnd st = (st', Err e) -> st' = st) /\
  (forall m, dake_handle_identity C h rnd ring st m account contact = (st', Err e) -> st' = st) /\
  (forall m, dake_handle_auth_r C h ring er dr now st m account contact = (st', Err e) -> st' = st) /\
  (forall m, dake_handle_auth_i C now st m account contact = (st', Err e) -> st' = st).
Proof.
  split; [|split; [|split]].
  - intros H. destruct st as [|w|w]; cbn [dake_initiate] in H; [|congruence..].
    match type of H with match ?x with _ => _ end = _ => destruct x end; congruence.
  - intros m H. apply identity_state in H. destruct H as [[-> _]|(? & ? & ? & _ & _ & _ & E)]; [reflexivity|discriminate E].
  - intros m H. destruct st as [|w|w]; cbn [dake_handle_auth_r] in H; [congruence| |congruence].
    match type of H with match ?x with _ => _ end = _ => destruct x as [[]| |] end; congruence.
  - intros m H. destruct st as [|w|w]; cbn [dake_handle_auth_i] in H; congruence.
Qed.
