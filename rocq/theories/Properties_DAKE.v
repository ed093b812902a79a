(* C29-C32 and C34: the OTRv4 key exchange.  Only statements, references to their proofs, and examples
   showing that the hypotheses are met.  Bob sends Identity and Auth-I, Alice sends Auth-R. *)
From Verif Require Import Base BaseLemmas Types Crypto ToyCrypto Encoding ClientProfile ClientProfileProofs Messages
  SpecWire WireLemmas KeyManager DataV3 Ratchet DataV4 SpecCurve SpecData4 Data4Examples DAKE SpecDAKE RingProofs
  DAKEProofs DAKEConvProofs DAKELemmas DAKEExamples.
From Coq Require Import Lia ZifyN ZifyNat.
Local Open Scope N_scope.

(** * C29: agreement *)

(* For all working profiles, identity and forging keys, account names and random values: if the three
   messages are delivered, the exchange completes on both sides with the same session id, with ratchets
   from which a conversation (C21) can start, and each other's identity.  Alice may have been in any
   state in which she does not prefer an exchange of her own (C31).  Excluded are keys and challenges
   with which the peer must not go on (neutral elements, zero challenges); a random value that hashes to
   zero makes the sender itself stop with a crash. *)
Theorem C29_agreement : forall C ha hb alice bob na nb,
  groups_ok4 C -> working_host C ha alice -> working_host C hb bob ->
  forall rb sb idm st ra ringa,
  dake_initiate C hb rb DakeInitial = (sb, Ok idm) ->
  good_keys C (id_y idm) (id_b idm) (id_ecdh0 idm) (id_dh0 idm) ->
  answers4 C st idm -> ring_rnd_ok C ringa ->
  (forall e, snd (dake_handle_identity C ha ra ringa st idm na nb) <> Err e) /\
  forall sa r, dake_handle_identity C ha ra ringa st idm na nb = (sa, Ok r) ->
  exists ar, r = ReplyAuthR ar /\
  (good_keys C (ar_x ar) (ar_a ar) (ar_ecdh0 ar) (ar_dh0 ar) -> good_ring C (ar_sigma ar) ->
   forall ringb er dr now, ring_rnd_ok C ringb ->
   (forall e, snd (dake_handle_auth_r C hb ringb er dr now sb ar nb na) <> Err e) /\
   forall sb' mb i, dake_handle_auth_r C hb ringb er dr now sb ar nb na = (sb', Ok (mb, i)) ->
   good_ring C (ai_sigma i) ->
   forall now', exists ma, dake_handle_auth_i C now' sa i na nb = (sa, Ok ma) /\ dake_agree C alice bob ma mb).
Proof. intros C ha hb alice bob na nb G WA WB. exact (exchange C G ha hb alice bob na nb WA WB). Qed.
Print Assumptions C29_agreement.

(* A client with a working profile can start an exchange. *)
Theorem C29_start : forall C h cp rnd e,
  groups_ok4 C -> working_host C h cp -> snd (dake_initiate C h rnd DakeInitial) <> Err e.
Proof. intros C h cp rnd e G. exact (initiate_not_err C G h cp rnd e). Qed.
Print Assumptions C29_start.

Example C29_ex :
  groups_ok4 toy /\ working_host toy xd_ha xd_alice /\ working_host toy xd_hb xd_bob /\
  ring_rnd_ok toy xd_r1 /\ ring_rnd_ok toy xd_r2 /\
  dake_initiate toy xd_hb xd_rb DakeInitial = (xd_b1, Ok xd_id) /\
  good_keys toy (id_y xd_id) (id_b xd_id) (id_ecdh0 xd_id) (id_dh0 xd_id) /\
  dake_handle_identity toy xd_ha xd_ra xd_r1 DakeInitial xd_id xd_na xd_nb = (xd_a1, Ok (ReplyAuthR xd_authr)) /\
  good_keys toy (ar_x xd_authr) (ar_a xd_authr) (ar_ecdh0 xd_authr) (ar_dh0 xd_authr) /\
  good_ring toy (ar_sigma xd_authr) /\
  dake_handle_auth_r toy xd_hb xd_r2 [x15] 25 xd_now xd_b1 xd_authr xd_nb xd_na
    = (DakeInitial, Ok (xd_mat_b, xd_authi)) /\
  good_ring toy (ai_sigma xd_authi) /\
  dake_handle_auth_i toy xd_now xd_a1 xd_authi xd_na xd_nb = (xd_a1, Ok xd_mat_a) /\
  dm_ssid xd_mat_a = dm_ssid xd_mat_b /\ length (dm_ssid xd_mat_a) = 8%nat.
Proof.
  split; [exact ex4_groups|]. split; [exact xd_host_a|]. split; [exact xd_host_b|]. split; [exact xd_rnd1|].
  split; [exact xd_rnd2|]. split; [exact xd_step1|]. split; [vm_compute; auto|]. split; [exact xd_step2|].
  split; [vm_compute; auto|]. split; [vm_compute; discriminate|]. split; [exact xd_step3|].
  split; [vm_compute; discriminate|]. split; [exact xd_step4|]. split; reflexivity.
Qed.

(** * C30: proofs *)

(* An Auth-R completes the exchange only in the state that waits for it, only if the peer's profile
   validates, the four keys are proper group elements, and the ring signature covers both profiles, all
   keys, both instance tags and both names, by one of: our forging key, the peer's identity key, our
   ephemeral key.  The session is the one derived from these keys. *)
Theorem C30_auth_r_proves : forall C h ring er dr now st m account contact st' mat i,
  curve_ok C ->
  dake_handle_auth_r C h ring er dr now st m account contact = (st', Ok (mat, i)) ->
  exists w alice bob d,
    st = DakeAwaitingAuthR w /\ st' = DakeInitial /\
    payload_accepted C (wr_payload w) bob /\
    offer_ok C (ar_profile m) alice (ar_x m) (ar_a m) (ar_ecdh0 m) (ar_dh0 m) /\
    ring_valid C (ar_sigma m) (cp_forging bob) (cp_identity alice) (ec_public (wr_y w))
      (auth_r_text C (bob_view w m bob alice account contact)) /\
    session_from C RECEIVER
      (mixed_key C (ecdh_shared C (wr_y w) (ar_x m)) (dh3_shared C (wr_b w) (ar_a m)))
      (wr_ecdh0 w) (wr_dh0 w) (ar_ecdh0 m) (ar_dh0 m) now (dm_ssid mat) d /\
    dr_rotate_sender C d er dr now = Ok (dm_ratchet mat) /\
    dm_us mat = profile_fingerprint C bob /\ dm_them mat = profile_fingerprint C alice.
Proof. intros C h ring er dr now st m account contact st' mat i CO. exact (auth_r_needs_proof C CO _ _ _ _ _ _ _ _ _ _ _ _). Qed.
Print Assumptions C30_auth_r_proves.

(* An Auth-I likewise, after any history: the profile and keys of the Identity message that was answered
   had been validated, and the signature is by one of: the peer's identity key, our forging key, our
   ephemeral key. *)
Theorem C30_auth_i_proves : forall C h now st m account contact st' mat,
  curve_ok C -> dake_run C h account contact st ->
  dake_handle_auth_i C now st m account contact = (st', Ok mat) ->
  exists w alice bob x a,
    st = DakeAwaitingAuthI w /\ st' = st /\
    payload_accepted C (wi_profile_alice w) alice /\ ec_public x = wi_x w /\ dh3_public a = wi_a w /\
    offer_ok C (wi_profile_bob w) bob (wi_y w) (wi_b w) (wi_ecdh0_other w) (wi_dh0_other w) /\
    ring_valid C (ai_sigma m) (cp_identity bob) (cp_forging alice) (wi_x w)
      (auth_i_text C (alice_view w bob alice account contact)) /\
    session_from C SENDER
      (mixed_key C (ecdh_shared C x (wi_y w)) (dh3_shared C a (wi_b w)))
      (wi_ecdh0 w) (wi_dh0 w) (wi_ecdh0_other w) (wi_dh0_other w) now (dm_ssid mat) (dm_ratchet mat) /\
    dm_us mat = profile_fingerprint C alice /\ dm_them mat = profile_fingerprint C bob.
Proof. intros C h now st m account contact st' mat CO. exact (auth_i_needs_proof C CO h now st m account contact st' mat). Qed.
Print Assumptions C30_auth_i_proves.

(* An Identity message is answered only if its profile validates and its keys are proper. *)
Theorem C30_identity_checked : forall C h rnd ring st m account contact st' r,
  dake_handle_identity C h rnd ring st m account contact = (st', Ok r) ->
  exists bob, offer_ok C (id_profile m) bob (id_y m) (id_b m) (id_ecdh0 m) (id_dh0 m).
Proof.
  intros C h rnd ring st m account contact st' r H. unfold dake_handle_identity in H.
  destruct (identity_validate C m) as [bob| |] eqn:V; try discriminate H. exists bob. now apply validate_keys_iff.
Qed.
Print Assumptions C30_identity_checked.

Theorem C30_failure_no_effect : forall C h rnd ring er dr now st account contact st' e,
  (dake_initiate C h rnd st = (st', Err e) -> st' = st) /\
  (forall m, dake_handle_identity C h rnd ring st m account contact = (st', Err e) -> st' = st) /\
  (forall m, dake_handle_auth_r C h ring er dr now st m account contact = (st', Err e) -> st' = st) /\
  (forall m, dake_handle_auth_i C now st m account contact = (st', Err e) -> st' = st).
Proof. exact dake_failure_no_effect. Qed.
Print Assumptions C30_failure_no_effect.

Example C30_ex :
  curve_ok toy /\ dake_run toy xd_ha xd_na xd_nb xd_a1 /\
  dake_handle_auth_r toy xd_hb xd_r2 [x15] 25 xd_now xd_b1 xd_authr xd_nb xd_na
    = (DakeInitial, Ok (xd_mat_b, xd_authi)) /\
  dake_handle_auth_i toy xd_now xd_a1 xd_authi xd_na xd_nb = (xd_a1, Ok xd_mat_a) /\
  (* the same Auth-I under another account name *)
  snd (dake_handle_auth_i toy xd_now xd_a1 xd_authi xd_na [x63]) = Err CryptographicViolation.
Proof.
  split; [exact (proj1 ex4_groups)|]. split; [exact xd_run_a|]. split; [exact xd_step3|]. split; [exact xd_step4|].
  vm_compute. reflexivity.
Qed.

(** * C31: simultaneous starts *)

(* If both sent an Identity message and both reply to the other's, exactly one repeats its own and stays
   where it was, and the other gives up its own exchange and answers. *)
Theorem C31_one_yields : forall C ha hb na nb rnda ringa rndb ringb wa wb ca cb sa' ra sb' rb,
  let ia := wr_identity wa in let ib := wr_identity wb in
  be_val (shake256 C 32 (write_mpi (id_b ia))) <> be_val (shake256 C 32 (write_mpi (id_b ib))) ->
  identity_validate C ia = Ok ca -> identity_validate C ib = Ok cb ->
  dake_handle_identity C ha rnda ringa (DakeAwaitingAuthR wa) ib na nb = (sa', Ok ra) ->
  dake_handle_identity C hb rndb ringb (DakeAwaitingAuthR wb) ia nb na = (sb', Ok rb) ->
  let keeps st w r := st = DakeAwaitingAuthR w /\ r = ReplyIdentity (wr_identity w) in
  let answers st r m := exists w ar, st = DakeAwaitingAuthI w /\ r = ReplyAuthR ar /\
     wi_y w = id_y m /\ wi_b w = id_b m /\ wi_ecdh0_other w = id_ecdh0 m /\ wi_dh0_other w = id_dh0 m in
  (keeps sa' wa ra /\ answers sb' rb ia) \/ (answers sa' ra ib /\ keeps sb' wb rb).
Proof. exact tie_break4. Qed.
Print Assumptions C31_one_yields.

(* But the exchange does not complete: the repeated Identity message makes the other side answer a
   second time, with new keys, so that it refuses the Auth-I that answers its first reply.  With
   in-order delivery of all messages one side ends encrypted and the other does not. *)
Theorem C31_completes_refuted :
  ~ (forall C ha hb alice bob na nb s0 s,
       groups_ok4 C -> working_host C ha alice -> working_host C hb bob ->
       both_initiated4 C ha hb s0 -> dake_steps C ha hb na nb s0 s -> dn_ab s = [] -> dn_ba s = [] ->
       exists ma mb, In ma (dn_done_a s) /\ In mb (dn_done_b s) /\ dm_ssid ma = dm_ssid mb).
Proof.
  intros H. destruct xd_tie_run as (s & R & E1 & E2 & E3 & E4).
  destruct (H toy xd_ha xd_hb xd_alice xd_bob xd_na xd_nb xd_tie s ex4_groups xd_host_a xd_host_b xd_tie_start R E1 E2)
    as (ma & mb & I & _). rewrite E3 in I. exact I.
Qed.
Print Assumptions C31_completes_refuted.

Example C31_ex :
  both_initiated4 toy xd_ha xd_hb xd_tie /\
  (exists s, dake_steps toy xd_ha xd_hb xd_na xd_nb xd_tie s /\
     dn_ab s = [] /\ dn_ba s = [] /\ dn_done_a s = [] /\ length (dn_done_b s) = 1%nat) /\
  (* the repeated message is the cause: without it the Auth-I behind it would be accepted *)
  (exists s rep i mat, dake_steps toy xd_ha xd_hb xd_na xd_nb xd_tie s /\
     dn_ba s = [MIdentity rep; MAuthI i] /\ write_identity rep = write_identity xd_id /\
     snd (dake_handle_auth_i toy xd_now (dn_a s) i xd_na xd_nb) = Ok mat).
Proof. split; [exact xd_tie_start|]. split; [exact xd_tie_run|exact xd_tie_blame]. Qed.

(** * C32: replayed Auth-I *)

(* The property is false: after any history in which an Auth-I completed the exchange, the same Auth-I
   completes it again, at any later time, and yields the ratchet in its initial state again. *)
Theorem C32_accepted_again : forall C st m account contact now st' mat,
  dake_handle_auth_i C now st m account contact = (st', Ok mat) ->
  st' = st /\ forall now', exists mat',
    dake_handle_auth_i C now' st' m account contact = (st', Ok mat') /\
    dm_ssid mat' = dm_ssid mat /\ dm_us mat' = dm_us mat /\ dm_them mat' = dm_them mat /\
    dm_ratchet mat' =
      let d := dm_ratchet mat in
      mkDR now' (dr_shared d) (dr_root_key d) (dr_sender d) (dr_receiver d) (dr_next d) (dr_i d) (dr_pn d)
           (dr_reveals d).
Proof. exact auth_i_replays. Qed.
Print Assumptions C32_accepted_again.

Theorem C32_replay_refuted :
  ~ (forall C h account contact st m now st' mat now' r,
       dake_run C h account contact st ->
       dake_handle_auth_i C now st m account contact = (st', Ok mat) ->
       snd (dake_handle_auth_i C now' st' m account contact) <> Ok r).
Proof.
  intros H. exact (H toy xd_ha xd_na xd_nb xd_a1 xd_authi xd_now xd_a1 xd_mat_a xd_now xd_mat_a xd_run_a xd_step4
                     (f_equal snd xd_step4)).
Qed.
Print Assumptions C32_replay_refuted.

(* The other completing message, Auth-R, does complete the exchange only once. *)
Theorem C32_auth_r_once : forall C h ring er dr now st m account contact st' mat i,
  dake_handle_auth_r C h ring er dr now st m account contact = (st', Ok (mat, i)) ->
  forall h ring er dr now m account contact,
  dake_handle_auth_r C h ring er dr now st' m account contact = (st', Err IncorrectState).
Proof. exact auth_r_once. Qed.
Print Assumptions C32_auth_r_once.

Example C32_ex :
  dake_handle_auth_i toy xd_now xd_a1 xd_authi xd_na xd_nb = (xd_a1, Ok xd_mat_a) /\
  dake_handle_auth_r toy xd_hb xd_r2 [x15] 25 xd_now xd_b1 xd_authr xd_nb xd_na
    = (DakeInitial, Ok (xd_mat_b, xd_authi)).
Proof. split; [exact xd_step4|exact xd_step3]. Qed.

(** * C34: expired profiles *)

(* The property is false: both sides complete the exchange years after both profiles expired. *)
Theorem C34_expired_refuted :
  ~ (forall C h account contact ring er dr now st m st' mat i cp,
       payload_accepted C (ar_profile m) cp ->
       dake_run C h account contact st ->
       dake_handle_auth_r C h ring er dr now st m account contact = (st', Ok (mat, i)) ->
       (Z.of_N now <= cp_expiration cp)%Z)
  /\ ~ (forall C h account contact now st m st' mat w cp,
       dake_run C h account contact st -> st = DakeAwaitingAuthI w ->
       payload_accepted C (wi_profile_bob w) cp ->
       dake_handle_auth_i C now st m account contact = (st', Ok mat) ->
       (Z.of_N now <= cp_expiration cp)%Z).
Proof.
  split; intros H.
  - assert (R : dake_run toy xd_hb xd_nb xd_na xd_b1) by (eapply dk_initiate; [apply dk_new|exact xd_step1|discriminate]).
    apply (H toy xd_hb xd_nb xd_na xd_r2 [x15] 25 xd_now xd_b1 xd_authr DakeInitial xd_mat_b xd_authi xd_alice
             (signed_profile _ _ _ _ _ _ xd_sign_a) R xd_step3). reflexivity.
  - apply (H toy xd_ha xd_na xd_nb xd_now xd_a1 xd_authi xd_a1 xd_mat_a _ xd_bob xd_run_a eq_refl
             (signed_profile _ _ _ _ _ _ xd_sign_b) xd_step4). reflexivity.
Qed.
Print Assumptions C34_expired_refuted.

(* Only a client's own profile is checked against the clock, when it is made. *)
Theorem C34_own_profile_fresh : forall C now p cp,
  profile_new C now p = Ok cp -> cp = p /\ (Z.of_N now < cp_expiration cp)%Z.
Proof. exact profile_new_fresh. Qed.
Print Assumptions C34_own_profile_fresh.

Example C34_ex :
  profile_new toy 900000000 xd_alice = Ok xd_alice /\ profile_new toy xd_now xd_alice = Err ProtocolViolation.
Proof. split; vm_compute; reflexivity. Qed.
