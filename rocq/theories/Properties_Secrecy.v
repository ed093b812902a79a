(* Properties C75 and C76: what a session's messages tell, and which secrets leave its state. *)
From Verif Require Import Base BaseLemmas Types Crypto ToyCrypto Encoding Messages Fragment KeyManager DataV3 Ratchet DataV4 AKE DAKE SMP SMP4
  Protocol Session SpecData3 SpecData4 SpecSession SpecDeny SpecSecrecy SecrecyLemmas ErasureLemmas SessionSendProofs
  SessionExamples NetExamples StartExamples FollowExamples ReportExamples SecrecyExamples.
Local Open Scope N_scope.

(** * C75 Texts and secrets reach the network only encrypted and hashed *)

(* Whatever text of the same length was sent, the messages and the session afterwards could be the same: only the key
   stream for one key and nonce tells the texts apart. *)
Theorem C75_text_v3 C e s t c c' : enabled (se_details s) -> conversation_version s t = Some V3 ->
  length (without_nul c) = length (without_nul c') ->
  exists key nonce ks, (forall k n len, k <> key \/ n <> nonce -> ks k n len = c_aes_ctr C k n len) /\
    send (with_aes C ks) e s t c' = send C e s t c.
Proof. intros EN. apply send_hides3. now apply enabled_not_disabled. Qed.
Print Assumptions C75_text_v3.

Theorem C75_text_v4 C e s t c c' : enabled (se_details s) -> conversation_version s t = Some V4 ->
  length (without_nul c) = length (without_nul c') ->
  exists key ks, (forall k len, k <> key -> ks k len = c_chacha20 C k len) /\ send (with_chacha C ks) e s t c' = send C e s t c.
Proof. intros EN. apply send_hides4. now apply enabled_not_disabled. Qed.
Print Assumptions C75_text_v4.

(* The text does not stay in the session. *)
Theorem C75_forgotten C e s t c c' s1 out1 l1 s2 out2 l2 :
  send C e s t c = (s1, out1, Ok l1) -> send C e s t c' = (s2, out2, Ok l2) -> s1 = s2.
Proof. intros H H'. apply (send_forgets _ _ _ _ _ _ _ _ _ _ _ _ H H'). Qed.
Print Assumptions C75_forgotten.

Example C75_ex_text : enabled (se_details ya_s) /\ conversation_version ya_s 400 = Some V3 /\ conversation_version za_s 400 = Some V4 /\
  length (without_nul xs_hi) = length (without_nul sy_no) /\ xs_hi <> sy_no /\
  send toy (xs_ea x26 0) ya_s 400 sy_no = (fst (fst sy_sent3), [], Ok (paid sy_sent3)) /\
  send toy (xs_ea x26 0) za_s 400 sy_no = (fst (fst sy_sent4), [], Ok (paid sy_sent4)) /\
  send toy (xs_ea x26 0) ya_s 400 xs_hi = (fst (fst sy_hi3), [], Ok (paid sy_hi3)) /\
  send toy (xs_ea x26 0) za_s 400 xs_hi = (fst (fst sy_hi4), [], Ok (paid sy_hi4)) /\
  paid sy_sent3 <> paid sy_hi3 /\ paid sy_sent4 <> paid sy_hi4.
Proof.
  split; [left; reflexivity|]. split; [apply sy_versions|]. split; [apply sy_versions|]. split; [reflexivity|]. split; [discriminate|].
  destruct sy_sends as (A & B & D & E). do 4 (split; [assumption|]). split; vm_compute; discriminate.
Qed.

(* Starting a comparison of secrets sends nothing that depends on the secret. *)
Theorem C75_secret_started C e s t a b q s1 out1 s2 out2 :
  start_smp C e s t a q = (s1, out1, Ok tt) -> start_smp C e s t b q = (s2, out2, Ok tt) -> out1 = out2.
Proof. apply start_smp_blind. Qed.
Print Assumptions C75_secret_started.

(* Otherwise a secret is used only hashed: one with the same hashes would do the same, in the state and in every
   message. *)
Theorem C75_secret_hashed C e s t a b q : hashed_alike C a b -> start_smp C e s t a q = start_smp C e s t b q.
Proof. apply start_smp_alike. Qed.
Print Assumptions C75_secret_hashed.

Theorem C75_answer_hashed C e g s p : answers_alike C (ev_answer e) g -> receive C (with_answers e g) s p = receive C e s p.
Proof. apply receive_alike. Qed.
Print Assumptions C75_answer_hashed.

Example C75_ex_secret : hashed_alike toy sy_a sy_b /\ sy_a <> sy_b /\
  (exists out3 out4,
   start_smp toy (xr_ea x41 0) ya_s 400 sy_a xr_question = (fst (fst sy_started3), [out3], Ok tt) /\
   start_smp toy (xr_ea x41 0) za_s 400 sy_a xr_question = (fst (fst sy_started4), [out4], Ok tt) /\
   start_smp toy (xr_ea x41 0) ya_s 400 xr_secret xr_question = (fst (fst sy_other3), [out3], Ok tt) /\
   start_smp toy (xr_ea x41 0) za_s 400 xr_secret xr_question = (fst (fst sy_other4), [out4], Ok tt)) /\
  answers_alike toy (ev_answer (sy_env (xr_eb x42 0) sy_a)) (fun _ => Some sy_b) /\
  (exists reply, receive toy (sy_env (xr_eb x42 0) sy_a) yb_s xr3_1 = (fst (fst sy_answer3), [reply], Ok UMNone)) /\
  (exists reply, receive toy (sy_env (xr_eb x42 0) sy_a) zb_s xr4_1 = (fst (fst sy_answer4), [reply], Ok UMNone)).
Proof.
  split; [exact sy_alike|]. split; [discriminate|]. split; [do 2 eexists; exact sy_start|]. split; [apply sy_answers|].
  destruct sy_answered as (A & B). split; eexists; [exact A|exact B].
Qed.

(** * C76 Secrets leave the session once they are used *)

(* The recorded traffic of an ended conversation does not make the session show its texts again.  It does: the
   secrets of the key exchange are still there. *)
Theorem C76_v4_refuted : ~ (forall C d h s t h2 s2, history C d h s -> status_of s t = Plaintext -> run C s h2 s2 ->
  Forall (recorded h) h2 -> ~ Exists (shows_text C V4 t) h2).
Proof. intros H. destruct se_run4 as (R & P & R2). exact (H toy xs_bob _ _ 301 _ _ R P R2 se_recorded4 se_shown4). Qed.
Print Assumptions C76_v4_refuted.

Theorem C76_v3_refuted : ~ (forall C d h s t h2 s2, history C d h s -> status_of s t = Plaintext -> run C s h2 s2 ->
  Forall (recorded h) h2 -> ~ Exists (shows_text C V3 t) h2).
Proof. intros H. destruct se_run3 as (R & P & R2). exact (H toy xs_alice _ _ 400 _ _ R P R2 se_recorded3 se_shown3). Qed.
Print Assumptions C76_v3_refuted.

(* The keys of the conversation itself are gone: a session with any others ends the same. *)
Theorem C76_ended_partial C e e2 s t st s' out m s2 out2 m2 :
  end_session C e s t = (s', out, Ok m) -> end_session C e2 (with_state s t st) t = (s2, out2, Ok m2) -> s2 = s'.
Proof. apply end_forgets. Qed.
Print Assumptions C76_ended_partial.

(* OTRv4: the key of a text that was sent is gone, as far as the next key does not tell it. *)
Theorem C76_v4_sent C e s t our their d smp ck c s' out ps e2 c2 s2 out2 ps2 : enabled (se_details s) ->
  state_of s t = PEnc4 our their d smp -> dr_next d = RECEIVER ->
  kdf C 64 USAGE_NEXT_CHAIN_KEY ck = kdf C 64 USAGE_NEXT_CHAIN_KEY (ra_chain_key (dr_sender d)) ->
  send C e s t c = (s', out, Ok ps) ->
  send C e2 (with_state s t (PEnc4 our their (with_sending d ck) smp)) t c2 = (s2, out2, Ok ps2) -> s2 = s'.
Proof. intros EN S. apply enabled_not_disabled in EN. exact (send_forgets4 _ _ _ _ _ _ _ _ _ _ _ _ _ _ _ _ _ _ S EN). Qed.
Print Assumptions C76_v4_sent.

(* OTRv4: the first text after one of the peer is sent with a new key pair; the previous one, the secret that was shared
   with it and the previous chain key are gone, and every third time the 3072-bit key pair. *)
Theorem C76_v4_rotated C e s t our their d smp pair k ck c s' out ps : enabled (se_details s) ->
  state_of s t = PEnc4 our their d smp -> dr_next d = SENDER -> send C e s t c = (s', out, Ok ps) ->
  send C e (with_state s t (PEnc4 our their (with_sending (with_shared d pair k) ck) smp)) t c = (s', out, Ok ps).
Proof.
  intros EN S NX. apply enabled_not_disabled in EN. apply send_same4 with (1 := S) (2 := EN). intros x. now apply encrypt4_rotated.
Qed.
Print Assumptions C76_v4_rotated.

Theorem C76_v4_rotated_third C e s t our their d smp pair c s' out ps : enabled (se_details s) ->
  state_of s t = PEnc4 our their d smp -> dr_next d = SENDER -> dr_i d mod 3 = 0 -> send C e s t c = (s', out, Ok ps) ->
  send C e (with_state s t (PEnc4 our their (with_dh d pair) smp)) t c = (s', out, Ok ps).
Proof.
  intros EN S NX TH. apply enabled_not_disabled in EN. apply send_same4 with (1 := S) (2 := EN). intros x. apply encrypt4_rotated_dh; [exact NX|].
  now apply N.eqb_eq.
Qed.
Print Assumptions C76_v4_rotated_third.

(* OTRv4: the key of a text that was read is gone, as far as the next key and the key that will be published do not
   tell it.  The same for the keys of messages that were skipped. *)
Theorem C76_v4_read C d h s t our their k smp ck e p s' out c x e2 s2 out2 c2 x2 em m ck1 ck2 :
  history C d h s -> state_of s t = PEnc4 our their k smp ->
  receive C e s p = (s', out, Ok (UMConfidential t c x)) ->
  receive C e2 (with_state s t (PEnc4 our their (with_receiving k ck) smp)) p = (s2, out2, Ok (UMConfidential t c2 x2)) ->
  ev_now e2 = ev_now e -> carries C s p em -> em_message em = MData4 m ->
  reads_with4 C k m ck1 -> reads_with4 C (with_receiving k ck) m ck2 ->
  kdf C 64 USAGE_NEXT_CHAIN_KEY ck2 = kdf C 64 USAGE_NEXT_CHAIN_KEY ck1 -> mac_key4 C ck2 = mac_key4 C ck1 ->
  state_of s2 t = state_of s' t.
Proof. apply read_forgets4. Qed.
Print Assumptions C76_v4_read.

(* OTRv3: a key pair is gone once the peer uses the next one. *)
Theorem C76_v3_acknowledged C d h s t our their k smp pair e p s' out c x s2 out2 c2 x2 em m :
  history C d h s -> state_of s t = PEnc3 our their k smp ->
  receive C e s p = (s', out, Ok (UMConfidential t c x)) ->
  carries C s p em -> em_message em = MData m -> d3_receiver_keyid m = kr_ack (km_ours k) + 1 ->
  receive C e (with_state s t (PEnc3 our their (with_pair k pair) smp)) p = (s2, out2, Ok (UMConfidential t c2 x2)) ->
  state_of s2 t = state_of s' t.
Proof. apply read_forgets3. Qed.
Print Assumptions C76_v3_acknowledged.

Example C76_ex_v4 : enabled (se_details za_s1) /\
  (exists smp, state_of za_s1 400 = PEnc4 301 400 (sy_dr za_s1 400) smp /\ sy_alice = PEnc4 301 400 (with_sending (sy_dr za_s1 400) sy_ck) smp) /\
  dr_next (sy_dr za_s1 400) = RECEIVER /\ sy_ck <> ra_chain_key (dr_sender (sy_dr za_s1 400)) /\
  kdf toy 64 USAGE_NEXT_CHAIN_KEY sy_ck = kdf toy 64 USAGE_NEXT_CHAIN_KEY (ra_chain_key (dr_sender (sy_dr za_s1 400))) /\
  send toy (xs_ea x31 400) za_s1 400 xs_hi = (fst (fst fa4), [], Ok (paid fa4)) /\
  send toy (xs_ea x31 400) (with_state za_s1 400 sy_alice) 400 sy_no = (fst (fst sy_again), [], Ok (paid sy_again)) /\
  dr_next (sy_dr zb_s1 301) = SENDER /\ send toy (xs_eb x61 0) zb_s1 301 xs_hi = (fst (fst sy_b1), [], Ok (paid sy_b1)) /\
  dr_next (sy_dr (fst (fst sy_b3)) 301) = SENDER /\ dr_i (sy_dr (fst (fst sy_b3)) 301) mod 3 = 0 /\
  send toy (xs_eb x36 0) (fst (fst sy_b3)) 301 xs_hi = (fst (fst sy_b4), [], Ok (paid sy_b4)).
Proof.
  split; [left; reflexivity|]. split; [eexists; split; vm_compute; reflexivity|]. destruct sy_chain as (A1 & A2 & A3). do 3 (split; [assumption|]).
  split; [exact fa4_is|]. split; [exact sy_again_is|]. destruct sy_rotates as (B1 & B2 & B3 & B4 & B5). do 3 (split; [assumption|]).
  rewrite B4. split; [reflexivity|assumption].
Qed.

Example C76_ex_read : (exists h, history toy xs_bob h zb_s1) /\
  (exists smp, state_of zb_s1 301 = PEnc4 400 301 (sy_dr zb_s1 301) smp /\
     sy_bob = PEnc4 400 301 (with_receiving (sy_dr zb_s1 301) sy_rk) smp) /\
  receive toy (xs_eb x33 0) zb_s1 fa_text4 = (fst (fst fb4), [], Ok (UMConfidential 301 xs_hi [])) /\
  receive toy (xs_eb x33 0) (with_state zb_s1 301 sy_bob) fa_text4 = (fst (fst sy_read), [], Ok (UMConfidential 301 xs_hi [])) /\
  carries toy zb_s1 fa_text4 (ns_parsed fa_text4) /\ em_message (ns_parsed fa_text4) = MData4 sy_m4 /\
  (let ck := ra_chain_key (dr_receiver (sy_dr zb_s1 301)) in
   reads_with4 toy (sy_dr zb_s1 301) sy_m4 ck /\ reads_with4 toy (with_receiving (sy_dr zb_s1 301) sy_rk) sy_m4 sy_rk /\
   sy_rk <> ck /\ kdf toy 64 USAGE_NEXT_CHAIN_KEY sy_rk = kdf toy 64 USAGE_NEXT_CHAIN_KEY ck /\ mac_key4 toy sy_rk = mac_key4 toy ck).
Proof.
  split; [eexists; exact sy_bob_run|]. split; [eexists; split; vm_compute; reflexivity|]. split; [exact fb4_is|]. split; [exact sy_read_is|].
  split; [apply sy_carried|]. split; [apply (sy_carried zb_s1)|exact sy_reads].
Qed.

Example C76_ex_acknowledged : (exists h, history toy xs_alice h ya_s1) /\
  (exists k smp, state_of ya_s1 400 = PEnc3 301 400 k smp /\ sy_old = PEnc3 301 400 (with_pair k sy_pair) smp /\
     d3_receiver_keyid (fm3 sy_yp) = kr_ack (km_ours k) + 1 /\ with_pair k sy_pair <> k) /\
  receive toy (xs_ea x33 0) ya_s1 sy_yp = (fst (fst sy_y2), [], Ok (UMConfidential 400 xs_hi [])) /\
  carries toy ya_s1 sy_yp (ns_parsed sy_yp) /\ em_message (ns_parsed sy_yp) = MData (fm3 sy_yp) /\
  receive toy (xs_ea x33 0) (with_state ya_s1 400 sy_old) sy_yp = (fst (fst sy_y3), [], Ok (UMConfidential 400 xs_hi [])).
Proof.
  split; [eexists; exact sy_alice_run3|]. split; [do 2 eexists; split; [vm_compute; reflexivity|]; split; [vm_compute; reflexivity|];
    split; [vm_compute; reflexivity|vm_compute; discriminate]|].
  destruct sy_acked as (A & B & D & E). split; [exact A|]. split; [exact D|]. split; [vm_compute; reflexivity|exact B].
Qed.

Example C76_ex_ended : end_session toy (xs_ea x39 0) ya_s1 400 = (fst (fst sy_ends), snd (fst sy_ends), Ok (UMReset 400)) /\
  end_session toy (xs_ea x3a 0) (with_state ya_s1 400 sy_old) 400 = (fst (fst sy_ends2), snd (fst sy_ends2), Ok (UMReset 400)) /\
  with_state ya_s1 400 sy_old <> ya_s1.
Proof. split; [vm_compute; reflexivity|]. split; [vm_compute; reflexivity|vm_compute; discriminate]. Qed.
