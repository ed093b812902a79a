(* Theorems about key exchanges that are repeated, replayed, or started by both users at once. *)
From Verif Require Import Base Types Crypto ToyCrypto Encoding Messages AKELemmas DAKE DAKEExamples Protocol Session SpecData3 SpecData4 SpecAKE SpecDAKE
  SpecSession SessionExamples SpecNet Data3Lemmas Data4Examples NetExamples Net4Examples SpecStart StartLemmas CrossProofs StartExamples.
Local Open Scope N_scope.

(** * C56: a query message is answered, whatever happened before *)

(* OTRv3: the answer is the one of a new session. *)
Theorem C56_v3 : forall C d h s e p s' out r s0 out0 r0, history C d h s -> queries C d p V3 ->
  receive C e s p = (s', out, r) -> receive C e (session_new d) p = (s0, out0, r0) -> out = out0 /\ r = r0.
Proof. exact query_v3. Qed.
Print Assumptions C56_v3.

(* OTRv4: so is the first answer. *)
Theorem C56_v4_first_partial : forall C d h s e p s' out r s0 out0 r0, history C d h s -> queries C d p V4 -> no_new_start4 d h ->
  receive C e s p = (s', out, r) -> receive C e (session_new d) p = (s0, out0, r0) -> out = out0 /\ r = r0.
Proof. exact query_v4. Qed.
Print Assumptions C56_v4_first_partial.

(* But from then on, query messages are refused and change nothing, forever. *)
Theorem C56_v4_deaf : forall C d h s e p ev, history C d h s -> In ev h -> answered_query C d V4 ev -> queries C d p V4 ->
  receive C e s p = (s, [], Err IncorrectState).
Proof. exact query_deaf. Qed.
Print Assumptions C56_v4_deaf.

Theorem C56_v4_either : forall C d h s e p s' out r s0 out0 r0, history C d h s -> queries C d p V4 ->
  receive C e s p = (s', out, r) -> receive C e (session_new d) p = (s0, out0, r0) ->
  (out = out0 /\ r = r0) \/ (s' = s /\ out = [] /\ r = Err IncorrectState).
Proof. exact query_v4_either. Qed.
Print Assumptions C56_v4_either.

Theorem C56_refuted : ~ (forall C d h s e p v s' out r s0 out0 r0, history C d h s -> queries C d p v ->
  receive C e s p = (s', out, r) -> receive C e (session_new d) p = (s0, out0, r0) -> out = out0 /\ r = r0).
Proof.
  intros H. destruct za_answered as [I A]. pose proof (query_deaf toy xs_alice za_h za_s (xs_ea x14 0) xs_query4 za_q za_run I A (proj1 query4)) as D.
  destruct (H toy xs_alice za_h za_s (xs_ea x14 0) xs_query4 V4 _ _ _ _ _ _ za_run (proj1 query4) D za_first) as [X _]. discriminate X.
Qed.
Print Assumptions C56_refuted.

Example C56_ex :
  (history toy xs_alice za_h za_s /\ queries toy xs_alice xs_query3 V3) /\
  (history toy xs_bob (fst tb_end) (snd tb_end) /\ queries toy xs_bob xs_query4 V4 /\ no_new_start4 xs_bob (fst tb_end)) /\
  In za_q za_h /\ answered_query toy xs_alice V4 za_q /\ queries toy xs_alice xs_query4 V4.
Proof.
  split; [split; [exact za_run|apply query3]|]. split; [split; [exact tb_run|]; split; [apply query4|exact tb_fresh]|].
  split; [apply za_answered|]. split; [apply za_answered|apply query4].
Qed.

(** * C57: users who start at the same time end up in a session *)

(* OTRv3: neither of them does. *)
Theorem C57_v3_refuted : ~ (forall C da db ka kb sa sb, dh_params_ok C -> dh_group_ok C -> legal_details da -> legal_details db ->
  de_tag da <> de_tag db -> preferred da V3 -> preferred db V3 -> dsa_key_ok C ka -> dsa_key_ok C kb ->
  both_start C (working3 C ka) (working3 C kb) (session_new da) (session_new db) sa sb -> connected sa sb).
Proof.
  intros H. apply r_apart. apply (H toy ns_alice ns_bob tk_a tk_b).
  - exact toy_params_ok.
  - exact toy_group_ok.
  - split; reflexivity || (vm_compute; discriminate).
  - split; reflexivity || (vm_compute; discriminate).
  - discriminate.
  - right. split; [discriminate|split; reflexivity].
  - right. split; [discriminate|split; reflexivity].
  - apply toy_dsa_key_ok. vm_compute. reflexivity.
  - apply toy_dsa_key_ok. vm_compute. reflexivity.
  - exact r_start.
Qed.
Print Assumptions C57_v3_refuted.

(* It is never otherwise: whatever the two clients did before, unless they are in the middle of something with each
   other, and whichever keys they draw, such a start has no effect on the conversation between them. *)
Theorem C57_v3_never : forall C da db ha hb sa sb ka kb sa' sb', history C da ha sa -> history C db hb sb ->
  legal_details da -> legal_details db -> resting sa (de_tag db) -> resting sb (de_tag da) -> preferred da V3 -> preferred db V3 ->
  dh_params_ok C -> both_start C (working3 C ka) (working3 C kb) sa sb sa' sb' ->
  state_of sa' (de_tag db) = state_of sa (de_tag db) /\ state_of sb' (de_tag da) = state_of sb (de_tag da).
Proof. exact crossed3. Qed.
Print Assumptions C57_v3_never.

Example C57_ex :
  history toy ns_alice [] ns_a0 /\ history toy ns_bob [] ns_b0 /\ legal_details ns_alice /\ legal_details ns_bob /\
  resting ns_a0 (de_tag ns_bob) /\ resting ns_b0 (de_tag ns_alice) /\ preferred ns_alice V3 /\ preferred ns_bob V3 /\ dh_params_ok toy /\
  both_start toy (working3 toy tk_a) (working3 toy tk_b) ns_a0 ns_b0 (fst (fst ra4)) (fst (fst rb4)).
Proof.
  split; [constructor|]. split; [constructor|]. split; [split; reflexivity || (vm_compute; discriminate)|].
  split; [split; reflexivity || (vm_compute; discriminate)|]. split; [split; [reflexivity|split; exact I]|].
  split; [split; [reflexivity|split; exact I]|]. split; [right; split; [discriminate|split; reflexivity]|].
  split; [right; split; [discriminate|split; reflexivity]|]. split; [exact toy_params_ok|exact r_start].
Qed.

(* OTRv4: both believe that they are, but their keys differ (see q_apart); and by C56_v4_deaf neither of them
   answers another query message. *)
Theorem C57_v4_refuted : ~ (forall C da db ha hb alice bob sa sb, groups_ok4 C -> encodable C -> legal_details da -> legal_details db ->
  de_tag da <> de_tag db -> preferred da V4 -> preferred db V4 -> working_host C ha alice -> working_host C hb bob ->
  de_address da = de_account db -> de_address db = de_account da ->
  both_start C (working4 C ha) (working4 C hb) (session_new da) (session_new db) sa sb -> connected sa sb).
Proof.
  intros H. apply (proj2 (proj2 q_apart)). apply (H toy xs_alice xs_bob xd_ha xd_hb xd_alice xd_bob).
  - exact ex4_groups.
  - exact nf_encodable.
  - split; reflexivity || (vm_compute; discriminate).
  - split; reflexivity || (vm_compute; discriminate).
  - discriminate.
  - left. split; reflexivity.
  - left. split; reflexivity.
  - exact xd_host_a.
  - exact xd_host_b.
  - reflexivity.
  - reflexivity.
  - exact q_start.
Qed.
Print Assumptions C57_v4_refuted.

(** * C58: recorded messages of a key exchange cannot start a session again *)

(* OTRv4: they can.  A client that started a session because of an Auth-I message starts it again, with the
   same session identifier, whenever this message arrives again. *)
Theorem C58_v4_auth_i : forall C d h s e1 p1 em m s1 h2 s2 p2, history C d h s -> em_version em = V4 -> em_message em = MAuthI m ->
  starts C e1 s p1 em s1 -> quiet_run C (em_sender em) s1 h2 s2 -> carries C s2 p2 em ->
  forall e2, exists s3, receive C e2 s2 p2 = (s3, [], Ok (UMSessionStarted (em_sender em))) /\
    ses_ssid s3 (em_sender em) = ses_ssid s1 (em_sender em).
Proof. exact restarts_auth_i. Qed.
Print Assumptions C58_v4_auth_i.

(* Likewise for the Auth-R message, without any condition on what happened in between.  The two calls are
   given the same random values and the same time. *)
Theorem C58_v4_auth_r : forall C d h s q e1 p1 em m s1 out h2 s2 p2, history C d h s -> In q h -> answered_query C d V4 q ->
  em_version em = V4 -> em_message em = MAuthR m -> carries C s p1 em ->
  receive C e1 s p1 = (s1, out, Ok (UMSessionStarted (em_sender em))) ->
  run C s1 h2 s2 -> carries C s2 p2 em ->
  exists s3, receive C e1 s2 p2 = (s3, out, Ok (UMSessionStarted (em_sender em))) /\
    ses_ssid s3 (em_sender em) = ses_ssid s1 (em_sender em).
Proof. exact restarts_auth_r. Qed.
Print Assumptions C58_v4_auth_r.

(* OTRv3: the last two messages together have this effect, until the client answers another query. *)
Theorem C58_v3 : forall C d h s q t key sg s' h2 s2 s3 r1 r2, history C d h s -> In q h -> answered_query C d V3 q ->
  is_dh_key t key -> is_signature t sg ->
  last_messages3 C t key sg s s' (Ok UMNone) (Ok (UMSessionStarted t)) ->
  run C s' h2 s2 -> no_new_start3 d h2 -> last_messages3 C t key sg s2 s3 r1 r2 ->
  r1 = Ok UMNone /\ r2 = Ok (UMSessionStarted t) /\ ses_ssid s3 t = ses_ssid s' t.
Proof. exact restarts_v3. Qed.
Print Assumptions C58_v3.

(* What holds: a single OTRv3 message does not restart a session. *)
Theorem C58_v3_partial : forall C d h s e1 p1 em s1 h2 s2 e2 p2 em2 s3 out r, history C d h s -> em_version em = V3 ->
  starts C e1 s p1 em s1 -> quiet_run C (em_sender em) s1 h2 s2 ->
  carries C s2 p2 em2 -> em_version em2 = V3 -> em_sender em2 = em_sender em ->
  receive C e2 s2 p2 = (s3, out, r) -> r <> Ok (UMSessionStarted (em_sender em)).
Proof. exact settled_v3. Qed.
Print Assumptions C58_v3_partial.

Theorem C58_refuted : ~ (forall C d h1 ev1 h2 ev2 h3 s t p, history C d (h1 ++ ev1 :: h2 ++ ev2 :: h3) s ->
  ev_op ev1 = OpReceive p -> ev_op ev2 = OpReceive p -> started_with t ev1 -> ~ started_with t ev2).
Proof.
  intros H. destruct bs_starts as (x & ev1 & y & ev2 & z & E & O1 & O2 & S1 & S2). pose proof bs_run as R. rewrite E in R.
  exact (H toy xs_bob _ _ _ _ _ _ 301 auth_i R O1 O2 S1 S2).
Qed.
Print Assumptions C58_refuted.

Example C58_ex4 :
  (history toy xs_bob (fst zb_end1) (snd zb_end1) /\ (exists m, em_message auth_i_em = MAuthI m) /\
   starts toy (xs_eb x54 0) (snd zb_end1) auth_i auth_i_em zb_s /\
   quiet_run toy 301 zb_s [mkEvent (OpSend 301 xs_hi) [] (Ok (AnPayloads (paid bs1)))] (fst (fst bs1)) /\
   carries toy (fst (fst bs1)) auth_i auth_i_em) /\
  history toy xs_alice (fst za_end1) (snd za_end1) /\ In za_q (fst za_end1) /\ answered_query toy xs_alice V4 za_q /\
  (exists m, em_message auth_r_em = MAuthR m) /\ carries toy (snd za_end1) auth_r auth_r_em /\
  receive toy (xs_ea x44 0) (snd za_end1) auth_r = (za_s, [auth_i], Ok (UMSessionStarted 400)) /\
  run toy za_s [mkEvent (OpSend 400 xs_hi) [] (Ok (AnPayloads [za_text]))] za_s1 /\ carries toy za_s1 auth_r auth_r_em.
Proof.
  split; [split; [exact zb_run1|]; split; [apply auth_i_is|]; split; [exact zb_starts|]; split; [exact bs_quiet|apply bs_carries]|].
  split; [exact za_run1|]. split; [apply za_answered1|]. split; [apply za_answered1|]. split; [apply auth_r_is|].
  split; [apply auth_r_carried|]. split; [exact za_starts|]. split; [exact za_sent_run|apply auth_r_carried].
Qed.
Example C58_ex3 :
  history toy xs_alice (fst ya_end1) (snd ya_end1) /\ In ya_q (fst ya_end1) /\ answered_query toy xs_alice V3 ya_q /\
  is_dh_key 400 dh_key_em /\ is_signature 400 signature_em /\
  last_messages3 toy 400 dh_key_em signature_em (snd ya_end1) ya_s (Ok UMNone) (Ok (UMSessionStarted 400)) /\
  run toy ya_s [mkEvent (OpSend 400 xs_hi) [] (Ok (AnPayloads [ya_text]))] ya_s1 /\
  quiet_run toy 400 ya_s [mkEvent (OpSend 400 xs_hi) [] (Ok (AnPayloads [ya_text]))] ya_s1 /\
  no_new_start3 xs_alice [mkEvent (OpSend 400 xs_hi) [] (Ok (AnPayloads [ya_text]))] /\
  last_messages3 toy 400 dh_key_em signature_em ya_s1 (fst (fst yr2)) (Ok UMNone) (Ok (UMSessionStarted 400)).
Proof.
  split; [exact ya_run1|]. split; [apply ya_answered1|]. split; [apply ya_answered1|]. split; [exact dh_key_is|]. split; [exact signature_is|].
  split; [exact ya_last|]. split; [exact ya_sent_run|]. split; [exact ya_sent_quiet|]. split; [apply one_sent|exact yr_last].
Qed.

(** * C59: no two texts are ever encrypted under the same key and counter *)

(* OTRv4: after the replay of an Auth-I message, the next text is sealed exactly like the first text of the
   session before: with the same keys and message numbers. *)
Theorem C59_v4_reuse : forall C d h s e1 p1 em m s1 ea c1 sa ps1 h2 s2 p2 e2 s3 out3 r3 eb c2 sb ps2,
  history C d h s -> em_version em = V4 -> em_message em = MAuthI m -> starts C e1 s p1 em s1 ->
  send C ea s1 (em_sender em) c1 = (sa, [], Ok ps1) ->
  quiet_run C (em_sender em) sa h2 s2 -> carries C s2 p2 em ->
  receive C e2 s2 p2 = (s3, out3, r3) -> send C eb s3 (em_sender em) c2 = (sb, [], Ok ps2) ->
  r3 = Ok (UMSessionStarted (em_sender em)) /\
  exists key mac pn i j pt dh,
    transported d ea (em_sender em) V4 (sealed4 C (de_tag d) (em_sender em) key mac pn i j pt dh [] (without_nul c1)) ps1 /\
    transported d eb (em_sender em) V4 (sealed4 C (de_tag d) (em_sender em) key mac pn i j pt dh [] (without_nul c2)) ps2.
Proof. exact keys_reused4. Qed.
Print Assumptions C59_v4_reuse.

(* OTRv3: the same after the replay of the last two messages: same key, same counter. *)
Theorem C59_v3_reuse : forall C d h s q t kem sem s1 ea c1 sa ps1 h2 s2 s3 r1 r2 eb c2 sb ps2,
  history C d h s -> In q h -> answered_query C d V3 q -> is_dh_key t kem -> is_signature t sem ->
  last_messages3 C t kem sem s s1 (Ok UMNone) (Ok (UMSessionStarted t)) ->
  send C ea s1 t c1 = (sa, [], Ok ps1) ->
  run C sa h2 s2 -> no_new_start3 d h2 -> last_messages3 C t kem sem s2 s3 r1 r2 ->
  send C eb s3 t c2 = (sb, [], Ok ps2) ->
  r2 = Ok (UMSessionStarted t) /\
  exists key mac ctr next1 next2,
    transported d ea t V3 (sealed3 C (de_tag d) t key mac 1 1 next1 ctr [] (without_nul c1)) ps1 /\
    transported d eb t V3 (sealed3 C (de_tag d) t key mac 1 1 next2 ctr [] (without_nul c2)) ps2.
Proof. exact keys_reused3. Qed.
Print Assumptions C59_v3_reuse.

Theorem C59_v4_refuted : ~ (forall C d h1 ev1 h2 ev2 h3 s t c1 c2 ps1 ps2 e1 e2 key mac pn i j pt dh,
  history C d (h1 ++ ev1 :: h2 ++ ev2 :: h3) s -> ev_op ev1 = OpSend t c1 -> ev_op ev2 = OpSend t c2 ->
  ev_result ev1 = Ok (AnPayloads ps1) -> ev_result ev2 = Ok (AnPayloads ps2) ->
  transported d e1 t V4 (sealed4 C (de_tag d) t key mac pn i j pt dh [] (without_nul c1)) ps1 ->
  transported d e2 t V4 (sealed4 C (de_tag d) t key mac pn i j pt dh [] (without_nul c2)) ps2 -> c1 = c2).
Proof.
  intros H. destruct auth_i_is as (V & S & m & M).
  destruct (keys_reused4 toy xs_bob _ _ (xs_eb x54 0) auth_i auth_i_em m zb_s (xs_eb x61 0) xs_hi _ (paid bs1) [] _ auth_i (xs_eb x62 0) (fst (fst bs2)) []
              (Ok (UMSessionStarted 301)) (xs_eb x63 0) [x6e; x6f] (fst (fst bs3)) (paid bs3) zb_run1 V M zb_starts bs1_is (q_nil _ _ _) (bs_carries _) bs2_is bs3_is)
    as (_ & key & mac & pn & i & j & pt & dh & T1 & T2).
  change (em_sender auth_i_em) with 301 in T1, T2.
  destruct bs_texts as (x & y & ev1 & z & ev2 & F & O1 & O2 & R1 & R2). pose proof bs_run as R. rewrite F in R.
  pose proof (H toy xs_bob _ _ _ _ _ _ _ _ _ _ _ _ _ key mac pn i j pt dh R O1 O2 R1 R2 T1 T2) as X. discriminate X.
Qed.
Print Assumptions C59_v4_refuted.

Theorem C59_v3_refuted : ~ (forall C d h1 ev1 h2 ev2 h3 s t c1 c2 ps1 ps2 e1 e2 key mac i j next1 next2 ctr,
  history C d (h1 ++ ev1 :: h2 ++ ev2 :: h3) s -> ev_op ev1 = OpSend t c1 -> ev_op ev2 = OpSend t c2 ->
  ev_result ev1 = Ok (AnPayloads ps1) -> ev_result ev2 = Ok (AnPayloads ps2) ->
  transported d e1 t V3 (sealed3 C (de_tag d) t key mac i j next1 ctr [] (without_nul c1)) ps1 ->
  transported d e2 t V3 (sealed3 C (de_tag d) t key mac i j next2 ctr [] (without_nul c2)) ps2 -> c1 = c2).
Proof.
  intros H. destruct ya_answered1 as [I A].
  destruct (keys_reused3 toy xs_alice _ _ ya_q 400 dh_key_em signature_em ya_s (xs_ea x26 400) xs_hi ya_s1 [ya_text] [] ya_s1 (fst (fst yr2)) (Ok UMNone)
              (Ok (UMSessionStarted 400)) (xs_ea x73 0) [x6e; x6f] (fst (fst yr3)) (paid yr3) ya_run1 I A dh_key_is signature_is ya_last ya_sends
              (run_nil _ _) (fun _ _ _ (X : In _ []) => False_ind _ X) yr_last yr3_is)
    as (_ & key & mac & ctr & next1 & next2 & T1 & T2).
  destruct yr_texts as (x & y & ev1 & z & ev2 & F & O1 & O2 & R1 & R2). pose proof yr_run as R. rewrite F in R.
  pose proof (H toy xs_alice _ _ _ _ _ _ _ _ _ _ _ _ _ key mac 1 1 next1 next2 ctr R O1 O2 R1 R2 T1 T2) as X. discriminate X.
Qed.
Print Assumptions C59_v3_refuted.

Example C59_ex4 :
  history toy xs_bob (fst zb_end1) (snd zb_end1) /\ starts toy (xs_eb x54 0) (snd zb_end1) auth_i auth_i_em zb_s /\
  send toy (xs_eb x61 0) zb_s 301 xs_hi = (fst (fst bs1), [], Ok (paid bs1)) /\
  carries toy (fst (fst bs1)) auth_i auth_i_em /\
  receive toy (xs_eb x62 0) (fst (fst bs1)) auth_i = (fst (fst bs2), [], Ok (UMSessionStarted 301)) /\
  send toy (xs_eb x63 0) (fst (fst bs2)) 301 [x6e; x6f] = (fst (fst bs3), [], Ok (paid bs3)).
Proof.
  split; [exact zb_run1|]. split; [exact zb_starts|]. split; [exact bs1_is|]. split; [apply bs_carries|]. split; [exact bs2_is|exact bs3_is].
Qed.
Example C59_ex3 :
  last_messages3 toy 400 dh_key_em signature_em (snd ya_end1) ya_s (Ok UMNone) (Ok (UMSessionStarted 400)) /\
  send toy (xs_ea x26 400) ya_s 400 xs_hi = (ya_s1, [], Ok [ya_text]) /\
  last_messages3 toy 400 dh_key_em signature_em ya_s1 (fst (fst yr2)) (Ok UMNone) (Ok (UMSessionStarted 400)) /\
  send toy (xs_ea x73 0) (fst (fst yr2)) 400 [x6e; x6f] = (fst (fst yr3), [], Ok (paid yr3)).
Proof. split; [exact ya_last|]. split; [exact ya_sends|]. split; [exact yr_last|exact yr3_is]. Qed.
