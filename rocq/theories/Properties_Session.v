(* The properties of sessions: C25, C38 to C49.  A session is in a state reached by any history of API
   calls, with any host, network and random values ([history]); a crash ends a history. *)
From Verif Require Import Base BaseLemmas Types Crypto ToyCrypto Encoding Messages Fragment SpecFragment KeyManager DataV3
  Ratchet DataV4 AKE DAKE DAKEExamples SMP SMP4 Protocol Session SpecSession SessionProofs SessionInvProofs SessionSendProofs
  SessionHistProofs SessionRecvProofs SessionLemmas SessionExamples SessionRefute.
Local Open Scope N_scope.

(** * C25: idle OTRv4 sessions expire *)

(* expire ends precisely the idle encrypted OTRv4 sessions, everything about the other clients stays as it
   was, and what goes out is, client by client, the goodbye message to each client whose session ended. *)
Theorem C25_expire : forall C d h s es timeout s' out r,
  history C d h s -> expire C es s timeout = (s', out, r) -> r <> Panic ->
  r = Ok tt /\
  (forall t, (idle (ev_now (es t)) timeout (state_of s t) -> state_of s' t = PFin) /\
             (~ idle (ev_now (es t)) timeout (state_of s t) ->
                get_inst t (se_instances s') = get_inst t (se_instances s))) /\
  exists outs, out = concat outs /\
    Forall2 (fun t o =>
      (~ idle (ev_now (es t)) timeout (state_of s t) /\ o = []) \/
      (idle (ev_now (es t)) timeout (state_of s t) /\
       exists m, goodbye C (ev_send (es t)) (state_of s t) V4 m /\ transported d (es t) t V4 m o))
      (map fst (se_instances s)) outs.
Proof.
  intros C d h s es timeout s' out r HI H NP. apply history_inv in HI. destruct HI as [SI <-].
  apply expire_total in H as R; [|assumption]. subst r. apply expire_ok in H; [|assumption].
  split; [reflexivity|]. exact (proj2 H).
Qed.
Print Assumptions C25_expire.
Example C25_ex :
  history toy xs_alice za_h za_s /\
  (forall t, ev_now (xs_ea x30 t) = xd_now) /\
  status_of za_s 400 = Encrypted /\
  (let '(s', out, r) := expire toy (xs_ea x30) za_s 0 in
   (r, status_of s' 400, length out) = (Ok tt, Finished, 1%nat)) /\
  (let '(s', out, r) := expire toy (xs_ea x30) za_s 60 in (r, status_of s' 400, out) = (Ok tt, Encrypted, [])).
Proof. split; [exact za_run|]. split; [reflexivity|]. split; [reflexivity|]. split; vm_compute; reflexivity. Qed.

(** * C38: no plaintext leaks *)

(* In an encrypted session a sent text goes out only inside a data message to that client, as input of
   the cipher: keys and everything else in the message do not depend on it. *)
Theorem C38_encrypted : forall C d h s e t,
  history C d h s -> enabled d -> status_of s t = Encrypted ->
  (exists key mac_key own peer next ctr revealed, forall c s' out ps, send C e s t c = (s', out, Ok ps) ->
     out = [] /\ transported d e t V3
       (sealed3 C (de_tag d) t key mac_key own peer next ctr revealed (without_nul c)) ps)
  \/ (exists key mac_key pn i j pt dh revealed, forall c s' out ps, send C e s t c = (s', out, Ok ps) ->
     out = [] /\ transported d e t V4
       (sealed4 C (de_tag d) t key mac_key pn i j pt dh revealed (without_nul c)) ps).
Proof. intros C d h s e t HI. apply history_inv in HI. destruct HI as [SI <-]. now apply send_encrypted. Qed.
Print Assumptions C38_encrypted.
(* Nothing else goes out on sending in an encrypted or finished session, whatever is reported. *)
Theorem C38_nothing_else : forall C d h s e t c s' out r,
  history C d h s -> enabled d -> status_of s t <> Plaintext -> send C e s t c = (s', out, r) -> out = [].
Proof. intros C d h s e t c s' out r HI. apply history_inv in HI. destruct HI as [SI <-]. apply send_private_out. Qed.
Print Assumptions C38_nothing_else.
(* After the peer ended the session sending is refused, nothing goes out and nothing changes. *)
Theorem C38_finished : forall C d h s e t c,
  history C d h s -> enabled d -> status_of s t = Finished -> send C e s t c = (s, [], Err IncorrectState).
Proof. intros C d h s e t c HI. apply history_inv in HI. destruct HI as [SI <-]. now apply send_finished. Qed.
Print Assumptions C38_finished.
(* With REQUIRE_ENCRYPTION no text is ever sent in plaintext state: only a query may go out. *)
Theorem C38_required : forall C d h s e t c,
  history C d h s -> enabled d -> require_encryption (de_policy d) = true -> status_of s t = Plaintext ->
  exists out x, send C e s t c = (s, out, Err x) /\
    (out = [] \/ exists v, preferred d v /\ out = [query_message v]).
Proof. exact required_lemma. Qed.
Print Assumptions C38_required.
(* A session once private stays so, that is encrypted or finished, until the user ends it; *)
Theorem C38_stays_private : forall C d h s h' s' t,
  history C d h s -> run C s h' s' -> status_of s t <> Plaintext ->
  (forall ev, In ev h' -> ~ ended t ev) -> status_of s' t <> Plaintext.
Proof.
  intros C d h s h' s' t HI R S F. apply history_inv in HI. destruct HI as [SI _].
  eapply run_not_plain; eauto. now apply Forall_forall.
Qed.
Print Assumptions C38_stays_private.
(* and a finished session stays finished until the user ends it or a new one is established. *)
Theorem C38_stays_finished : forall C d h s h' s' t,
  history C d h s -> run C s h' s' -> status_of s t = Finished ->
  (forall ev, In ev h' -> ~ ended t ev /\ ~ started_with t ev) -> status_of s' t = Finished.
Proof.
  intros C d h s h' s' t HI R S F. apply history_inv in HI. destruct HI as [SI _].
  eapply run_finished; eauto. now apply Forall_forall.
Qed.
Print Assumptions C38_stays_finished.
Example C38_ex :
  history toy xs_alice ya_h ya_s /\ enabled xs_alice /\ status_of ya_s 400 = Encrypted /\
  send toy (xs_ea x26 400) ya_s 400 xs_hi = (ya_s1, [], Ok [ya_text]) /\
  history toy xs_alice za_h za_s /\ status_of za_s 400 = Encrypted /\
  send toy (xs_ea x26 400) za_s 400 xs_hi = (za_s1, [], Ok [za_text]) /\
  receive toy (xs_ea x29 0) za_s1 zb_bye = (za_s2, [], Ok (UMSessionFinished 400 [])) /\
  status_of za_s2 400 = Finished.
Proof.
  split; [exact ya_run|]. split; [exact (proj1 xs_enabled)|]. split; [reflexivity|]. split; [exact ya_sends|].
  split; [exact za_run|]. split; [reflexivity|]. split; [exact za_sends|]. split; [exact za_ended|reflexivity].
Qed.

(** * C39: disabled OTR is transparent *)
Theorem C39_transparent : forall C d h s e t content payload,
  history C d h s -> ~ enabled d ->
  send C e s t content = (s, [], Ok [content]) /\ receive C e s payload = (s, [], Ok (UMPlaintext payload)).
Proof. intros C d h s e t c p. exact (disabled C d h s e t c p). Qed.
Print Assumptions C39_transparent.
Example C39_ex :
  ~ enabled (mkDetails (mkPolicy false false true true true true) 300 [] []) /\
  history toy (mkDetails (mkPolicy false false true true true true) 300 [] []) []
    (session_new (mkDetails (mkPolicy false false true true true true) 300 [] [])).
Proof. split; [intros [E|E]; discriminate|constructor]. Qed.

(** * C40: whitespace tags *)

(* At most one tagged message in the whole history, *)
Theorem C40_at_most_once : forall C d h1 e1 h2 e2 h3 s,
  history C d (h1 ++ e1 :: h2 ++ e2 :: h3) s -> sent_tagged e1 -> sent_tagged e2 -> False.
Proof. exact history_tagged_once. Qed.
Print Assumptions C40_at_most_once.
(* only if the policy asks for it, *)
Theorem C40_policy : forall C d h s ev,
  history C d h s -> In ev h -> sent_tagged ev -> send_whitespace_tag (de_policy d) = true.
Proof. exact history_tagged_policy. Qed.
Print Assumptions C40_policy.
(* and in plaintext state the text goes out, without its NUL bytes, alone or after the tag of the preferred
   version. *)
Theorem C40_text : forall C d h s e t c s' out r,
  history C d h s -> enabled d -> require_encryption (de_policy d) = false ->
  get_inst t (se_instances s) <> None -> status_of s t = Plaintext -> send C e s t c = (s', out, r) ->
  out = [] /\
  ((exists v, send_whitespace_tag (de_policy d) = true /\ preferred d v /\
      r = Ok [whitespace_tag v ++ without_nul c])
   \/ r = Ok [without_nul c]).
Proof. exact plain_lemma. Qed.
Print Assumptions C40_text.
(* "... and the peer has not replied with plaintext" does not hold: the tag is sent although the peer already
   wrote unencrypted text. *)
Theorem C40_after_reply_refuted :
  ~ (forall C d h1 e1 h2 e2 s, history C d (h1 ++ e1 :: h2 ++ [e2]) s -> got_plaintext e1 -> ~ sent_tagged e2).
Proof. exact tag_after_plaintext. Qed.
Print Assumptions C40_after_reply_refuted.
(* "... the text itself is not altered" does not hold: NUL bytes in it are not sent, even outside a session. *)
Theorem C40_unaltered_refuted :
  ~ (forall C d h s e t c s' out r ps, history C d h s -> enabled d -> status_of s t = Plaintext ->
       send C e s t c = (s', out, r) -> r = Ok ps -> ps = [c] \/ exists v, ps = [whitespace_tag v ++ c]).
Proof. exact text_altered. Qed.
Print Assumptions C40_unaltered_refuted.
Example C40_ex :
  history toy xs_alice (fst r40_s) (snd r40_s) /\ (exists ev, In ev (fst r40_s) /\ sent_tagged ev) /\
  send toy (xs_ea x21 0) (snd r40_s) 0 xs_hi = (snd r40_s, [], Ok [xs_hi]) /\
  send toy (xs_ea x21 0) xs_a0 0 xs_hi = (snd r40_s, [], Ok [whitespace_tag V4 ++ xs_hi]).
Proof.
  split; [exact r40_run|]. split; [|split; vm_compute; reflexivity].
  eexists. split; [right; left; reflexivity|]. exists 0, xs_hi, V4. split; reflexivity.
Qed.

(** * C41: version negotiation *)

(* Whatever arrives, what goes out in response is nothing, the error reply, a query for the preferred version
   if the policy asks for one after errors, the first message of an exchange for the version chosen among those
   offered, or an answer in the version of a received message, an allowed one. *)
Theorem C41_receive : forall C d h s e p s' out r,
  history C d h s -> enabled d -> receive C e s p = (s', out, r) -> r <> Panic ->
  out = [] \/ out = [UNREADABLE_REPLY] \/
  (exists v, error_start_ake (de_policy d) = true /\ preferred d v /\ out = [query_message v]) \/
  (exists vs v m, offers C s p vs /\ chosen d vs v /\ transported d e 0 v m out) \/
  (exists em m, carries C s p em /\ allowed d (em_version em) /\ transported d e (em_sender em) (em_version em) m out).
Proof. exact negotiates. Qed.
Print Assumptions C41_receive.
(* A query is answered by starting an exchange for the chosen version, unless an error is reported; without an
   acceptable version nothing happens. *)
Theorem C41_query : forall C d h s e p b vs v s' out r,
  history C d h s -> enabled d -> completes s p b -> parse C b = Ok (MsgQuery vs) ->
  receive C e s p = (s', out, r) -> r <> Panic ->
  (chosen d vs v -> (r = Ok UMNone /\ exists m, transported d e 0 v m out) \/ (out = [] /\ exists x, r = Err x)) /\
  ((forall w, ~ chosen d vs w) -> out = [] /\ r = Ok UMNone /\ same_states s s').
Proof. exact query_answered. Qed.
Print Assumptions C41_query.
(* A message of a version that is not allowed has no effect on any client's state and is not answered. *)
Theorem C41_refused : forall C d h s e p em s' out r,
  history C d h s -> enabled d -> carries C s p em -> ~ allowed d (em_version em) ->
  receive C e s p = (s', out, r) -> r <> Panic ->
  out = [] /\ same_states s s' /\ (r = Ok UMNone \/ exists x, r = Err x).
Proof. intros C d h s e p em s' out r HI EN (b & CO & PA). exact (version_refused C d h s e p b em s' out r HI EN CO PA). Qed.
Print Assumptions C41_refused.
(* The API call initiate does not look at the policy. *)
Theorem C41_initiate_refuted :
  ~ (forall C d h s es v t s' out r, history C d h s -> enabled d ->
       call C es s (OpInitiate v t) = (s', out, r) -> out <> [] -> allowed d v).
Proof. exact initiate_any_version. Qed.
Print Assumptions C41_initiate_refuted.
Example C41_ex :
  chosen xs_alice [V3; V4] V4 /\ chosen xs_three [V3; V4] V3 /\ (forall w, ~ chosen xs_three [V4] w) /\
  parse toy xs_query4 = Ok (MsgQuery [V4]) /\ completes xs_a0 xs_query4 xs_query4 /\
  (let '(_, out, r) := receive toy (xs_ea x14 0) xs_a0 xs_query4 in (length out, r) = (1%nat, Ok UMNone)).
Proof.
  split; [left; cbn; auto|]. split; [right; cbn; intuition discriminate|].
  split; [intros w [(_ & A & _)|(_ & [A|[]] & _)]; discriminate|].
  split; [reflexivity|]. split; [now left|]. vm_compute. reflexivity.
Qed.

(** * C42: messages for other clients *)

(* An encoded message, whatever is in it, without or with an illegal sender, or for another client. *)
Theorem C42_messages : forall C d h s e v kind sender receiver rest s' out r,
  history C d h s -> enabled d -> (v = V3 \/ v = V4) -> sender < 4294967296 -> receiver < 4294967296 ->
  (sender = 0 \/ misaddressed (de_tag d) sender receiver) ->
  receive C e s (with_header v kind sender receiver rest) = (s', out, r) -> r <> Panic ->
  s' = s /\ out = [] /\ (r = Ok UMNone \/ exists x, r = Err x).
Proof. exact other_message. Qed.
Print Assumptions C42_messages.
(* A fragment, likewise; *)
Theorem C42_fragments_partial : forall C d h s e f s' out r,
  history C d h s -> enabled d -> (fr_version f = V3 \/ fr_version f = V4) -> frag_typed f -> fr_payload f <> [] ->
  (fr_version f = V3 -> fr_identifier f = [x00; x00; x00; x00]) ->
  Forall fragment_char (fr_payload f) -> 1 <= fr_part f <= fr_total f -> fr_sender f <> 0 ->
  misaddressed (de_tag d) (fr_sender f) (fr_receiver f) ->
  receive C e s (fragment_text f) = (s', out, r) ->
  s' = s /\ out = [] /\ (r = Ok UMNone \/ exists x, r = Err x).
Proof. exact other_fragment. Qed.
Print Assumptions C42_fragments_partial.
(* but one without a sender is assembled and processed. *)
Theorem C42_senderless_refuted :
  ~ (forall C d h s e f s' out r, history C d h s -> enabled d ->
       (fr_version f = V3 \/ fr_version f = V4) -> frag_typed f -> fr_payload f <> [] ->
       Forall fragment_char (fr_payload f) -> 1 <= fr_part f <= fr_total f -> fr_sender f = 0 ->
       receive C e s (fragment_text f) = (s', out, r) -> r <> Panic -> s' = s /\ out = []).
Proof. exact senderless_fragment. Qed.
Print Assumptions C42_senderless_refuted.
Example C42_ex :
  history toy xs_alice ya_h ya_s /\ enabled xs_alice /\ misaddressed (de_tag xs_alice) 400 302 /\
  receive toy (xs_ea x30 0) ya_s (with_header V3 x03 400 302 [x00]) = (ya_s, [], Err IncompleteMessage) /\
  receive toy (xs_ea x30 0) ya_s (fragment_text (mkFragment V3 [x00; x00; x00; x00] 400 302 1 2 [x41]))
    = (ya_s, [], Err MessageForOtherInstance).
Proof.
  split; [exact ya_run|]. split; [exact (proj1 xs_enabled)|].
  split; [right; right; split; discriminate|]. split; vm_compute; reflexivity.
Qed.

(** * C43: bookkeeping *)

(* If the user passes only legal tags to initiate: the listed clients are distinct and have legal tags, each
   answers a status query, and the query for the session identifier precisely if its session is encrypted; the
   unaddressed client stays in plaintext; the assertions in has_sessions hold. *)
Theorem C43_bookkeeping : forall C d h s,
  history C d h s -> (forall ev v u, In ev h -> ev_op ev = OpInitiate v u -> legal_tag u) ->
  NoDup (ses_instances s) /\
  status_of s 0 = Plaintext /\ ses_status s 0 = Some Plaintext /\
  (exists b, has_sessions s = Ok b /\ (b = true <-> exists t, In t (ses_instances s) /\ status_of s t <> Plaintext)) /\
  forall t, In t (ses_instances s) -> 256 <= t /\ ses_status s t = Some (status_of s t) /\
    (status_of s t = Encrypted -> exists b, ses_ssid s t = Ok b) /\
    (status_of s t <> Encrypted -> ses_ssid s t = Err IncorrectState).
Proof. exact bookkeeping. Qed.
Print Assumptions C43_bookkeeping.
(* initiate accepts any tag, which is then listed; *)
Theorem C43_legal_refuted : ~ (forall C d h s t, history C d h s -> In t (ses_instances s) -> 256 <= t).
Proof. exact illegal_listed. Qed.
Print Assumptions C43_legal_refuted.
(* and receiving can crash: the last message of an OTRv3 exchange arrives during an OTRv4 session. *)
Theorem C43_no_crash_refuted : ~ (forall C d h s e p, history C d h s -> enabled d -> snd (receive C e s p) <> Panic).
Proof. exact receive_crashes. Qed.
Print Assumptions C43_no_crash_refuted.
Example C43_ex :
  history toy xs_alice za_h za_s /\ ses_instances za_s = [400] /\ status_of za_s 400 = Encrypted /\
  map ev_op za_h = [OpReceive xs_query4; OpReceive (xs_out zs_x2)].
Proof. split; [exact za_run|]. repeat split. Qed.

(** * C44: unencrypted text is flagged *)

(* Text is delivered as ordinary only if encryption is not required and no session is private; an unencrypted
   text is delivered, flagged precisely if encryption is required or some session is private. *)
Theorem C44_flagged : forall C d h s e p s' out r,
  history C d h s -> enabled d -> receive C e s p = (s', out, r) -> r <> Panic ->
  (forall t, r = Ok (UMPlaintext t) -> require_encryption (de_policy d) = false /\ forall u, status_of s u = Plaintext) /\
  (forall t b, completes s p b -> parse C b = Ok (MsgPlaintext t) ->
     same_states s s' /\ out = [] /\
     ((require_encryption (de_policy d) = true \/ exists u, status_of s u <> Plaintext) -> r = Ok (UMWarningUnencrypted t)) /\
     (require_encryption (de_policy d) = false -> (forall u, status_of s u = Plaintext) -> r = Ok (UMPlaintext t))).
Proof.
  intros C d h s e p s' out r HI EN H NP. destruct (flagged C d h s e p s' out r HI EN H NP) as [A B].
  split; [exact A|]. intros t b CO PA. destruct (B t b CO PA) as (-> & D). split; [|exact D].
  intros u. apply stored_state.
Qed.
Print Assumptions C44_flagged.
(* A text after a whitespace tag can get lost: an error in starting the exchange is reported instead. *)
Theorem C44_delivered_refuted :
  ~ (forall C d h s e p b vs c s' out r, history C d h s -> enabled d -> completes s p b ->
       parse C b = Ok (MsgTagged vs c) -> receive C e s p = (s', out, r) -> r <> Panic ->
       r = Ok (UMPlaintext c) \/ r = Ok (UMWarningUnencrypted c)).
Proof. exact text_lost. Qed.
Print Assumptions C44_delivered_refuted.
Example C44_ex :
  history toy xs_alice ya_h ya_s /\ enabled xs_alice /\ status_of ya_s 400 <> Plaintext /\
  parse toy xs_hi = Ok (MsgPlaintext xs_hi) /\ completes ya_s xs_hi xs_hi /\
  receive toy (xs_ea x30 0) ya_s xs_hi = (ya_s, [], Ok (UMWarningUnencrypted xs_hi)) /\
  receive toy (xs_ea x30 0) xs_a0 xs_hi = (xs_a0, [], Ok (UMPlaintext xs_hi)).
Proof.
  split; [exact ya_run|]. split; [exact (proj1 xs_enabled)|]. split; [discriminate|]. split; [reflexivity|].
  split; [now left|]. split; vm_compute; reflexivity.
Qed.

(** * C45: confidential delivery implies authentication *)

(* Text delivered as confidential from client t: the session with t is encrypted, the payload carries, perhaps as
   the last of its fragments, a data message from t to this client, the message verifies under the keys of that
   session, and text and records are its decryption. *)
Theorem C45_confidential : forall C d h s e p s' out t content tlvs,
  history C d h s -> enabled d -> receive C e s p = (s', out, Ok (UMConfidential t content tlvs)) ->
  status_of s t = Encrypted /\
  exists em text, carries C s p em /\ em_sender em = t /\ em_receiver em = de_tag d /\
    allowed d (em_version em) /\ opens C (state_of s t) em text /\ shows text content tlvs.
Proof.
  intros C d h s e p s' out t content tlvs H EN R. destruct (confidential_text C d h s e p s' out t content tlvs H EN R) as (S & em & text & X).
  split; [exact S|]. exists em, text. rewrite <- parse_shows. exact X.
Qed.
Print Assumptions C45_confidential.
(* The same holds for the end of a session and for the results of the Socialist Millionaire Protocol. *)
Theorem C45_authentic : forall C d h s e p s' out r t,
  history C d h s -> enabled d -> receive C e s p = (s', out, r) ->
  (exists c tlvs, r = Ok (UMConfidential t c tlvs)) \/ (exists c, r = Ok (UMSessionFinished t c))
  \/ r = Ok (UMSmpSucceeded t) \/ r = Ok (UMSmpFailed t) ->
  exists em text, carries C s p em /\ em_sender em = t /\ em_receiver em = de_tag d /\
    allowed d (em_version em) /\ opens C (state_of s t) em text /\ told (em_version em) t text r.
Proof.
  intros C d h s e p s' out r t H EN R X. destruct (confidential C d h s e p s' out r t H EN R X) as (em & text & Y).
  exists em, text. rewrite <- reported_told. exact Y.
Qed.
Print Assumptions C45_authentic.
Example C45_ex :
  history toy xs_bob yb_h yb_s /\ receive toy (xs_eb x27 0) yb_s ya_text = (yb_s1, [], Ok (UMConfidential 301 xs_hi [])) /\
  history toy xs_bob zb_h zb_s /\ receive toy (xs_eb x27 0) zb_s za_text = (zb_s1, [], Ok (UMConfidential 301 xs_hi [])).
Proof. split; [exact yb_run|]. split; [exact yb_reads|]. split; [exact zb_run|exact zb_reads]. Qed.

(** * C46: ending a session *)

(* Ending an encrypted session: the peer is sent the goodbye message, the client is in plaintext, nothing
   changes for other clients. *)
Theorem C46_end : forall C d h s e t s' out r,
  history C d h s -> status_of s t = Encrypted -> end_session C e s t = (s', out, r) -> r <> Panic ->
  exists v m, goodbye C (ev_send e) (state_of s t) v m /\ transported d e t v m out /\
     r = Ok (UMReset t) /\ state_of s' t = PPlain /\
     forall u, u <> t -> get_inst u (se_instances s') = get_inst u (se_instances s).
Proof.
  intros C d h s e t s' out r HI S H NP. apply history_inv in HI. destruct HI as [SI <-].
  destruct (end_sends C e s t s' out r SI S H NP) as (v & m & A & B & D & E & _ & F). exists v, m. auto.
Qed.
Print Assumptions C46_end.
(* Ending a session that the peer ended: nothing goes out. *)
Theorem C46_end_finished : forall C d h s e t,
  history C d h s -> status_of s t = Finished ->
  exists s', end_session C e s t = (s', [], Ok (UMReset t)) /\ state_of s' t = PPlain /\
    forall u, u <> t -> get_inst u (se_instances s') = get_inst u (se_instances s).
Proof.
  intros C d h s e t HI S. apply history_inv in HI. destruct HI as [SI _].
  destruct (end_finished C e s t SI S) as (s' & A & B & _ & D). exists s'. auto.
Qed.
Print Assumptions C46_end_finished.
(* Ending again has no effect. *)
Theorem C46_end_again : forall C s e t,
  get_inst t (se_instances s) <> None -> status_of s t = Plaintext -> end_session C e s t = (s, [], Ok UMNone).
Proof. intros C s e t. exact (end_plaintext C e s t). Qed.
Print Assumptions C46_end_again.
(* The end of a session is reported only for an authentic message of that client with a disconnect record; the
   session was encrypted and is finished, nothing goes out, nothing changes for other clients. *)
Theorem C46_peer_ends : forall C d h s e p s' out content t,
  history C d h s -> enabled d -> receive C e s p = (s', out, Ok (UMSessionFinished t content)) ->
  (exists em text, carries C s p em /\ em_sender em = t /\ em_receiver em = de_tag d /\
     opens C (state_of s t) em text /\ farewell text content) /\
  out = [] /\ status_of s t = Encrypted /\ status_of s' t = Finished /\
  (forall u, u <> t -> state_of s' u = state_of s u).
Proof.
  intros C d h s e p s' out content t H EN R. destruct (peer_ends C d h s e p s' out content t H EN R) as ((em & text & X) & Y).
  split; [|exact Y]. exists em, text. rewrite <- parse_farewell. exact X.
Qed.
Print Assumptions C46_peer_ends.
(* A data message with a disconnect record that is readable, unless refused, ends the session. *)
Theorem C46_disconnect : forall C d h s e p s' out r em ignore text content,
  history C d h s -> enabled d -> carries C s p em -> allowed d (em_version em) -> addressed d em ->
  data_message C em ignore -> receive C e s p = (s', out, r) -> r <> Panic -> out <> [UNREADABLE_REPLY] ->
  opens C (state_of s (em_sender em)) em text -> farewell text content ->
  out = [] /\ r = Ok (UMSessionFinished (em_sender em) content) /\ status_of s' (em_sender em) = Finished.
Proof.
  intros C d h s e p s' out r em ignore text content H EN CA AL AD DM R NP NO OP F. apply parse_farewell in F.
  exact (disconnect_received C d h s e p s' out r em ignore text content H EN CA AL AD DM R NP NO OP F).
Qed.
Print Assumptions C46_disconnect.
(* the goodbye message contains such a record *)
Theorem C46_goodbye : farewell DISCONNECT [].
Proof. apply parse_farewell. exact parse_disconnect. Qed.
Print Assumptions C46_goodbye.
Example C46_ex :
  history toy xs_bob zb_h zb_s /\ status_of zb_s 301 = Encrypted /\
  (let '(s', out, r) := end_session toy (xs_eb x28 301) zb_s 301 in
   (length out, r, status_of s' 301) = (1%nat, Ok (UMReset 301), Plaintext)) /\
  receive toy (xs_ea x29 0) za_s1 zb_bye = (za_s2, [], Ok (UMSessionFinished 400 [])) /\
  status_of za_s2 400 = Finished /\
  receive toy (xs_ea x29 0) ya_s1 yb_bye = (ya_s2, [], Ok (UMSessionFinished 400 [])).
Proof.
  split; [exact zb_run|]. split; [reflexivity|]. split; [vm_compute; reflexivity|]. split; [exact za_ended|].
  split; [reflexivity|exact ya_ended].
Qed.

(** * C47: user text cannot inject control records *)

(* What send encrypts for a text (C38) is read as that text, without its NUL bytes, and no records at all; *)
Theorem C47_text_only : forall v t content r,
  parse_message (without_nul content) = Ok (Confidential (without_nul content) []) /\
  (told v t (without_nul content) r <-> r = Ok (UMConfidential t (without_nul content) [])).
Proof.
  intros v t c r. split; [exact (parse_text_only c)|]. rewrite <- reported_told. exact (reported_text v t c r).
Qed.
Print Assumptions C47_text_only.
(* a text followed by records is read as the text and precisely these records, except padding; one of them a
   disconnect record: as the end of the session. *)
Theorem C47_text_records : forall content records,
  Forall SpecWire.tlv_range records ->
  parse_message (without_nul content ++ x00 :: concat (map SpecWire.tlv_bytes records)) =
  Ok (if existsb (fun t => tlv_type t =? 1) records then ConfidentialFinished (without_nul content)
      else Confidential (without_nul content) (filter (fun t => negb (tlv_type t =? 0)) records)).
Proof. exact parse_text_records. Qed.
Print Assumptions C47_text_records.
(* In general: a plaintext is read as what it says, and refused if it says nothing. *)
Theorem C47_reading : forall plaintext text tlvs,
  (parse_message plaintext = Ok (Confidential text tlvs) <-> shows plaintext text tlvs) /\
  (parse_message plaintext = Ok (ConfidentialFinished text) <-> farewell plaintext text) /\
  ((exists c rs, says plaintext c rs) \/ (forall c rs, ~ says plaintext c rs) /\ parse_message plaintext = Err IncompleteMessage).
Proof. intros b c ts. split; [exact (parse_shows b c ts)|]. split; [exact (parse_farewell b c)|exact (says_or_not b)]. Qed.
Print Assumptions C47_reading.
Example C47_ex :
  (* a text that looks like a disconnect record *)
  parse_message (without_nul [x68; x00; x00; x01; x00; x00]) = Ok (Confidential [x68; x01] []) /\
  parse_message (without_nul [x68; x00] ++ x00 :: concat (map SpecWire.tlv_bytes [mkTlv 0 [x00]; mkTlv 8 [x01]]))
    = Ok (Confidential [x68] [mkTlv 8 [x01]]).
Proof. split; vm_compute; reflexivity. Qed.

(** * C48: unreadable messages *)

(* A data message for this client is either readable, and reported as what it says; or the peer is sent the error
   reply, the user is told unless the message is flagged ignore-unreadable, and no session changes status. *)
Theorem C48_read_or_error : forall C d h s e p s' out r em ignore,
  history C d h s -> enabled d -> carries C s p em -> allowed d (em_version em) -> addressed d em ->
  data_message C em ignore -> receive C e s p = (s', out, r) -> r <> Panic ->
  (exists text, opens C (state_of s (em_sender em)) em text /\ told (em_version em) (em_sender em) text r)
  \/ (out = [UNREADABLE_REPLY] /\ r = (if ignore then Ok UMNone else Err (UnreadableMessage (em_sender em))) /\
      forall u, status_of s' u = status_of s u).
Proof.
  intros C d h s e p s' out r em ignore H EN CA AL AD DM R NP.
  destruct (data_read C d h s e p s' out r em ignore H EN CA AL AD DM R NP) as [(text & O & X)|X]; [left|right; exact X].
  exists text. rewrite <- reported_told. auto.
Qed.
Print Assumptions C48_read_or_error.
(* If it is not readable, that is outside an encrypted session or if it does not verify, it is the latter, and no
   session state changes at all. *)
Theorem C48_unreadable : forall C d h s e p s' out r em ignore,
  history C d h s -> enabled d -> carries C s p em -> allowed d (em_version em) -> addressed d em ->
  data_message C em ignore -> receive C e s p = (s', out, r) -> r <> Panic ->
  (forall text, ~ opens C (state_of s (em_sender em)) em text) ->
  out = [UNREADABLE_REPLY] /\ r = (if ignore then Ok UMNone else Err (UnreadableMessage (em_sender em))) /\ same_states s s'.
Proof. exact unreadable. Qed.
Print Assumptions C48_unreadable.
(* The error reply is sent for nothing else. *)
Theorem C48_only_unreadable : forall C d h s e p s' out r,
  history C d h s -> enabled d -> receive C e s p = (s', out, r) -> r <> Panic -> In UNREADABLE_REPLY out ->
  exists em ignore, carries C s p em /\ data_message C em ignore /\ em_receiver em = de_tag d /\
    out = [UNREADABLE_REPLY] /\ r = (if ignore then Ok UMNone else Err (UnreadableMessage (em_sender em))).
Proof. exact error_reply. Qed.
Print Assumptions C48_only_unreadable.
(* An OTRv4 data message with improper keys is not answered by an error reply. *)
Theorem C48_improper_keys_refuted :
  ~ (forall C d h s e p em s' out r m, history C d h s -> enabled d -> carries C s p em ->
       allowed d (em_version em) -> addressed d em -> em_message em = MData4 m -> receive C e s p = (s', out, r) ->
       r <> Panic ->
       (exists text, opens C (state_of s (em_sender em)) em text) \/ out = [UNREADABLE_REPLY]).
Proof. exact unanswered. Qed.
Print Assumptions C48_improper_keys_refuted.
Example C48_ex :
  (* Bob does not know the session *)
  (let '(s', out, r) := receive toy (xs_eb x30 0) xs_b0 ya_text in
   (out, r, status_of s' 301) = ([UNREADABLE_REPLY], Err (UnreadableMessage 301), Plaintext)) /\
  (let '(s', out, r) := receive toy (xs_eb x30 0) xs_b0 za_text in
   (out, r, status_of s' 301) = ([UNREADABLE_REPLY], Err (UnreadableMessage 301), Plaintext)).
Proof. split; vm_compute; reflexivity. Qed.

(** * C49: clients of the peer are isolated *)

(* The session state of a client changes only if the payload carries a message from it; *)
Theorem C49_state : forall C d h s e p s' out r u,
  history C d h s -> receive C e s p = (s', out, r) -> r <> Panic ->
  (forall em, carries C s p em -> em_sender em <> u) -> state_of s' u = state_of s u.
Proof. exact isolated. Qed.
Print Assumptions C49_state.
(* the same for everything else kept about it, its fragments and key exchanges, if the payload is not a fragment
   from it either; client 0, the unaddressed one, excepted. *)
Theorem C49_everything : forall C d h s e p s' out r u,
  history C d h s -> receive C e s p = (s', out, r) -> r <> Panic -> u <> 0 ->
  (forall em, carries C s p em -> em_sender em <> u) ->
  (forall f, parse_fragment p = Ok (Some f) -> fr_sender f <> u) ->
  get_inst u (se_instances s') = get_inst u (se_instances s).
Proof. exact isolated_all. Qed.
Print Assumptions C49_everything.
Example C49_ex :
  (* a message from 400 leaves client 0 and an unknown client alone *)
  history toy xs_alice ya_h ya_s /\ receive toy (xs_ea x29 0) ya_s1 yb_bye = (ya_s2, [], Ok (UMSessionFinished 400 [])) /\
  state_of ya_s2 0 = state_of ya_s1 0 /\ state_of ya_s2 400 <> state_of ya_s1 400 /\
  receive toy (xs_ea x29 0) ya_s xs_query3 <> receive toy (xs_ea x29 0) ya_s xs_hi.
Proof.
  split; [exact ya_run|]. split; [exact ya_ended|]. split; [reflexivity|]. split; [discriminate|].
  intros X. apply (f_equal snd) in X. vm_compute in X. discriminate X.
Qed.
