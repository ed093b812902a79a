(* Vocabulary for the properties of repeated key exchanges: answered queries, quiet periods, and texts sent
   under a given key stream. *)
From Verif Require Import Base Types Crypto Encoding Messages Fragment AKE DAKE Protocol Session SpecAKE SpecDAKE SpecSession SpecNet.
Local Open Scope N_scope.

(* the payload is a query message, in one piece, for which version v is the one to use *)
Definition queries (C : Crypto) (d : details) (payload : bytes) (v : version) : Prop :=
  match_fragment payload = false /\ exists vs, parse C payload = Ok (MsgQuery vs) /\ chosen d vs v.
(* the event is the arrival of such a message, and an exchange was started in response *)
Definition answered_query (C : Crypto) (d : details) (v : version) (ev : event) : Prop :=
  exists p, ev_op ev = OpReceive p /\ queries C d p v /\ ev_result ev = Ok (AnMessage UMNone).

(* a message of a conversation, as opposed to a key exchange *)
Definition of_conversation (m : encoded_type) : Prop := match m with MData _ | MData4 _ => True | _ => False end.
(* the call is no part of a key exchange with client t: the user does not start one, and no message of one
   arrives from t *)
Definition not_with (C : Crypto) (t : N) (s : session) (o : op) : Prop :=
  match o with
  | OpInitiate _ u => u <> t
  | OpReceive p => forall em, carries C s p em -> em_sender em = t -> of_conversation (em_message em)
  | _ => True
  end.
(* a run without any part of a key exchange with client t *)
Inductive quiet_run (C : Crypto) (t : N) (s0 : session) : list event -> session -> Prop :=
| q_nil : quiet_run C t s0 [] s0
| q_call h s es o s' out r :
    quiet_run C t s0 h s -> not_with C t s o -> call C es s o = (s', out, r) -> r <> Panic ->
    quiet_run C t s0 (h ++ [mkEvent o out r]) s'.

(* nothing that was injected in the calls h is an OTRv3 D-H Commit message without an addressee, the message with
   which a client answers a query *)
Definition no_new_start3 (d : details) (h : list event) : Prop :=
  forall ev e m, In ev h -> ~ transported d e 0 V3 (MDHCommit m) (ev_injected ev).
(* the same for OTRv4: an Identity message *)
Definition no_new_start4 (d : details) (h : list event) : Prop :=
  forall ev e m, In ev h -> ~ transported d e 0 V4 (MIdentity m) (ev_injected ev).

(* the key exchange message em reaches client t's peer in state s and starts a session *)
Definition starts (C : Crypto) (e : env) (s : session) (p : bytes) (em : encoded_message) (s' : session) : Prop :=
  carries C s p em /\ exists out, receive C e s p = (s', out, Ok (UMSessionStarted (em_sender em))).

(* The last two messages of an OTRv3 exchange, the D-H Key message [key] and the Signature message [sg] of client
   t, reach a client in state s and lead to s'.  In between it does not start another exchange.  [r1] and [r2]
   are its answers. *)
Definition last_messages3 (C : Crypto) (t : N) (key sg : encoded_message) (s s' : session) (r1 r2 : res user_message) : Prop :=
  exists e1 p1 s1 out1 h s2 e2 p2 out2,
    carries C s p1 key /\ receive C e1 s p1 = (s1, out1, r1) /\ r1 <> Panic /\
    quiet_run C t s1 h s2 /\ no_new_start3 (se_details s) h /\
    carries C s2 p2 sg /\ receive C e2 s2 p2 = (s', out2, r2) /\ r2 <> Panic.
Definition is_dh_key (t : N) (em : encoded_message) : Prop :=
  em_version em = V3 /\ em_sender em = t /\ exists m, em_message em = MDHKey m.
Definition is_signature (t : N) (em : encoded_message) : Prop :=
  em_version em = V3 /\ em_sender em = t /\ exists m, em_message em = MSignature m.

(** ** Both users start at once *)

(* Two sessions, and the messages under way to each. *)
Record crossed : Type := mkCrossed { cs_a : session; cs_b : session; cs_to_a : list bytes; cs_to_b : list bytes }.
(* Everything under way can be carried by the transport and is delivered, and the answers are under way now. *)
Definition round (C : Crypto) (ea eb : env) (x y : crossed) : Prop :=
  transportable (cs_to_a x) /\ transportable (cs_to_b x) /\
  exists ra rb, receive_all C ea (cs_a x) (cs_to_a x) = (cs_a y, cs_to_b y, ra) /\
    receive_all C eb (cs_b x) (cs_to_b x) = (cs_b y, cs_to_a y, rb) /\ ~ In Panic (ra ++ rb).
(* rounds in which the applications have the properties PA and PB *)
Inductive rounds (C : Crypto) (PA PB : env -> Prop) (x : crossed) : crossed -> Prop :=
| rounds_0 : rounds C PA PB x x
| rounds_S ea eb y z : rounds C PA PB x y -> PA ea -> PB eb -> round C ea eb y z -> rounds C PA PB x z.
(* Both clients send a query message before they have seen the other's, and every message is delivered until
   no one has anything to say. *)
Definition both_start (C : Crypto) (PA PB : env -> Prop) (sa sb sa' sb' : session) : Prop :=
  exists pa pb, ses_query sa = (sa, pb, Ok tt) /\ ses_query sb = (sb, pa, Ok tt) /\
    rounds C PA PB (mkCrossed sa sb pa pb) (mkCrossed sa' sb' [] []).
(* the application answers with the DSA key k, and no value is one that the other side must refuse *)
Definition working3 (C : Crypto) (k : dsa_keypair) (e : env) : Prop :=
  ev_dsa e = Some k /\ length (ev_r e) = 16%nat /\ env_ok e /\ dh_public_ok C (dh_public (dh_new C (ev_dh e))).
(* the application answers with the profile and identity key of h *)
Definition working4 (C : Crypto) (h : dake_host) (e : env) : Prop :=
  ev_dake_host e = h /\ ring_rnd_ok C (ev_ring e) /\ env_ok e.
(* the clients can read each other: both are in an encrypted session, and it is the same *)
Definition connected (sa sb : session) : Prop :=
  let ta := de_tag (se_details sa) in let tb := de_tag (se_details sb) in
  status_of sa tb = Encrypted /\ status_of sb ta = Encrypted /\ ses_ssid sa tb = ses_ssid sb ta.
