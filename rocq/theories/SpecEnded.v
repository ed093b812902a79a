(* Vocabulary for the report that the peer has finished a private conversation. *)
From Verif Require Import Base Types Crypto Encoding Messages Fragment KeyManager DataV3 Ratchet DataV4
  AKE DAKE SMP SMP4 Protocol Session SpecSession SpecFollow SpecTexts.
Local Open Scope N_scope.

(* Session sB is told by the payload p that client t has finished the conversation, with text c, because of
   message em, which it accepts with the keys of the conversation.  gA is what t's session has done with its
   messages of this conversation so far: none of them is em. *)
Definition says_farewell (C : Crypto) (gA : list did) (sB : session) (t : N) (p c : bytes) (em : encoded_message) : Prop :=
  exists text, carries C sB p em /\ em_sender em = t /\ opens C (state_of sB t) em text /\ farewell text c /\
  (forall m text', In (Sends m text') gA -> ~ same_data m (em_message em)).

(* m is the message with which session s ends the conversation with client t *)
Definition ends_with (C : Crypto) (s : session) (t : N) (m : encoded_type) : Prop :=
  exists rnd v, goodbye C rnd (state_of s t) v m.

(* No forgeries, the farewell included: the message that payload p brings to session sB, if accepted, is one
   that A's session has written in the conversation, or the farewell with which it ended it. *)
Definition from_peer (C : Crypto) (sA : session) (tb : N) (gA : list did) (sB : session) (ta : N) (p : bytes) : Prop :=
  forall em text, carries C sB p em -> opens C (state_of sB ta) em text ->
  (exists m text', In (Sends m text') gA /\ same_data m (em_message em)) \/
  (exists m, ends_with C sA tb m /\ same_data m (em_message em)).
