(* Vocabulary for the property that nothing disturbs a private conversation from outside. *)
From Verif Require Import Base Types Crypto Encoding Messages Fragment Protocol Session SpecSession.
Local Open Scope N_scope.

(* the calls of the user about client t *)
Definition about (t : N) (o : op) : Prop :=
  match o with OpSend u _ | OpEnd u | OpStartSmp u _ _ | OpAbortSmp u => u = t | _ => False end.

(* The payload completes the text b of a message that says to come from client t and can be read with the keys of the
   conversation with t. *)
Definition genuine (C : Crypto) (s : session) (t : N) (payload b : bytes) : Prop :=
  completes s payload b /\
  exists em text, parse C b = Ok (MsgEncoded em) /\ em_sender em = t /\ opens C (state_of s t) em text.

(* The call is no part of the conversation with client t: anything arriving from the network, from anybody, in any
   encoding, except a message that can be read with the keys of the conversation, and without leading to a new session
   with t; any query or start of a key exchange, also with t; any call about another client; an expiry while the
   conversation is not idle. *)
Definition outside (C : Crypto) (es : N -> env) (s : session) (t : N) (o : op) (r : res answer) : Prop :=
  match o with
  | OpReceive p => (forall b, ~ genuine C s t p b) /\ r <> Ok (AnMessage (UMSessionStarted t))
  | OpInitiate _ _ | OpQuery => True
  | OpSend u _ | OpEnd u | OpStartSmp u _ _ | OpAbortSmp u => u <> t
  | OpExpire timeout => ~ idle (ev_now (es t)) timeout (state_of s t)
  end.

(* [beside C t s0 h k s]: the calls of h lead from s0 to s, and k is what is left of h without the outside calls: the
   user's own calls about t and the genuine messages of t, these in one piece. *)
Inductive beside (C : Crypto) (t : N) (s0 : session) : list event -> list event -> session -> Prop :=
| be_nil : beside C t s0 [] [] s0
| be_outside h k s es o s' out r : beside C t s0 h k s ->
    call C es s o = (s', out, r) -> r <> Panic -> outside C es s t o r ->
    beside C t s0 (h ++ [mkEvent o out r]) k s'
| be_own h k s es o s' out r : beside C t s0 h k s ->
    call C es s o = (s', out, r) -> r <> Panic -> about t o -> status_of s t <> Plaintext ->
    beside C t s0 (h ++ [mkEvent o out r]) (k ++ [mkEvent o out r]) s'
| be_genuine h k s es p b s' out r : beside C t s0 h k s ->
    call C es s (OpReceive p) = (s', out, r) -> r <> Panic -> genuine C s t p b ->
    beside C t s0 (h ++ [mkEvent (OpReceive p) out r]) (k ++ [mkEvent (OpReceive b) out r]) s'.
