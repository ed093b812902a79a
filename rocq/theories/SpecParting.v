(* Vocabulary for the end of a private conversation between two sessions connected by a network. *)
From Verif Require Import Base Types Crypto Encoding Messages Fragment KeyManager DataV3 Ratchet DataV4
  AKE DAKE SMP SMP4 Protocol Session SpecSession SpecNet.
Local Open Scope N_scope.

(* A has ended the conversation.  B's session, and what is still under way to it, oldest first: the payloads of
   A's messages, with the text that the user entered; the farewell has none. *)
Record parting : Type := mkParting { pa_session : session; pa_queue : list (list bytes * option bytes) }.

(* what is under way when A's farewell ps joins it *)
Definition with_farewell (q : list (list bytes * bytes)) (ps : list bytes) : list (list bytes * option bytes) :=
  map (fun x => (fst x, Some (snd x))) q ++ [(ps, None)].

(* B knows nothing of it yet: B's user goes on sending to A's client t; the network loses the oldest message, or
   delivers it if it is not the farewell; the session gets any call that does not concern client t. *)
Inductive parting_step (C : Crypto) (t : N) : parting -> parting -> Prop :=
| p_send p e text s ps :
    send C e (pa_session p) t text = (s, [], Ok ps) -> env_ok e -> transportable ps ->
    parting_step C t p (mkParting s (pa_queue p))
| p_lose p x r : pa_queue p = x :: r -> parting_step C t p (mkParting (pa_session p) r)
| p_arrive p e ps text r s out rs :
    pa_queue p = (ps, Some text) :: r -> receive_all C e (pa_session p) ps = (s, out, rs) -> ~ In Panic rs ->
    parting_step C t p (mkParting s r)
| p_other p es o s out r :
    call C es (pa_session p) o = (s, out, r) -> r <> Panic ->
    get_inst t (se_instances s) = get_inst t (se_instances (pa_session p)) ->
    parting_step C t p (mkParting s (pa_queue p)).
Inductive parting_run (C : Crypto) (t : N) (p0 : parting) : parting -> Prop :=
| p_nil : parting_run C t p0 p0
| p_step p p' : parting_run C t p0 p -> parting_step C t p p' -> parting_run C t p0 p'.

(* The farewell arrived: the user is told, in one piece, that client [peer] has finished the session, and nothing
   is sent back. *)
Definition told_finished (peer : N) (rs : list (res user_message)) (out : list bytes) : Prop :=
  exists n, rs = answered n (Ok (UMSessionFinished peer [])) /\ out = [].
(* The farewell could not be read: the user is told nothing, the sender is told that a message was unreadable. *)
Definition unnoticed (rs : list (res user_message)) (out : list bytes) : Prop :=
  exists n, rs = answered n (Ok UMNone) /\ out = [UNREADABLE_REPLY].
(* Whatever happens until the farewell ps arrives at the session that A's messages q are on their way to: B's user
   is told and the session finished, or it goes unnoticed and the session is still encrypted. *)
Definition told_or_unnoticed (C : Crypto) (t : N) (s : session) (q : list (list bytes * bytes)) (ps : list bytes) : Prop :=
  forall s1 rest e s2 out rs,
    parting_run C t (mkParting s (with_farewell q ps)) (mkParting s1 ((ps, None) :: rest)) ->
    receive_all C e s1 ps = (s2, out, rs) -> ~ In Panic rs ->
    (told_finished t rs out /\ status_of s2 t = Finished) \/ (unnoticed rs out /\ status_of s2 t = Encrypted).
(* B's user is told when the farewell arrives *)
Definition surely_told (C : Crypto) (t : N) (s : session) (ps : list bytes) : Prop :=
  forall e s2 out rs, receive_all C e s ps = (s2, out, rs) -> ~ In Panic rs ->
    told_finished t rs out /\ status_of s2 t = Finished.
