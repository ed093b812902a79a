(* Vocabulary for conversations that the users renew: one of them asks for a new key exchange although the two
   are in an encrypted conversation. *)
From Verif Require Import Base Types Crypto DAKE Protocol Session SpecSession SpecNet.
Local Open Scope N_scope.

(* [renewed3 C da db l]: the clients of accounts da and db began with a key exchange that da asked for.  Since
   then the users talked (see [net_step]), and either of them asked for a new exchange any number of times, at any
   moment.  What was under way at such a moment is lost. *)
Inductive renewed3 (C : Crypto) (da db : details) : link -> Prop :=
| rn3_begin sa sb (x : exchange C sa sb) : start_net3 C da db sa sb x -> renewed3 C da db (mkLink (x_sa2 x) (x_sb3 x) [] [])
| rn3_talk l h l' : renewed3 C da db l -> net_step C (de_tag da) (de_tag db) l h l' -> renewed3 C da db l'
| rn3_by_a l (y : exchange C (li_a l) (li_b l)) : renewed3 C da db l -> honest3 C y ->
    renewed3 C da db (mkLink (x_sa2 y) (x_sb3 y) [] [])
| rn3_by_b l (y : exchange C (li_b l) (li_a l)) : renewed3 C da db l -> preferred db V3 -> honest3 C y ->
    renewed3 C da db (mkLink (x_sb3 y) (x_sa2 y) [] []).

(* In OTRv4 a client that has answered a query message does not answer another one (see C56): only the user whose
   client answered the first one can ask for a new exchange, if the other client has not answered one either. *)
Definition can_answer (s : session) : Prop := in_dake (entry 0 (se_instances s)) = DakeInitial.
Inductive renewed4 (C : Crypto) (da db : details) : link -> Prop :=
| rn4_begin sa sb (x : exchange C sa sb) : start_net4 C da db sa sb x -> renewed4 C da db (mkLink (x_sa2 x) (x_sb3 x) [] [])
| rn4_talk l h l' : renewed4 C da db l -> net_step C (de_tag da) (de_tag db) l h l' -> renewed4 C da db l'
| rn4_by_b l (y : exchange C (li_b l) (li_a l)) : renewed4 C da db l -> preferred db V4 -> can_answer (li_a l) ->
    honest4 C db da (x_e0 y) (x_e1 y) (x_e2 y) -> renewed4 C da db (mkLink (x_sb3 y) (x_sa2 y) [] []).

(* both users are told that a session has started; d asked for it, first d is told in OTRv3 and first d' in OTRv4 *)
Definition told3 {C : Crypto} {s s' : session} (y : exchange C s s') (d d' : details) : Prop :=
  x_r4 y = answered (length (x_p3 y)) (Ok (UMSessionStarted (de_tag d'))) /\
  x_r5 y = answered (length (x_p4 y)) (Ok (UMSessionStarted (de_tag d))).
Definition told4 {C : Crypto} {s s' : session} (y : exchange C s s') (d d' : details) : Prop :=
  x_r3 y = answered (length (x_p2 y)) (Ok (UMSessionStarted (de_tag d))) /\
  x_r4 y = answered (length (x_p3 y)) (Ok (UMSessionStarted (de_tag d'))).
(* the message that arrived was shown to the user as it was entered, or it was refused and both users know *)
Definition shown_or_refused (da db : details) (h : happening) : Prop :=
  match h with
  | Arrives a text rs out => let peer := if a then de_tag da else de_tag db in shown peer text rs out \/ refused peer rs out
  | _ => True
  end.
