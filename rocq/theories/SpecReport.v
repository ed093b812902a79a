(* Vocabulary for what the host application is given and told. *)
From Verif Require Import Base Types Encoding Protocol Session SpecSession.
Local Open Scope N_scope.

(* The message is no longer than the transport allows, or it is one of the messages of a fixed text. *)
Definition fits (max : nat) (p : bytes) : Prop :=
  (length p <= max)%nat \/ p = UNREADABLE_REPLY \/ exists v, p = query_message v.
