(* Vocabulary for conversations that begin with a text that carries a whitespace tag. *)
From Verif Require Import Base Types Crypto SpecWire Protocol Session SpecSession.
Local Open Scope N_scope.

(* the text contains nothing that OTR gives a meaning: no query message, no whitespace tag, no group of eight blanks
   in front (see C07) *)
Definition unmarked (text : bytes) : Prop := ~ has_query text /\ ~ has_tag text /\ ~ group_at text.
(* the user is shown the text, with a warning if they must expect encryption *)
Definition displayed (s : session) (text : bytes) (r : res user_message) : Prop :=
  let d := se_details s in
  ((require_encryption (de_policy d) = true \/ exists u, status_of s u <> Plaintext) /\ r = Ok (UMWarningUnencrypted text))
  \/ (require_encryption (de_policy d) = false /\ (forall u, status_of s u = Plaintext) /\ r = Ok (UMPlaintext text)).
