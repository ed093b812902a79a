(* Sessions that differ only in what their policy says about unencrypted text.  Definitions only. *)
From Verif Require Import Base Types Crypto Encoding Messages Fragment DAKE SMP SMP4 Ratchet Protocol Session SpecSession SpecLongTerm.
Local Open Scope N_scope.

(* the same session under another policy *)
Definition under (p : policy) (s : session) : session :=
  mkSession (mkDetails p (de_tag (se_details s)) (de_account (se_details s)) (de_address (se_details s))) (se_instances s) (se_tagged s).
(* both policies allow the same versions of OTR; they may differ in the options about unencrypted text: whether encryption is
   required, whether to add a whitespace tag, whether a whitespace tag or an error message starts an exchange *)
Definition same_versions (p q : policy) : Prop := allow_v3 p = allow_v3 q /\ allow_v4 p = allow_v4 q.
(* the call sends text to a client there is no private conversation with, or makes an error message or unencrypted text,
   with or without a tag, available *)
Definition in_the_clear (C : Crypto) (s : session) (o : op) : Prop :=
  match o with
  | OpSend t _ => status_of s t = Plaintext
  | OpReceive p => exists b m, completes s p b /\ parse C b = Ok m /\
      match m with MsgError _ | MsgPlaintext _ | MsgTagged _ _ => True | _ => False end
  | _ => False
  end.
