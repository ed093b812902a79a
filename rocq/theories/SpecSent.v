(* What a session hands to the transport, in terms of the formats of SpecFormat. *)
From Coq Require Import String.
From Verif Require Import Base Types Crypto Encoding Messages Fragment Session SpecFragment SpecSession SpecFormat.
Import ListNotations.
Local Open Scope N_scope.

(* blanks: s for a space, t for a tab *)
Definition blanks (s : string) : bytes := map (fun b => if byte_eqb b x74 then x09 else x20) (text s).
(* the mark in front of a plain text that offers a version *)
Definition mark (v : version) : bytes :=
  match v with V3 => blanks "stssttttstststss" ++ blanks "ssttsstt" | _ => blanks "stssttttstststss" ++ blanks "ssttstss" end.
(* the text that asks for a conversation *)
Definition asking (v : version) : bytes :=
  match v with
  | V3 => text "?OTRv3? An Off-The-Record conversation has been requested."
  | _ => text "?OTRv4? An Off-The-Record conversation has been requested."
  end.
(* the text that tells the peer its message could not be read *)
Definition complaint : bytes := text "?OTR Error:unreadable message".
(* a message, whole or in pieces *)
Definition SENT (v : version) (sender receiver : N) (m : encoded_type) (ps : list bytes) : Prop :=
  exists w, ENCODED v sender receiver m w /\
    (ps = [w] \/ exists id fs, pieces v id sender receiver w fs /\ Forall2 FRAGMENT fs ps).
(* what a client with this tag and these versions sends: any number of these *)
Inductive WIRE (d : details) : list bytes -> Prop :=
| W_nothing : WIRE d []
| W_complaint ps : WIRE d ps -> WIRE d (complaint :: ps)
| W_asking v ps : otr_version v -> allowed d v -> WIRE d ps -> WIRE d (asking v :: ps)
| W_message v receiver m qs ps : otr_version v -> SENT v (de_tag d) receiver m qs -> WIRE d ps -> WIRE d (qs ++ ps).
(* a text in the clear, possibly marked *)
Definition CLEAR (d : details) (c : bytes) (ps : list bytes) : Prop :=
  ps = [without_nul c] \/
  exists v, otr_version v /\ allowed d v /\ send_whitespace_tag (de_policy d) = true /\ ps = [mark v ++ without_nul c].
