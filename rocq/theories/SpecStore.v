(* Specification for Properties_Store: which clients a session keeps an entry for. *)
From Verif Require Import Base Types Crypto Encoding Messages Fragment Session SpecSession.
Local Open Scope N_scope.

(* an encoded message that a session with these details acts on: of a version that the policy allows, with a legal
   sender, and for this client; the first messages of a key exchange may also be for any client *)
Definition gets_through (d : details) (em : encoded_message) : Prop :=
  allowed d (em_version em) /\ 256 <= em_sender em /\
  (256 <= em_receiver em /\ em_receiver em = de_tag d \/
   em_receiver em = 0 /\ exists m, em_message em = MDHCommit m \/ exists i, em_message em = MIdentity i).

(* a well-formed fragment for this client or for any client *)
Definition fragment_through (d : details) (p : bytes) (f : fragment) : Prop :=
  match_fragment p = true /\ parse_fragment p = Ok (Some f) /\ verify_fragment f = true /\
  (fr_receiver f = 0 \/ fr_receiver f = de_tag d).

(* the call tells the session s about the client t: by a fragment or a message from t, or because the user wants a
   conversation with t *)
Definition introduces (C : Crypto) (s : session) (o : op) (t : N) : Prop :=
  match o with
  | OpReceive p => enabled (se_details s) /\
      ((exists f, fragment_through (se_details s) p f /\ fr_sender f = t) \/
       (exists em, carries C s p em /\ gets_through (se_details s) em /\ em_sender em = t))
  | OpInitiate _ u => u = t
  | _ => False
  end.
