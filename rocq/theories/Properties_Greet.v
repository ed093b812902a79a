(* Theorems about conversations that begin with a text that carries a whitespace tag. *)
From Verif Require Import Base Types Crypto ToyCrypto Encoding Protocol Session SpecSession SessionExamples SpecNet
  NetExamples Net4Examples SpecStart SpecRenew SpecGreet GreetProofs GreetExamples.
Local Open Scope N_scope.

(** * C89: an ordinary text is enough to begin a private conversation *)

(* If that is the policy, the first text that goes out unencrypted carries a tag for the preferred version.  By C40
   no other one does. *)
Theorem C89_first_text : forall C d h s e t c s' out r,
  history C d h s -> enabled d -> require_encryption (de_policy d) = false -> send_whitespace_tag (de_policy d) = true ->
  (forall ev, In ev h -> ~ sent_tagged ev) -> get_inst t (se_instances s) <> None -> status_of s t = Plaintext ->
  send C e s t c = (s', out, r) -> out = [] /\ exists v, preferred d v /\ r = Ok [whitespace_tag v ++ without_nul c].
Proof. exact first_text. Qed.
Print Assumptions C89_first_text.

(* At a client with the policy to react to tags such a text does exactly what the query message for its version
   does, and the text is shown to the user. *)
Theorem C89_as_query : forall C d h s e v text s1 out1 r1 s2 out2 r2, history C d h s -> (v = V3 \/ v = V4) -> allowed d v ->
  whitespace_start_ake (de_policy d) = true -> unmarked text ->
  receive C e s (whitespace_tag v ++ text) = (s1, out1, r1) -> receive C e s (query_message v) = (s2, out2, r2) ->
  s1 = s2 /\ out1 = out2 /\
  match r2 with Ok m => m = UMNone /\ displayed s text r1 | Err x => r1 = Err x | Panic => r1 = Panic end.
Proof. exact tag_as_query. Qed.
Print Assumptions C89_as_query.

(* At any other client the text is shown and nothing else happens. *)
Theorem C89_ignored : forall C d h s e v text s' out r, history C d h s -> enabled d -> (v = V3 \/ v = V4) ->
  whitespace_start_ake (de_policy d) = false -> unmarked text ->
  receive C e s (whitespace_tag v ++ text) = (s', out, r) -> s' = s /\ out = [] /\ displayed s text r.
Proof. exact tag_ignored. Qed.
Print Assumptions C89_ignored.

(* So if two clients with these policies go through a key exchange y, but with a text in the place of the query
   message, the text is shown, both users are told that a session has started, and both clients are in the same
   encrypted session. *)
Theorem C89_v3 : forall C da db sa sb e t text sa1 out (y : exchange C sa1 sb),
  send C e sa t text = (sa1, out, Ok [whitespace_tag V3 ++ without_nul text]) -> unmarked (without_nul text) ->
  whitespace_start_ake (de_policy db) = true -> start_net3 C da db sa1 sb y ->
  (exists r, receive_all C (x_e0 y) sb [whitespace_tag V3 ++ without_nul text] = (x_sb1 y, x_p1 y, [r]) /\ displayed sb (without_nul text) r) /\
  connected (x_sa2 y) (x_sb3 y) /\ told3 y da db.
Proof. exact greets3. Qed.
Print Assumptions C89_v3.
Theorem C89_v4 : forall C da db sa sb e t text sa1 out (y : exchange C sa1 sb),
  send C e sa t text = (sa1, out, Ok [whitespace_tag V4 ++ without_nul text]) -> unmarked (without_nul text) ->
  whitespace_start_ake (de_policy db) = true -> start_net4 C da db sa1 sb y ->
  (exists r, receive_all C (x_e0 y) sb [whitespace_tag V4 ++ without_nul text] = (x_sb1 y, x_p1 y, [r]) /\ displayed sb (without_nul text) r) /\
  connected (x_sa2 y) (x_sb3 y) /\ told4 y da db.
Proof. exact greets4. Qed.
Print Assumptions C89_v4.

(* Alice says "hi" before anything else happened. *)
Example C89_ex_first : history toy ns_alice [] ns_a0 /\ enabled ns_alice /\ require_encryption (de_policy ns_alice) = false /\
  send_whitespace_tag (de_policy ns_alice) = true /\ get_inst 0 (se_instances ns_a0) <> None /\ status_of ns_a0 0 = Plaintext /\
  send toy (xs_ea x31 0) ns_a0 0 xs_hi = (gr_a, [], Ok [whitespace_tag V3 ++ xs_hi]).
Proof.
  split; [constructor|]. split; [left; reflexivity|]. split; [reflexivity|]. split; [reflexivity|]. split; [discriminate|].
  split; [reflexivity|exact gr_sent].
Qed.
Example C89_ex3 : send toy (xs_ea x31 0) ns_a0 0 xs_hi = (gr_a, [], Ok [whitespace_tag V3 ++ without_nul xs_hi]) /\ unmarked (without_nul xs_hi) /\
  whitespace_start_ake (de_policy ns_bob) = true /\ start_net3 toy ns_alice ns_bob gr_a ns_b0 gr_x.
Proof. split; [exact gr_sent|]. split; [exact gr_unmarked|]. split; [reflexivity|exact gr_start]. Qed.
Example C89_ex4 : send toy (xs_ea x31 0) xs_a0 0 xs_hi = (gf_a, [], Ok [whitespace_tag V4 ++ without_nul xs_hi]) /\ unmarked (without_nul xs_hi) /\
  whitespace_start_ake (de_policy xs_bob) = true /\ start_net4 toy xs_alice xs_bob gf_a xs_b0 gf_x.
Proof. split; [exact gf_sent|]. split; [exact gr_unmarked|]. split; [reflexivity|exact gf_start]. Qed.
(* a client that ignores tags *)
Definition gi_bob : details := mkDetails (mkPolicy true true false true false true) 400 [x62] [x61].
Example C89_ex_ignored : history toy gi_bob [] (session_new gi_bob) /\ enabled gi_bob /\ whitespace_start_ake (de_policy gi_bob) = false /\
  receive toy (xs_eb x31 0) (session_new gi_bob) (whitespace_tag V4 ++ xs_hi) = (session_new gi_bob, [], Ok (UMPlaintext xs_hi)).
Proof. split; [constructor|]. split; [right; reflexivity|]. split; [reflexivity|]. vm_compute. reflexivity. Qed.
