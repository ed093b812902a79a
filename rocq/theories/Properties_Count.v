(* Property C83: data messages are numbered without gaps. *)
From Verif Require Import Base Types Crypto ToyCrypto Encoding Messages Protocol Session SpecData3 SpecSession SessionExamples SpecFollow
  NetExamples StartExamples FollowExamples SpecDeny DenyLemmas DenyExamples SpecCount CountProofs.
Local Open Scope N_scope.

(** * C83 A peer can tell from the numbers which messages are missing *)

(* In every private conversation, the data messages that the session sent, of all kinds and in the order in which it sent
   them, are numbered without gaps.  g is what the calls did with the data messages of the conversation; it exists. *)
Theorem C83_exists : forall C d h s t, history C d h s -> status_of s t = Encrypted -> exists g, conversation_of C d h s t g.
Proof. exact conversation_exists. Qed.
Print Assumptions C83_exists.

(* OTRv3: the first message under a pair of keys has counter 1, the next ones 2, 3, ...; key numbers never go back. *)
Theorem C83_v3 : forall C d h s t g, conversation_of C d h s t g -> conversation_version s t = Some V3 ->
  exists l, sent g = map MData l /\ numbered first3 next3 l.
Proof. exact conversation_numbered3. Qed.
Print Assumptions C83_v3.

(* OTRv4: the messages of a ratchet are numbered 0, 1, 2, ..., ratchet numbers never go back, and every message of a ratchet
   carries the number of messages that the session sent in its ratchet before. *)
Theorem C83_v4 : forall C d h s t g, conversation_of C d h s t g -> conversation_version s t = Some V4 ->
  exists l, sent g = map MData4 l /\ numbered first4 next4 l.
Proof. exact conversation_numbered4. Qed.
Print Assumptions C83_v4.

(* The message with which the session ends the conversation continues the numbering: when the user ends it, *)
Theorem C83_v3_end : forall C d h s t g e s' out r, history C d h s -> conversation_of C d h s t g -> conversation_version s t = Some V3 ->
  end_session C e s t = (s', out, r) -> r <> Panic ->
  exists l m, sent g = map MData l /\ transported d e t V3 (MData m) out /\ numbered first3 next3 (l ++ [m]).
Proof. exact end_numbered3. Qed.
Print Assumptions C83_v3_end.
Theorem C83_v4_end : forall C d h s t g e s' out r, history C d h s -> conversation_of C d h s t g -> conversation_version s t = Some V4 ->
  end_session C e s t = (s', out, r) -> r <> Panic ->
  exists l m, sent g = map MData4 l /\ transported d e t V4 (MData4 m) out /\ numbered first4 next4 (l ++ [m]).
Proof. exact end_numbered4. Qed.
Print Assumptions C83_v4_end.
(* and when it expires. *)
Theorem C83_v4_expire : forall C d h s t g es timeout s' out r, history C d h s -> conversation_of C d h s t g ->
  idle (ev_now (es t)) timeout (state_of s t) -> expire C es s timeout = (s', out, r) -> r <> Panic ->
  exists l m o o1 o2, sent g = map MData4 l /\ out = o1 ++ o ++ o2 /\ transported d (es t) t V4 (MData4 m) o /\
    numbered first4 next4 (l ++ [m]).
Proof. exact expire_numbered. Qed.
Print Assumptions C83_v4_expire.

(* Alice writes, reads Bob's answer, and writes again (OTRv3); Bob reads, writes and reads (OTRv4). *)
Example C83_ex : conversation_of toy xs_alice (ya_h ++ fst dm_a) (snd dm_a) 400 dm_g /\ conversation_version (snd dm_a) 400 = Some V3 /\
  length (sent dm_g) = 2%nat /\
  conversation_of toy xs_bob (zb_h ++ fst dn_b) (snd dn_b) 301 dn_g /\ conversation_version (snd dn_b) 301 = Some V4 /\ length (sent dn_g) = 1%nat.
Proof.
  split; [exact dm_conv|]. split; [vm_compute; reflexivity|]. split; [reflexivity|]. split; [exact dn_conv|].
  split; [vm_compute; reflexivity|]. reflexivity.
Qed.

(* Alice (OTRv3) and Bob (OTRv4) end the conversations above; Bob's also expires. *)
Example C83_end_ex :
  history toy xs_alice (ya_h ++ fst dm_a) (snd dm_a) /\ snd (end_session toy (xs_ea x34 400) (snd dm_a) 400) = Ok (UMReset 400) /\
  history toy xs_bob (zb_h ++ fst dn_b) (snd dn_b) /\ snd (end_session toy (xs_eb x33 301) (snd dn_b) 301) = Ok (UMReset 301) /\
  idle (ev_now (xs_eb x33 301)) 0 (state_of (snd dn_b) 301) /\ snd (expire toy (xs_eb x33) (snd dn_b) 0) = Ok tt.
Proof.
  split. { apply (replay_run toy (session_new xs_alice) dm_calls ya_s ya_h); [exact ya_run|]. vm_compute. reflexivity. }
  split; [vm_compute; reflexivity|]. split; [exact dn_run|]. split; [vm_compute; reflexivity|].
  split; [|vm_compute; reflexivity]. do 4 eexists. split; [vm_compute; reflexivity|]. apply N.le_0_l.
Qed.
