(* C74: deniability; the keys that authenticate messages become public. *)
From Verif Require Import Base Types Crypto ToyCrypto Encoding Messages Fragment KeyManager DataV3 Ratchet DataV4 Protocol Session
  SpecData3 SpecSession SessionExamples NetExamples SessionSendProofs SessionLemmas SpecFollow FollowExamples TextsExamples SpecDeny DenyLemmas DenyExamples.
Local Open Scope N_scope.

(** ** C74 Once a conversation has ended, everybody could have made the messages that were accepted in it *)

(* Every private conversation has such an account of its data messages. *)
Theorem C74_conversation : forall C d h s t, history C d h s -> status_of s t = Encrypted -> exists g, conversation_of C d h s t g.
Proof. exact conversation_exists. Qed.
Print Assumptions C74_conversation.

(* OTRv4: when the user ends the conversation, the messages sent in it, including the last one, have published
   exactly the keys that authenticate the messages that were accepted: one key for each, in the order of the messages. *)
Theorem C74_v4_published : forall C d h s t g e s' out r, history C d h s -> conversation_of C d h s t g ->
  conversation_version s t = Some V4 -> end_session C e s t = (s', out, r) -> r <> Panic ->
  exists m macs, transported d e t V4 m out /\ Forall2 (makes C) macs (accepted g) /\
    concat macs = concat (map published (sent g)) ++ published m.
Proof. exact deny_end. Qed.
Print Assumptions C74_v4_published.

(* The same when the conversation expires. *)
Theorem C74_v4_expired : forall C d h s t g es timeout s' out r, history C d h s -> conversation_of C d h s t g ->
  expire C es s timeout = (s', out, r) -> r <> Panic -> idle (ev_now (es t)) timeout (state_of s t) ->
  exists m macs o pre post, transported d (es t) t V4 m o /\ out = pre ++ o ++ post /\ Forall2 (makes C) macs (accepted g) /\
    concat macs = concat (map published (sent g)) ++ published m.
Proof. exact deny_expire. Qed.
Print Assumptions C74_v4_expired.

(* Until then nothing else is published: what has been published are keys of accepted messages, from the first one on. *)
Theorem C74_v4_only : forall C d h s t g, conversation_of C d h s t g -> conversation_version s t = Some V4 ->
  exists macs rest, Forall2 (makes C) macs (accepted g) /\ concat macs = concat (map published (sent g)) ++ rest.
Proof. exact deny_only. Qed.
Print Assumptions C74_v4_only.

(* And keys are published only once they are of no use any more to forge messages: whatever is accepted afterwards belongs
   to a later ratchet than all that was accepted before. *)
Theorem C74_v4_retired : forall C d h s t g g1 m text g2 em1 text1 em2 text2 m1 m2, conversation_of C d h s t g ->
  conversation_version s t = Some V4 -> g = g1 ++ Sends (MData4 m) text :: g2 -> d4_revealed m <> [] ->
  In (Reads em1 text1) g1 -> In (Reads em2 text2) g2 -> em_message em1 = MData4 m1 -> em_message em2 = MData4 m2 -> d4_i m1 < d4_i m2.
Proof. exact deny_retired. Qed.
Print Assumptions C74_v4_retired.

(* Bob reads a text, answers it (which publishes the key of that text), reads another one and ends the conversation. *)
Example C74_ex4 : history toy xs_bob (zb_h ++ fst dn_b) (snd dn_b) /\ conversation_of toy xs_bob (zb_h ++ fst dn_b) (snd dn_b) 301 dn_g /\
  conversation_version (snd dn_b) 301 = Some V4 /\ length (accepted dn_g) = 2%nat /\ length (concat (map published (sent dn_g))) = 64%nat /\
  (exists s' out, end_session toy (xs_eb x33 301) (snd dn_b) 301 = (s', out, Ok (UMReset 301))) /\
  idle 1000000000000 10 (state_of (snd dn_b) 301).
Proof.
  split; [exact dn_run|]. split; [exact dn_conv|].
  split; [vm_compute; reflexivity|]. split; [reflexivity|]. split; [vm_compute; reflexivity|]. split.
  - exists (fst (fst dn_bye)), (snd (fst dn_bye)). vm_compute. reflexivity.
  - eexists _, _, _, _. split; [reflexivity|]. intros E. vm_compute in E. discriminate E.
Qed.

(* OTRv3: a key is published only after a message came in that was authenticated with it. *)
Theorem C74_v3_only : forall C d h s t g g1 m text g2, conversation_of C d h s t g -> conversation_version s t = Some V3 ->
  g = g1 ++ Sends (MData m) text :: g2 ->
  exists keys, reveals3 m keys /\ forall mk, In mk keys -> exists em, makes C mk em /\ (In (Refuses em) g1 \/ exists text', In (Reads em text') g1).
Proof. exact deny_only3. Qed.
Print Assumptions C74_v3_only.

Example C74_ex3 : conversation_of toy xs_alice (ya_h ++ fst dm_a) (snd dm_a) 400 dm_g /\ conversation_version (snd dm_a) 400 = Some V3 /\
  exists m, em_message (ns_parsed dm_p3) = MData m /\ length (d3_revealed m) = 20%nat.
Proof. split; [exact dm_conv|]. split; [vm_compute; reflexivity|]. eexists. split; [vm_compute; reflexivity|]. reflexivity. Qed.

(* OTRv3: when the user ends the conversation, the messages sent in it, including the last one, have published a key
   that authenticates each of the messages that were accepted. *)
Theorem C74_v3_published : forall C d h s t g e s' out r, history C d h s -> conversation_of C d h s t g ->
  conversation_version s t = Some V3 -> end_session C e s t = (s', out, r) -> r <> Panic ->
  exists m, transported d e t V3 (MData m) out /\ forall em text, In (Reads em text) g ->
    exists mk m' keys, makes C mk em /\ In (MData m') (sent g ++ [MData m]) /\ reveals3 m' keys /\ In mk keys.
Proof. exact deny_end3. Qed.
Print Assumptions C74_v3_published.

(* Bob reads a text and ends the conversation. *)
Example C74_ex3_end : history toy xs_bob (yb_h ++ fst dr_b) (snd dr_b) /\ conversation_of toy xs_bob (yb_h ++ fst dr_b) (snd dr_b) 301 dr_g /\
  conversation_version (snd dr_b) 301 = Some V3 /\ length (accepted dr_g) = 1%nat /\
  exists s' out, end_session toy (xs_eb x33 301) (snd dr_b) 301 = (s', out, Ok (UMReset 301)).
Proof.
  split; [exact dr_run|]. split; [exact dr_conv|]. split; [vm_compute; reflexivity|]. split; [reflexivity|].
  destruct dr_ends as [E R]. exists (fst (fst dr_bye)), (snd (fst dr_bye)). rewrite E, <- R. now destruct dr_bye as [[? ?] ?].
Qed.
