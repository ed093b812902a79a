(* Theorems about one private conversation: its keys, the texts sent in it and the texts shown in it. *)
From Verif Require Import Base Types Crypto ToyCrypto Encoding Messages Fragment DataV3 DataV4 Protocol Session SpecData3 SpecData4
  SpecSession SessionExamples Data4Examples StartExamples SpecFollow FollowProofs FollowLemmas FollowExamples.
From Coq Require Import Lia.
Local Open Scope N_scope.

(** * C60: the keys of a conversation follow from its messages *)

(* Whenever a client is in an encrypted conversation with t: it was started by a call that said so; each call since
   did with data messages of the conversation what its arguments, injected messages and answer say; and these are
   the events, in this order, in the life of the keys now in use.  So the theorems about all histories of keys
   (C16 to C24) speak about every conversation of every session. *)
Theorem C60_followed : forall C d h s t, history C d h s -> status_of s t = Encrypted ->
  enabled d /\ exists ev h1 gs, latest_start t h ev h1 /\ Forall2 (did_in C d t) h1 gs /\
    keys_followed C d t (concat gs) (state_of s t).
Proof. exact history_followed. Qed.
Print Assumptions C60_followed.

Example C60_ex : (history toy xs_bob (fst fr_end) (snd fr_end) /\ status_of (snd fr_end) 301 = Encrypted) /\
  history toy xs_bob (fst fs_end) (snd fs_end) /\ status_of (snd fs_end) 301 = Encrypted.
Proof. split; (split; [exact fr_run || exact fs_run|exact fr_encrypted || exact fs_encrypted]). Qed.

(** * C59, within one conversation *)

(* Full property (C59): no two texts are encrypted under the same key and counter.  Proved: this holds for texts
   between which no conversation with t was started.  OTRv3: under the same pair of keys, the later text has a
   higher counter.  OTRv4: the later text has a later position in the chains of keys. *)
Theorem C59_conversation_partial : forall C d h s t e1 c1 s1 out1 ps1 h2 s2 e2 c2 s3 out2 ps2,
  history C d h s -> status_of s t = Encrypted ->
  send C e1 s t c1 = (s1, out1, Ok ps1) -> run C s1 h2 s2 -> Forall (fun ev => ~ started_with t ev) h2 ->
  status_of s2 t = Encrypted -> send C e2 s2 t c2 = (s3, out2, Ok ps2) ->
  (exists m1 m2, transported d e1 t V3 (MData m1) ps1 /\ transported d e2 t V3 (MData m2) ps2 /\
     (same_keys3 m1 m2 -> 0 < ctr3 m1 < ctr3 m2)) \/
  (exists m1 m2, transported d e1 t V4 (MData4 m1) ps1 /\ transported d e2 t V4 (MData4 m2) ps2 /\ before4 m1 m2).
Proof. exact fresh_sends. Qed.
Print Assumptions C59_conversation_partial.

(* the same for the OTRv4 keys alone *)
Theorem C59_v4_positions : forall C our their h d h1 m1 t1 h2 m2 t2 h3, history4 C our their h d ->
  h = h1 ++ Sent4 m1 t1 :: h2 ++ Sent4 m2 t2 :: h3 -> before4 m1 m2.
Proof. exact sent_once. Qed.
Print Assumptions C59_v4_positions.

Example C59_ex_conversation :
  (history toy xs_alice ya_h ya_s /\ status_of ya_s 400 = Encrypted /\ send toy (xs_ea x26 400) ya_s 400 xs_hi = (ya_s1, [], Ok [ya_text]) /\
   status_of ya_s1 400 = Encrypted /\ send toy (xs_ea x31 400) ya_s1 400 xs_hi = (fst (fst fa3), [], Ok (paid fa3))) /\
  history toy xs_alice za_h za_s /\ status_of za_s 400 = Encrypted /\ send toy (xs_ea x26 400) za_s 400 xs_hi = (za_s1, [], Ok [za_text]) /\
  status_of za_s1 400 = Encrypted /\ send toy (xs_ea x31 400) za_s1 400 xs_hi = (fst (fst fa4), [], Ok (paid fa4)).
Proof.
  split; (split; [exact ya_run || exact za_run|]); (split; [apply fa_encrypted|]); (split; [exact ya_sends || exact za_sends|]);
    (split; [apply fa_encrypted|]); exact fa3_is || exact fa4_is.
Qed.

(** * C61: no message is shown twice *)

(* OTRv4: two texts shown come from messages in the order of their positions, unless a conversation was started
   in between. *)
Theorem C61_v4_order_partial : forall C d h s t e1 p1 s1 out1 c1 x1 h2 s2 e2 p2 s3 out2 c2 x2 em1 m1 em2, history C d h s ->
  receive C e1 s p1 = (s1, out1, Ok (UMConfidential t c1 x1)) -> run C s1 h2 s2 -> Forall (fun ev => ~ started_with t ev) h2 ->
  receive C e2 s2 p2 = (s3, out2, Ok (UMConfidential t c2 x2)) ->
  carries C s p1 em1 -> carries C s2 p2 em2 -> em_message em1 = MData4 m1 ->
  exists m2, em_message em2 = MData4 m2 /\ before4 m1 m2.
Proof. exact shown_order4. Qed.
Print Assumptions C61_v4_order_partial.

(* So a message that is shown twice was replayed together with a key exchange. *)
Theorem C61_v4_once_partial : forall C d h1 ev1 h2 ev2 h3 s p em m t c1 x1 c2 x2,
  history C d (h1 ++ ev1 :: h2 ++ ev2 :: h3) s ->
  ev_op ev1 = OpReceive p -> ev_op ev2 = OpReceive p ->
  match_fragment p = false -> parse C p = Ok (MsgEncoded em) -> em_message em = MData4 m ->
  ev_result ev1 = Ok (AnMessage (UMConfidential t c1 x1)) -> ev_result ev2 = Ok (AnMessage (UMConfidential t c2 x2)) ->
  exists ev, In ev h2 /\ started_with t ev.
Proof. exact shown_once4. Qed.
Print Assumptions C61_v4_once_partial.

(* OTRv3: under one pair of keys, counters of shown texts increase from the second one on. *)
Theorem C61_v3_order_partial : forall C d h s t e0 p0 s0' out0 c0 x0 h1 s1 e1 p1 s1' out1 c1 x1 h2 s2 e2 p2 s2' out2 c2 x2
    em0 em1 em2 m0 m1 m2, history C d h s ->
  receive C e0 s p0 = (s0', out0, Ok (UMConfidential t c0 x0)) -> run C s0' h1 s1 -> Forall (fun ev => ~ started_with t ev) h1 ->
  receive C e1 s1 p1 = (s1', out1, Ok (UMConfidential t c1 x1)) -> run C s1' h2 s2 -> Forall (fun ev => ~ started_with t ev) h2 ->
  receive C e2 s2 p2 = (s2', out2, Ok (UMConfidential t c2 x2)) ->
  carries C s p0 em0 -> carries C s1 p1 em1 -> carries C s2 p2 em2 ->
  em_message em0 = MData m0 -> em_message em1 = MData m1 -> em_message em2 = MData m2 ->
  same_keys3 m0 m1 -> same_keys3 m1 m2 -> ctr3 m1 < ctr3 m2.
Proof. exact shown_order3. Qed.
Print Assumptions C61_v3_order_partial.

(* So a message is shown at most twice, unless a conversation was started in between. *)
Theorem C61_v3_twice_partial : forall C d h0 ev0 h1 ev1 h2 ev2 h3 s p em m t c0 x0 c1 x1 c2 x2,
  history C d (h0 ++ ev0 :: h1 ++ ev1 :: h2 ++ ev2 :: h3) s ->
  ev_op ev0 = OpReceive p -> ev_op ev1 = OpReceive p -> ev_op ev2 = OpReceive p ->
  match_fragment p = false -> parse C p = Ok (MsgEncoded em) -> em_message em = MData m ->
  ev_result ev0 = Ok (AnMessage (UMConfidential t c0 x0)) ->
  ev_result ev1 = Ok (AnMessage (UMConfidential t c1 x1)) -> ev_result ev2 = Ok (AnMessage (UMConfidential t c2 x2)) ->
  exists ev, In ev (h1 ++ h2) /\ started_with t ev.
Proof. exact shown_twice3. Qed.
Print Assumptions C61_v3_twice_partial.

(* OTRv3: it can be shown twice, without a new start. *)
Theorem C61_v3_refuted : ~ (forall C d h1 ev1 h2 ev2 h3 s p em m t c1 x1 c2 x2,
  history C d (h1 ++ ev1 :: h2 ++ ev2 :: h3) s ->
  ev_op ev1 = OpReceive p -> ev_op ev2 = OpReceive p ->
  match_fragment p = false -> parse C p = Ok (MsgEncoded em) -> em_message em = MData m ->
  ev_result ev1 = Ok (AnMessage (UMConfidential t c1 x1)) -> ev_result ev2 = Ok (AnMessage (UMConfidential t c2 x2)) ->
  exists ev, In ev h2 /\ started_with t ev).
Proof.
  intros H. destruct fr_texts as (h1 & ev1 & ev2 & E & O1 & O2 & R1 & R2). pose proof fr_run as R. rewrite E in R.
  destruct fr_message as (MF & em & m & PA & M).
  destruct (H toy xs_bob _ _ _ _ _ _ _ em m _ _ _ _ _ R O1 O2 MF PA M R1 R2) as (ev & [] & _).
Qed.
Print Assumptions C61_v3_refuted.

(* OTRv4: it can be shown again after a replay of the key exchange. *)
Theorem C61_v4_refuted : ~ (forall C d h1 ev1 h2 ev2 h3 s p em m t c1 x1 c2 x2,
  history C d (h1 ++ ev1 :: h2 ++ ev2 :: h3) s ->
  ev_op ev1 = OpReceive p -> match_fragment p = false -> parse C p = Ok (MsgEncoded em) -> em_message em = MData4 m ->
  ev_result ev1 = Ok (AnMessage (UMConfidential t c1 x1)) -> ev_result ev2 = Ok (AnMessage (UMConfidential t c2 x2)) ->
  ev_op ev2 <> OpReceive p).
Proof.
  intros H. destruct fs_texts as (h1 & ev1 & x & ev2 & E & O1 & O2 & R1 & R2). pose proof fs_run as R. rewrite E in R.
  destruct fs_message as (MF & em & m & PA & M).
  exact (H toy xs_bob _ _ _ _ _ _ _ em m _ _ _ _ _ R O1 MF PA M R1 R2 O2).
Qed.
Print Assumptions C61_v4_refuted.

Example C61_ex4 :
  history toy xs_bob zb_h zb_s /\ receive toy (xs_eb x27 0) zb_s za_text = (zb_s1, [], Ok (UMConfidential 301 xs_hi [])) /\
  receive toy (xs_eb x33 0) zb_s1 fa_text4 = (fst (fst fb4), [], Ok (UMConfidential 301 xs_hi [])) /\
  (forall s, exists em1 em2 m1, carries toy s za_text em1 /\ carries toy s fa_text4 em2 /\ em_message em1 = MData4 m1) /\
  (exists h1 ev1 x ev2, history toy xs_bob (h1 ++ ev1 :: [x] ++ ev2 :: []) (snd fs_end) /\
     ev_op ev1 = OpReceive za_text /\ ev_op ev2 = OpReceive za_text /\
     ev_result ev1 = Ok (AnMessage (UMConfidential 301 xs_hi [])) /\ ev_result ev2 = Ok (AnMessage (UMConfidential 301 xs_hi []))) /\
  match_fragment za_text = false /\ exists em m, parse toy za_text = Ok (MsgEncoded em) /\ em_message em = MData4 m.
Proof.
  split; [exact zb_run|]. split; [exact zb_reads|]. split; [exact fb4_is|]. split; [exact fb_carries4|]. split; [|exact fs_message].
  destruct fs_texts as (h1 & ev1 & x & ev2 & E & O). exists h1, ev1, x, ev2. rewrite <- E. split; [exact fs_run|exact O].
Qed.
Example C61_ex3 :
  history toy xs_bob yb_h yb_s /\ receive toy (xs_eb x27 0) yb_s ya_text = (yb_s1, [], Ok (UMConfidential 301 xs_hi [])) /\
  receive toy (xs_eb x33 0) yb_s1 fa_text3 = (fst (fst fb3), [], Ok (UMConfidential 301 xs_hi [])) /\
  receive toy (xs_eb x34 0) (fst (fst fb3)) fa_text3b = (fst (fst fb3b), [], Ok (UMConfidential 301 xs_hi [])) /\
  forall s, exists em0 em1 em2, carries toy s ya_text em0 /\ carries toy s fa_text3 em1 /\ carries toy s fa_text3b em2 /\
    em_message em0 = MData fm_1 /\ em_message em1 = MData fm_2 /\ em_message em2 = MData fm_3 /\ same_keys3 fm_1 fm_2 /\ same_keys3 fm_2 fm_3.
Proof. split; [exact yb_run|]. split; [exact yb_reads|]. split; [exact fb3_is|]. split; [exact fb3b_is|exact fb_carries3]. Qed.
Example C61_ex3_twice :
  (exists h0 ev0 ev1 x y ev2, history toy xs_alice (h0 ++ ev0 :: [] ++ ev1 :: [x; y] ++ ev2 :: []) (snd ft_end) /\
    ev_op ev0 = OpReceive ft_text /\ ev_op ev1 = OpReceive ft_text /\ ev_op ev2 = OpReceive ft_text /\
    ev_result ev0 = Ok (AnMessage (UMConfidential 400 xs_hi [])) /\ ev_result ev1 = Ok (AnMessage (UMConfidential 400 xs_hi [])) /\
    ev_result ev2 = Ok (AnMessage (UMConfidential 400 xs_hi []))) /\
  match_fragment ft_text = false /\ exists em m, parse toy ft_text = Ok (MsgEncoded em) /\ em_message em = MData m.
Proof.
  split; [|exact ft_message]. destruct ft_texts as (h0 & ev0 & ev1 & x & y & ev2 & E & O).
  exists h0, ev0, ev1, x, y, ev2. rewrite <- E. split; [exact ft_run|exact O].
Qed.
