(* Conversations between the two clients of the toy instance, for the theorems of Properties_Follow. *)
From Verif Require Import Base BaseLemmas Types Crypto ToyCrypto Encoding Messages Fragment DataV3 DataV4 Protocol Session
  SpecData3 SpecData4 SpecSession SessionExamples NetExamples StartExamples SpecFollow.
Local Open Scope N_scope.

(** ** Alice sends three texts *)
Definition fa3 := Eval vm_compute in send toy (xs_ea x31 400) ya_s1 400 xs_hi.
Definition fa3b := Eval vm_compute in send toy (xs_ea x32 400) (fst (fst fa3)) 400 xs_hi.
Definition fa_text3 := Eval vm_compute in hd [] (paid fa3).
Definition fa_text3b := Eval vm_compute in hd [] (paid fa3b).
Definition fa4 := Eval vm_compute in send toy (xs_ea x31 400) za_s1 400 xs_hi.
Definition fa_text4 := Eval vm_compute in hd [] (paid fa4).
Lemma fa3_is : send toy (xs_ea x31 400) ya_s1 400 xs_hi = (fst (fst fa3), [], Ok (paid fa3)). Proof. vm_compute. reflexivity. Qed.
Lemma fa4_is : send toy (xs_ea x31 400) za_s1 400 xs_hi = (fst (fst fa4), [], Ok (paid fa4)). Proof. vm_compute. reflexivity. Qed.
Lemma fa_encrypted : status_of ya_s 400 = Encrypted /\ status_of ya_s1 400 = Encrypted /\
  status_of za_s 400 = Encrypted /\ status_of za_s1 400 = Encrypted.
Proof. repeat apply conj; vm_compute; reflexivity. Qed.

(** ** Bob reads them *)
Definition fb3 := Eval vm_compute in receive toy (xs_eb x33 0) yb_s1 fa_text3.
Definition fb3b := Eval vm_compute in receive toy (xs_eb x34 0) (fst (fst fb3)) fa_text3b.
Definition fb4 := Eval vm_compute in receive toy (xs_eb x33 0) zb_s1 fa_text4.
Lemma fb3_is : receive toy (xs_eb x33 0) yb_s1 fa_text3 = (fst (fst fb3), [], Ok (UMConfidential 301 xs_hi [])).
Proof. vm_compute. reflexivity. Qed.
Lemma fb3b_is : receive toy (xs_eb x34 0) (fst (fst fb3)) fa_text3b = (fst (fst fb3b), [], Ok (UMConfidential 301 xs_hi [])).
Proof. vm_compute. reflexivity. Qed.
Lemma fb4_is : receive toy (xs_eb x33 0) zb_s1 fa_text4 = (fst (fst fb4), [], Ok (UMConfidential 301 xs_hi [])).
Proof. vm_compute. reflexivity. Qed.
Definition fm3 (p : bytes) : data3 := match em_message (ns_parsed p) with MData m => m | _ => mkData3 false 0 0 0 [] [] [] [] end.
Definition fm4 (p : bytes) : encoded_type := em_message (ns_parsed p).
Definition fm_1 := Eval vm_compute in fm3 ya_text.
Definition fm_2 := Eval vm_compute in fm3 fa_text3.
Definition fm_3 := Eval vm_compute in fm3 fa_text3b.
Lemma fb_carries3 s : exists em0 em1 em2, carries toy s ya_text em0 /\ carries toy s fa_text3 em1 /\ carries toy s fa_text3b em2 /\
  em_message em0 = MData fm_1 /\ em_message em1 = MData fm_2 /\ em_message em2 = MData fm_3 /\ same_keys3 fm_1 fm_2 /\ same_keys3 fm_2 fm_3.
Proof.
  exists (ns_parsed ya_text), (ns_parsed fa_text3), (ns_parsed fa_text3b).
  split; [apply carries_whole; vm_compute; reflexivity|]. split; [apply carries_whole; vm_compute; reflexivity|].
  split; [apply carries_whole; vm_compute; reflexivity|]. repeat apply conj; vm_compute; reflexivity.
Qed.
Lemma fb_carries4 s : exists em1 em2 m1, carries toy s za_text em1 /\ carries toy s fa_text4 em2 /\ em_message em1 = MData4 m1.
Proof.
  exists (ns_parsed za_text), (ns_parsed fa_text4).
  eexists. split; [apply carries_whole; vm_compute; reflexivity|]. split; [apply carries_whole; vm_compute; reflexivity|].
  vm_compute. reflexivity.
Qed.

(** ** Bob is shown one OTRv3 text twice *)
Definition fr_calls : list ((N -> env) * op) := [(xs_eb x27, OpReceive ya_text); (xs_eb x35, OpReceive ya_text)].
Definition fr_end := Eval vm_compute in xs_end (replay toy yb_s yb_h fr_calls).
Lemma fr_run : history toy xs_bob (fst fr_end) (snd fr_end).
Proof. apply (replay_run toy xs_b0 fr_calls yb_s yb_h); [exact yb_run|]. vm_compute. reflexivity. Qed.
Lemma fr_texts : exists h1 ev1 ev2, fst fr_end = h1 ++ ev1 :: [] ++ ev2 :: [] /\
  ev_op ev1 = OpReceive ya_text /\ ev_op ev2 = OpReceive ya_text /\
  ev_result ev1 = Ok (AnMessage (UMConfidential 301 xs_hi [])) /\ ev_result ev2 = Ok (AnMessage (UMConfidential 301 xs_hi [])).
Proof.
  exists yb_h. do 2 eexists. split; [unfold fr_end, yb_h; cbn [fst app]; reflexivity|]. repeat split.
Qed.
Lemma fr_message : match_fragment ya_text = false /\ exists em m, parse toy ya_text = Ok (MsgEncoded em) /\ em_message em = MData m.
Proof. split; [vm_compute; reflexivity|]. exists (ns_parsed ya_text), fm_1. split; vm_compute; reflexivity. Qed.

(** ** and one OTRv4 text, with the key exchange replayed in between *)
Definition fs_calls : list ((N -> env) * op) :=
  [(xs_eb x27, OpReceive za_text); (xs_eb x35, OpReceive auth_i); (xs_eb x36, OpReceive za_text)].
Definition fs_end := Eval vm_compute in xs_end (replay toy zb_s zb_h fs_calls).
Lemma fs_run : history toy xs_bob (fst fs_end) (snd fs_end).
Proof. apply (replay_run toy xs_b0 fs_calls zb_s zb_h); [exact zb_run|]. vm_compute. reflexivity. Qed.
Lemma fs_texts : exists h1 ev1 x ev2, fst fs_end = h1 ++ ev1 :: [x] ++ ev2 :: [] /\
  ev_op ev1 = OpReceive za_text /\ ev_op ev2 = OpReceive za_text /\
  ev_result ev1 = Ok (AnMessage (UMConfidential 301 xs_hi [])) /\ ev_result ev2 = Ok (AnMessage (UMConfidential 301 xs_hi [])).
Proof.
  exists zb_h. do 3 eexists. split; [unfold fs_end, zb_h; cbn [fst app]; reflexivity|]. repeat split.
Qed.
Lemma fs_message : match_fragment za_text = false /\ exists em m, parse toy za_text = Ok (MsgEncoded em) /\ em_message em = MData4 m.
Proof. split; [vm_compute; reflexivity|]. exists (ns_parsed za_text). eexists. split; vm_compute; reflexivity. Qed.
(* an earlier conversation with two texts, to which the theorem about single histories applies *)
Lemma fs_encrypted : status_of (snd fs_end) 301 = Encrypted. Proof. vm_compute. reflexivity. Qed.
Lemma fr_encrypted : status_of (snd fr_end) 301 = Encrypted. Proof. vm_compute. reflexivity. Qed.

(** ** Alice is shown one OTRv3 text three times, with the key exchange replayed in between *)
Definition ft_text := Eval vm_compute in xs_payload (send toy (xs_eb x37 301) yb_s 301 xs_hi).
Definition ft_calls : list ((N -> env) * op) :=
  [(xs_ea x38, OpReceive ft_text); (xs_ea x39, OpReceive ft_text); (xs_ea x71, OpReceive dh_key); (xs_ea x72, OpReceive signature);
   (xs_ea x3a, OpReceive ft_text)].
Definition ft_end := Eval vm_compute in xs_end (replay toy ya_s ya_h ft_calls).
Lemma ft_run : history toy xs_alice (fst ft_end) (snd ft_end).
Proof. apply (replay_run toy xs_a0 ft_calls ya_s ya_h); [exact ya_run|]. vm_compute. reflexivity. Qed.
Lemma ft_texts : exists h0 ev0 ev1 x y ev2, fst ft_end = h0 ++ ev0 :: [] ++ ev1 :: [x; y] ++ ev2 :: [] /\
  ev_op ev0 = OpReceive ft_text /\ ev_op ev1 = OpReceive ft_text /\ ev_op ev2 = OpReceive ft_text /\
  ev_result ev0 = Ok (AnMessage (UMConfidential 400 xs_hi [])) /\ ev_result ev1 = Ok (AnMessage (UMConfidential 400 xs_hi [])) /\
  ev_result ev2 = Ok (AnMessage (UMConfidential 400 xs_hi [])).
Proof.
  exists ya_h. do 5 eexists. split; [unfold ft_end, ya_h; cbn [fst app]; reflexivity|]. repeat split.
Qed.
Lemma ft_message : match_fragment ft_text = false /\ exists em m, parse toy ft_text = Ok (MsgEncoded em) /\ em_message em = MData m.
Proof. split; [vm_compute; reflexivity|]. exists (ns_parsed ft_text). eexists. split; vm_compute; reflexivity. Qed.
