(* The Socialist Millionaire Protocol between the two clients of the toy instance, in both versions, for the theorems
   of Properties_Report. *)
From Verif Require Import Base BaseLemmas Types Crypto ToyCrypto Encoding Messages Fragment DataV3 DataV4 SMP SMP4 SMPLemmas SMP4Lemmas
  Protocol Session SpecData3 SpecData4 SpecSession SessionExamples NetExamples StartExamples.
From Coq Require Import ZArith.
Local Open Scope N_scope.

(* the environment, with other random numbers for the protocol *)
Definition xr_env (n : N) (e : N -> env) : N -> env := fun t => let e := e t in
  mkEnv (ev_message_size e) (ev_dsa e) (ev_profile e) (ev_identity e) (ev_answer e) (ev_dh e) (ev_r e) (ev_nonce e) (ev_km0 e) (ev_km1 e)
    (ev_ack e) (ev_dake e) (ev_ring e) (ev_send e) (ex_rnd n) (ex4_rnd (Z.of_N n)) (ev_fragment e).
Definition xr_ea (n : byte) := xr_env 2 (xs_ea n).
Definition xr_eb (n : byte) := xr_env 5 (xs_eb n).
Definition xr_question : bytes := [x3f].
Definition xr_secret : bytes := [x73].

(** ** OTRv3 *)
Definition xr3_1 := Eval vm_compute in xs_out (call toy (xr_ea x41) ya_s (OpStartSmp 400 xr_secret xr_question)).
Definition xr3_b1 := Eval vm_compute in receive toy (xr_eb x42 0) yb_s xr3_1.
Definition xr3_a1 := Eval vm_compute in xs_end (replay toy ya_s ya_h
  [(xr_ea x41, OpStartSmp 400 xr_secret xr_question); (xr_ea x43, OpReceive (xs_injected xr3_b1))]).
Definition xr3_3 := Eval vm_compute in match rev (fst xr3_a1) with ev :: _ => hd [] (ev_injected ev) | _ => [] end.
Definition xr3_b2 := Eval vm_compute in receive toy (xr_eb x44 0) (xs_after xr3_b1) xr3_3.
Definition xr3_4 := Eval vm_compute in xs_injected xr3_b2.
Lemma xr3_a1_run : history toy xs_alice (fst xr3_a1) (snd xr3_a1).
Proof.
  apply (replay_run toy xs_a0 [(xr_ea x41, OpStartSmp 400 xr_secret xr_question); (xr_ea x43, OpReceive (xs_injected xr3_b1))] ya_s ya_h);
    [exact ya_run|]. vm_compute. reflexivity.
Qed.
Definition xr3_a2 := Eval vm_compute in xs_after (receive toy (xr_ea x45 0) (snd xr3_a1) xr3_4).
Lemma xr3_success : receive toy (xr_ea x45 0) (snd xr3_a1) xr3_4 = (xr3_a2, [], Ok (UMSmpSucceeded 400)).
Proof. vm_compute. reflexivity. Qed.
(* Bob *)
Definition xr3_bh := Eval vm_compute in xs_end (replay toy yb_s yb_h [(xr_eb x42, OpReceive xr3_1)]).
Lemma xr3_bh_run : history toy xs_bob (fst xr3_bh) (snd xr3_bh).
Proof. apply (replay_run toy xs_b0 [(xr_eb x42, OpReceive xr3_1)] yb_s yb_h); [exact yb_run|]. vm_compute. reflexivity. Qed.
Lemma xr3_success_b : receive toy (xr_eb x44 0) (snd xr3_bh) xr3_3 = (xs_after xr3_b2, [xr3_4], Ok (UMSmpSucceeded 301)).
Proof. vm_compute. reflexivity. Qed.

(** ** OTRv4 *)
Definition xr4_1 := Eval vm_compute in xs_out (call toy (xr_ea x41) za_s (OpStartSmp 400 xr_secret xr_question)).
Definition xr4_b1 := Eval vm_compute in receive toy (xr_eb x42 0) zb_s xr4_1.
Definition xr4_a1 := Eval vm_compute in xs_end (replay toy za_s za_h
  [(xr_ea x41, OpStartSmp 400 xr_secret xr_question); (xr_ea x43, OpReceive (xs_injected xr4_b1))]).
Definition xr4_3 := Eval vm_compute in match rev (fst xr4_a1) with ev :: _ => hd [] (ev_injected ev) | _ => [] end.
Definition xr4_b2 := Eval vm_compute in receive toy (xr_eb x44 0) (xs_after xr4_b1) xr4_3.
Definition xr4_4 := Eval vm_compute in xs_injected xr4_b2.
Lemma xr4_a1_run : history toy xs_alice (fst xr4_a1) (snd xr4_a1).
Proof.
  apply (replay_run toy xs_a0 [(xr_ea x41, OpStartSmp 400 xr_secret xr_question); (xr_ea x43, OpReceive (xs_injected xr4_b1))] za_s za_h);
    [exact za_run|]. vm_compute. reflexivity.
Qed.
Definition xr4_a2 := Eval vm_compute in xs_after (receive toy (xr_ea x45 0) (snd xr4_a1) xr4_4).
Lemma xr4_success : receive toy (xr_ea x45 0) (snd xr4_a1) xr4_4 = (xr4_a2, [], Ok (UMSmpSucceeded 400)).
Proof. vm_compute. reflexivity. Qed.

(** ** Statuses *)
Lemma xr_a1_encrypted : status_of ya_s 400 = Encrypted /\ status_of (snd xr3_a1) 400 = Encrypted.
Proof. split; vm_compute; reflexivity. Qed.

(** ** Sizes: a text longer than the transport allows *)
Definition xr_long : bytes := repeat x68 (N.to_nat 100).
Definition xr_hello : bytes := [x68; x69].
Definition xr_small (n : byte) : N -> env := fun t => small (xs_ea n t).
Definition xr_sent := Eval vm_compute in call toy (xr_small x46) xs_a0 (OpSend 0 xr_long).
Lemma xr_sent_is : call toy (xr_small x46) xs_a0 (OpSend 0 xr_long) = (fst (fst xr_sent), [], snd xr_sent) /\
  (match snd xr_sent with Ok (AnPayloads [p]) => (N.to_nat 40 <? length p)%nat | _ => false end) = true.
Proof. split; vm_compute; reflexivity. Qed.
(* a text in fragments of at most 40 bytes *)
Definition xr_private := Eval vm_compute in call toy (xr_small x46) ya_s (OpSend 400 xr_hello).
Lemma xr_private_is : call toy (xr_small x46) ya_s (OpSend 400 xr_hello) = (fst (fst xr_private), [], snd xr_private) /\
  (match snd xr_private with Ok (AnPayloads ps) => (5 <? length ps)%nat | _ => false end) = true.
Proof. split; vm_compute; reflexivity. Qed.
