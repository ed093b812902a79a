(* Theorems about what the host application is given and told: statuses, message sizes, the Socialist Millionaire
   Protocol (SMP), session identifiers. *)
From Verif Require Import Base Types Crypto ToyCrypto Encoding Messages Fragment DataV3 DataV4 SMP SMP4 SMPLemmas SMP4Lemmas Protocol Session
  SpecData3 SpecData4 SpecSMP SpecSMP4 SpecSession SessionExamples NetExamples StartExamples SpecFollow SpecSmpFollow SpecReport
  SessionSendProofs ReportProofs ReportExamples.
From Coq Require Import Lia.
Local Open Scope N_scope.

(** * C62: every change of status is told *)

(* If a call changes the status of the conversation with t, then its answer names the change and t; only the call that
   expires idle conversations has no answer. *)
Theorem C62_changes_told : forall C d h s es o s' out r t, history C d h s -> call C es s o = (s', out, r) -> r <> Panic ->
  status_of s' t <> status_of s t ->
  (status_of s' t = Encrypted /\ (exists p, o = OpReceive p) /\ r = Ok (AnMessage (UMSessionStarted t))) \/
  (status_of s t = Encrypted /\ status_of s' t = Finished /\
     ((exists p c, o = OpReceive p /\ r = Ok (AnMessage (UMSessionFinished t c))) \/ exists timeout, o = OpExpire timeout)) \/
  (status_of s' t = Plaintext /\ o = OpEnd t /\ r = Ok (AnMessage (UMReset t))).
Proof. exact changes_told. Qed.
Print Assumptions C62_changes_told.

(* What is told is true. *)
Theorem C62_told_true : forall C d h s es o s' out r t, history C d h s -> enabled d -> call C es s o = (s', out, r) ->
  (r = Ok (AnMessage (UMSessionStarted t)) -> status_of s' t = Encrypted) /\
  (forall c, r = Ok (AnMessage (UMSessionFinished t c)) -> status_of s t = Encrypted /\ status_of s' t = Finished) /\
  (r = Ok (AnMessage (UMReset t)) -> status_of s t <> Plaintext /\ status_of s' t = Plaintext).
Proof. exact told_changes. Qed.
Print Assumptions C62_told_true.

Example C62_ex : enabled xs_alice /\ history toy xs_alice ya_h ya_s /\ status_of ya_s 400 = Encrypted /\
  (let '(s', out, r) := call toy (xs_ea x47) ya_s (OpEnd 400) in r = Ok (AnMessage (UMReset 400)) /\ status_of s' 400 = Plaintext) /\
  (let '(s', out, r) := call toy (xs_ea x47) ya_s (OpReceive yb_bye) in
   r = Ok (AnMessage (UMSessionFinished 400 [])) /\ status_of s' 400 = Finished) /\
  exists h1 ev, ya_h = h1 ++ [ev] /\ ev_result ev = Ok (AnMessage (UMSessionStarted 400)).
Proof.
  split; [apply xs_enabled|]. split; [exact ya_run|]. split; [vm_compute; reflexivity|].
  split; [vm_compute; split; reflexivity|]. split; [vm_compute; split; reflexivity|].
  exists (removelast ya_h), (last ya_h (mkEvent OpQuery [] Panic)). split; vm_compute; reflexivity.
Qed.

(** * C63: messages for the transport fit its limit *)

(* Full property: every message that a call injects or hands to the host for sending is no longer than the size the
   host gave, fixed texts aside.  Proved: this holds for every call, except sending while the conversation is not
   private. *)
Theorem C63_fits_partial : forall C d h s es o s' out r max, history C d h s -> enabled d -> (forall t, ev_message_size (es t) = max) ->
  call C es s o = (s', out, r) -> r <> Panic -> (forall t c, o = OpSend t c -> status_of s t <> Plaintext) ->
  (forall p, In p out -> fits max p) /\ (forall ps p, r = Ok (AnPayloads ps) -> In p ps -> fits max p).
Proof. exact limit. Qed.
Print Assumptions C63_fits_partial.

(* A text that is not private is handed on whole. *)
Theorem C63_plaintext_refuted : ~ (forall C d h s es o s' out r max, history C d h s -> enabled d ->
  (forall t, ev_message_size (es t) = max) -> call C es s o = (s', out, r) -> r <> Panic ->
  (forall p, In p out -> fits max p) /\ (forall ps p, r = Ok (AnPayloads ps) -> In p ps -> fits max p)).
Proof.
  intros H. destruct xr_sent_is as [E L]. destruct (snd xr_sent) as [[m|ps|] | |] eqn:R; try discriminate.
  destruct ps as [|p [|]]; try discriminate.
  destruct (H toy xs_alice [] xs_a0 (xr_small x46) _ _ _ _ (N.to_nat 40) (run_nil _ _) (proj1 xs_enabled) (fun _ => eq_refl) E ltac:(discriminate)) as [_ X].
  specialize (X _ p eq_refl (or_introl eq_refl)). vm_compute in R. injection R as <-. clear L.
  destruct X as [X|[X|(v & X)]]; [|discriminate|destruct v; discriminate].
  apply Nat.leb_le in X. vm_compute in X. discriminate.
Qed.
Print Assumptions C63_plaintext_refuted.

Example C63_ex : history toy xs_alice ya_h ya_s /\ enabled xs_alice /\ status_of ya_s 400 <> Plaintext /\
  call toy (xr_small x46) ya_s (OpSend 400 xr_hello) = (fst (fst xr_private), [], snd xr_private) /\
  (match snd xr_private with Ok (AnPayloads ps) => (5 <? length ps)%nat | _ => false end) = true.
Proof.
  split; [exact ya_run|]. split; [apply xs_enabled|]. split; [vm_compute; discriminate|]. exact xr_private_is.
Qed.

(** * C64: SMP success is reported for a complete run of the current conversation *)

(* When a message makes the session report success with t: there is a latest start of a conversation with t; the calls
   since, with this one, did with the data messages and with the protocol of this conversation what their arguments,
   injected messages and answers say; and the last records of the protocol are a complete run, from the user's call to
   start it, or from the peer's first record and the user's answer to it, in which every proof was good and both secrets
   agree (C36, C37). *)
Theorem C64_success_told : forall C d h s e p s' out t, smp_group C -> smp4_group C -> history C d h s -> enabled d ->
  receive C e s p = (s', out, Ok (UMSmpSucceeded t)) ->
  exists ev h1 gxs, latest_start t h ev h1 /\
    Forall2 (talk_in C d t) (h1 ++ [mkEvent (OpReceive p) out (Ok (AnMessage (UMSmpSucceeded t)))]) gxs /\
    keys_followed C d t (concat (map fst gxs)) (state_of s' t) /\ smp_proved C (concat (map snd gxs)) (state_of s' t).
Proof. exact success_told. Qed.
Print Assumptions C64_success_told.

(* A verdict is only ever about a conversation that is private, before and after. *)
Theorem C64_verdict_private : forall C d h s e p s' out t m, history C d h s -> enabled d -> receive C e s p = (s', out, Ok m) ->
  m = UMSmpSucceeded t \/ m = UMSmpFailed t -> status_of s t = Encrypted /\ status_of s' t = Encrypted.
Proof.
  intros C d h s e p s' out t m HI EN. destruct (SessionSendProofs.history_inv _ _ _ _ HI) as [SI D].
  apply verdict_encrypted; [assumption|congruence].
Qed.
Print Assumptions C64_verdict_private.

Example C64_ex : smp_group toy /\ smp4_group toy /\ enabled xs_alice /\
  (history toy xs_alice (fst xr3_a1) (snd xr3_a1) /\
   receive toy (xr_ea x45 0) (snd xr3_a1) xr3_4 = (xr3_a2, [], Ok (UMSmpSucceeded 400))) /\
  (history toy xs_bob (fst xr3_bh) (snd xr3_bh) /\
   receive toy (xr_eb x44 0) (snd xr3_bh) xr3_3 = (xs_after xr3_b2, [xr3_4], Ok (UMSmpSucceeded 301))) /\
  history toy xs_alice (fst xr4_a1) (snd xr4_a1) /\
  receive toy (xr_ea x45 0) (snd xr4_a1) xr4_4 = (xr4_a2, [], Ok (UMSmpSucceeded 400)).
Proof.
  split; [exact toy_smp_group|]. split; [exact toy_smp4_group|]. split; [apply xs_enabled|].
  split; [split; [exact xr3_a1_run|exact xr3_success]|]. split; [split; [exact xr3_bh_run|exact xr3_success_b]|].
  split; [exact xr4_a1_run|exact xr4_success].
Qed.

(** * C65: the session identifier is constant in a conversation *)

Theorem C65_ssid_constant : forall C d h s h2 s2 t, history C d h s -> status_of s t = Encrypted -> run C s h2 s2 ->
  Forall (fun ev => ~ started_with t ev) h2 -> status_of s2 t = Encrypted ->
  exists ssid, ses_ssid s t = Ok ssid /\ ses_ssid s2 t = Ok ssid.
Proof. exact ssid_constant. Qed.
Print Assumptions C65_ssid_constant.

Example C65_ex : history toy xs_alice ya_h ya_s /\ status_of ya_s 400 = Encrypted /\ status_of (snd xr3_a1) 400 = Encrypted /\
  exists h2, fst xr3_a1 = ya_h ++ h2 /\ length h2 = 2%nat /\ Forall (fun ev => ~ started_with 400 ev) h2.
Proof.
  split; [exact ya_run|]. split; [apply xr_a1_encrypted|]. split; [apply xr_a1_encrypted|].
  exists (skipn (length ya_h) (fst xr3_a1)). split; [vm_compute; reflexivity|]. split; [vm_compute; reflexivity|].
  repeat constructor; discriminate.
Qed.
