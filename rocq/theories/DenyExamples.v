(* Conversations for C74. *)
From Verif Require Import Base Types Crypto ToyCrypto Encoding Messages Fragment KeyManager DataV3 SpecData3 Protocol Session SpecSession SessionExamples
  SessionSendProofs NetExamples
  SpecFollow FollowProofs FollowLemmas FollowExamples SpecTexts TextsExamples TextsLemmas SpecDeny DenyLemmas.
Local Open Scope N_scope.

(* a conversation followed from its start on *)
Lemma dn_conversation C d h0 ev s0 t h s gs : history C d (h0 ++ [ev]) s0 -> started_with t ev -> status_of s0 t = Encrypted ->
  account C t s0 h s gs -> Forall (fun e => ~ started_with t e) h -> conversation_of C d ((h0 ++ [ev]) ++ h) s t (concat gs).
Proof.
  intros H SW SE (R & F & ST) NS. destruct (history_followed C d _ _ t H SE) as (_ & ev' & h1 & gs0 & ((h0' & EH) & SW' & N1) & F0 & K).
  assert (h1 = [] /\ ev' = ev) as [-> ->].
  { destruct h1 as [|e2 h2 _] using rev_ind.
    - apply app_inj_tail in EH. destruct EH as [_ <-]. auto.
    - replace (h0' ++ ev' :: h2 ++ [e2]) with ((h0' ++ ev' :: h2) ++ [e2]) in EH by now rewrite <- app_assoc.
      apply app_inj_tail in EH. destruct EH as [_ <-]. apply Forall_app in N1. destruct N1 as [_ N1]. now inversion N1. }
  inversion F0; subst gs0. cbn [concat] in K. apply history_inv in H. destruct H as [_ D].
  exists ev, h, gs. split; [|split; [now rewrite <- D|split; [reflexivity|]]].
  - split; [exists h0; now rewrite <- app_assoc|]. auto.
  - pose proof (steps_followed C _ _ _ _ _ _ K ST) as K2. exact K2.
Qed.

(* OTRv4: Bob reads a text, answers, and reads another one *)
Definition dn_1 := Eval vm_compute in receive toy (xs_eb x27 0) zb_s za_text.
Definition dn_2 := Eval vm_compute in send toy (xs_eb x28 301) (fst (fst dn_1)) 301 xs_hi.
Definition dn_p2 := Eval vm_compute in match snd dn_2 with Ok (p :: _) => p | _ => [] end.
Definition dn_3 := Eval vm_compute in receive toy (xs_ea x29 0) za_s1 dn_p2.
Definition dn_4 := Eval vm_compute in send toy (xs_ea x33 400) (fst (fst dn_3)) 400 xs_hi.
Definition dn_p4 := Eval vm_compute in match snd dn_4 with Ok (p :: _) => p | _ => [] end.
Definition dn_calls : list ((N -> env) * op) :=
  [(xs_eb x27, OpReceive za_text); (xs_eb x28, OpSend 301 xs_hi); (xs_eb x27, OpReceive dn_p4)].
Definition dn_b := Eval vm_compute in xs_end (replay toy zb_s [] dn_calls).
Definition dn_g : list did := [Reads (ns_parsed za_text) xs_hi; Sends (em_message (ns_parsed dn_p2)) xs_hi; Reads (ns_parsed dn_p4) xs_hi].
Definition dn_st := Eval vm_compute in state_of zb_s 301.
Definition dn_l := Eval vm_compute in steps_of toy zb_s 301 dn_calls dn_g.
Lemma dn_follows : follows_all toy dn_st dn_l.
Proof. vm_compute. repeat split. Qed.
Lemma dn_account : account toy 301 zb_s (fst dn_b) (snd dn_b) (each dn_g).
Proof.
  apply (computed_account _ _ _ _ _ dn_calls _ dn_st dn_l);
    [vm_compute; reflexivity|vm_compute; reflexivity|reflexivity| |exact dn_follows|vm_compute; reflexivity|vm_compute; reflexivity].
  apply Forall2_cons; [|apply Forall2_cons; [|apply Forall2_cons; [|constructor]]].
  + apply did_show; [no_nul|vm_compute; reflexivity..].
  + apply (did_send toy _ 301 xs_hi dn_p2 (xs_eb x28 0) _ V4); vm_compute; reflexivity.
  + apply did_show; [no_nul|vm_compute; reflexivity..].
Qed.
Lemma dn_conv : conversation_of toy xs_bob (zb_h ++ fst dn_b) (snd dn_b) 301 dn_g.
Proof.
  rewrite <- (concat_each dn_g). assert (E : exists h0 ev, zb_h = h0 ++ [ev] /\ started_with 301 ev).
  { unfold zb_h. eexists [_]. eexists. split; [cbn [app]; reflexivity|reflexivity]. }
  destruct E as (h0 & ev & E & SW). rewrite E. apply (dn_conversation _ _ _ _ zb_s); try assumption.
  - rewrite <- E. exact zb_run.
  - vm_compute. reflexivity.
  - exact dn_account.
  - repeat constructor; discriminate.
Qed.
Definition dn_bye := Eval vm_compute in end_session toy (xs_eb x33 301) (snd dn_b) 301.

(* OTRv3: Alice writes a text, reads Bob's answer and writes again *)
Definition dm_1 := Eval vm_compute in receive toy (xs_eb x27 0) yb_s ya_text.
Definition dm_2 := Eval vm_compute in send toy (xs_eb x28 301) (fst (fst dm_1)) 301 xs_hi.
Definition dm_p2 := Eval vm_compute in match snd dm_2 with Ok (p :: _) => p | _ => [] end.
Definition dm_calls : list ((N -> env) * op) :=
  [(xs_ea x26, OpSend 400 xs_hi); (xs_ea x29, OpReceive dm_p2); (xs_ea x33, OpSend 400 xs_hi)].
Definition dm_a := Eval vm_compute in xs_end (replay toy ya_s [] dm_calls).
Definition dm_p3 := Eval vm_compute in match nth_error (fst dm_a) 2 with Some (mkEvent _ _ (Ok (AnPayloads (p :: _)))) => p | _ => [] end.
Definition dm_g : list did := [Sends (em_message (ns_parsed ya_text)) xs_hi; Reads (ns_parsed dm_p2) xs_hi; Sends (em_message (ns_parsed dm_p3)) xs_hi].
Definition dm_st := Eval vm_compute in state_of ya_s 400.
Definition dm_l := Eval vm_compute in steps_of toy ya_s 400 dm_calls dm_g.
Lemma dm_follows : follows_all toy dm_st dm_l.
Proof. vm_compute. repeat split. Qed.
Lemma dm_account : account toy 400 ya_s (fst dm_a) (snd dm_a) (each dm_g).
Proof.
  apply (computed_account _ _ _ _ _ dm_calls _ dm_st dm_l);
    [vm_compute; reflexivity|vm_compute; reflexivity|reflexivity| |exact dm_follows|vm_compute; reflexivity|vm_compute; reflexivity].
  apply Forall2_cons; [|apply Forall2_cons; [|apply Forall2_cons; [|constructor]]].
  + apply (did_send toy _ 400 xs_hi ya_text (xs_ea x26 0) _ V3); vm_compute; reflexivity.
  + apply did_show; [no_nul|vm_compute; reflexivity..].
  + apply (did_send toy _ 400 xs_hi dm_p3 (xs_ea x33 0) _ V3); vm_compute; reflexivity.
Qed.
Lemma dm_conv : conversation_of toy xs_alice (ya_h ++ fst dm_a) (snd dm_a) 400 dm_g.
Proof.
  rewrite <- (concat_each dm_g). assert (E : exists h0 ev, ya_h = h0 ++ [ev] /\ started_with 400 ev).
  { unfold ya_h. eexists [_; _]. eexists. split; [cbn [app]; reflexivity|reflexivity]. }
  destruct E as (h0 & ev & E & SW). rewrite E. apply (dn_conversation _ _ _ _ ya_s); try assumption.
  - rewrite <- E. exact ya_run.
  - vm_compute. reflexivity.
  - exact dm_account.
  - repeat constructor; discriminate.
Qed.
(* OTRv3: Bob reads a text and ends the conversation *)
Definition dr_calls : list ((N -> env) * op) := [(xs_eb x27, OpReceive ya_text)].
Definition dr_b := Eval vm_compute in xs_end (replay toy yb_s [] dr_calls).
Definition dr_g : list did := [Reads (ns_parsed ya_text) xs_hi].
Definition dr_st := Eval vm_compute in state_of yb_s 301.
Definition dr_l := Eval vm_compute in steps_of toy yb_s 301 dr_calls dr_g.
Lemma dr_follows : follows_all toy dr_st dr_l.
Proof. vm_compute. repeat split. Qed.
Lemma dr_account : account toy 301 yb_s (fst dr_b) (snd dr_b) (each dr_g).
Proof.
  apply (computed_account _ _ _ _ _ dr_calls _ dr_st dr_l);
    [vm_compute; reflexivity|vm_compute; reflexivity|reflexivity| |exact dr_follows|vm_compute; reflexivity|vm_compute; reflexivity].
  apply Forall2_cons; [|constructor]. apply did_show; [no_nul|vm_compute; reflexivity..].
Qed.
Lemma dr_conv : conversation_of toy xs_bob (yb_h ++ fst dr_b) (snd dr_b) 301 dr_g.
Proof.
  rewrite <- (concat_each dr_g). assert (E : exists h0 ev, yb_h = h0 ++ [ev] /\ started_with 301 ev).
  { unfold yb_h. eexists [_]. eexists. split; [cbn [app]; reflexivity|reflexivity]. }
  destruct E as (h0 & ev & E & SW). rewrite E. apply (dn_conversation _ _ _ _ yb_s); try assumption.
  - rewrite <- E. exact yb_run.
  - vm_compute. reflexivity.
  - exact dr_account.
  - repeat constructor; discriminate.
Qed.
Definition dr_bye := Eval vm_compute in end_session toy (xs_eb x33 301) (snd dr_b) 301.
Lemma dn_run : history toy xs_bob (zb_h ++ fst dn_b) (snd dn_b).
Proof. apply (replay_run toy (session_new xs_bob) dn_calls zb_s zb_h); [exact zb_run|]. vm_compute. reflexivity. Qed.
Lemma dr_run : history toy xs_bob (yb_h ++ fst dr_b) (snd dr_b).
Proof. apply (replay_run toy (session_new xs_bob) dr_calls yb_s yb_h); [exact yb_run|]. vm_compute. reflexivity. Qed.
Lemma dr_ends : end_session toy (xs_eb x33 301) (snd dr_b) 301 = dr_bye /\ snd dr_bye = Ok (UMReset 301).
Proof. split; vm_compute; reflexivity. Qed.
