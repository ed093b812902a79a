(* Property C86: nothing from outside disturbs a private conversation. *)
From Verif Require Import Base Types Crypto ToyCrypto Encoding Messages Fragment Protocol Session SpecSession SessionProofs SessionInvProofs SessionSendProofs
  SessionExamples SpecBeside BesideProofs.
Local Open Scope N_scope.

(** * C86 Nothing from outside disturbs a private conversation *)

(* Take any session and let anything happen to it: forged, damaged, replayed or unreadable messages in the name of client
   t, half-finished key exchanges with t, messages of other clients and calls about them, in any order and mixed with the
   conversation with t.  Then the conversation with t alone, without all that, is possible too: with the same answers to
   every call and every message of t, the same messages sent, and the same state of the conversation at the end. *)
Theorem C86_conversation : forall C d h0 s0 t h k s,
  history C d h0 s0 -> enabled d -> beside C t s0 h k s ->
  run C s0 h s /\ exists s1, run C s0 k s1 /\ state_of s1 t = state_of s t.
Proof.
  intros C d h0 s0 t h k s H EN B. destruct (history_inv _ _ _ _ H) as [I D].
  destruct (beside_run C t s0 h k s B I) as (R & s1 & R1 & T); [now rewrite D|].
  split; [assumption|]. exists s1. split; [assumption|]. exact (tw_state _ _ _ T).
Qed.
Print Assumptions C86_conversation.

(* With outside calls only, nothing about the conversation changes: its keys and counters, its status, its session
   identifier, the state of a verification in progress. *)
Theorem C86_outside : forall C d h0 s0 t h s,
  history C d h0 s0 -> enabled d -> beside C t s0 h [] s -> status_of s0 t <> Plaintext ->
  state_of s t = state_of s0 t /\ ses_status s t = ses_status s0 t /\ ses_ssid s t = ses_ssid s0 t.
Proof.
  intros C d h0 s0 t h s H EN B ST. destruct (C86_conversation _ _ _ _ _ _ _ _ H EN B) as (_ & s1 & R1 & E).
  assert (s1 = s0) as ->. { inversion R1 as [|? ? ? ? ? ? ? ? ? ? X]; [reflexivity|]. now destruct h1. }
  split; [now symmetry|].
  assert (ST' : status_of s t <> Plaintext) by (unfold status_of; rewrite <- E; exact ST).
  destruct (status_some s0 t _ eq_refl ST) as (i & G & _ & S). destruct (status_some s t _ eq_refl ST') as (i' & G' & _ & S').
  unfold ses_status, ses_ssid. rewrite G, G'. unfold in_status, inst_ssid. rewrite <- S, <- S', E. auto.
Qed.
Print Assumptions C86_outside.

(* Alice talks with Bob.  A query arrives, then a message that starts a key exchange in the name of Bob's client, then an
   unencrypted text; Alice sends a text to Bob; another query arrives; Bob says goodbye. *)
Definition be_commit := Eval vm_compute in xs_out (call toy (xs_eb x22) xs_b0 (OpReceive xs_query3)).
Definition be_x1 := Eval vm_compute in call toy (xs_ea x41) ya_s (OpReceive xs_query3).
Definition be_x2 := Eval vm_compute in call toy (xs_ea x42) (xs_next be_x1) (OpReceive be_commit).
Definition be_x3 := Eval vm_compute in call toy (xs_ea x43) (xs_next be_x2) (OpReceive xs_hi).
Definition be_x4 := Eval vm_compute in call toy (xs_ea x26) (xs_next be_x3) (OpSend 400 xs_hi).
Definition be_x5 := Eval vm_compute in call toy (xs_ea x44) (xs_next be_x4) (OpReceive xs_query3).
Definition be_x6 := Eval vm_compute in call toy (xs_ea x29) (xs_next be_x5) (OpReceive yb_bye).
Definition be_event (o : op) (x : effect session answer) : event := mkEvent o (snd (fst x)) (snd x).
Definition be_outside_h : list event := [be_event (OpReceive xs_query3) be_x1; be_event (OpReceive be_commit) be_x2; be_event (OpReceive xs_hi) be_x3].
Definition be_h : list event :=
  be_outside_h ++ [be_event (OpSend 400 xs_hi) be_x4; be_event (OpReceive xs_query3) be_x5; be_event (OpReceive yb_bye) be_x6].
Definition be_k : list event := [be_event (OpSend 400 xs_hi) be_x4; be_event (OpReceive yb_bye) be_x6].

Lemma be_quiet p : match_fragment p = false -> match parse toy p with Ok (MsgEncoded em) => match em_message em with MData _ | MData4 _ => false | _ => true end | _ => true end = true ->
  forall s t b, ~ genuine toy s t p b.
Proof.
  intros MF P s t. apply other_not_genuine; [assumption|]. intros em E. rewrite E in P. now destruct (em_message em).
Qed.
Example C86_ex_outside : history toy xs_alice ya_h ya_s /\ enabled xs_alice /\ status_of ya_s 400 = Encrypted /\
  beside toy 400 ya_s be_outside_h [] (xs_next be_x3) /\ snd (fst be_x2) <> [].
Proof.
  assert (Q3 : forall s t b, ~ genuine toy s t xs_query3 b) by (apply be_quiet; vm_compute; reflexivity).
  assert (QC : forall s t b, ~ genuine toy s t be_commit b) by (apply be_quiet; vm_compute; reflexivity).
  assert (QH : forall s t b, ~ genuine toy s t xs_hi b) by (apply be_quiet; vm_compute; reflexivity).
  split; [exact ya_run|]. split; [exact (proj1 xs_enabled)|]. split; [reflexivity|]. split; [|discriminate].
  apply (be_outside toy 400 ya_s [be_event (OpReceive xs_query3) be_x1; be_event (OpReceive be_commit) be_x2] [] (xs_next be_x2) (xs_ea x43) (OpReceive xs_hi));
    [|vm_compute; reflexivity|discriminate|split; [apply QH|discriminate]].
  apply (be_outside toy 400 ya_s [be_event (OpReceive xs_query3) be_x1] [] (xs_next be_x1) (xs_ea x42) (OpReceive be_commit));
    [|vm_compute; reflexivity|discriminate|split; [apply QC|discriminate]].
  apply (be_outside toy 400 ya_s [] [] ya_s (xs_ea x41) (OpReceive xs_query3));
    [constructor|vm_compute; reflexivity|discriminate|split; [apply Q3|discriminate]].
Qed.
Example C86_ex_conversation : history toy xs_alice ya_h ya_s /\ enabled xs_alice /\ beside toy 400 ya_s be_h be_k (xs_next be_x6) /\
  map ev_result be_k = [Ok (AnPayloads [ya_text]); Ok (AnMessage (UMSessionFinished 400 []))].
Proof.
  destruct C86_ex_outside as (H & EN & _ & B & _). split; [exact H|]. split; [exact EN|]. split; [|reflexivity].
  assert (Q3 : forall s t b, ~ genuine toy s t xs_query3 b) by (apply be_quiet; vm_compute; reflexivity).
  assert (B4 : beside toy 400 ya_s (be_outside_h ++ [be_event (OpSend 400 xs_hi) be_x4]) [be_event (OpSend 400 xs_hi) be_x4] (xs_next be_x4)).
  { apply (be_own toy 400 ya_s be_outside_h [] (xs_next be_x3) (xs_ea x26) (OpSend 400 xs_hi));
      [exact B|vm_compute; reflexivity|discriminate|reflexivity|discriminate]. }
  assert (B5 : beside toy 400 ya_s ((be_outside_h ++ [be_event (OpSend 400 xs_hi) be_x4]) ++ [be_event (OpReceive xs_query3) be_x5])
    [be_event (OpSend 400 xs_hi) be_x4] (xs_next be_x5)).
  { apply (be_outside toy 400 ya_s (be_outside_h ++ [be_event (OpSend 400 xs_hi) be_x4]) [be_event (OpSend 400 xs_hi) be_x4] (xs_next be_x4) (xs_ea x44) (OpReceive xs_query3));
      [exact B4|vm_compute; reflexivity|discriminate|split; [apply Q3|discriminate]]. }
  assert (K : call toy (xs_ea x29) (xs_next be_x5) (OpReceive yb_bye) = (xs_next be_x6, [], Ok (AnMessage (UMSessionFinished 400 [])))).
  { vm_compute. reflexivity. }
  assert (G : genuine toy (xs_next be_x5) 400 yb_bye yb_bye).
  { destruct (beside_run _ _ _ _ _ _ B5 (proj1 (history_inv _ _ _ _ H)) EN) as (_ & s1 & _ & T).
    cbn [call] in K. destruct (receive toy (xs_ea x29 0) (xs_next be_x5) yb_bye) as [[s2 o2] r2] eqn:RC. injection K as _ _ K.
    destruct r2 as [r2|x|]; [|discriminate K|discriminate K]. cbn [res_map] in K. injection K as ->.
    eapply read_genuine with (tlvs := []); [exact (tw_inv _ _ _ T)|exact EN|vm_compute; reflexivity|exact RC|now right]. }
  exact (be_genuine toy 400 ya_s _ _ (xs_next be_x5) (xs_ea x29) yb_bye yb_bye _ _ _ B5 K ltac:(discriminate) G).
Qed.
