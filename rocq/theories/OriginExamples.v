(* Starts of conversations of the toy instance. *)
From Verif Require Import Base Types Crypto ToyCrypto Encoding ClientProfile Messages AKELemmas DAKE DAKEExamples Protocol Session SpecCurve ToyGroup SpecWire
  SpecData3 SpecData4 SpecAKE SpecDAKE SpecSession SessionExamples SpecNet Data3Lemmas Data4Examples NetExamples Net4Examples StartExamples
  ClientProfileProofs SpecOrigin OriginProofs.
Local Open Scope N_scope.

Lemma oz_a : call toy (xs_ea x44) (snd za_end1) (OpReceive auth_r) = (za_s, [auth_i], Ok (AnMessage (UMSessionStarted 400))).
Proof. vm_compute. reflexivity. Qed.
Lemma oz_b : call toy (xs_eb x54) (snd zb_end1) (OpReceive auth_i) = (zb_s, [], Ok (AnMessage (UMSessionStarted 301))).
Proof. vm_compute. reflexivity. Qed.

(* Bob's Auth-R message under another tag *)
Definition moved_auth_r := Eval vm_compute in
  match encode_message V4 401 301 (em_message auth_r_em) with Ok b => b | _ => [] end.
Definition moved_em := Eval vm_compute in ns_parsed moved_auth_r.
Lemma oz_moved_carried : carries toy (snd za_end1) moved_auth_r moved_em.
Proof. apply carries_whole; vm_compute; reflexivity. Qed.
Definition oz_moved_s := Eval vm_compute in call toy (xs_ea x44) (snd za_end1) (OpReceive moved_auth_r).
Lemma oz_moved_starts : call toy (xs_ea x44) (snd za_end1) (OpReceive moved_auth_r) =
  (fst (fst oz_moved_s), snd (fst oz_moved_s), Ok (AnMessage (UMSessionStarted 401))).
Proof. vm_compute. reflexivity. Qed.
Definition moved_msg := Eval vm_compute in match em_message moved_em with MAuthR m => Some m | _ => None end.
Definition moved_profile := Eval vm_compute in
  match moved_msg with Some m => match payload_validate toy (ar_profile m) with Ok x => Some x | _ => None end | None => None end.
Lemma oz_moved : exists m profile, em_message moved_em = MAuthR m /\ payload_accepted toy (ar_profile m) profile /\ cp_owner profile = 400.
Proof.
  destruct moved_msg as [m|] eqn:M; [|discriminate M]. destruct moved_profile as [q|] eqn:Q; [|discriminate Q]. exists m, q.
  split; [injection M as <-; reflexivity|]. split.
  - apply payload_validate_iff. injection M as <-. injection Q as <-. vm_compute. reflexivity.
  - injection Q as <-. reflexivity.
Qed.

(* the last messages of the OTRv3 exchange *)
Definition ya_calls2 : list ((N -> env) * op) := [(xs_ea x21, OpReceive xs_query3); (xs_ea x23, OpReceive (xs_out ys_x2))].
Definition ya_end2 := Eval vm_compute in xs_end (replay toy xs_a0 [] ya_calls2).
Lemma ya_run2 : history toy xs_alice (fst ya_end2) (snd ya_end2).
Proof. apply (replay_run toy xs_a0 ya_calls2 xs_a0 []); [constructor|]. vm_compute. reflexivity. Qed.
Definition yb_calls1 : list ((N -> env) * op) := [(xs_eb x22, OpReceive (xs_out ys_x1))].
Definition yb_end1 := Eval vm_compute in xs_end (replay toy xs_b0 [] yb_calls1).
Lemma yb_run1 : history toy xs_bob (fst yb_end1) (snd yb_end1).
Proof. apply (replay_run toy xs_b0 yb_calls1 xs_b0 []); [constructor|]. vm_compute. reflexivity. Qed.
Definition reveal := Eval vm_compute in xs_out ys_x3.
Lemma oy_b : call toy (xs_eb x24) (snd yb_end1) (OpReceive reveal) = (yb_s, [signature], Ok (AnMessage (UMSessionStarted 301))).
Proof. vm_compute. reflexivity. Qed.
Lemma oy_a : call toy (xs_ea x25) (snd ya_end2) (OpReceive signature) = (ya_s, [], Ok (AnMessage (UMSessionStarted 400))).
Proof. vm_compute. reflexivity. Qed.
