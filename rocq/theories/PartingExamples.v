(* The end of conversations in the toy instance. *)
From Verif Require Import Base Types Crypto ToyCrypto Encoding Messages Fragment Protocol Session SpecSession SessionExamples SpecNet
  NetExamples Net4Examples SpecParting.
From Coq Require Import Lia.
Local Open Scope N_scope.

Ltac carried := split; [vm_compute; discriminate|cbn; intros L; exfalso; lia].
Ltac no_panic := cbn; intros I; repeat (destruct I as [I|I]; [discriminate|]); exact I.
Definition pt_ps (r : res (list bytes)) : list bytes := match r with Ok l => l | _ => [] end.

(** ** OTRv3 *)

(* Alice sends twice, Bob answers, and Alice ends the conversation *)
Definition pt_a1 := Eval vm_compute in send toy (xs_ea x26 0) (x_sa2 ns_x) 400 xs_hi.
Definition pt_b1 := Eval vm_compute in receive_all toy (xs_eb x27 0) (x_sb3 ns_x) (pt_ps (snd pt_a1)).
Definition pt_a2 := Eval vm_compute in send toy (xs_ea x31 0) (fst (fst pt_a1)) 400 xs_hi.
Definition pt_b2 := Eval vm_compute in receive_all toy (xs_eb x27 0) (fst (fst pt_b1)) (pt_ps (snd pt_a2)).
Definition pt_b3 := Eval vm_compute in send toy (xs_eb x28 0) (fst (fst pt_b2)) 301 xs_hi.
Definition pt_a3 := Eval vm_compute in receive_all toy (xs_ea x29 0) (fst (fst pt_a2)) (pt_ps (snd pt_b3)).
Definition pt_a4 := Eval vm_compute in end_session toy (xs_ea x33 0) (fst (fst pt_a3)) 400.
Definition pt_b4 := Eval vm_compute in receive_all toy (xs_eb x27 0) (fst (fst pt_b3)) (snd (fst pt_a4)).
Definition pt_l1 := mkLink (fst (fst pt_a1)) (x_sb3 ns_x) [(pt_ps (snd pt_a1), xs_hi)] [].
Definition pt_l2 := mkLink (fst (fst pt_a1)) (fst (fst pt_b1)) [] [].
Definition pt_l3 := mkLink (fst (fst pt_a2)) (fst (fst pt_b1)) [(pt_ps (snd pt_a2), xs_hi)] [].
Definition pt_l4 := mkLink (fst (fst pt_a2)) (fst (fst pt_b2)) [] [].
Definition pt_l5 := mkLink (fst (fst pt_a2)) (fst (fst pt_b3)) [] [(pt_ps (snd pt_b3), xs_hi)].
Definition pt_l6 := mkLink (fst (fst pt_a3)) (fst (fst pt_b3)) [] [].
Lemma pt_run1 : net_run toy 301 400 ns_l0 [Sends true xs_hi] pt_l1.
Proof.
  apply (n_step toy 301 400 ns_l0 [] ns_l0); [constructor|].
  apply (n_send_a toy 301 400 ns_l0 (xs_ea x26 0)); [vm_compute; reflexivity|reflexivity|carried].
Qed.
Lemma pt_run : exists hs, net_run toy 301 400 ns_l0 hs pt_l6.
Proof.
  eexists.
  eapply n_step; [eapply n_step; [eapply n_step; [eapply n_step; [eapply n_step; [exact pt_run1|]|]|]|]|].
  - apply (n_arrive_a toy 301 400 pt_l1 (xs_eb x27 0) (pt_ps (snd pt_a1)) xs_hi [] (fst (fst pt_b1)) [] (snd pt_b1));
      [reflexivity|vm_compute; reflexivity|no_panic].
  - apply (n_send_a toy 301 400 pt_l2 (xs_ea x31 0) xs_hi (fst (fst pt_a2)) (pt_ps (snd pt_a2)));
      [vm_compute; reflexivity|reflexivity|carried].
  - apply (n_arrive_a toy 301 400 pt_l3 (xs_eb x27 0) (pt_ps (snd pt_a2)) xs_hi [] (fst (fst pt_b2)) [] (snd pt_b2));
      [reflexivity|vm_compute; reflexivity|no_panic].
  - apply (n_send_b toy 301 400 pt_l4 (xs_eb x28 0) xs_hi (fst (fst pt_b3)) (pt_ps (snd pt_b3)));
      [vm_compute; reflexivity|reflexivity|carried].
  - apply (n_arrive_b toy 301 400 pt_l5 (xs_ea x29 0) (pt_ps (snd pt_b3)) xs_hi [] (fst (fst pt_a3)) [] (snd pt_a3));
      [reflexivity|vm_compute; reflexivity|no_panic].
Qed.
Definition pt_bye : list bytes := snd (fst pt_a4).
Lemma pt_ends : end_session toy (xs_ea x33 0) (li_a pt_l6) 400 = (fst (fst pt_a4), pt_bye, Ok (UMReset 400)).
Proof. vm_compute. reflexivity. Qed.
Lemma pt_transportable : transportable pt_bye. Proof. carried. Qed.
Lemma pt_unread : receive_all toy (xs_eb x27 0) (li_b pt_l6) pt_bye = (fst (fst pt_b4), [UNREADABLE_REPLY], [Ok UMNone]).
Proof. vm_compute. reflexivity. Qed.
Lemma pt_still : status_of (fst (fst pt_b4)) 301 = Encrypted. Proof. vm_compute. reflexivity. Qed.

(* Alice says "hi" and leaves; Bob writes something meanwhile *)
Definition pt_c1 := Eval vm_compute in end_session toy (xs_ea x33 0) (fst (fst pt_a1)) 400.
Definition pt_d1 := Eval vm_compute in send toy (xs_eb x28 0) (x_sb3 ns_x) 301 xs_hi.
Definition pt_d2 := Eval vm_compute in receive_all toy (xs_eb x27 0) (fst (fst pt_d1)) (pt_ps (snd pt_a1)).
Definition pt_d3 := Eval vm_compute in receive_all toy (xs_eb x27 0) (fst (fst pt_d2)) (snd (fst pt_c1)).
Definition pt_p0 := mkParting (x_sb3 ns_x) (with_farewell [(pt_ps (snd pt_a1), xs_hi)] (snd (fst pt_c1))).
Definition pt_p2 := mkParting (fst (fst pt_d2)) [(snd (fst pt_c1), None)].
Lemma pt_parting : parting_run toy 301 pt_p0 pt_p2.
Proof.
  eapply p_step; [eapply p_step; [constructor|]|].
  - apply (p_send toy 301 pt_p0 (xs_eb x28 0) xs_hi (fst (fst pt_d1)) (pt_ps (snd pt_d1))); [vm_compute; reflexivity|reflexivity|carried].
  - apply (p_arrive toy 301 (mkParting (fst (fst pt_d1)) (pa_queue pt_p0)) (xs_eb x27 0) (pt_ps (snd pt_a1)) xs_hi
      [(snd (fst pt_c1), None)] (fst (fst pt_d2)) [] (snd pt_d2)); [reflexivity|vm_compute; reflexivity|no_panic].
Qed.
Lemma pt_leaves : end_session toy (xs_ea x33 0) (li_a pt_l1) 400 = (fst (fst pt_c1), snd (fst pt_c1), Ok (UMReset 400)).
Proof. vm_compute. reflexivity. Qed.
Lemma pt_told : receive_all toy (xs_eb x27 0) (pa_session pt_p2) (snd (fst pt_c1)) =
  (fst (fst pt_d3), [], [Ok (UMSessionFinished 301 [])]).
Proof. vm_compute. reflexivity. Qed.

(** ** OTRv4 *)

(* Alice says "hi", Bob answers "y\0o", Alice says "hi" again.  Then Alice ends the conversation while Bob's next
   message is under way. *)
Definition pf_a1 := Eval vm_compute in send toy (xs_ea x31 0) (fst (fst nf_conv4)) 400 xs_hi.
Definition pf_b1 := Eval vm_compute in receive_all toy (xs_eb x27 0) (fst (fst nf_conv3)) (pt_ps (snd pf_a1)).
Definition pf_b2 := Eval vm_compute in send toy (xs_eb x28 0) (fst (fst pf_b1)) 301 xs_hi.
Definition pf_a2 := Eval vm_compute in end_session toy (xs_ea x33 0) (fst (fst pf_a1)) 400.
Definition pf_b3 := Eval vm_compute in receive_all toy (xs_eb x27 0) (fst (fst pf_b2)) (snd (fst pf_a2)).
Definition pf_l5 := mkLink (fst (fst pf_a1)) (fst (fst nf_conv3)) [(pt_ps (snd pf_a1), xs_hi)] [].
Definition pf_l6 := mkLink (fst (fst pf_a1)) (fst (fst pf_b1)) [] [].
Definition pf_l7 := mkLink (fst (fst pf_a1)) (fst (fst pf_b2)) [] [(pt_ps (snd pf_b2), xs_hi)].
Definition pf_hs6 := ((nf_hs ++ [Sends false nf_yo]) ++ [Arrives false nf_yo (snd nf_conv4) []]) ++
  [Sends true xs_hi] ++ [Arrives true xs_hi (snd pf_b1) []].
Lemma pf_run6 : net_run toy 301 400 nf_l0 pf_hs6 pf_l6.
Proof.
  unfold pf_hs6. rewrite (app_assoc _ [Sends true xs_hi]).
  eapply n_step; [eapply n_step; [eapply n_step; [eapply n_step; [exact nf_run|exact nf_sends]|exact nf_arrives]|]|].
  - apply (n_send_a toy 301 400 nf_l4 (xs_ea x31 0) xs_hi (fst (fst pf_a1)) (pt_ps (snd pf_a1)));
      [vm_compute; reflexivity|reflexivity|carried].
  - apply (n_arrive_a toy 301 400 pf_l5 (xs_eb x27 0) (pt_ps (snd pf_a1)) xs_hi [] (fst (fst pf_b1)) [] (snd pf_b1));
      [reflexivity|vm_compute; reflexivity|no_panic].
Qed.
Lemma pf_run : net_run toy 301 400 nf_l0 (pf_hs6 ++ [Sends false xs_hi]) pf_l7.
Proof.
  eapply n_step; [exact pf_run6|].
  apply (n_send_b toy 301 400 pf_l6 (xs_eb x28 0) xs_hi (fst (fst pf_b2)) (pt_ps (snd pf_b2)));
      [vm_compute; reflexivity|reflexivity|carried].
Qed.
Definition pf_bye : list bytes := snd (fst pf_a2).
Lemma pf_ends : end_session toy (xs_ea x33 0) (li_a pf_l7) 400 = (fst (fst pf_a2), pf_bye, Ok (UMReset 400)).
Proof. vm_compute. reflexivity. Qed.
Lemma pf_transportable : transportable pf_bye. Proof. carried. Qed.
Lemma pf_unread : receive_all toy (xs_eb x27 0) (li_b pf_l7) pf_bye = (fst (fst pf_b3), [UNREADABLE_REPLY], [Ok UMNone]).
Proof. vm_compute. reflexivity. Qed.
Lemma pf_still : status_of (fst (fst pf_b3)) 301 = Encrypted. Proof. vm_compute. reflexivity. Qed.

(* Had Bob not written, Bob's user would have been told. *)
Definition pf_c1 := Eval vm_compute in receive_all toy (xs_eb x27 0) (fst (fst pf_b1)) pf_bye.
Lemma pf_speaking : speaking 301 400 true pf_hs6.
Proof.
  unfold pf_hs6. cbn [app]. apply (sp_arrived 301 400 true (nf_hs ++ [Sends false nf_yo; Arrives false nf_yo (snd nf_conv4) []])).
  apply (sp_change 301 400 false (nf_hs ++ [Sends false nf_yo])).
  - cbn [app]. apply (sp_arrived 301 400 false nf_hs). exact nf_speaking.
  - exists 1%nat. split; vm_compute; reflexivity.
Qed.
Lemma pf_told : receive_all toy (xs_eb x27 0) (li_b pf_l6) pf_bye = (fst (fst pf_c1), [], [Ok (UMSessionFinished 301 [])]).
Proof. vm_compute. reflexivity. Qed.
Lemma pf_fresh s : ~ repeats_key toy s 301 pf_bye.
Proof.
  intros (d & e & m & k & our & their & dr & smp & SA & DH & _).
  change pf_bye with [hd [] pf_bye] in SA.
  apply (fun H => sent_as_single _ _ _ _ _ _ (ns_parsed (hd [] pf_bye)) H) in SA; [|vm_compute; reflexivity].
  assert (MData4 m = em_message (ns_parsed (hd [] pf_bye)) ->
    match em_message (ns_parsed (hd [] pf_bye)) with MData4 m => d4_dh m | _ => None end = Some k) as X
    by (intros <-; exact DH).
  specialize (X SA). vm_compute in X. discriminate X.
Qed.
Definition pf_late := Eval vm_compute in expire toy (fun t => xs_ea x33 t) (li_a pf_l6) 0.
Lemma pf_expires : expire toy (fun t => xs_ea x33 t) (li_a pf_l6) 0 = (fst (fst pf_late), snd (fst pf_late), Ok tt).
Proof. vm_compute. reflexivity. Qed.
Lemma pf_expired : status_of (fst (fst pf_late)) 400 = Finished. Proof. vm_compute. reflexivity. Qed.
