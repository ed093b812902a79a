(* Alice and Bob of the toy instance renew their conversations. *)
From Verif Require Import Base BaseLemmas Types Crypto ToyCrypto CryptoProofs Encoding ClientProfile Messages Fragment KeyManager SpecData3 Ratchet DataV4 SpecData4
  AKE SpecAKE AKELemmas DAKE DAKEExamples SMP SMP4 Protocol Session SpecWire SpecSession
  SessionExamples SpecNet NetProofs Net3Proofs NetLemmas NetExamples Net4Examples Data4Examples SpecRenew RenewProofs.
From Coq Require Import Lia.
Local Open Scope N_scope.

(** ** OTRv3: after "hi" and "yo" Bob asks for a new key exchange, then Alice does *)

Definition rn_b := Eval vm_compute in li_b ns_l4.
Definition rn_a := Eval vm_compute in li_a ns_l4.
Definition rn_e0 := xs_ea x21 0.
Definition rn_e1 := xs_eb x22 0.
Definition rn_e2 := xs_ea x23 0.
Definition rn_e3 := xs_eb x24 0.
Definition rn_e4 := xs_ea x25 0.
Definition rn_s1 := Eval vm_compute in receive_all toy rn_e0 rn_a [query_message V3].
Definition rn_s2 := Eval vm_compute in receive_all toy rn_e1 rn_b (snd (fst rn_s1)).
Definition rn_s3 := Eval vm_compute in receive_all toy rn_e2 (fst (fst rn_s1)) (snd (fst rn_s2)).
Definition rn_s4 := Eval vm_compute in receive_all toy rn_e3 (fst (fst rn_s2)) (snd (fst rn_s3)).
Definition rn_s5 := Eval vm_compute in receive_all toy rn_e4 (fst (fst rn_s3)) (snd (fst rn_s4)).
Definition rn_x : exchange toy (li_b ns_l4) (li_a ns_l4).
Proof.
  refine (mkExchange toy (li_b ns_l4) (li_a ns_l4) rn_e0 rn_e1 rn_e2 rn_e3 rn_e4 (fst (fst rn_s2)) (fst (fst rn_s4)) (fst (fst rn_s1))
    (fst (fst rn_s3)) (fst (fst rn_s5)) [query_message V3] (snd (fst rn_s1)) (snd (fst rn_s2)) (snd (fst rn_s3)) (snd (fst rn_s4))
    (snd (fst rn_s5)) (snd rn_s1) (snd rn_s2) (snd rn_s3) (snd rn_s4) (snd rn_s5) _ _ _ _ _ _ _ _ _).
  1-6: vm_compute; reflexivity.
  - cbn. intros I. repeat (destruct I as [I|I]; [discriminate|]). exact I.
  - repeat (apply Forall_cons || apply Forall_nil);
      (split; [vm_compute; discriminate|]); intros L; exfalso; revert L; cbn; lia.
  - repeat (apply Forall_cons || apply Forall_nil); reflexivity.
Defined.
Lemma rn_honest : honest3 toy rn_x.
Proof.
  split; [|split; [reflexivity|]].
  - exists tk_b, tk_a. split; [apply toy_dsa_key_ok; vm_compute; reflexivity|]. split; [apply toy_dsa_key_ok; vm_compute; reflexivity|].
    split; reflexivity.
  - split; [vm_compute; split; discriminate|]. split; [vm_compute; split; discriminate|]. repeat split; intros m S.
    1: change (x_p1 rn_x) with [hd [] (snd (fst rn_s1))] in S.
    2: change (x_p3 rn_x) with [hd [] (snd (fst rn_s3))] in S.
    3: change (x_p4 rn_x) with [hd [] (snd (fst rn_s4))] in S.
    1: apply (fun H => sent_as_single _ _ _ _ _ _ (ns_parsed (hd [] (snd (fst rn_s1)))) H) in S; [|vm_compute; reflexivity].
    2: apply (fun H => sent_as_single _ _ _ _ _ _ (ns_parsed (hd [] (snd (fst rn_s3)))) H) in S; [|vm_compute; reflexivity].
    3: apply (fun H => sent_as_single _ _ _ _ _ _ (ns_parsed (hd [] (snd (fst rn_s4)))) H) in S; [|vm_compute; reflexivity].
    all: subst m; vm_compute; reflexivity.
Qed.
Definition rn_l5 : link := mkLink (x_sb3 rn_x) (x_sa2 rn_x) [] [].
Lemma rn_prefers : preferred ns_bob V3.
Proof. right. split; [discriminate|split; reflexivity]. Qed.
Lemma rn_talked : forall l0 hs l, net_run toy 301 400 l0 hs l -> renewed3 toy ns_alice ns_bob l0 -> renewed3 toy ns_alice ns_bob l.
Proof. intros l0 hs l R B. induction R as [|hs l h l' R IH ST]; [exact B|]. eapply rn3_talk; [exact IH|exact ST]. Qed.
Lemma rn_before : renewed3 toy ns_alice ns_bob ns_l4.
Proof. eapply rn_talked; [exact ns_run|]. exact (rn3_begin _ _ _ _ _ _ ns_start). Qed.
Lemma rn_after : renewed3 toy ns_alice ns_bob rn_l5.
Proof. exact (rn3_by_b _ _ _ _ rn_x rn_before rn_prefers rn_honest). Qed.

Definition rm_a := Eval vm_compute in li_a rn_l5.
Definition rm_b := Eval vm_compute in li_b rn_l5.
Definition rm_e0 := xs_eb x41 0.
Definition rm_e1 := xs_ea x42 0.
Definition rm_e2 := xs_eb x43 0.
Definition rm_e3 := xs_ea x44 0.
Definition rm_e4 := xs_eb x45 0.
Definition rm_s1 := Eval vm_compute in receive_all toy rm_e0 rm_b [query_message V3].
Definition rm_s2 := Eval vm_compute in receive_all toy rm_e1 rm_a (snd (fst rm_s1)).
Definition rm_s3 := Eval vm_compute in receive_all toy rm_e2 (fst (fst rm_s1)) (snd (fst rm_s2)).
Definition rm_s4 := Eval vm_compute in receive_all toy rm_e3 (fst (fst rm_s2)) (snd (fst rm_s3)).
Definition rm_s5 := Eval vm_compute in receive_all toy rm_e4 (fst (fst rm_s3)) (snd (fst rm_s4)).
Definition rm_x : exchange toy (li_a rn_l5) (li_b rn_l5).
Proof.
  refine (mkExchange toy (li_a rn_l5) (li_b rn_l5) rm_e0 rm_e1 rm_e2 rm_e3 rm_e4 (fst (fst rm_s2)) (fst (fst rm_s4)) (fst (fst rm_s1))
    (fst (fst rm_s3)) (fst (fst rm_s5)) [query_message V3] (snd (fst rm_s1)) (snd (fst rm_s2)) (snd (fst rm_s3)) (snd (fst rm_s4))
    (snd (fst rm_s5)) (snd rm_s1) (snd rm_s2) (snd rm_s3) (snd rm_s4) (snd rm_s5) _ _ _ _ _ _ _ _ _).
  1-6: vm_compute; reflexivity.
  - cbn. intros I. repeat (destruct I as [I|I]; [discriminate|]). exact I.
  - repeat (apply Forall_cons || apply Forall_nil);
      (split; [vm_compute; discriminate|]); intros L; exfalso; revert L; cbn; lia.
  - repeat (apply Forall_cons || apply Forall_nil); reflexivity.
Defined.
Lemma rm_honest : honest3 toy rm_x.
Proof.
  split; [|split; [reflexivity|]].
  - exists tk_a, tk_b. split; [apply toy_dsa_key_ok; vm_compute; reflexivity|]. split; [apply toy_dsa_key_ok; vm_compute; reflexivity|].
    split; reflexivity.
  - split; [vm_compute; split; discriminate|]. split; [vm_compute; split; discriminate|]. repeat split; intros m S.
    1: change (x_p1 rm_x) with [hd [] (snd (fst rm_s1))] in S.
    2: change (x_p3 rm_x) with [hd [] (snd (fst rm_s3))] in S.
    3: change (x_p4 rm_x) with [hd [] (snd (fst rm_s4))] in S.
    1: apply (fun H => sent_as_single _ _ _ _ _ _ (ns_parsed (hd [] (snd (fst rm_s1)))) H) in S; [|vm_compute; reflexivity].
    2: apply (fun H => sent_as_single _ _ _ _ _ _ (ns_parsed (hd [] (snd (fst rm_s3)))) H) in S; [|vm_compute; reflexivity].
    3: apply (fun H => sent_as_single _ _ _ _ _ _ (ns_parsed (hd [] (snd (fst rm_s4)))) H) in S; [|vm_compute; reflexivity].
    all: subst m; vm_compute; reflexivity.
Qed.

(** ** OTRv4: after Alice's "hi" Bob asks for a new key exchange *)

Definition ro_b := Eval vm_compute in li_b nf_l2.
Definition ro_a := Eval vm_compute in li_a nf_l2.
Definition ro_e0 := xs_ea x14 0.
Definition ro_e1 := xs_eb x54 0.
Definition ro_e2 := xs_ea x44 0.
Definition ro_e3 := xs_eb x54 0.
Definition ro_s1 := Eval vm_compute in receive_all toy ro_e0 ro_a [query_message V4].
Definition ro_s2 := Eval vm_compute in receive_all toy ro_e1 ro_b (snd (fst ro_s1)).
Definition ro_s3 := Eval vm_compute in receive_all toy ro_e2 (fst (fst ro_s1)) (snd (fst ro_s2)).
Definition ro_s4 := Eval vm_compute in receive_all toy ro_e3 (fst (fst ro_s2)) (snd (fst ro_s3)).
Lemma ro_step1 : receive_all toy ro_e0 (li_a nf_l2) [query_message V4] = ro_s1. Proof. vm_compute. reflexivity. Qed.
Lemma ro_step2 : receive_all toy ro_e1 (li_b nf_l2) (snd (fst ro_s1)) = ro_s2. Proof. vm_compute. reflexivity. Qed.
Lemma ro_step3 : receive_all toy ro_e2 (fst (fst ro_s1)) (snd (fst ro_s2)) = ro_s3. Proof. vm_compute. reflexivity. Qed.
Lemma ro_step4 : receive_all toy ro_e3 (fst (fst ro_s2)) (snd (fst ro_s3)) = ro_s4. Proof. vm_compute. reflexivity. Qed.
Definition ro_x : exchange toy (li_b nf_l2) (li_a nf_l2).
Proof.
  refine (mkExchange toy (li_b nf_l2) (li_a nf_l2) ro_e0 ro_e1 ro_e2 ro_e3 ro_e2 (fst (fst ro_s2)) (fst (fst ro_s4)) (fst (fst ro_s1))
    (fst (fst ro_s3)) (fst (fst ro_s3)) [query_message V4] (snd (fst ro_s1)) (snd (fst ro_s2)) (snd (fst ro_s3)) []
    [] (snd ro_s1) (snd ro_s2) (snd ro_s3) (snd ro_s4) [] _ ro_step1 ro_step2 ro_step3 ro_step4 eq_refl _ _ _).
  - vm_compute. reflexivity.
  - cbn. intros I. repeat (destruct I as [I|I]; [discriminate|]). exact I.
  - repeat (apply Forall_cons || apply Forall_nil);
      (split; [vm_compute; discriminate|]); intros L; try (exfalso; revert L; cbn; lia);
      repeat (apply Forall_cons || apply Forall_nil); vm_compute; discriminate.
  - repeat (apply Forall_cons || apply Forall_nil); reflexivity.
Defined.

(* the run of the key exchange itself *)
Definition ro_r1 := Eval vm_compute in dake_initiate toy (ev_dake_host ro_e0) (ev_dake ro_e0) DakeInitial.
Definition ro_id := Eval vm_compute in match snd ro_r1 with Ok m => Some m | _ => None end.
Definition ro_r2 := Eval vm_compute in
  match ro_id with
  | Some m => dake_handle_identity toy (ev_dake_host ro_e1) (ev_dake ro_e1) (ev_ring ro_e1) DakeInitial m [x62] [x61]
  | None => (DakeInitial, Panic) end.
Definition ro_ar := Eval vm_compute in match snd ro_r2 with Ok (ReplyAuthR m) => Some m | _ => None end.
Definition ro_r3 := Eval vm_compute in
  match ro_ar with
  | Some m => dake_handle_auth_r toy (ev_dake_host ro_e2) (ev_ring ro_e2) (sr_ecdh (ev_send ro_e2)) (sr_dh (ev_send ro_e2)) (ev_now ro_e2)
                (fst ro_r1) m [x61] [x62]
  | None => (DakeInitial, Panic) end.
Lemma ro_run1 : dake_initiate toy (ev_dake_host ro_e0) (ev_dake ro_e0) DakeInitial = ro_r1.
Proof. vm_compute. reflexivity. Qed.
Lemma ro_run2 m : ro_id = Some m ->
  dake_handle_identity toy (ev_dake_host ro_e1) (ev_dake ro_e1) (ev_ring ro_e1) DakeInitial m [x62] [x61] = ro_r2.
Proof. intros [= <-]. vm_compute. reflexivity. Qed.
Lemma ro_run3 m : ro_ar = Some m ->
  dake_handle_auth_r toy (ev_dake_host ro_e2) (ev_ring ro_e2) (sr_ecdh (ev_send ro_e2)) (sr_dh (ev_send ro_e2)) (ev_now ro_e2)
                (fst ro_r1) m [x61] [x62] = ro_r3.
Proof. intros [= <-]. vm_compute. reflexivity. Qed.
Lemma ro_plain : plain_run4 toy xs_bob xs_alice ro_e0 ro_e1 ro_e2.
Proof.
  intros stb im H. rewrite ro_run1 in H.
  assert (E1 : stb = fst ro_r1) by (rewrite H; reflexivity).
  assert (E2 : ro_id = Some im) by (change ro_id with (match snd ro_r1 with Ok m => Some m | _ => None end); rewrite H; reflexivity).
  clear H. split; [injection E2 as <-; repeat apply conj; vm_compute; reflexivity|].
  intros sta ar H. change (de_account xs_bob) with [x62] in H. change (de_address xs_bob) with [x61] in H.
  rewrite (ro_run2 im E2) in H.
  assert (E3 : ro_ar = Some ar)
    by (change ro_ar with (match snd ro_r2 with Ok (ReplyAuthR m) => Some m | _ => None end); rewrite H; reflexivity).
  clear H. split; [injection E3 as <-; repeat apply conj; vm_compute; reflexivity|].
  split; [injection E3 as <-; vm_compute; discriminate|].
  split; [injection E3 as <-; repeat apply conj; vm_compute; discriminate|].
  intros st mat ai H. change (de_account xs_alice) with [x61] in H. change (de_address xs_alice) with [x62] in H.
  rewrite E1, (ro_run3 ar E3) in H.
  assert (E4 : match snd ro_r3 with Ok (_, a) => Some a | _ => None end = Some ai) by (rewrite H; reflexivity).
  clear H. cbv in E4. injection E4 as <-. split; [vm_compute; discriminate|]. repeat apply conj; vm_compute; discriminate.
Qed.
Lemma ro_honest : honest4 toy xs_bob xs_alice (x_e0 ro_x) (x_e1 ro_x) (x_e2 ro_x).
Proof.
  split; [exists xd_bob, xd_alice; split; [exact xd_host_b|exact xd_host_a]|].
  split; [reflexivity|]. split; [exact xd_rnd2|]. split; [exact xd_rnd1|].
  split; [reflexivity|]. split; [reflexivity|]. exact ro_plain.
Qed.
Lemma ro_talked : forall l0 hs l, net_run toy 301 400 l0 hs l -> renewed4 toy xs_alice xs_bob l0 -> renewed4 toy xs_alice xs_bob l.
Proof. intros l0 hs l R B. induction R as [|hs l h l' R IH ST]; [exact B|]. eapply rn4_talk; [exact IH|exact ST]. Qed.
Lemma ro_before : renewed4 toy xs_alice xs_bob nf_l2.
Proof. eapply ro_talked; [exact nf_run|]. exact (rn4_begin _ _ _ _ _ _ nf_start). Qed.
Lemma ro_can : can_answer (li_a nf_l2).
Proof. reflexivity. Qed.
Lemma ro_prefers : preferred xs_bob V4.
Proof. left. split; reflexivity. Qed.

(** ** OTRv4: Alice asks for a new key exchange instead *)

Lemma rp4_step1 : receive_all toy nf_e0 (li_b nf_l2) [query_message V4] = (li_b nf_l2, [], [Err IncorrectState]).
Proof. vm_compute. reflexivity. Qed.
Definition rp4_x : exchange toy (li_a nf_l2) (li_b nf_l2).
Proof.
  refine (mkExchange toy (li_a nf_l2) (li_b nf_l2) nf_e0 nf_e1 nf_e2 nf_e3 nf_e2 (li_a nf_l2) (li_a nf_l2) (li_b nf_l2)
    (li_b nf_l2) (li_b nf_l2) [query_message V4] [] [] [] [] [] [Err IncorrectState] [] [] [] []
    _ rp4_step1 eq_refl eq_refl eq_refl eq_refl _ _ _).
  - reflexivity.
  - cbn. intros I. repeat (destruct I as [I|I]; [discriminate|]). exact I.
  - repeat (apply Forall_cons || apply Forall_nil); (split; [vm_compute; discriminate|]); intros L; inversion L.
  - repeat (apply Forall_cons || apply Forall_nil); reflexivity.
Defined.
Lemma rp4_honest : honest4 toy xs_alice xs_bob (x_e0 rp4_x) (x_e1 rp4_x) (x_e2 rp4_x).
Proof. destruct nf_start as (_ & _ & _ & _ & _ & _ & _ & _ & _ & _ & _ & H). exact H. Qed.
