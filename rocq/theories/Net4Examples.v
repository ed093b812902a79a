(* Two OTRv4 sessions of the toy instance: the key exchange and a conversation. *)
From Verif Require Import Base BaseLemmas Types Crypto ToyCrypto CryptoProofs Encoding ClientProfile Messages MessagesProofs Fragment
  DataV3 Ratchet DataV4 SpecCurve ToyGroup SpecData4 Data4Examples DAKE SpecDAKE DAKEExamples SMP SMP4 Protocol Session SpecWire SpecSession
  SessionExamples SpecNet.
From Coq Require Import Lia.
Local Open Scope N_scope.

(* Alice's transport carries 400 bytes at a time *)
Definition small4 (e : env) : env :=
  mkEnv (N.to_nat 400) (ev_dsa e) (ev_profile e) (ev_identity e) (ev_answer e) (ev_dh e) (ev_r e) (ev_nonce e) (ev_km0 e) (ev_km1 e)
    (ev_ack e) (ev_dake e) (ev_ring e) (ev_send e) (ev_smp e) (ev_smp4 e) (ev_fragment e).
Definition nf_e0 := xs_eb x14 0.
Definition nf_e1 := small4 (xs_ea x54 0).
Definition nf_e2 := xs_eb x44 0.
Definition nf_e3 := xs_ea x54 0.

Definition nf_s1 := Eval vm_compute in receive_all toy nf_e0 xs_b0 [query_message V4].
Definition nf_s2 := Eval vm_compute in receive_all toy nf_e1 xs_a0 (snd (fst nf_s1)).
Definition nf_s3 := Eval vm_compute in receive_all toy nf_e2 (fst (fst nf_s1)) (snd (fst nf_s2)).
Definition nf_s4 := Eval vm_compute in receive_all toy nf_e3 (fst (fst nf_s2)) (snd (fst nf_s3)).
Definition nf_conv1 := Eval vm_compute in send toy (small4 (xs_ea x26 0)) (fst (fst nf_s4)) 400 xs_hi.
Definition nf_ps1 := Eval vm_compute in match snd nf_conv1 with Ok l => l | _ => [] end.
Definition nf_conv2 := Eval vm_compute in receive_all toy (xs_eb x27 0) (fst (fst nf_s3)) nf_ps1.
Definition nf_conv3 := Eval vm_compute in send toy (xs_eb x28 0) (fst (fst nf_conv2)) 301 [x79; x00; x6f].
Definition nf_ps2 := Eval vm_compute in match snd nf_conv3 with Ok l => l | _ => [] end.
Definition nf_conv4 := Eval vm_compute in receive_all toy (xs_ea x29 0) (fst (fst nf_conv1)) nf_ps2.

Lemma nf_step1 : receive_all toy nf_e0 xs_b0 [query_message V4] = nf_s1. Proof. vm_compute. reflexivity. Qed.
Lemma nf_step2 : receive_all toy nf_e1 xs_a0 (snd (fst nf_s1)) = nf_s2. Proof. vm_compute. reflexivity. Qed.
Lemma nf_step3 : receive_all toy nf_e2 (fst (fst nf_s1)) (snd (fst nf_s2)) = nf_s3. Proof. vm_compute. reflexivity. Qed.
Lemma nf_step4 : receive_all toy nf_e3 (fst (fst nf_s2)) (snd (fst nf_s3)) = nf_s4. Proof. vm_compute. reflexivity. Qed.

Definition nf_x : exchange toy xs_a0 xs_b0.
Proof.
  refine (mkExchange toy xs_a0 xs_b0 nf_e0 nf_e1 nf_e2 nf_e3 nf_e2 (fst (fst nf_s2)) (fst (fst nf_s4)) (fst (fst nf_s1))
    (fst (fst nf_s3)) (fst (fst nf_s3)) [query_message V4] (snd (fst nf_s1)) (snd (fst nf_s2)) (snd (fst nf_s3)) []
    [] (snd nf_s1) (snd nf_s2) (snd nf_s3) (snd nf_s4) [] _ nf_step1 nf_step2 nf_step3 nf_step4 eq_refl _ _ _).
  - vm_compute. reflexivity.
  - cbn. intros I. repeat (destruct I as [I|I]; [discriminate|]). exact I.
  - repeat (apply Forall_cons || apply Forall_nil);
      (split; [vm_compute; discriminate|]); intros L; try (exfalso; revert L; cbn; lia);
      repeat (apply Forall_cons || apply Forall_nil); vm_compute; discriminate.
  - repeat (apply Forall_cons || apply Forall_nil); reflexivity.
Defined.

(* the run of the key exchange itself *)
Definition nf_r1 := Eval vm_compute in dake_initiate toy (ev_dake_host nf_e0) (ev_dake nf_e0) DakeInitial.
Definition nf_id := Eval vm_compute in match snd nf_r1 with Ok m => Some m | _ => None end.
Definition nf_r2 := Eval vm_compute in
  match nf_id with
  | Some m => dake_handle_identity toy (ev_dake_host nf_e1) (ev_dake nf_e1) (ev_ring nf_e1) DakeInitial m [x61] [x62]
  | None => (DakeInitial, Panic) end.
Definition nf_ar := Eval vm_compute in match snd nf_r2 with Ok (ReplyAuthR m) => Some m | _ => None end.
Definition nf_r3 := Eval vm_compute in
  match nf_ar with
  | Some m => dake_handle_auth_r toy (ev_dake_host nf_e2) (ev_ring nf_e2) (sr_ecdh (ev_send nf_e2)) (sr_dh (ev_send nf_e2)) (ev_now nf_e2)
                (fst nf_r1) m [x62] [x61]
  | None => (DakeInitial, Panic) end.
Lemma nf_run1 : dake_initiate toy (ev_dake_host nf_e0) (ev_dake nf_e0) DakeInitial = nf_r1.
Proof. vm_compute. reflexivity. Qed.
Lemma nf_run2 m : nf_id = Some m ->
  dake_handle_identity toy (ev_dake_host nf_e1) (ev_dake nf_e1) (ev_ring nf_e1) DakeInitial m [x61] [x62] = nf_r2.
Proof. intros [= <-]. vm_compute. reflexivity. Qed.
Lemma nf_run3 m : nf_ar = Some m ->
  dake_handle_auth_r toy (ev_dake_host nf_e2) (ev_ring nf_e2) (sr_ecdh (ev_send nf_e2)) (sr_dh (ev_send nf_e2)) (ev_now nf_e2)
                (fst nf_r1) m [x62] [x61] = nf_r3.
Proof. intros [= <-]. vm_compute. reflexivity. Qed.

Lemma nf_plain : plain_run4 toy xs_alice xs_bob nf_e0 nf_e1 nf_e2.
Proof.
  intros stb im H. rewrite nf_run1 in H.
  assert (E1 : stb = fst nf_r1) by (rewrite H; reflexivity).
  assert (E2 : nf_id = Some im) by (change nf_id with (match snd nf_r1 with Ok m => Some m | _ => None end); rewrite H; reflexivity).
  clear H. split; [injection E2 as <-; repeat apply conj; vm_compute; reflexivity|].
  intros sta ar H. change (de_account xs_alice) with [x61] in H. change (de_address xs_alice) with [x62] in H.
  rewrite (nf_run2 im E2) in H.
  assert (E3 : nf_ar = Some ar)
    by (change nf_ar with (match snd nf_r2 with Ok (ReplyAuthR m) => Some m | _ => None end); rewrite H; reflexivity).
  clear H. split; [injection E3 as <-; repeat apply conj; vm_compute; reflexivity|].
  split; [injection E3 as <-; vm_compute; discriminate|].
  split; [injection E3 as <-; repeat apply conj; vm_compute; discriminate|].
  intros st mat ai H. change (de_account xs_bob) with [x62] in H. change (de_address xs_bob) with [x61] in H.
  rewrite E1, (nf_run3 ar E3) in H.
  assert (E4 : match snd nf_r3 with Ok (_, a) => Some a | _ => None end = Some ai) by (rewrite H; reflexivity).
  clear H. cbv in E4. injection E4 as <-. split; [vm_compute; discriminate|]. repeat apply conj; vm_compute; discriminate.
Qed.

Lemma nf_encodable : encodable toy.
Proof. split; [reflexivity|]. split; vm_compute; discriminate. Qed.
Lemma nf_start : start_net4 toy xs_alice xs_bob xs_a0 xs_b0 nf_x.
Proof.
  split; [exists []; constructor|]. split; [exists []; constructor|].
  split; [split; reflexivity || (vm_compute; discriminate)|]. split; [split; reflexivity || (vm_compute; discriminate)|].
  split; [repeat split|]. split; [repeat split|].
  split; [left; split; reflexivity|]. split; [reflexivity|]. split; [reflexivity|].
  split; [exact ex4_groups|]. split; [exact nf_encodable|].
  split; [exists xd_alice, xd_bob; split; [exact xd_host_a|exact xd_host_b]|].
  split; [reflexivity|]. split; [exact xd_rnd1|]. split; [exact xd_rnd2|].
  split; [reflexivity|]. split; [reflexivity|]. exact nf_plain.
Qed.

(* Alice says "hi"; Bob answers "y\0o" *)
Definition nf_yo : bytes := [x79; x00; x6f].
Definition nf_l0 : link := mkLink (x_sa2 nf_x) (x_sb3 nf_x) [] [].
Definition nf_l1 : link := mkLink (fst (fst nf_conv1)) (x_sb3 nf_x) [(nf_ps1, xs_hi)] [].
Definition nf_l2 : link := mkLink (fst (fst nf_conv1)) (fst (fst nf_conv2)) [] [].
Definition nf_l3 : link := mkLink (fst (fst nf_conv1)) (fst (fst nf_conv3)) [] [(nf_ps2, nf_yo)].
Definition nf_l4 : link := mkLink (fst (fst nf_conv4)) (fst (fst nf_conv3)) [] [].
Definition nf_hs : list happening := [Sends true xs_hi; Arrives true xs_hi (snd nf_conv2) []].
Lemma nf_run : net_run toy 301 400 nf_l0 nf_hs nf_l2.
Proof.
  apply (n_step toy 301 400 nf_l0 [Sends true xs_hi] nf_l1).
  2:{ apply (n_arrive_a toy 301 400 nf_l1 (xs_eb x27 0) nf_ps1 xs_hi []);
        [reflexivity|vm_compute; reflexivity|]. cbn. intros I. repeat (destruct I as [I|I]; [discriminate|]). exact I. }
  apply (n_step toy 301 400 nf_l0 [] nf_l0); [constructor|].
  apply (n_send_a toy 301 400 nf_l0 (small4 (xs_ea x26 0))); [vm_compute; reflexivity|reflexivity|].
  split; [vm_compute; discriminate|]. intros _. repeat (apply Forall_cons || apply Forall_nil); vm_compute; discriminate.
Qed.
Lemma nf_speaking : speaking 301 400 false nf_hs.
Proof.
  apply (sp_change 301 400 true [Sends true xs_hi]); [apply (sp_arrived 301 400 true []); constructor|].
  exists 1%nat. split; vm_compute; reflexivity.
Qed.
Lemma nf_sends : net_step toy 301 400 nf_l2 (Sends false nf_yo) nf_l3.
Proof.
  apply (n_send_b toy 301 400 nf_l2 (xs_eb x28 0)); [vm_compute; reflexivity|reflexivity|].
  split; [vm_compute; discriminate|]. cbn. intros L. exfalso. lia.
Qed.
Lemma nf_arrives : net_step toy 301 400 nf_l3 (Arrives false nf_yo (snd nf_conv4) []) nf_l4.
Proof.
  apply (n_arrive_b toy 301 400 nf_l3 (xs_ea x29 0) nf_ps2 nf_yo []); [reflexivity|vm_compute; reflexivity|].
  cbn. intros I. repeat (destruct I as [I|I]; [discriminate|]). exact I.
Qed.
