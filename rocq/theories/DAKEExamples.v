(* Concrete OTRv4 key exchanges with the toy instance. *)
From Verif Require Import Base BaseLemmas Types Crypto ToyCrypto Encoding ClientProfile ClientProfileProofs Messages
  SpecWire WireLemmas Ratchet DataV4 SpecCurve ToyGroup SpecData4 Data3Examples Data4Examples DAKE SpecDAKE.
From Coq Require Import Lia.
Local Open Scope N_scope.

Definition xd_ka : eddsa_keypair := Eval vm_compute in
  or_else (eddsa_of_symmetric toy [x01]) (mkEddsa [] 0 pt_id).
Definition xd_kb : eddsa_keypair := Eval vm_compute in
  or_else (eddsa_of_symmetric toy [x02]) (mkEddsa [] 0 pt_id).
(* profiles of two clients, valid until the year 2000 *)
Definition xd_alice : client_profile := Eval vm_compute in
  mkProfile 301 (ed_public xd_ka) (pt_mul toy (c_ed_g toy) 7) [V4] 946684800 None.
Definition xd_bob : client_profile := Eval vm_compute in
  mkProfile 400 (ed_public xd_kb) (pt_mul toy (c_ed_g toy) 11) [V4] 946684800 None.
Definition xd_pa : profile_payload := Eval vm_compute in
  or_else (profile_sign toy xd_alice xd_ka None []) (mkPayload [] (mkEdSig [] [])).
Definition xd_pb : profile_payload := Eval vm_compute in
  or_else (profile_sign toy xd_bob xd_kb None []) (mkPayload [] (mkEdSig [] [])).
Definition xd_ha : dake_host := mkDakeHost (write_payload xd_pa) xd_ka.
Definition xd_hb : dake_host := mkDakeHost (write_payload xd_pb) xd_kb.
Definition xd_na : bytes := [x61].
Definition xd_nb : bytes := [x62].
Definition xd_r1 : ring_rnd := mkRingRnd 4 5 7 11 13 17 19.
Definition xd_r2 : ring_rnd := mkRingRnd 23 29 31 37 41 43 47.
(* the exchange takes place in the year 2026 *)
Definition xd_now : N := 1790000000.
Definition xd_rb : dake_rnd := mkDakeRnd [x11] 21 [x12] 22.
Definition xd_ra : dake_rnd := mkDakeRnd [x13] 23 [x14] 24.

Lemma xd_sign_a : profile_sign toy xd_alice xd_ka None [] = Ok xd_pa.
Proof. vm_compute. reflexivity. Qed.
Lemma xd_sign_b : profile_sign toy xd_bob xd_kb None [] = Ok xd_pb.
Proof. vm_compute. reflexivity. Qed.

Ltac xd_wire_tac A :=
  split; [|split; [reflexivity|split; [split; reflexivity|eexists; exact A]]];
  repeat (apply Forall_cons || apply Forall_nil); cbn [field_ok];
  [right; split; [discriminate|reflexivity]|vm_compute; reflexivity|vm_compute; reflexivity
  |split; [repeat (apply Forall_cons || apply Forall_nil); auto|reflexivity]|split; [discriminate|reflexivity]].
Lemma xd_wire_a : payload_wire_ok toy xd_pa.
Proof. pose proof (signed_profile _ _ _ _ _ _ xd_sign_a) as A. xd_wire_tac A. Qed.
Lemma xd_wire_b : payload_wire_ok toy xd_pb.
Proof. pose proof (signed_profile _ _ _ _ _ _ xd_sign_b) as A. xd_wire_tac A. Qed.
Lemma xd_host_a : working_host toy xd_ha xd_alice.
Proof.
  exists xd_pa. split; [reflexivity|]. split; [exact xd_wire_a|].
  split; [exact (signed_profile _ _ _ _ _ _ xd_sign_a)|]. split; [reflexivity|]. split; [discriminate|].
  split; [vm_compute; reflexivity|]. split; vm_compute; reflexivity.
Qed.
Lemma xd_host_b : working_host toy xd_hb xd_bob.
Proof.
  exists xd_pb. split; [reflexivity|]. split; [exact xd_wire_b|].
  split; [exact (signed_profile _ _ _ _ _ _ xd_sign_b)|]. split; [reflexivity|]. split; [discriminate|].
  split; [vm_compute; reflexivity|]. split; vm_compute; reflexivity.
Qed.
Lemma xd_rnd1 : ring_rnd_ok toy xd_r1.
Proof. vm_compute. repeat split; discriminate || reflexivity. Qed.
Lemma xd_rnd2 : ring_rnd_ok toy xd_r2.
Proof. vm_compute. repeat split; discriminate || reflexivity. Qed.

Definition xd_noid : identity_msg := mkIdentity xd_pa pt_id 0 pt_id 0.
Definition xd_noring : ring_sig := mkRing 0 0 0 0 0 0.
Definition xd_nor : authr_msg := mkAuthR xd_pa pt_id 0 xd_noring pt_id 0.
Definition xd_nomat : dake_material := mkDakeMaterial [] ex4_none [] [].

(* Bob's Identity, Alice's Auth-R, Bob's Auth-I *)
Definition xd_b1 : dake_state := Eval vm_compute in fst (dake_initiate toy xd_hb xd_rb DakeInitial).
Definition xd_id : identity_msg := Eval vm_compute in
  or_else (snd (dake_initiate toy xd_hb xd_rb DakeInitial)) xd_noid.
Definition xd_reply (r : res identity_reply) : authr_msg :=
  match r with Ok (ReplyAuthR m) => m | _ => xd_nor end.
Definition xd_a1 : dake_state := Eval vm_compute in
  fst (dake_handle_identity toy xd_ha xd_ra xd_r1 DakeInitial xd_id xd_na xd_nb).
Definition xd_authr : authr_msg := Eval vm_compute in
  xd_reply (snd (dake_handle_identity toy xd_ha xd_ra xd_r1 DakeInitial xd_id xd_na xd_nb)).
Definition xd_done_b : dake_material * authi_msg := Eval vm_compute in
  or_else (snd (dake_handle_auth_r toy xd_hb xd_r2 [x15] 25 xd_now xd_b1 xd_authr xd_nb xd_na))
    (xd_nomat, mkAuthI xd_noring).
Definition xd_authi : authi_msg := Eval vm_compute in snd xd_done_b.
Definition xd_mat_b : dake_material := Eval vm_compute in fst xd_done_b.
Definition xd_mat_a : dake_material := Eval vm_compute in
  or_else (snd (dake_handle_auth_i toy xd_now xd_a1 xd_authi xd_na xd_nb)) xd_nomat.

(* a run of the network: true delivers to b, with the given random values *)
Fixpoint dake_net_run (C : Crypto) (ha hb : dake_host) (na nb : bytes) (s : dake_net)
    (l : list (bool * dake_coins)) : option dake_net :=
  match l with
  | [] => Some s
  | (true, c) :: l =>
      match dn_ab s with
      | m :: r =>
          match dake_receive C hb nb na c (dn_b s) m with
          | Some (st, out, done) =>
              dake_net_run C ha hb na nb
                (mkDakeNet (dn_a s) st r (dn_ba s ++ out) (dn_done_a s) (dn_done_b s ++ done)) l
          | None => None
          end
      | [] => None
      end
  | (false, c) :: l =>
      match dn_ba s with
      | m :: r =>
          match dake_receive C ha na nb c (dn_a s) m with
          | Some (st, out, done) =>
              dake_net_run C ha hb na nb
                (mkDakeNet st (dn_b s) (dn_ab s ++ out) r (dn_done_a s ++ done) (dn_done_b s)) l
          | None => None
          end
      | [] => None
      end
  end.
Lemma dake_net_run_ok C ha hb na nb l : forall s0 s s',
  dake_steps C ha hb na nb s0 s -> dake_net_run C ha hb na nb s l = Some s' ->
  dake_steps C ha hb na nb s0 s'.
Proof.
  induction l as [|[[] c] l IH]; intros s0 s s' R H; cbn [dake_net_run] in H.
  - injection H as <-. exact R.
  - destruct (dn_ab s) as [|m r] eqn:E; [discriminate H|].
    destruct (dake_receive C hb nb na c (dn_b s) m) as [[[st out] done]|] eqn:D; [|discriminate H].
    eapply IH; [|exact H]. eapply ds_next; [exact R|]. eapply ds_to_b; eassumption.
  - destruct (dn_ba s) as [|m r] eqn:E; [discriminate H|].
    destruct (dake_receive C ha na nb c (dn_a s) m) as [[[st out] done]|] eqn:D; [|discriminate H].
    eapply IH; [|exact H]. eapply ds_next; [exact R|]. eapply ds_to_a; eassumption.
Qed.

(* both start at the same time *)
Definition xd_ia : identity_msg := Eval vm_compute in
  or_else (snd (dake_initiate toy xd_ha xd_ra DakeInitial)) xd_noid.
Definition xd_tie : dake_net := Eval vm_compute in
  mkDakeNet (fst (dake_initiate toy xd_ha xd_ra DakeInitial)) xd_b1 [MIdentity xd_ia] [MIdentity xd_id] [] [].
Definition xd_coins (n : byte) : dake_coins :=
  mkCoins (mkDakeRnd [n] (b2n n) [n; n] (b2n n + 1)) xd_r1 [n; n; n] (b2n n + 2) xd_now.
Definition xd_sched : list (bool * dake_coins) :=
  [(true, xd_coins x31); (false, xd_coins x32); (true, xd_coins x33); (false, xd_coins x34);
   (true, xd_coins x35); (false, xd_coins x36)].
Lemma xd_step1 : dake_initiate toy xd_hb xd_rb DakeInitial = (xd_b1, Ok xd_id).
Proof. vm_compute. reflexivity. Qed.
Lemma xd_step2 : dake_handle_identity toy xd_ha xd_ra xd_r1 DakeInitial xd_id xd_na xd_nb
  = (xd_a1, Ok (ReplyAuthR xd_authr)).
Proof. vm_compute. reflexivity. Qed.
Lemma xd_step3 : dake_handle_auth_r toy xd_hb xd_r2 [x15] 25 xd_now xd_b1 xd_authr xd_nb xd_na
  = (DakeInitial, Ok (xd_mat_b, xd_authi)).
Proof. vm_compute. reflexivity. Qed.
Lemma xd_step4 : dake_handle_auth_i toy xd_now xd_a1 xd_authi xd_na xd_nb = (xd_a1, Ok xd_mat_a).
Proof. vm_compute. reflexivity. Qed.
Lemma xd_step5 : dake_initiate toy xd_ha xd_ra DakeInitial = (dn_a xd_tie, Ok xd_ia).
Proof. vm_compute. reflexivity. Qed.
Lemma xd_tie_start : both_initiated4 toy xd_ha xd_hb xd_tie.
Proof.
  exists xd_ra, xd_rb, xd_ia, xd_id. split; [exact xd_step5|]. split; [exact xd_step1|].
  do 4 (split; [reflexivity|]). vm_compute. discriminate.
Qed.
Definition xd_outcome (s : option dake_net) : option (nat * nat * nat * nat) :=
  match s with
  | Some s => Some (length (dn_ab s), length (dn_ba s), length (dn_done_a s), length (dn_done_b s))
  | None => None
  end.
(* nothing under way any more, b has completed the exchange, a has not *)
Lemma xd_tie_run : exists s, dake_steps toy xd_ha xd_hb xd_na xd_nb xd_tie s /\
  dn_ab s = [] /\ dn_ba s = [] /\ dn_done_a s = [] /\ length (dn_done_b s) = 1%nat.
Proof.
  assert (H : xd_outcome (dake_net_run toy xd_ha xd_hb xd_na xd_nb xd_tie xd_sched) = Some (0, 0, 0, 1)%nat)
    by (vm_compute; reflexivity).
  destruct (dake_net_run _ _ _ _ _ _ _) as [s|] eqn:E; [|discriminate H]. exists s.
  split; [exact (dake_net_run_ok _ _ _ _ _ _ _ _ _ (ds_refl _ _ _ _ _ _) E)|].
  cbn [xd_outcome] in H. destruct (dn_ab s), (dn_ba s), (dn_done_a s), (dn_done_b s) as [|? []]; try discriminate H.
  auto.
Qed.
(* The cause is the repeated Identity message: after three deliveries it is under way to a, followed by
   the Auth-I message, which a would accept at that moment. *)
Lemma xd_tie_blame : exists s rep i mat, dake_steps toy xd_ha xd_hb xd_na xd_nb xd_tie s /\
  dn_ba s = [MIdentity rep; MAuthI i] /\ write_identity rep = write_identity xd_id /\
  snd (dake_handle_auth_i toy xd_now (dn_a s) i xd_na xd_nb) = Ok mat.
Proof.
  assert (H : match dake_net_run toy xd_ha xd_hb xd_na xd_nb xd_tie (firstn 3 xd_sched) with
              | Some s =>
                  match dn_ba s with
                  | [MIdentity rep; MAuthI i] =>
                      bytes_eqb (write_identity rep) (write_identity xd_id) &&
                      match snd (dake_handle_auth_i toy xd_now (dn_a s) i xd_na xd_nb) with
                      | Ok _ => true | _ => false end
                  | _ => false
                  end
              | None => false
              end = true) by (vm_compute; reflexivity).
  destruct (dake_net_run _ _ _ _ _ _ _) as [s|] eqn:E; [|discriminate H]. exists s.
  apply dake_net_run_ok with (s0 := xd_tie) in E; [|apply ds_refl].
  destruct (dn_ba s) as [|[] [|[] []]] eqn:Q; try discriminate H.
  apply andb_true_iff in H. destruct H as [H1 H2]. apply bytes_eqb_eq in H1.
  destruct (snd _) as [mat| |] eqn:R; try discriminate H2.
  do 3 eexists. split; [exact E|]. split; [reflexivity|]. split; [exact H1|exact R].
Qed.
Lemma xd_run_a : dake_run toy xd_ha xd_na xd_nb xd_a1.
Proof. eapply dk_identity; [apply dk_new|exact xd_step2|discriminate]. Qed.
