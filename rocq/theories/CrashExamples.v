(* Crashes of the clients of the toy instance. *)
From Verif Require Import Base BaseLemmas Types Crypto ToyCrypto Encoding ClientProfile ClientProfileProofs Messages Fragment KeyManager
  DataV3 Ratchet DataV4 SpecWire SpecCurve ToyGroup AKE AKELemmas DAKE DAKEProofs DAKEExamples SMP SMP4 SpecSMP SMPLemmas SpecSMP4 SMP4Lemmas
  Protocol Session SpecAKE SpecDAKE SpecData3 SpecData4 Data4Examples
  SpecSession SessionExamples SpecNet NetExamples Net4Examples StartExamples SpecCrash.
From Coq Require Import Lia.
Local Open Scope N_scope.

Lemma toy_groups_sound : groups_sound toy.
Proof.
  split; [exact toy_smp4_group|]. split; [exact toy_smp_group|]. split; [vm_compute; reflexivity|vm_compute; reflexivity].
Qed.
Lemma xs_identity_valid n t : pt_valid toy (ed_public (ev_identity (xs_ea n t))).
Proof. vm_compute. repeat split; discriminate. Qed.

(* the message em of Bob for Alice as a payload *)
Definition kc_text (v : version) (sender receiver : N) (m : encoded_type) : bytes :=
  match encode_message v sender receiver m with Ok b => b | _ => [] end.

(* a fragment with the number 70000 *)
Definition kc_fragment : fragment := mkFragment V4 [x01; x02; x03; x04] 400 301 70000 70000 [x41].

(* "?OTR?" *)
Definition kc_query : bytes := [x3f; x4f; x54; x52; x3f].

(* a data message with an all-zero authenticator *)
Definition kc_data4 : data4 := Eval vm_compute in
  mkData4 false 0 0 0 (c_ed_g toy) (Some 4) [x41] (repeat x00 64) [].
Definition kc_zero : bytes := Eval vm_compute in kc_text V4 400 301 (MData4 kc_data4).
Definition kc_zero_em : encoded_message := mkEncoded V4 400 301 (MData4 kc_data4).
Lemma kc_zero_carried s : carries toy s kc_zero kc_zero_em.
Proof. exists kc_zero. split; [left; split; vm_compute; reflexivity|]. vm_compute. reflexivity. Qed.

(* the OTRv3 signature message in the middle of an OTRv4 conversation *)
Definition kc_sig_em := Eval vm_compute in ns_parsed wa_signature.
Lemma kc_sig_carried s : carries toy s wa_signature kc_sig_em.
Proof. exists wa_signature. split; [left; split; vm_compute; reflexivity|]. vm_compute. reflexivity. Qed.
Lemma kc_sig : exists our gy sh previous mat m, em_message kc_sig_em = MSignature m /\
  in_ake (entry (em_sender kc_sig_em) (se_instances wa_s)) = AkeAwaitingSig our gy sh previous /\
  signature_result toy our gy sh m = Ok mat /\
  exists o t k smp, state_of wa_s (em_sender kc_sig_em) = PEnc4 o t k smp.
Proof.
  eexists _, _, _, _, _, _. split; [reflexivity|]. split; [vm_compute; reflexivity|]. split; [vm_compute; reflexivity|].
  eexists _, _, _, _. vm_compute. reflexivity.
Qed.

(* both parties use the same key pair *)
Definition ks_x2 := Eval vm_compute in call toy (xs_eb x21) xs_b0 (OpReceive (xs_out ys_x1)).
Definition ks_x3 := Eval vm_compute in call toy (xs_ea x23) (xs_next ys_x1) (OpReceive (xs_out ks_x2)).
Definition ks_x4 := Eval vm_compute in call toy (xs_eb x24) (xs_next ks_x2) (OpReceive (xs_out ks_x3)).
Definition ks_calls : list ((N -> env) * op) :=
  [(xs_ea x21, OpReceive xs_query3); (xs_ea x23, OpReceive (xs_out ks_x2)); (xs_ea x25, OpReceive (xs_out ks_x4))].
Definition ks_end := Eval vm_compute in xs_end (replay toy xs_a0 [] ks_calls).
Lemma ks_run : history toy xs_alice (fst ks_end) (snd ks_end).
Proof. apply (replay_run toy xs_a0 ks_calls xs_a0 []); [constructor|]. vm_compute. reflexivity. Qed.
Definition ks_data : data3 := mkData3 false 1 1 4 (repeat x01 8) [x41] (repeat x01 20) [].
Definition ks_p : bytes := Eval vm_compute in kc_text V3 400 301 (MData ks_data).
Definition ks_em : encoded_message := mkEncoded V3 400 301 (MData ks_data).
Lemma ks_carried s : carries toy s ks_p ks_em.
Proof. exists ks_p. split; [left; split; vm_compute; reflexivity|]. vm_compute. reflexivity. Qed.
Lemma ks_keys : exists our their k smp x, state_of (snd ks_end) 400 = PEnc3 our their k smp /\
  own_key3 k 1 x /\ peer_key3 k 1 (dh_public x) /\ kr_ack (km_ours k) < LAST32.
Proof.
  eexists _, _, _, _, _. split; [vm_compute; reflexivity|].
  split; [split; [discriminate|split; [left; reflexivity|vm_compute; reflexivity]]|].
  split; [split; [discriminate|split; [left; reflexivity|vm_compute; reflexivity]]|]. vm_compute. reflexivity.
Qed.

(* Bob's Identity message, but with Alice's identity key as Y *)
Definition ki_x1 := Eval vm_compute in call toy (xs_eb x14) xs_b0 (OpReceive xs_query4).
Definition ki_m : identity_msg := Eval vm_compute in
  match em_message (ns_parsed (xs_out ki_x1)) with
  | MIdentity m => mkIdentity (id_profile m) (ed_public xd_ka) (id_b m) (id_ecdh0 m) (id_dh0 m)
  | _ => mkIdentity xd_pa pt_id 0 pt_id 0
  end.
Definition ki_p : bytes := Eval vm_compute in kc_text V4 400 301 (MIdentity ki_m).
Definition ki_em : encoded_message := mkEncoded V4 400 301 (MIdentity ki_m).
Lemma ki_carried s : carries toy s ki_p ki_em.
Proof. exists ki_p. split; [left; split; vm_compute; reflexivity|]. vm_compute. reflexivity. Qed.
Lemma ki_offer : exists bob, offer_ok toy (id_profile ki_m) bob (id_y ki_m) (id_b ki_m) (id_ecdh0 ki_m) (id_dh0 ki_m) /\
  pt_verify toy (cp_forging bob) = true.
Proof.
  eexists. split; [apply validate_keys_iff; vm_compute; reflexivity|]. vm_compute. reflexivity.
Qed.
Lemma ki_profile n t : exists own alice, decode_profile toy (ev_profile (xs_ea n t)) = Ok own /\ payload_accepted toy own alice.
Proof. eexists _, _. split; [vm_compute; reflexivity|]. apply payload_validate_iff. vm_compute. reflexivity. Qed.

(* an Auth-I message for Bob with challenges that add up to the group order *)
Definition kz_m : authi_msg := Eval vm_compute in mkAuthI (mkRing 1 2 1 2 (c_ed_q toy - 2) 2)%Z.
Definition kz_p : bytes := Eval vm_compute in kc_text V4 301 400 (MAuthI kz_m).
Definition kz_em : encoded_message := mkEncoded V4 301 400 (MAuthI kz_m).
Lemma kz_carried s : carries toy s kz_p kz_em.
Proof. exists kz_p. split; [left; split; vm_compute; reflexivity|]. vm_compute. reflexivity. Qed.
Lemma kz_challenge : exists w bob alice, in_dake (entry 301 (se_instances (snd zb_end1))) = DakeAwaitingAuthI w /\
  payload_accepted toy (wi_profile_bob w) bob /\ payload_accepted toy (wi_profile_alice w) alice /\
  ring_peer toy (ai_sigma kz_m) /\
  ~ ring_chance toy (ai_sigma kz_m) (cp_identity bob) (cp_forging alice) (wi_x w)
      (auth_i_text toy (alice_view w bob alice (de_account xs_bob) (de_address xs_bob))).
Proof.
  eexists _, _, _. split; [vm_compute; reflexivity|].
  split; [apply payload_validate_iff; vm_compute; reflexivity|].
  split; [apply payload_validate_iff; vm_compute; reflexivity|].
  split; [vm_compute; reflexivity|]. vm_compute. discriminate.
Qed.
