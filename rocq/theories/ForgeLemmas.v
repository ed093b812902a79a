(* The proofs of the OTRv4 key exchange could have been made by their receivers. *)
From Coq Require Import Lia ZifyN ZifyNat Znumtheory.
From Verif Require Import Base BaseLemmas Types Crypto CryptoProofs Encoding EncodingProofs ClientProfile ClientProfileProofs Messages
  SpecWire DataV3 DataV3Proofs Ratchet DataV4 SpecCurve EdGroup SpecData4 DataV4Proofs DAKE SpecDAKE RingProofs
  DAKEProofs DAKEConvProofs SpecForge ForgeProofs.
Local Open Scope Z_scope.

Section WithCrypto.
Context (C : Crypto) (GO : groups_ok4 C).
Let CO : curve_ok C := proj1 GO.

Lemma generated_pair rnd k : ecdh_generate C rnd = Ok k -> key_pair C (as_signer k).
Proof.
  unfold ecdh_generate. intros H. apply bind_ok in H. destruct H as (r & _ & H).
  apply bind_ok in H. destruct H as (b & _ & H). apply ok_inj in H. subst k.
  unfold key_pair, as_signer, ecdh_of_secret. cbn [ed_secret ed_public ec_private ec_public].
  split; [lia|reflexivity].
Qed.

Lemma host_pair h cp : working_host C h cp -> key_pair C (dh_identity h).
Proof. intros W. destruct (host_ok C GO h cp W) as (p & _ & _ & _ & _ & S & P & _). split; assumption. Qed.

Lemma same_map {A B} (f g : ring_rnd -> A) (h : A -> B) :
  same_distribution C f g -> same_distribution C (fun r => h (f r)) (fun r => h (g r)).
Proof.
  intros (t & b & O & E). exists t, b. split; [exact O|]. intros r R. now rewrite (E r R).
Qed.
Lemma same_ext {A} (f f' g g' : ring_rnd -> A) : (forall r, f r = f' r) -> (forall r, g r = g' r) ->
  same_distribution C f g -> same_distribution C f' g'.
Proof.
  intros F G (t & b & O & E). exists t, b. split; [exact O|]. intros r R. rewrite <- F, <- G. now apply E.
Qed.

Lemma same_sym {A} (f g : ring_rnd -> A) : same_distribution C f g -> same_distribution C g f.
Proof.
  intros (t & b & (O1 & O2) & E). exists b, t. split; [exact (conj O2 O1)|].
  intros r R. destruct (O2 r R) as (RB & Q). rewrite (E (b r) RB), Q. reflexivity.
Qed.

Section R.
Context (ha hb : dake_host) (alice bob : client_profile) (na nb : bytes).
Context (WA : working_host C ha alice).

Lemma auth_r_forge rb w idm st ra ring0 sa ar :
  dake_initiate C hb rb DakeInitial = (DakeAwaitingAuthR w, Ok idm) ->
  payload_accepted C (id_profile idm) bob ->
  three_keys (cp_forging bob) (cp_identity alice) (id_y idm) ->
  dake_handle_identity C ha ra ring0 st idm na nb = (sa, Ok (ReplyAuthR ar)) ->
  same_distribution C
    (fun r => snd (dake_handle_identity C ha ra r st idm na nb))
    (fun r => let* sg := auth_r_proof C (bob_view w ar bob alice nb na) bob alice (wr_y w) r in
              Ok (ReplyAuthR (with_proof ar sg))).
Proof.
  intros I PB TK H.
  destruct (host_ok C GO ha alice WA) as (p & EP & DP & VP & CI & S & P & _).
  assert (KY : key_pair C (as_signer (wr_y w)) /\ id_profile idm = wr_payload w /\ id_y idm = ec_public (wr_y w) /\
               id_b idm = dh3_public (wr_b w) /\ id_ecdh0 idm = ec_public (wr_ecdh0 w) /\
               id_dh0 idm = dh3_public (wr_dh0 w)).
  { cbn [dake_initiate] in I.
    destruct (decode_profile C (dh_profile hb)) as [pb| |]; cbn [bind] in I; try discriminate I.
    destruct (ecdh_generate C (dn_ecdh rb)) as [y| |] eqn:E1; cbn [bind] in I; try discriminate I.
    destruct (ecdh_generate C (dn_ecdh0 rb)) as [y0| |] eqn:E2; cbn [bind] in I; try discriminate I.
    cbv zeta in I. cbn [wr_identity] in I.
    assert (X := f_equal fst I). assert (Y := f_equal snd I). cbn [fst snd] in X, Y. clear I.
    assert (W : forall a b, DakeAwaitingAuthR a = DakeAwaitingAuthR b -> a = b) by (intros a b Q; congruence).
    apply W in X. apply ok_inj in Y. subst w idm.
    cbn [wr_y wr_payload wr_b wr_ecdh0 wr_dh0 id_profile id_y id_b id_ecdh0 id_dh0].
    split; [eapply generated_pair; eassumption|]. repeat split; reflexivity. }
  destruct KY as (KY & F1 & F2 & F3 & F4 & F5).
  apply payload_validate_iff in PB.
  assert (ID : identity_validate C idm = Ok bob).
  { unfold dake_handle_identity in H. destruct (identity_validate C idm) as [b'| |] eqn:V; try discriminate H.
    apply validate_keys_iff in V. destruct V as (V & _). apply payload_validate_iff in V. congruence. }
  (* what the client answers, depending on the scalars *)
  assert (AN : forall r, answer_identity C ha ra r idm bob na nb =
                 let* sg := ring_sign C (dh_identity ha) (cp_forging bob) (cp_identity alice) (id_y idm)
                              (auth_r_text C (bob_view w ar bob alice nb na)) r in
                 match answer_identity C ha ra ring0 idm bob na nb with
                 | Ok (w0, _) => Ok (w0, with_proof ar sg)
                 | Err e => Err e | Panic => Panic end).
  { assert (A0 : exists w0, answer_identity C ha ra ring0 idm bob na nb = Ok (w0, ar)).
    { apply identity_state in H. destruct H as [[_ N]|(b' & w0 & ar' & V & A & _ & Q)]; [exfalso; exact (N ar eq_refl)|].
      assert (b' = bob) by congruence. assert (ar' = ar) by congruence. subst b' ar'. exists w0. exact A. }
    destruct A0 as (w0 & A0). rewrite A0. intros r. unfold answer_identity in A0 |- *.
    rewrite DP in A0 |- *. cbn [bind] in A0 |- *.
    destruct (ecdh_generate C (dn_ecdh ra)) as [x| |]; cbn [bind] in A0 |- *; try discriminate A0.
    rewrite VP in A0 |- *. cbn [bind] in A0 |- *.
    destruct (ecdh_generate C (dn_ecdh0 ra)) as [x0| |]; cbn [bind] in A0 |- *; try discriminate A0.
    cbv zeta in A0 |- *.
    set (t1 := dake_t_keys C _ _ _ _ _ _ _ _ _ ++ _) in A0 |- *.
    destruct (ring_sign C (dh_identity ha) _ _ _ t1 ring0) as [sg0| |]; cbn [bind] in A0; try discriminate A0.
    destruct (mixed_new _ _ _ _ _) as [sh| |]; cbn [bind] in A0; try discriminate A0.
    assert (Q := ok_inj _ _ A0). assert (Q1 := f_equal fst Q). assert (Q2 := f_equal snd Q). cbn [fst snd] in Q1, Q2.
    subst w0 ar. clear A0 Q. rewrite <- CI.
    replace (auth_r_text C _) with t1.
    - destruct (ring_sign C (dh_identity ha) _ _ _ t1 r) as [sg| |]; cbn [bind]; reflexivity.
    - subst t1. rewrite EP, F1, F2, F3, F4, F5. unfold bob_view.
      rewrite <- auth_r_text_eq. reflexivity. }
  assert (HD : forall r, snd (dake_handle_identity C ha ra r st idm na nb) =
               let* sg := ring_sign C (dh_identity ha) (cp_forging bob) (cp_identity alice) (id_y idm)
                            (auth_r_text C (bob_view w ar bob alice nb na)) r in
               Ok (ReplyAuthR (with_proof ar sg))).
  { intros r. unfold dake_handle_identity in H |- *. rewrite ID in H |- *. cbv zeta in H |- *. rewrite (AN r).
    destruct (answer_identity C ha ra ring0 idm bob na nb) as [[w0 a0]|e|];
      destruct st as [|v|v]; try destruct (_ <? _)%N; try discriminate H;
      destruct (ring_sign _ _ _ _ _ _ r); cbn [bind snd]; reflexivity. }
  eapply same_ext; [intros r; symmetry; apply HD|reflexivity|].
  eapply (same_map (ring_sign C (dh_identity ha) (cp_forging bob) (cp_identity alice) (id_y idm)
           (auth_r_text C (bob_view w ar bob alice nb na)))
           (auth_r_proof C (bob_view w ar bob alice nb na) bob alice (wr_y w))
           (fun x => let* sg := x in Ok (ReplyAuthR (with_proof ar sg)))).
  unfold auth_r_proof. change (vw_y (bob_view w ar bob alice nb na)) with (ec_public (wr_y w)). rewrite <- F2.
  apply (signers_alike C CO _ _ _ _ S2 S3); auto.
  eapply host_pair; exact WA.
Qed.

End R.

Section I.
Context (hb : dake_host) (alice bob : client_profile) (na nb : bytes).
Context (WB : working_host C hb bob).

Lemma auth_i_forge w ar x er dr now ring0 s mb i :
  key_pair C (as_signer x) -> ec_public x = ar_x ar ->
  payload_accepted C (ar_profile ar) alice ->
  three_keys (cp_identity bob) (cp_forging alice) (ar_x ar) ->
  dake_handle_auth_r C hb ring0 er dr now (DakeAwaitingAuthR w) ar nb na = (s, Ok (mb, i)) ->
  payload_accepted C (wr_payload w) bob ->
  same_distribution C
    (fun r => snd (dake_handle_auth_r C hb r er dr now (DakeAwaitingAuthR w) ar nb na))
    (fun r => let* sg := auth_i_proof C (bob_view w ar bob alice nb na) bob alice x r in
              Ok (mb, mkAuthI sg)).
Proof.
  intros KX EX PA TK H PB.
  destruct (host_ok C GO hb bob WB) as (p & EP & DP & VP & CI & S & P & _).
  apply payload_validate_iff in PA, PB.
  assert (HD : forall r, snd (dake_handle_auth_r C hb r er dr now (DakeAwaitingAuthR w) ar nb na) =
               let* sg := ring_sign C (dh_identity hb) (cp_identity bob) (cp_forging alice) (ar_x ar)
                            (auth_i_text C (bob_view w ar bob alice nb na)) r in
               Ok (mb, mkAuthI sg)).
  { intros r. cbn [dake_handle_auth_r] in H |- *.
    destruct (authr_validate C ar) as [al| |] eqn:V; cbn [bind] in H |- *; try discriminate H.
    assert (al = alice).
    { apply validate_keys_iff in V. destruct V as (V & _). apply payload_validate_iff in V. congruence. }
    subst al. rewrite PB in H |- *. cbn [bind] in H |- *.
    destruct (ring_validate _ _ _ _ _ _); cbn [bind] in H |- *; try discriminate H.
    set (t1 := dake_t_keys C x01 _ _ _ _ _ _ _ _ ++ _) in H |- *.
    replace (auth_i_text C _) with t1.
    2:{ subst t1. unfold bob_view. rewrite <- auth_i_text_eq. reflexivity. }
    rewrite <- CI in H |- *.
    destruct (ring_sign C (dh_identity hb) _ _ _ t1 ring0) as [sg0| |]; cbn [bind] in H; try discriminate H.
    destruct (mixed_new C (wr_y w) _ _ _) as [s1| |]; cbn [bind] in H; try discriminate H.
    destruct (mixed_new C (wr_ecdh0 w) _ _ _) as [s2| |]; cbn [bind] in H; try discriminate H.
    destruct (dr_rotate_sender _ _ _ _ _) as [d| |] eqn:RO; cbn [bind] in H; try discriminate H.
    assert (Q := f_equal snd H). cbn [snd] in Q. apply ok_inj in Q. assert (Q1 := f_equal fst Q). cbn [fst] in Q1.
    subst mb. clear H Q.
    destruct (ring_sign C (dh_identity hb) _ _ _ t1 r) as [sg| |]; cbn [bind]; rewrite ?RO; reflexivity. }
  eapply same_ext; [intros r; symmetry; apply HD|reflexivity|].
  eapply (same_map (ring_sign C (dh_identity hb) (cp_identity bob) (cp_forging alice) (ar_x ar)
           (auth_i_text C (bob_view w ar bob alice nb na)))
           (auth_i_proof C (bob_view w ar bob alice nb na) bob alice x)
           (fun y => let* sg := y in Ok (mb, mkAuthI sg))).
  unfold auth_i_proof. change (vw_x (bob_view w ar bob alice nb na)) with (ar_x ar).
  apply (signers_alike C CO _ _ _ _ S1 S3); auto.
  eapply host_pair; exact WB.
Qed.
End I.
End WithCrypto.
