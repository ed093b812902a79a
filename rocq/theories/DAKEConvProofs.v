(* The honest OTRv4 key exchange completes on both sides with matching results. *)
From Coq Require Import Lia ZifyN ZifyNat.
From Verif Require Import Base BaseLemmas Types Crypto CryptoProofs Encoding EncodingProofs ClientProfile
  ClientProfileProofs Messages SpecWire KeyManager DataV3 Ratchet DataV4 SpecCurve EdGroup SpecData4 DataV4Proofs
  History4Proofs Conv4Proofs DAKE SpecDAKE RingProofs DAKEProofs.
Local Open Scope N_scope.

Section WithCrypto.
Context (C : Crypto) (G : groups_ok4 C).

Let CO : curve_ok C := proj1 G.

Lemma done_nil : done [] = Ok tt. Proof. reflexivity. Qed.

Lemma only_forging_in fs k : only sel_forging fs k -> In (FForgingKey k) fs.
Proof.
  unfold only. intros H. assert (I : In k (flat_map sel_forging fs)) by (rewrite H; left; reflexivity).
  apply in_flat_map in I. destruct I as (f & F & S). destruct f; cbn in S; try contradiction S.
  destruct S as [->|[]]. exact F.
Qed.

Lemma host_ok h cp : working_host C h cp ->
  exists p, dh_profile h = write_payload p /\ decode_profile C (dh_profile h) = Ok p /\
    payload_validate C p = Ok cp /\ cp_identity cp = ed_public (dh_identity h) /\
    (0 <= ed_secret (dh_identity h))%Z /\
    ed_public (dh_identity h) = pt_mul C (c_ed_g C) (ed_secret (dh_identity h)) /\
    pt_verify C (cp_identity cp) = true /\ pt_verify C (cp_forging cp) = true /\
    pt_valid C (cp_forging cp) /\ pt_valid C (ed_public (dh_identity h)).
Proof.
  intros (p & E & W & A & I & S & P & V1 & V2). exists p. split; [exact E|]. split.
  - unfold decode_profile. rewrite E. rewrite <- (app_nil_r (write_payload p)).
    rewrite read_payload_write by exact W. reflexivity.
  - split; [now apply payload_validate_iff|]. split; [exact I|]. split; [exact S|]. split; [exact P|].
    split; [exact V1|]. split; [exact V2|]. split.
    + destruct A as (_ & _ & F & _). apply only_forging_in in F. destruct W as [W _].
      rewrite Forall_forall in W. specialize (W _ F). cbn [field_ok] in W.
      eapply decoded_valid; [apply CO|exact W].
    + rewrite P. apply valid_mul; [exact CO|]. apply CO.
Qed.

Lemma flags kp A1 A2 A3 m rnd sg : ring_sign C kp A1 A2 A3 m rnd = Ok sg ->
  let e A := bytes_eqb (pt_encode (ed_public kp)) (pt_encode A) in
  (b2z (e A1) + b2z (e A2) + b2z (e A3) = 1)%Z.
Proof.
  intros H e. unfold ring_sign in H.
  destruct (of_bool (pt_verify C A1)); cbn [bind] in H; try discriminate H.
  destruct (of_bool (pt_verify C A2)); cbn [bind] in H; try discriminate H.
  destruct (of_bool (pt_verify C A3)); cbn [bind] in H; try discriminate H.
  destruct (same_point (ed_public kp) A1) as [e1| |] eqn:S1; cbn [bind] in H; try discriminate H.
  destruct (same_point (ed_public kp) A2) as [e2| |] eqn:S2; cbn [bind] in H; try discriminate H.
  destruct (same_point (ed_public kp) A3) as [e3| |] eqn:S3; cbn [bind] in H; try discriminate H.
  apply same_point_ok in S1, S2, S3. unfold e. rewrite <- S1, <- S2, <- S3.
  destruct (negb _) eqn:SUM; [discriminate H|]. apply negb_false_iff, Z.eqb_eq in SUM. exact SUM.
Qed.

Lemma eqb_same (l : bytes) : bytes_eqb l l = true.
Proof. apply bytes_eqb_eq. reflexivity. Qed.

(* the signer's key is second, or first *)
Lemma sign_second kp A1 A3 m rnd sg :
  ed_public kp = pt_mul C (c_ed_g C) (ed_secret kp) -> (0 <= ed_secret kp)%Z -> ring_rnd_ok C rnd ->
  pt_valid C A1 -> pt_valid C A3 ->
  ring_sign C kp A1 (ed_public kp) A3 m rnd = Ok sg -> good_ring C sg ->
  ring_validate C sg A1 (ed_public kp) A3 m = Ok tt.
Proof.
  intros P S R V1 V3 H GR. pose proof (flags _ _ _ _ _ _ _ H) as F. cbv beta zeta in F. rewrite eqb_same in F.
  eapply (ring_sign_valid C CO); try eassumption; auto.
  - rewrite P. apply valid_mul; [exact CO|apply CO].
  - intros Q. rewrite <- Q, eqb_same in F. destruct (bytes_eqb _ (pt_encode A3)); cbn [b2z] in F; lia.
  - intros Q. rewrite <- Q, eqb_same in F. destruct (bytes_eqb _ (pt_encode A1)); cbn [b2z] in F; lia.
Qed.
Lemma sign_first kp A2 A3 m rnd sg :
  ed_public kp = pt_mul C (c_ed_g C) (ed_secret kp) -> (0 <= ed_secret kp)%Z -> ring_rnd_ok C rnd ->
  pt_valid C A2 -> pt_valid C A3 ->
  ring_sign C kp (ed_public kp) A2 A3 m rnd = Ok sg -> good_ring C sg ->
  ring_validate C sg (ed_public kp) A2 A3 m = Ok tt.
Proof.
  intros P S R V2 V3 H GR. pose proof (flags _ _ _ _ _ _ _ H) as F. cbv beta zeta in F. rewrite eqb_same in F.
  eapply (ring_sign_valid C CO); try eassumption; auto.
  - rewrite P. apply valid_mul; [exact CO|apply CO].
  - intros Q. rewrite <- Q, eqb_same in F. destruct (bytes_eqb _ (pt_encode A3)); cbn [b2z] in F; lia.
  - intros Q. rewrite <- Q, eqb_same in F. destruct (bytes_eqb _ (pt_encode A2)); cbn [b2z] in F; lia.
Qed.

Lemma mixed_new_agree x1 y1 x2 y2 s1 s2 :
  (exists e, x1 = ecdh_of_secret C e) -> (exists r, y1 = dh3_generate C r) ->
  (exists e, x2 = ecdh_of_secret C e) -> (exists r, y2 = dh3_generate C r) ->
  mixed_new C x1 y1 (ec_public x2) (dh3_public y2) = Ok s1 ->
  mixed_new C x2 y2 (ec_public x1) (dh3_public y1) = Ok s2 -> mx_k s1 = mx_k s2.
Proof.
  intros (e1 & ->) (r1 & ->) (e2 & ->) (r2 & ->) H1 H2.
  apply mixed_new_key in H1, H2. rewrite H1, H2. unfold mixed_key.
  rewrite (shared_agree C G e1 e2), (dh3_agree C G r1 r2). reflexivity.
Qed.

Lemma initiate_shape h rnd sb idm : dake_initiate C h rnd DakeInitial = (sb, Ok idm) ->
  exists p y ecdh0, decode_profile C (dh_profile h) = Ok p /\
    (exists e, y = ecdh_of_secret C e) /\ (exists e, ecdh0 = ecdh_of_secret C e) /\
    let b := dh3_generate C (dn_dh rnd) in let dh0 := dh3_generate C (dn_dh0 rnd) in
    idm = mkIdentity p (ec_public y) (dh3_public b) (ec_public ecdh0) (dh3_public dh0) /\
    sb = DakeAwaitingAuthR (mkAwaitingAuthR y b p ecdh0 dh0 idm).
Proof.
  cbn [dake_initiate]. intros H.
  destruct (decode_profile C (dh_profile h)) as [p| |] eqn:D; cbn [bind] in H; try discriminate H.
  destruct (ecdh_generate C (dn_ecdh rnd)) as [y| |] eqn:E1; cbn [bind] in H; try discriminate H.
  destruct (ecdh_generate C (dn_ecdh0 rnd)) as [y0| |] eqn:E2; cbn [bind] in H; try discriminate H.
  cbv zeta in H. cbn [wr_identity] in H.
  assert (I := f_equal snd H). assert (S := f_equal fst H). cbn [fst snd] in I, S. apply ok_inj in I. clear H.
  exists p, y, y0. split; [reflexivity|]. split; [eapply ecdh_generate_ok; eassumption|].
  split; [eapply ecdh_generate_ok; eassumption|]. cbv zeta. split; [now symmetry|]. rewrite <- I. now symmetry.
Qed.

Lemma initiate_not_err h cp rnd e : working_host C h cp -> snd (dake_initiate C h rnd DakeInitial) <> Err e.
Proof.
  intros W. destruct (host_ok h cp W) as (p & _ & D & _). cbn [dake_initiate]. rewrite D. cbn [bind].
  destruct (ecdh_generate C (dn_ecdh rnd)) as [y| |] eqn:E1; cbn [bind snd]; try discriminate.
  - destruct (ecdh_generate C (dn_ecdh0 rnd)) as [y0| |] eqn:E2; cbn [bind snd]; try discriminate.
    now apply ecdh_generate_not_err in E2.
  - now apply ecdh_generate_not_err in E1.
Qed.

Section Exchange.
Context (ha hb : dake_host) (alice bob : client_profile) (na nb : bytes).
Context (WA : working_host C ha alice) (WB : working_host C hb bob).

Lemma not_err_bind {A B} (r : res A) (f : A -> res B) :
  (forall e, r <> Err e) -> (forall a, r = Ok a -> forall e, f a <> Err e) -> forall e, bind r f <> Err e.
Proof. intros H1 H2 e. destruct r; cbn [bind]; [now apply H2|exfalso; exact (H1 _ eq_refl)|discriminate]. Qed.

Lemma answer_not_err rnd ring idm e :
  identity_validate C idm = Ok bob ->
  good_keys C (id_y idm) (id_b idm) (id_ecdh0 idm) (id_dh0 idm) ->
  answer_identity C ha rnd ring idm bob na nb <> Err e.
Proof.
  intros V (K1 & K2 & K3 & K4). destruct (host_ok ha alice WA) as (p & E & D & PV & I & S & P & V1 & V2 & _).
  destruct (host_ok hb bob WB) as (_ & _ & _ & _ & _ & _ & _ & _ & V2b & _).
  unfold answer_identity. rewrite D. cbn [bind].
  apply not_err_bind; [intros x; apply ecdh_generate_not_err|]. intros x _. intros e'. cbv zeta. revert e'.
  rewrite PV. cbn [bind].
  apply not_err_bind; [intros y; apply ecdh_generate_not_err|]. intros y _.
  apply not_err_bind; [intros z; apply ring_sign_not_err; [exact V2b|rewrite <- I; exact V1|exact K1]|]. intros sg _.
  apply not_err_bind; [intros z; now apply mixed_not_err|]. intros sh _ e'. discriminate.
Qed.

Lemma handle_identity_answers rnd ring st idm :
  answers4 C st idm -> identity_validate C idm = Ok bob ->
  dake_handle_identity C ha rnd ring st idm na nb =
  match answer_identity C ha rnd ring idm bob na nb with
  | Ok (w, r) => (DakeAwaitingAuthI w, Ok (ReplyAuthR r))
  | Err e => (st, Err e)
  | Panic => (st, Panic)
  end.
Proof.
  intros A V. unfold dake_handle_identity. rewrite V. cbv zeta. destruct st as [|w|w]; try reflexivity.
  cbn [answers4] in A. unfold hashed_b. destruct (N.ltb_spec (be_val (shake256 C 32 (write_mpi (id_b idm))))
    (be_val (shake256 C 32 (write_mpi (id_b (wr_identity w)))))); [lia|reflexivity].
Qed.

Lemma dr_rotate_not_err s root now er dr e :
  pt_verify C (mx_public_ecdh s) = true -> dh3_verify C (mx_public_dh s) = true ->
  dr_rotate_sender C (dr_initialize C RECEIVER s root now) er dr now <> Err e.
Proof.
  intros V1 V2. unfold dr_rotate_sender, dr_initialize. cbn [dr_next selector_eqb negb dr_shared dr_i].
  revert e. apply not_err_bind.
  - unfold mixed_rotate_keypairs. cbv zeta. apply not_err_bind; [intros e; apply ecdh_generate_not_err|].
    intros x _ e. unfold expect. destruct (mixed_next _ _ _ _ _ _ _) eqn:E; discriminate.
  - intros s' _ e. change (u32_succ 0) with (Ok 1). cbn [bind]. discriminate.
Qed.

Lemma exchange rb sb idm st ra ringa :
  dake_initiate C hb rb DakeInitial = (sb, Ok idm) ->
  good_keys C (id_y idm) (id_b idm) (id_ecdh0 idm) (id_dh0 idm) ->
  answers4 C st idm -> ring_rnd_ok C ringa ->
  (forall e, snd (dake_handle_identity C ha ra ringa st idm na nb) <> Err e) /\
  forall sa r, dake_handle_identity C ha ra ringa st idm na nb = (sa, Ok r) ->
  exists ar, r = ReplyAuthR ar /\
  (good_keys C (ar_x ar) (ar_a ar) (ar_ecdh0 ar) (ar_dh0 ar) -> good_ring C (ar_sigma ar) ->
   forall ringb er dr now, ring_rnd_ok C ringb ->
   (forall e, snd (dake_handle_auth_r C hb ringb er dr now sb ar nb na) <> Err e) /\
   forall sb' mb i, dake_handle_auth_r C hb ringb er dr now sb ar nb na = (sb', Ok (mb, i)) ->
   good_ring C (ai_sigma i) ->
   forall now', exists ma, dake_handle_auth_i C now' sa i na nb = (sa, Ok ma) /\ dake_agree C alice bob ma mb).
Proof.
  intros HI GK A RA.
  destruct (host_ok ha alice WA) as (pa & Ea & Da & PVa & Ia & Sa & Pa & V1a & V2a & VFa & VIa).
  destruct (host_ok hb bob WB) as (pb & Eb & Db & PVb & Ib & Sb & Pb & V1b & V2b & VFb & VIb).
  destruct (initiate_shape _ _ _ _ HI) as (p & y & y0 & D & Gy & Gy0 & SH). cbv zeta in SH.
  destruct SH as [EI ES]. assert (p = pb) by congruence. subst p. clear D.
  set (b := dh3_generate C (dn_dh rb)) in *. set (b0 := dh3_generate C (dn_dh0 rb)) in *.
  destruct GK as (K1 & K2 & K3 & K4).
  assert (IV : identity_validate C idm = Ok bob).
  { unfold identity_validate. apply validate_keys_iff. subst idm. cbn [id_profile id_y id_b id_ecdh0 id_dh0] in *.
    split; [now apply payload_validate_iff|auto]. }
  rewrite handle_identity_answers by assumption.
  split.
  { intros e. pose proof (answer_not_err ra ringa idm e IV (conj K1 (conj K2 (conj K3 K4)))) as NE.
    destruct (answer_identity _ _ _ _ _ _ _ _) as [[]| |]; cbn [snd]; congruence. }
  intros sa r H.
  destruct (answer_identity C ha ra ringa idm bob na nb) as [[w ar]| |] eqn:AN; try discriminate H.
  assert (sa = DakeAwaitingAuthI w) by congruence. assert (r = ReplyAuthR ar) by congruence. subst sa r. clear H.
  exists ar. split; [reflexivity|]. intros (J1 & J2 & J3 & J4) GR ringb er dr now RB.
  (* what Alice computed *)
  unfold answer_identity in AN. rewrite Da in AN. cbn [bind] in AN.
  destruct (ecdh_generate C (dn_ecdh ra)) as [x| |] eqn:Gx; cbn [bind] in AN; try discriminate AN. cbv zeta in AN.
  rewrite PVa in AN. cbn [bind] in AN.
  destruct (ecdh_generate C (dn_ecdh0 ra)) as [x0| |] eqn:Gx0; cbn [bind] in AN; try discriminate AN.
  apply ecdh_generate_ok in Gx, Gx0.
  set (a := dh3_generate C (dn_dh ra)) in *. set (a0 := dh3_generate C (dn_dh0 ra)) in *.
  destruct (ring_sign _ _ _ _ _ _ _) as [sga| |] eqn:RSa; cbn [bind] in AN; try discriminate AN.
  destruct (mixed_new C x a _ _) as [sxa| |] eqn:Mxa; cbn [bind] in AN; try discriminate AN.
  apply ok_inj in AN. assert (W1 := f_equal fst AN). assert (W2 := f_equal snd AN). cbn [fst snd] in W1, W2. clear AN.
  subst w ar. cbn [ar_profile ar_x ar_a ar_sigma ar_ecdh0 ar_dh0] in *.
  rewrite Ea in RSa.
  assert (VY : pt_valid C (ec_public y)).
  { destruct Gy as [s ->]. cbn [ec_public ecdh_of_secret]. apply valid_mul; [exact CO|apply CO]. }
  assert (VX : pt_valid C (ec_public x)).
  { destruct Gx as [s ->]. cbn [ec_public ecdh_of_secret]. apply valid_mul; [exact CO|apply CO]. }
  assert (Eid : id_profile idm = pb /\ id_y idm = ec_public y /\ id_b idm = dh3_public b /\
                id_ecdh0 idm = ec_public y0 /\ id_dh0 idm = dh3_public b0) by (rewrite EI; auto).
  destruct Eid as (I1 & I2 & I3 & I4 & I5). rewrite I1, I2, I3, I4, I5 in *. clear EI.
  assert (SVa := sign_second _ _ _ _ _ _ Pa Sa RA VFb VY RSa GR).
  (* Bob receives Auth-R *)
  rewrite ES. cbn [dake_handle_auth_r wr_y wr_b wr_payload wr_ecdh0 wr_dh0 ar_profile ar_x ar_a ar_sigma ar_ecdh0 ar_dh0].
  unfold authr_validate, validate_keys. cbn [ar_profile ar_x ar_a ar_sigma ar_ecdh0 ar_dh0].
  rewrite PVa, J1, J2, J3, J4, PVb. cbn [of_bool bind]. cbv zeta. rewrite Ia, SVa. cbn [bind].
  set (ti := dake_t_keys C x01 _ _ _ _ _ _ _ _ ++ _).
  split.
  { intros e.
    match goal with |- snd (match ?t with _ => _ end) <> _ => assert (NE : forall e, t <> Err e) end.
    { apply not_err_bind; [intros e'; apply ring_sign_not_err; [rewrite <- Ib; exact V1b|exact V2a|exact J1]|].
      intros sg _. apply not_err_bind; [intros e'; now apply mixed_not_err|]. intros s1 _.
      apply not_err_bind; [intros e'; now apply mixed_not_err|]. intros s2 M2.
      apply not_err_bind; [|intros d _ e'; discriminate].
      intros e'. unfold mixed_new in M2. apply mixed_next_ok in M2.
      destruct M2 as (_ & _ & _ & _ & Q1 & Q2 & _). apply dr_rotate_not_err; congruence. }
    match goal with |- snd (match ?t with _ => _ end) <> _ => destruct t end; cbn [snd]; try discriminate.
    intros X. exact (NE e0 eq_refl). }
  intros sb' mb i HB GRi now'.
  match type of HB with match ?t with _ => _ end = _ => destruct t as [[mb' i']| |] eqn:E end; try discriminate HB.
  assert (mb' = mb) by congruence. assert (i' = i) by congruence. subst mb' i'. clear HB.
  destruct (ring_sign C (dh_identity hb) _ _ _ _ _) as [sgb| |] eqn:RSb; cbn [bind] in E; try discriminate E.
  destruct (mixed_new C y b _ _) as [syb| |] eqn:Myb; cbn [bind] in E; try discriminate E.
  destruct (mixed_new C y0 b0 _ _) as [s0b| |] eqn:M0b; cbn [bind] in E; try discriminate E.
  destruct (dr_rotate_sender _ _ _ _ _) as [db| |] eqn:ROT; cbn [bind] in E; try discriminate E.
  apply ok_inj in E. assert (W1 := f_equal fst E). assert (W2 := f_equal snd E). cbn [fst snd] in W1, W2. clear E.
  subst mb i. cbn [ai_sigma] in *.
  assert (SVb := sign_first _ _ _ _ _ _ Pb Sb RB VFa VX RSb GRi).
  assert (KK : mx_k sxa = mx_k syb).
  { eapply mixed_new_agree; [exact Gx|exists (dn_dh ra); reflexivity|exact Gy|exists (dn_dh rb); reflexivity|exact Mxa|exact Myb]. }
  destruct Gx0 as [e1 Ex0]. destruct Gy0 as [e2 Ey0].
  unfold mixed_new in M0b. rewrite Ex0, Ey0 in M0b.
  destruct (mixed_agree C G e2 (dn_dh0 rb) e1 (dn_dh0 ra) _ _ _ M0b) as (s0a & M0a & _ & K0);
    [rewrite <- Ey0; exact K3|exact K4|].
  exists (mkDakeMaterial (dake_ssid C (mx_k sxa)) (dr_initialize C SENDER s0a (dake_root C (mx_k sxa)) now')
            (otr4_fingerprint C (cp_identity alice) (cp_forging alice))
            (otr4_fingerprint C (cp_identity bob) (cp_forging bob))).
  split.
  - cbn [dake_handle_auth_i wi_profile_alice wi_profile_bob wi_x wi_y wi_a wi_b wi_k wi_ecdh0 wi_dh0 wi_ecdh0_other wi_dh0_other].
    rewrite PVa, PVb. cbn [bind]. cbv zeta. rewrite Ib. change (dake_t_keys C x01 _ _ _ _ _ _ _ _ ++ _) with ti.
    cbn [ai_sigma]. rewrite SVb. cbn [bind]. unfold mixed_new. rewrite Ex0, Ey0. fold b0 in M0a. fold a0 in M0a. rewrite M0a. reflexivity.
  - unfold dake_agree. cbn [dm_ssid dm_ratchet dm_us dm_them]. rewrite KK.
    split; [reflexivity|]. split; [|unfold profile_fingerprint; rewrite Ia, ?Ib; repeat split; reflexivity].
    exists e1, (dn_dh0 ra), e2, (dn_dh0 rb), (dake_root C (mx_k syb)), s0a, s0b, now', now, now, er, dr.
    cbv zeta. cbn [cw_a cw_b cw_ab cw_ba].
    split; [exact M0a|]. split; [exact M0b|]. split; [reflexivity|]. split; [exact ROT|]. auto.
Qed.
End Exchange.
End WithCrypto.
