(* Two sessions: the OTRv4 key exchange from the query message on. *)
From Verif Require Import Base BaseLemmas Types Crypto CryptoProofs Encoding EncodingProofs ClientProfile ClientProfileProofs Messages
  MessagesProofs Fragment SpecFragment KeyManager DataV3 Ratchet DataV4 AKE DAKE SMP SMP4 Protocol Session SpecWire WireLemmas SpecCurve
  EdGroup PointProofs SpecData4 Conv4Proofs SpecDAKE RingProofs DAKEProofs DAKEConvProofs SpecSession SessionProofs SessionPartyProofs
  SessionInvProofs SessionSendProofs SessionRecvProofs SessionLemmas SpecNet NetProofs NetAKEProofs.
From Coq Require Import Lia ZifyN ZifyNat.
Local Open Scope N_scope.

Section WithCrypto.
Context (C : Crypto) (G : groups_ok4 C) (EC : encodable C).

Lemma generated_wire s : point_wire_ok C (ec_public (ecdh_of_secret C s)).
Proof.
  destruct EC as (P34 & PB & _). destruct G as (CO & _). unfold point_wire_ok. cbn [ec_public ecdh_of_secret].
  apply point_round_trip; try assumption. apply valid_mul; [assumption|apply CO].
Qed.

(* scalars of a signature *)
Definition reduced (sg : ring_sig) : Prop :=
  let ok z := (0 <= z < c_ed_q C)%Z in
  ok (rs_c1 sg) /\ ok (rs_r1 sg) /\ ok (rs_c2 sg) /\ ok (rs_r2 sg) /\ ok (rs_c3 sg) /\ ok (rs_r3 sg).
Lemma ring_sign_reduced kp A1 A2 A3 m rnd sg : ring_rnd_ok C rnd -> ring_sign C kp A1 A2 A3 m rnd = Ok sg -> reduced sg.
Proof.
  intros (Rt & Rc1 & Rc2 & Rc3 & Rr1 & Rr2 & Rr3) H. cbv beta in *.
  assert (Q : (0 < c_ed_q C)%Z) by (destruct G as (CO & _); apply CO).
  assert (MB : forall z, (0 <= z mod c_ed_q C < c_ed_q C)%Z) by (intros z; apply Z.mod_pos_bound; exact Q).
  unfold ring_sign in H.
  destruct (of_bool (pt_verify C A1)); cbn [bind] in H; try discriminate.
  destruct (of_bool (pt_verify C A2)); cbn [bind] in H; try discriminate.
  destruct (of_bool (pt_verify C A3)); cbn [bind] in H; try discriminate.
  destruct (same_point (ed_public kp) A1) as [e1| |]; cbn [bind] in H; try discriminate.
  destruct (same_point (ed_public kp) A2) as [e2| |]; cbn [bind] in H; try discriminate.
  destruct (same_point (ed_public kp) A3) as [e3| |]; cbn [bind] in H; try discriminate.
  destruct (negb _) eqn:SUM; [discriminate|]. apply negb_false_iff, Z.eqb_eq in SUM.
  destruct (hash_to_scalar C USAGE_AUTH _) as [c| |]; cbn [bind] in H; try discriminate.
  cbv zeta in H.
  match type of H with Ok ?x = Ok _ => assert (SG : sg = x) by congruence end. subst sg. clear H.
  unfold reduced. cbn [rs_c1 rs_c2 rs_c3 rs_r1 rs_r2 rs_r3].
  assert (S : forall (b : bool) z w, (0 <= z < c_ed_q C)%Z -> (0 <= w < c_ed_q C)%Z ->
             (0 <= (1 - b2z b) * z + b2z b * w < c_ed_q C)%Z).
  { intros b z w Z1 Z2. destruct b; cbn [b2z]; lia. }
  repeat split; try (apply S; [assumption|apply MB]).
Qed.
Lemma ring_wire sg : reduced sg -> nonzero_ring sg -> ring_range C sg.
Proof.
  destruct EC as (_ & _ & QB). intros (A1 & A2 & A3 & A4 & A5 & A6) (B1 & B2 & B3 & B4 & B5 & B6).
  assert (S : forall z, (0 <= z < c_ed_q C)%Z -> z <> 0%Z -> scalar_range C z).
  { intros z Z1 Z2. clear - QB Z1 Z2. split; lia. }
  repeat split; try (apply S; assumption); apply S; assumption.
Qed.

(* step 1: the query is answered with an Identity message *)
Lemma query4_answered e s s1 out r cp : sinv s -> allowed (se_details s) V4 ->
  working_host C (ev_dake_host e) cp -> in_dake (entry 0 (se_instances s)) = DakeInitial ->
  receive_all C e s [query_message V4] = (s1, out, r) -> ~ In Panic r ->
  exists z st m, get_inst 0 (se_instances s) = Some z /\ r = [Ok UMNone] /\
    s1 = put s 0 (set_dake z st) /\ dake_initiate C (ev_dake_host e) (ev_dake e) DakeInitial = (st, Ok m) /\
    transported (se_details s) e 0 V4 (MIdentity m) out.
Proof.
  intros SI AL W IDLE H NP. cbn [receive_all] in H. destruct (receive C e s (query_message V4)) as [[s2 o] r0] eqn:R.
  fin3 H. assert (NP0 : r0 <> Panic) by (intros ->; apply NP; now left).
  pose proof SI as [_ _ (z & GZ & _) _].
  assert (IR : in_receiver z = 0) by (eapply sinv_get; eassumption).
  unfold receive in R. rewrite (enabled_not_disabled (se_details s)) in R by now right.
  assert (match_fragment (query_message V4) = false) as NF by reflexivity. rewrite NF in R.
  unfold receive_message in R.
  assert (parse C (query_message V4) = Ok (MsgQuery [V4])) as PQ by reflexivity. rewrite PQ in R.
  cbn [allowed] in AL. unfold select_version in R. cbn [contains_version existsb version_eqb orb andb] in R. rewrite AL in R. cbn [andb] in R.
  unfold initiate, on_entry in R.
  assert (EZ : entry 0 (se_instances s) = z) by (unfold entry; now rewrite GZ). rewrite EZ in R, IDLE.
  unfold inst_initiate in R. rewrite IDLE in R.
  pose proof (fun x => initiate_not_err C G _ cp (ev_dake e) x W) as NE.
  destruct (dake_initiate C (ev_dake_host e) (ev_dake e) DakeInitial) as [st [m|x|]] eqn:DI; cbn [snd] in NE.
  - destruct (injecting _ _ _ _) as [[i o1] y] eqn:IJ. apply injecting_inv in IJ.
    destruct IJ as [(E & -> & ->) | [(x & E & _) | (_ & ->)]]; [|now apply inject_no_err in E|fin3 R; congruence].
    fin3 R. apply inject_transported in E. rewrite IR in E. rewrite app_nil_r.
    exists z, st, m. auto 8.
  - exfalso. exact (NE x eq_refl).
  - fin3 R. congruence.
Qed.

(* an Auth-R message: the exchange is taken over from instance 0 *)
Lemma arrives_authr da e0 rcv m ps s e s' out rs z w :
  transported da e0 rcv V4 (MAuthR m) ps -> shaped C V4 (MAuthR m) -> legal_details da -> env_ok e0 ->
  rcv = de_tag (se_details s) -> legal_details (se_details s) ->
  allowed (se_details s) V4 -> transportable ps ->
  ready (in_assembler (entry (de_tag da) (se_instances s))) -> sinv s ->
  get_inst 0 (se_instances s) = Some z -> in_dake z = DakeAwaitingAuthR w ->
  receive_all C e s ps = (s', out, rs) -> ~ In Panic rs ->
  exists a i' r, ready a /\ r <> Panic /\ rs = answered (length ps) r /\ s' = put s (de_tag da) i' /\
    inst_handle C (se_details s) e (set_dake (set_assembler (entry (de_tag da) (se_instances s)) a) (DakeAwaitingAuthR w))
      (mkEncoded V4 (de_tag da) rcv (MAuthR m)) = (i', out, r).
Proof.
  intros T SH LD EO -> LS AL TP RE SI GZ AZ RA NP.
  assert (EN : enabled (se_details s)) by now right.
  assert (LR : SpecWire.legal_tag (de_tag (se_details s))) by (right; exact LS).
  destruct (delivered_encoded C da e0 _ V4 (MAuthR m) ps s T (or_intror eq_refl) SH LD EO LR (or_intror eq_refl) EN TP RE) as (W & H).
  destruct (H e s' out rs RA NP) as (s1 & r & (D & O & (a & RA' & EA) & PU & _) & R2 & R3 & R4).
  destruct LD as [LD1 LD2]. destruct LS as [LS1 LS2].
  rewrite encoded_addressed in R2; [|now right|lia|now rewrite D|rewrite D; auto].
  cbn zeta iota beta in R2. rewrite O in R2 by lia. rewrite GZ in R2.
  unfold transfer_dake_context in R2. rewrite (sinv_get _ _ _ SI GZ), AZ in R2. cbn [N.eqb dake_transfer] in R2.
  apply on_entry_ok in R2; [|assumption]. destruct R2 as (i' & E & ->).
  exists a, i', r. rewrite EA, D in E. unfold adopt_dake_context in E. cbn [in_receiver set_assembler] in E.
  rewrite (sinv_entry _ _ SI) in E. assert (de_tag da =? 0 = false) as NZ by (apply N.eqb_neq; lia). rewrite NZ in E.
  rewrite PU. auto.
Qed.

Lemma secure4 d e i t m : secure C d e i t (MatDAKE m) =
  Ok (set_state i (PEnc4 (de_tag d) t (dm_ratchet m) (smp4_new (dm_us m) (dm_them m) (dm_ssid m)))).
Proof. unfold secure, p_secure, enc4_new. now destruct (in_state i). Qed.

Lemma auth_i_state now st m ac co st' mat : dake_handle_auth_i C now st m ac co = (st', Ok mat) ->
  match st' with DakeAwaitingAuthR _ => False | _ => True end.
Proof.
  unfold dake_handle_auth_i. intros H. destruct st; try (apply (f_equal snd) in H; discriminate H).
  apply (f_equal fst) in H. cbn [fst] in H. now subst st'.
Qed.
Lemma auth_r_state h ring er dr now st m ac co st' mat : dake_handle_auth_r C h ring er dr now st m ac co = (st', Ok mat) ->
  match st' with DakeAwaitingAuthR _ => False | _ => True end.
Proof.
  unfold dake_handle_auth_r. intros H. destruct st; try (apply (f_equal snd) in H; discriminate H).
  match type of H with match ?t with _ => _ end = _ => destruct t as [[]| |] end; try (apply (f_equal snd) in H; discriminate H).
  apply (f_equal fst) in H. cbn [fst] in H. now subst st'.
Qed.

(* what both sides have after the exchange *)
Record secured4 (sa sb sa' sb' : session) : Prop := mkSecured4 {
  sd_inv_a : sinv sa'; sd_inv_b : sinv sb';
  sd_da : se_details sa' = se_details sa; sd_db : se_details sb' = se_details sb;
  sd_states : exists ia ib dra drb fa fb ssid,
    get_inst (de_tag (se_details sb)) (se_instances sa') = Some ia /\
    get_inst (de_tag (se_details sa)) (se_instances sb') = Some ib /\
    ready (in_assembler ia) /\ ready (in_assembler ib) /\
    in_state ia = PEnc4 (de_tag (se_details sa)) (de_tag (se_details sb)) dra (smp4_new fa fb ssid) /\
    in_state ib = PEnc4 (de_tag (se_details sb)) (de_tag (se_details sa)) drb (smp4_new fb fa ssid) /\
    start4 C (mkConv4 dra drb [] []) }.

(* and neither waits for a message of the exchange any more *)
Lemma handshake4_full sa sb (x : exchange C sa sb) :
  sinv sa -> sinv sb -> legal_details (se_details sa) -> legal_details (se_details sb) ->
  resting sa (de_tag (se_details sb)) -> resting sb (de_tag (se_details sa)) ->
  preferred (se_details sa) V4 -> allowed (se_details sb) V4 ->
  in_dake (entry 0 (se_instances sb)) = DakeInitial ->
  honest4 C (se_details sa) (se_details sb) (x_e0 x) (x_e1 x) (x_e2 x) ->
  (resting (x_sa2 x) (de_tag (se_details sb)) /\ resting (x_sb3 x) (de_tag (se_details sa))) /\
  secured4 sa sb (x_sa2 x) (x_sb3 x) /\ x_p4 x = [] /\ x_p5 x = [] /\
  x_r1 x = [Ok UMNone] /\ x_r2 x = answered (length (x_p1 x)) (Ok UMNone) /\
  x_r3 x = answered (length (x_p2 x)) (Ok (UMSessionStarted (de_tag (se_details sa)))) /\
  x_r4 x = answered (length (x_p3 x)) (Ok (UMSessionStarted (de_tag (se_details sb)))) /\ x_r5 x = [].
Proof.
  intros SA SB LA LB RSA RSB PF AB IDLE ((alice & bob & WA & WB) & HB2 & RR1 & RR2 & AD1 & AD2 & PL).
  destruct x as [e0 e1 e2 e3 e4 sa1 sa2 sb1 sb2 sb3 p0 p1 p2 p3 p4 p5 r1 r2 r3 r4 r5 XQ X1 X2 X3 X4 X5 XA XC XE].
  cbn [x_e0 x_e1 x_e2 x_e3 x_e4 x_sa1 x_sa2 x_sb1 x_sb2 x_sb3 x_p0 x_p1 x_p2 x_p3 x_p4 x_p5 x_r1 x_r2 x_r3 x_r4 x_r5] in *.
  set (da := se_details sa) in *. set (db := se_details sb) in *.
  assert (AA : allowed da V4) by (destruct PF as [(? & _)|(_ & _ & ?)]; [assumption|discriminate]).
  assert (p0 = [query_message V4]) as ->.
  { unfold ses_query in XQ. destruct (query_eq sa) as (v & PV & Q); [now right|]. fold da in PV. rewrite Q in XQ.
    apply pair3 in XQ. destruct XQ as (_ & <- & _). do 2 f_equal.
    destruct PV as [(_ & ->)|(NA & _)]; [reflexivity|contradiction]. }
  clear XQ. apply not_in_app in XA as (N1 & XA). apply not_in_app in XA as (N2 & XA). apply not_in_app in XA as (N3 & XA).
  apply not_in_app in XA as (N4 & N5).
  inversion XC as [|? ? T1 XC1]; subst. inversion XC1 as [|? ? T2 XC2]; subst. inversion XC2 as [|? ? T3 XC3]; subst.
  clear XC XC1 XC2 XC3.
  inversion XE as [|? ? E0 XE1]; subst. inversion XE1 as [|? ? E1 XE2]; subst. inversion XE2 as [|? ? E2 XE3]; subst.
  clear XE XE1 XE2 XE3.
  destruct RSA as (A1 & A3 & A2). destruct RSB as (B1 & B3 & B2).
  pose proof LA as [LA1 LA2]. pose proof LB as [LB1 LB2].
  destruct (host_ok C G _ _ WA) as (pa & _ & Da & _). destruct (host_ok C G _ _ WB) as (pb & _ & Db & _).
  assert (WPA : payload_wire_ok C pa).
  { destruct WA as (p & EP & WP & _). rewrite EP in Da. unfold decode_profile in Da. rewrite <- (app_nil_r (write_payload p)) in Da.
    rewrite read_payload_write in Da by exact WP. cbn [bind done] in Da. unfold done in Da. cbn in Da. congruence. }
  assert (WPB : payload_wire_ok C pb).
  { destruct WB as (p & EP & WP & _). rewrite EP in Db. unfold decode_profile in Db. rewrite <- (app_nil_r (write_payload p)) in Db.
    rewrite read_payload_write in Db by exact WP. cbn [bind done] in Db. unfold done in Db. cbn in Db. congruence. }
  (* 1 *)
  pose proof (sinv_receive_all C _ _ _ _ _ _ X1 N1 SB) as (SB1 & DB1).
  apply (query4_answered _ _ _ _ _ bob) in X1; [|assumption|assumption|assumption|assumption|assumption].
  destruct X1 as (z & stb & im & GZ & R1 & S1 & DI & TI). fold db in TI, DB1.
  destruct (PL _ _ DI) as (GK & PL2). clear PL.
  destruct (initiate_shape C _ _ _ _ DI) as (pb' & y & y0 & Db' & (sy & ->) & (sy0 & ->) & EI & ES). cbv zeta in EI, ES.
  assert (pb' = pb) as -> by congruence. clear Db'.
  assert (SHI : shaped C V4 (MIdentity im)).
  { rewrite EI. cbn [shaped id_profile id_y id_ecdh0]. split; [assumption|]. split; apply generated_wire. }
  (* 2 *)
  pose proof (sinv_receive_all C _ _ _ _ _ _ X2 N2 SA) as (SA1 & DA1). fold da in DA1.
  apply (arrives_direct C db e0 0 V4 (MIdentity im)) in X2;
    [|assumption|now right|assumption|exact I|assumption|assumption|now left|fold da; lia|auto|assumption|assumption|assumption|assumption].
  destruct X2 as (_ & a1 & ia1 & y2 & RA1 & NP2 & R2 & S2 & H2). fold da in H2.
  set (ea := entry (de_tag db) (se_instances sa)) in *.
  assert (IE : in_receiver ea = de_tag db) by (now apply sinv_entry).
  assert (ANS : answers4 C (in_dake ea) im) by (clear - A2; destruct (in_dake ea); easy).
  assert (IV : identity_validate C im = Ok bob).
  { unfold identity_validate. apply validate_keys_iff. split; [|exact GK].
    destruct WB as (p & EP & WP & ACC & _). rewrite EI. cbn [id_profile]. 
    rewrite EP in Db. unfold decode_profile in Db. rewrite <- (app_nil_r (write_payload p)) in Db.
    rewrite read_payload_write in Db by exact WP. cbn [bind done] in Db. unfold done in Db. cbn in Db. congruence. }
  destruct (DAKEConvProofs.exchange C G _ _ alice bob (de_account da) (de_account db) WA WB _ _ _ (in_dake ea) (ev_dake e1) (ev_ring e1)
              DI GK ANS RR1) as (NE1 & EX1).
  unfold inst_handle in H2. cbn [em_version em_message em_sender in_dake set_assembler] in H2. rewrite AD1 in H2.
  destruct (dake_handle_identity C (ev_dake_host e1) (ev_dake e1) (ev_ring e1) (in_dake ea) im (de_account da) (de_account db))
    as [sta [rep|?|]] eqn:HI; [|exfalso; exact (NE1 _ eq_refl)|apply pair3 in H2; destruct H2 as (_ & _ & H2); congruence].
  destruct (EX1 _ _ eq_refl) as (ar & -> & EX2). clear EX1 NE1.
  assert (HI0 : dake_handle_identity C (ev_dake_host e1) (ev_dake e1) (ev_ring e1) DakeInitial im (de_account da) (de_address da)
                = (sta, Ok (ReplyAuthR ar))).
  { rewrite AD1. rewrite (handle_identity_answers C _ bob _ _ _ _ _ _ ANS IV) in HI.
    rewrite (handle_identity_answers C _ bob _ _ _ _ DakeInitial _ I IV).
    destruct (answer_identity _ _ _ _ _ _ _ _) as [[]| |]; congruence. }
  destruct (PL2 _ _ HI0) as (GK2 & GR & NZ & PL3). clear PL2.
  apply injecting_inv in H2. destruct H2 as [(IJ2 & IA1 & Y2) | [(? & E & _) | (_ & ?)]]; [|now apply inject_no_err in E|congruence].
  apply inject_transported in IJ2. cbn [in_receiver set_assembler] in IJ2. rewrite IE in IJ2.
  assert (SHR : shaped C V4 (MAuthR ar)).
  { rewrite (handle_identity_answers C _ bob _ _ _ _ _ _ ANS IV) in HI.
    destruct (answer_identity _ _ _ _ _ _ _ _) as [[w0 ar0]| |] eqn:AN; try discriminate. assert (ar0 = ar) as -> by congruence. clear HI.
    unfold answer_identity in AN. rewrite Da in AN. cbn [bind] in AN.
    destruct (ecdh_generate C (dn_ecdh (ev_dake e1))) as [xx| |] eqn:Gx; cbn [bind] in AN; try discriminate AN. cbv zeta in AN.
    destruct (payload_validate C pa); cbn [bind] in AN; try discriminate AN.
    destruct (ecdh_generate C (dn_ecdh0 (ev_dake e1))) as [x0| |] eqn:Gx0; cbn [bind] in AN; try discriminate AN.
    apply ecdh_generate_ok in Gx, Gx0. destruct Gx as (s1' & ->). destruct Gx0 as (s2' & ->).
    destruct (ring_sign _ _ _ _ _ _ _) as [sga| |] eqn:RSa; cbn [bind] in AN; try discriminate AN.
    destruct (mixed_new C _ _ _ _) as [sxa| |]; cbn [bind] in AN; try discriminate AN.
    apply ok_inj in AN. assert (W2 := f_equal snd AN). cbn [snd] in W2. clear AN. rewrite <- W2 in NZ |- *.
    cbn [shaped ar_profile ar_x ar_sigma ar_ecdh0] in *.
    split; [assumption|]. split; [apply generated_wire|]. split; [|apply generated_wire].
    apply ring_wire; [|assumption]. exact (ring_sign_reduced _ _ _ _ _ _ _ RR1 RSa). }
  (* 3 *)
  pose proof (sinv_receive_all C _ _ _ _ _ _ X3 N3 SB1) as (SB2 & DB2).
  assert (GZ1 : get_inst 0 (se_instances sb1) = Some (set_dake z stb)) by (rewrite S1; apply get_put_same).
  assert (EB : entry (de_tag da) (se_instances sb1) = entry (de_tag da) (se_instances sb)).
  { rewrite S1. unfold entry. rewrite get_put_other by lia. reflexivity. }
  set (wr := mkAwaitingAuthR _ _ _ _ _ _) in ES. 
  apply (arrives_authr da e1 (de_tag db) ar p2 sb1 e2 sb2 p3 r3 (set_dake z stb) wr) in X3;
    [|assumption|assumption|assumption|assumption|now rewrite DB1|now rewrite DB1|now rewrite DB1|assumption|now rewrite EB|assumption|assumption
     |exact ES|assumption].
  destruct X3 as (a2 & ib2 & y3 & RA2 & NP3 & R3 & S3 & H3). rewrite DB1, EB, <- ES in H3.
  set (eb := entry (de_tag da) (se_instances sb)) in *.
  assert (IEB : in_receiver eb = de_tag da) by (now apply sinv_entry).
  unfold inst_handle in H3. cbn [em_version em_message em_sender in_dake set_dake set_assembler] in H3.
  rewrite AD2, HB2 in H3. rewrite AD2, HB2 in PL3.
  destruct (EX2 GK2 GR (ev_ring e2) (sr_ecdh (ev_send e2)) (sr_dh (ev_send e2)) (ev_now e2) RR2) as (NE2 & EX3). clear EX2.
  destruct (dake_handle_auth_r C (ev_dake_host e0) (ev_ring e2) (sr_ecdh (ev_send e2)) (sr_dh (ev_send e2)) (ev_now e2) stb ar
              (de_account db) (de_account da)) as [stb2 [[mb ai]|?|]] eqn:HR;
    [|exfalso; exact (NE2 _ eq_refl)|apply pair3 in H3; destruct H3 as (_ & _ & H3); congruence].
  destruct (PL3 _ _ _ eq_refl) as (GR2 & NZ2). clear PL3 NE2.
  destruct (inject db e2 _ V4 (de_tag da) (MAuthI ai)) as [out3|?|] eqn:IJ3;
    [|now apply inject_no_err in IJ3|apply pair3 in H3; destruct H3 as (_ & _ & H3); congruence].
  apply inject_transported in IJ3. cbn [in_receiver set_assembler set_dake] in IJ3. rewrite secure4 in H3. apply pair3 in H3. destruct H3 as (IB2 & P3 & Y3). subst out3. rewrite IEB in IJ3.
  cbn [in_receiver set_assembler set_dake] in IB2, Y3. rewrite IEB in IB2, Y3.
  assert (SHJ : shaped C V4 (MAuthI ai)).
  { cbn [shaped]. apply ring_wire; [|assumption]. rewrite ES in HR. cbn [dake_handle_auth_r] in HR.
    match type of HR with match ?t with _ => _ end = _ => destruct t as [[mb' i']| |] eqn:ER end; try discriminate HR.
    assert (mb' = mb) as -> by congruence. assert (i' = ai) as -> by congruence. clear HR.
    repeat (apply bind_ok in ER; destruct ER as (? & ? & ER)).
    match goal with H : ring_sign _ _ _ _ _ _ _ = Ok ?sg |- _ => pose proof (ring_sign_reduced _ _ _ _ _ _ _ RR2 H) as RD; clear H end.
    assert (ER' := f_equal (fun r => match r with Ok (_, i) => ai_sigma i | _ => ai_sigma ai end) ER). cbn [ai_sigma] in ER'.
    rewrite <- ER'. exact RD. }
  (* 4 *)
  pose proof (sinv_receive_all C _ _ _ _ _ _ X4 N4 SA1) as (SA2 & DA2).
  assert (EA1 : entry (de_tag db) (se_instances sa1) = ia1) by (rewrite S2; apply entry_put).
  apply (arrives_direct C db e2 (de_tag da) V4 (MAuthI ai)) in X4;
    [|assumption|now right|assumption|exact I|assumption|assumption|right; exact LA|rewrite DA1; lia|rewrite DA1; auto|now rewrite DA1|assumption
     |rewrite EA1, IA1; exact RA1|assumption].
  destruct X4 as (_ & a3 & ia3 & y4 & RA3 & NP4 & R4 & S4 & H4). rewrite DA1, EA1 in H4.
  destruct (EX3 _ _ _ eq_refl GR2 (ev_now e3)) as (ma & HM & AGR). clear EX3.
  unfold inst_handle in H4. cbn [em_version em_message em_sender in_dake set_assembler] in H4.
  assert (AK1 : in_dake ia1 = sta) by (rewrite IA1; reflexivity). rewrite AK1, AD1, HM in H4.
  rewrite secure4 in H4. apply pair3 in H4. destruct H4 as (IA3 & P4 & Y4).
  assert (IR1 : in_receiver ia1 = de_tag db) by (rewrite IA1; exact IE).
  cbn [in_receiver set_assembler set_dake] in IA3, Y4. rewrite IR1 in IA3, Y4.
  (* 5 *)
  subst p4. cbn [receive_all] in X5. apply pair3 in X5. destruct X5 as (S5 & P5 & R5). subst sb3.
  split.
  { unfold resting. rewrite S4, S3, !entry_put, <- IA3, <- IB2.
    cbn [in_assembler in_ake in_dake set_dake set_assembler set_state].
    rewrite IA1. cbn [in_assembler in_ake in_dake set_dake set_assembler set_state].
    split; (split; [assumption|split; [assumption|]]); [exact (auth_i_state _ _ _ _ _ _ _ HM)|exact (auth_r_state _ _ _ _ _ _ _ _ _ _ _ HR)]. }
  split; [|repeat split; congruence].
  split; [assumption|assumption|fold da; congruence|fold db; congruence|].
  exists ia3, ib2, (dm_ratchet ma), (dm_ratchet mb), (dm_us ma), (dm_them ma), (dm_ssid ma). destruct AGR as (SS & ST & U1 & U2 & U3 & U4).
  fold da db. split; [rewrite S4; apply get_put_same|]. split; [rewrite S3; apply get_put_same|].
  split; [rewrite <- IA3; exact RA3|]. split; [rewrite <- IB2; exact RA2|].
  split; [rewrite <- IA3; reflexivity|]. split; [rewrite <- IB2, U1, U2, SS, <- U3, <- U4; reflexivity|].
  exact ST.
Qed.
Lemma handshake4 sa sb (x : exchange C sa sb) :
  sinv sa -> sinv sb -> legal_details (se_details sa) -> legal_details (se_details sb) ->
  resting sa (de_tag (se_details sb)) -> resting sb (de_tag (se_details sa)) ->
  preferred (se_details sa) V4 -> allowed (se_details sb) V4 ->
  in_dake (entry 0 (se_instances sb)) = DakeInitial ->
  honest4 C (se_details sa) (se_details sb) (x_e0 x) (x_e1 x) (x_e2 x) ->
  secured4 sa sb (x_sa2 x) (x_sb3 x) /\ x_p4 x = [] /\ x_p5 x = [] /\
  x_r1 x = [Ok UMNone] /\ x_r2 x = answered (length (x_p1 x)) (Ok UMNone) /\
  x_r3 x = answered (length (x_p2 x)) (Ok (UMSessionStarted (de_tag (se_details sa)))) /\
  x_r4 x = answered (length (x_p3 x)) (Ok (UMSessionStarted (de_tag (se_details sb)))) /\ x_r5 x = [].
Proof. intros. apply (handshake4_full sa sb x); assumption. Qed.
End WithCrypto.
