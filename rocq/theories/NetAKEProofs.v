(* Two sessions: the OTRv3 key exchange from the query message on. *)
From Verif Require Import Base BaseLemmas Types Crypto Encoding EncodingProofs ClientProfile Messages MessagesProofs Fragment SpecFragment
  KeyManager DataV3 SpecData3 Ratchet DataV4 AKE SpecAKE AKEProofs AKEConvProofs AKELemmas CryptoProofs DAKE SMP SMP4 Protocol Session SpecWire
  WireLemmas SpecSession SessionProofs SessionPartyProofs SessionInvProofs SessionSendProofs SessionRecvProofs SessionLemmas SpecNet NetProofs.
From Coq Require Import Lia ZifyN ZifyNat.
Local Open Scope N_scope.

Section WithCrypto.
Context (C : Crypto).

Lemma cleanup_ready a : ready a -> ready (assembler_cleanup_v3 a).
Proof. unfold ready. now destruct a. Qed.

Lemma on_entry_ok {A} s t f s' out (r : res A) : on_entry s t f = (s', out, r) -> r <> Panic ->
  exists i, f (entry t (se_instances s)) = (i, out, r) /\ s' = put s t i.
Proof.
  unfold on_entry. destruct (f _) as [[i o] [x|x|]] eqn:E; intros H NP; fin3 H; [eauto|eauto|congruence].
Qed.

(* a message that is handled by the instance of its sender *)
Definition direct (v : version) (m : encoded_type) : Prop :=
  match v, m with V3, MDHKey _ | V4, MAuthR _ => False | _, _ => True end.

Lemma arrives_direct da e0 rcv v m ps s e s' out rs :
  transported da e0 rcv v m ps -> otr_version v -> shaped C v m -> direct v m -> legal_details da -> env_ok e0 ->
  SpecWire.legal_tag rcv -> 256 <= de_tag (se_details s) ->
  (rcv = de_tag (se_details s) \/ rcv = 0 /\ match m with MDHCommit _ | MIdentity _ => True | _ => False end) ->
  allowed (se_details s) v -> transportable ps ->
  ready (in_assembler (entry (de_tag da) (se_instances s))) ->
  receive_all C e s ps = (s', out, rs) -> ~ In Panic rs ->
  wire_ok C (mkEncoded v (de_tag da) rcv m) /\
  exists a i' r, ready a /\ r <> Panic /\ rs = answered (length ps) r /\ s' = put s (de_tag da) i' /\
    inst_handle C (se_details s) e (set_assembler (entry (de_tag da) (se_instances s)) a)
      (mkEncoded v (de_tag da) rcv m) = (i', out, r).
Proof.
  intros T V SH DI LD EO LR L2 RC AL TP RE RA NP.
  assert (EN : enabled (se_details s)) by (destruct V as [-> | ->]; [now left|now right]).
  assert (RC' : rcv = 0 \/ rcv = de_tag (se_details s)) by (destruct RC as [->|(-> & _)]; auto).
  destruct (delivered_encoded C da e0 rcv v m ps s T V SH LD EO LR RC' EN TP RE) as (W & H). split; [assumption|].
  destruct (H e s' out rs RA NP) as (s1 & r & (D & O & (a & RA' & EA) & PU & _) & R2 & R3 & R4).
  rewrite encoded_addressed in R2; [|assumption|destruct LD; lia|now rewrite D|rewrite D; destruct RC as [->|]; auto].
  assert (R2' : on_entry s1 (de_tag da) (fun i => inst_handle C (se_details s1) e i (mkEncoded v (de_tag da) rcv m)) = (s', out, r)).
  { destruct V as [-> | ->]; destruct m; try exact R2; easy. }
  apply on_entry_ok in R2'; [|assumption]. destruct R2' as (i' & E & ->).
  exists a, i', r. rewrite EA, D in E. rewrite PU. auto.
Qed.

(* a D-H Key message: the exchange is taken over from instance 0 *)
Lemma arrives_dhkey da e0 rcv m ps s e s' out rs z our x :
  transported da e0 rcv V3 (MDHKey m) ps -> legal_details da -> env_ok e0 ->
  rcv = de_tag (se_details s) -> legal_details (se_details s) ->
  allowed (se_details s) V3 -> transportable ps ->
  ready (in_assembler (entry (de_tag da) (se_instances s))) -> sinv s ->
  get_inst 0 (se_instances s) = Some z -> in_ake z = AkeAwaitingDHKey our x ->
  receive_all C e s ps = (s', out, rs) -> ~ In Panic rs ->
  wire_ok C (mkEncoded V3 (de_tag da) rcv (MDHKey m)) /\
  exists a i' r, ready a /\ r <> Panic /\ rs = answered (length ps) r /\ s' = put s (de_tag da) i' /\
    inst_handle C (se_details s) e (set_ake (set_assembler (entry (de_tag da) (se_instances s)) a) (AkeAwaitingDHKey our x))
      (mkEncoded V3 (de_tag da) rcv (MDHKey m)) = (i', out, r).
Proof.
  intros T LD EO -> LS AL TP RE SI GZ AZ RA NP.
  assert (EN : enabled (se_details s)) by now left.
  assert (LR : SpecWire.legal_tag (de_tag (se_details s))) by (right; exact LS).
  destruct (delivered_encoded C da e0 _ V3 (MDHKey m) ps s T (or_introl eq_refl) I LD EO LR (or_intror eq_refl) EN TP RE) as (W & H).
  split; [assumption|].
  destruct (H e s' out rs RA NP) as (s1 & r & (D & O & (a & RA' & EA) & PU & _) & R2 & R3 & R4).
  destruct LD as [LD1 LD2]. destruct LS as [LS1 LS2].
  rewrite encoded_addressed in R2; [|now left|lia|now rewrite D|rewrite D; auto].
  cbn zeta iota beta in R2. rewrite O in R2 by lia. rewrite GZ in R2.
  unfold transfer_ake_context in R2. rewrite (sinv_get _ _ _ SI GZ), AZ in R2. cbn [N.eqb ake_transfer] in R2.
  apply on_entry_ok in R2; [|assumption]. destruct R2 as (i' & E & ->).
  exists a, i', r. rewrite EA, D in E. unfold adopt_ake_context in E. cbn [in_receiver set_assembler] in E.
  rewrite (sinv_entry _ _ SI) in E. assert (de_tag da =? 0 = false) as NZ by (apply N.eqb_neq; lia). rewrite NZ in E.
  rewrite PU. auto.
Qed.

Lemma secure3 d e i t m i' : secure C d e i t (MatAKE m) = Ok i' ->
  exists k, km_new C 1 (am_our_dh m) 1 (am_their_dh m) (ev_km0 e) (ev_km1 e) = Ok k /\
    i' = set_state i (PEnc3 (de_tag d) t k (smp_new (am_ssid m) (otr3_fingerprint C (am_their_dsa m)))).
Proof.
  unfold secure. intros H. apply bind_ok in H. destruct H as (s & P & H).
  assert (E : enc3_new C (de_tag d) t m (ev_km0 e) (ev_km1 e) = Ok s).
  { unfold p_secure in P. destruct (in_state i); congruence. }
  unfold enc3_new in E. apply bind_ok in E. destruct E as (k & K & E). injection E as <-.
  cbn [p_status status_eqb] in H. injection H as <-. eauto.
Qed.

Lemma answers_resting st m :
  match st with AkeAwaitingDHKey _ _ | AkeAwaitingRevealSig _ _ _ => False | _ => True end -> answers C st m.
Proof. destruct st; easy. Qed.

(* step 1: the query is answered with a D-H Commit message *)
Lemma query3_answered e s s1 out r : sinv s -> allowed (se_details s) V3 ->
  receive_all C e s [query_message V3] = (s1, out, r) -> ~ In Panic r ->
  exists z st m, get_inst 0 (se_instances s) = Some z /\ in_receiver z = 0 /\ r = [Ok UMNone] /\
    s1 = put s 0 (set_ake z st) /\ ake_initiate C (ev_dh e) (ev_r e) = Ok (st, m) /\
    transported (se_details s) e 0 V3 (MDHCommit m) out.
Proof.
  intros SI AL H NP. cbn [receive_all] in H. destruct (receive C e s (query_message V3)) as [[s2 o] r0] eqn:R.
  fin3 H. assert (NP0 : r0 <> Panic) by (intros ->; apply NP; now left).
  pose proof SI as [_ _ (z & GZ & _) _].
  assert (IR : in_receiver z = 0) by (eapply sinv_get; eassumption).
  unfold receive in R. rewrite (enabled_not_disabled (se_details s)) in R by now left.
  assert (match_fragment (query_message V3) = false) as NF by reflexivity. rewrite NF in R.
  unfold receive_message in R.
  assert (parse C (query_message V3) = Ok (MsgQuery [V3])) as PQ by reflexivity. rewrite PQ in R.
  cbn [allowed] in AL. unfold select_version in R. cbn [contains_version existsb version_eqb orb andb] in R. rewrite AL in R. cbn [andb] in R.
  unfold initiate, on_entry in R.
  assert (EZ : entry 0 (se_instances s) = z) by (unfold entry; now rewrite GZ). rewrite EZ in R.
  unfold inst_initiate in R. destruct (ake_initiate C (ev_dh e) (ev_r e)) as [[st m]|x|] eqn:AI.
  - destruct (injecting _ _ _ _) as [[i o1] y] eqn:IJ. apply injecting_inv in IJ.
    destruct IJ as [(E & -> & ->) | [(x & E & _) | (_ & ->)]]; [|now apply inject_no_err in E|fin3 R; congruence].
    fin3 R. apply inject_transported in E. rewrite IR in E. rewrite app_nil_r.
    exists z, st, m. auto 8.
  - exfalso. unfold ake_initiate, dh_generate in AI. destruct (ev_dh e =? 0); discriminate.
  - fin3 R. congruence.
Qed.

(* what both sides have after the exchange *)
Record secured3 (ka kb : dsa_keypair) (sa sb sa' sb' : session) : Prop := mkSecured3 {
  sc_inv_a : sinv sa'; sc_inv_b : sinv sb';
  sc_da : se_details sa' = se_details sa; sc_db : se_details sb' = se_details sb;
  sc_states : exists ia ib kma kmb ssid,
    get_inst (de_tag (se_details sb)) (se_instances sa') = Some ia /\
    get_inst (de_tag (se_details sa)) (se_instances sb') = Some ib /\
    ready (in_assembler ia) /\ ready (in_assembler ib) /\
    in_state ia = PEnc3 (de_tag (se_details sa)) (de_tag (se_details sb)) kma (smp_new ssid (otr3_fingerprint C (dsa_pk kb))) /\
    in_state ib = PEnc3 (de_tag (se_details sb)) (de_tag (se_details sa)) kmb (smp_new ssid (otr3_fingerprint C (dsa_pk ka))) /\
    start3 C (mkConv3 kma kmb [] []) }.

Lemma not_in_app {A} (x : A) l r : ~ In x (l ++ r) -> ~ In x l /\ ~ In x r.
Proof. rewrite in_app_iff. tauto. Qed.

Lemma sinv_receive_all e ps : forall s s' out rs, receive_all C e s ps = (s', out, rs) -> ~ In Panic rs -> sinv s ->
  sinv s' /\ se_details s' = se_details s.
Proof.
  induction ps as [|p ps IH]; intros s s' out rs H NP SI; cbn [receive_all] in H.
  - fin3 H. auto.
  - destruct (receive C e s p) as [[s1 o1] r1] eqn:R. destruct (receive_all C e s1 ps) as [[s2 o2] rs2] eqn:RA. fin3 H.
    assert (N1 : r1 <> Panic) by (intros ->; apply NP; now left).
    assert (K : call C (fun _ => e) s (OpReceive p) = (s1, o1, res_map AnMessage r1)) by (unfold call, answering; now rewrite R).
    apply sinv_call in K; [|now destruct r1|assumption]. destruct K as [SI1 D1].
    destruct (IH s1 s2 o2 rs2 RA) as [A B]; [intros X; apply NP; now right|assumption|]. split; [assumption|congruence].
Qed.

(* and neither waits for a message of the exchange any more *)
Lemma handshake3_full sa sb (x : exchange C sa sb) ka kb :
  sinv sa -> sinv sb -> legal_details (se_details sa) -> legal_details (se_details sb) ->
  resting sa (de_tag (se_details sb)) -> resting sb (de_tag (se_details sa)) ->
  preferred (se_details sa) V3 -> allowed (se_details sb) V3 ->
  dh_params_ok C -> dsa_key_ok C ka -> dsa_key_ok C kb ->
  ev_dsa (x_e3 x) = Some ka -> ev_dsa (x_e2 x) = Some kb -> length (ev_r (x_e0 x)) = 16%nat ->
  plain_run3 C x ->
  (resting (x_sa2 x) (de_tag (se_details sb)) /\ resting (x_sb3 x) (de_tag (se_details sa))) /\
  secured3 ka kb sa sb (x_sa2 x) (x_sb3 x) /\ x_p5 x = [] /\
  x_r1 x = [Ok UMNone] /\ x_r2 x = answered (length (x_p1 x)) (Ok UMNone) /\
  x_r3 x = answered (length (x_p2 x)) (Ok UMNone) /\
  x_r4 x = answered (length (x_p3 x)) (Ok (UMSessionStarted (de_tag (se_details sb)))) /\
  x_r5 x = answered (length (x_p4 x)) (Ok (UMSessionStarted (de_tag (se_details sa)))).
Proof.
  intros SA SB LA LB RSA RSB PF AB PO KA KB HA HB RL (P1 & P2 & U1 & U3 & U4).
  destruct x as [e0 e1 e2 e3 e4 sa1 sa2 sb1 sb2 sb3 p0 p1 p2 p3 p4 p5 r1 r2 r3 r4 r5 XQ X1 X2 X3 X4 X5 XA XC XE].
  cbn [x_e0 x_e1 x_e2 x_e3 x_e4 x_sa1 x_sa2 x_sb1 x_sb2 x_sb3 x_p0 x_p1 x_p2 x_p3 x_p4 x_p5 x_r1 x_r2 x_r3 x_r4 x_r5] in *.
  set (da := se_details sa) in *. set (db := se_details sb) in *.
  assert (AA : allowed da V3) by (destruct PF as [(_ & ?)|(_ & ? & _)]; [discriminate|assumption]).
  assert (p0 = [query_message V3]) as ->.
  { unfold ses_query in XQ. destruct (query_eq sa) as (v & PV & Q); [now left|]. fold da in PV. rewrite Q in XQ.
    apply pair3 in XQ. destruct XQ as (_ & <- & _). do 2 f_equal.
    destruct PF as [(? & ?)|(N4 & _ & _)]; [discriminate|]. destruct PV as [(? & _)|(_ & _ & ->)]; [contradiction|reflexivity]. }
  clear XQ. apply not_in_app in XA as (N1 & XA). apply not_in_app in XA as (N2 & XA). apply not_in_app in XA as (N3 & XA).
  apply not_in_app in XA as (N4 & N5).
  inversion XC as [|? ? T1 XC1]; subst. inversion XC1 as [|? ? T2 XC2]; subst. inversion XC2 as [|? ? T3 XC3]; subst.
  inversion XC3 as [|? ? T4 _]; subst. clear XC XC1 XC2 XC3.
  inversion XE as [|? ? E0 XE1]; subst. inversion XE1 as [|? ? E1 XE2]; subst. inversion XE2 as [|? ? E2 XE3]; subst.
  inversion XE3 as [|? ? E3 XE4]; subst. clear XE XE1 XE2 XE3 XE4.
  destruct RSA as (A1 & A2 & A3). destruct RSB as (B1 & B2 & B3).
  pose proof LA as [LA1 LA2]. pose proof LB as [LB1 LB2].
  (* 1 *)
  pose proof (sinv_receive_all _ _ _ _ _ _ X1 N1 SB) as (SB1 & DB1).
  apply query3_answered in X1; [|assumption|assumption|assumption].
  destruct X1 as (z & stb & commit & GZ & IZ & R1 & S1 & AI & TC). fold db in TC.
  assert (NX0 : ev_dh e0 <> 0).
  { intros Z. unfold ake_initiate, dh_generate in AI. rewrite Z in AI. discriminate. }
  (* 2 *)
  pose proof (sinv_receive_all _ _ _ _ _ _ X2 N2 SA) as (SA1 & DA1).
  apply (arrives_direct db e0 0 V3 (MDHCommit commit)) in X2;
    [|assumption|now left|exact I|exact I|assumption|assumption|now left|fold da; lia|auto|assumption|assumption|assumption|assumption].
  destruct X2 as (W1 & a1 & ia1 & y2 & RA1 & NP2 & R2 & S2 & H2). fold da in H2.
  assert (U1' := U1 _ (conj TC W1)). cbn [unexceptional] in U1'.
  set (ea := entry (de_tag db) (se_instances sa)) in *.
  assert (IE : in_receiver ea = de_tag db) by (now apply sinv_entry).
  assert (NX1 : ev_dh e1 <> 0).
  { intros Z. unfold inst_handle in H2. cbn [em_version em_message em_sender] in H2.
    cbn [in_ake set_assembler] in H2.
    assert (HC : snd (ake_handle_dhcommit C (in_ake ea) commit (ev_dh e1)) = Panic).
    { unfold ake_handle_dhcommit, dhcommit_from_initial, dh_generate. rewrite Z. cbn [N.eqb]. now destruct (in_ake ea). }
    destruct (ake_handle_dhcommit C (in_ake ea) commit (ev_dh e1)) as [st [?|?|]]; try discriminate.
    apply pair3 in H2. destruct H2 as (_ & _ & H2). congruence. }
  destruct (agreement C PO kb ka (ev_dh e0) (ev_r e0) (ev_dh e1) (ev_nonce e2) (ev_nonce e3) (in_ake ea) KB KA NX0 NX1 P1 P2)
    as (stb' & commit' & AI' & AG). rewrite AI in AI'. injection AI' as <- <-.
  destruct (AG U1' (answers_resting _ _ A2)) as (sta & key & HC & stb2 & reveal & HK & AG2). clear AG.
  unfold inst_handle in H2. cbn [em_version em_message em_sender in_ake set_assembler] in H2. rewrite HC in H2.
  apply injecting_inv in H2. destruct H2 as [(IJ2 & IA1 & Y2) | [(? & E & _) | (_ & ?)]]; [|now apply inject_no_err in E|congruence].
  apply inject_transported in IJ2. cbn [in_receiver set_assembler] in IJ2. rewrite IE in IJ2.
  (* 3 *)
  pose proof (sinv_receive_all _ _ _ _ _ _ X3 N3 SB1) as (SB2 & DB2). fold db in DB1.
  assert (AW : stb = AkeAwaitingDHKey (dh_new C (ev_dh e0)) (ev_r e0)).
  { unfold ake_initiate, dh_generate in AI. apply N.eqb_neq in NX0. rewrite NX0 in AI. cbn [bind] in AI. congruence. }
  assert (GZ1 : get_inst 0 (se_instances sb1) = Some (set_ake z stb)) by (rewrite S1; apply get_put_same).
  assert (EB : entry (de_tag da) (se_instances sb1) = entry (de_tag da) (se_instances sb)).
  { rewrite S1. unfold entry. rewrite get_put_other by lia. reflexivity. }
  apply (arrives_dhkey da e1 (de_tag db) key p2 sb1 e2 sb2 p3 r3 (set_ake z stb) (dh_new C (ev_dh e0)) (ev_r e0)) in X3;
    [|assumption|assumption|assumption|now rewrite DB1|now rewrite DB1|now rewrite DB1|assumption|now rewrite EB|assumption|assumption|assumption|assumption].
  destruct X3 as (_ & a2 & ib2 & y3 & RA2 & NP3 & R3 & S3 & H3). rewrite DB1, EB, <- AW in H3.
  set (eb := entry (de_tag da) (se_instances sb)) in *.
  assert (IEB : in_receiver eb = de_tag da) by (now apply sinv_entry).
  unfold inst_handle in H3. cbn [em_version em_message em_sender in_ake set_ake set_assembler in_assembler] in H3. rewrite HB, HK in H3.
  apply injecting_inv in H3. destruct H3 as [(IJ3 & IB2 & Y3) | [(? & E & _) | (_ & ?)]]; [|now apply inject_no_err in E|congruence].
  apply inject_transported in IJ3. cbn [in_receiver set_assembler set_ake] in IJ3. rewrite IEB in IJ3.
  (* 4 *)
  pose proof (sinv_receive_all _ _ _ _ _ _ X4 N4 SA1) as (SA2 & DA2). fold da in DA1.
  assert (EA1 : entry (de_tag db) (se_instances sa1) = ia1) by (rewrite S2; apply entry_put).
  assert (SHR : shaped C V3 (MRevealSig reveal)).
  { rewrite AW in HK. unfold ake_handle_dhkey in HK. destruct (negb _); [discriminate|]. unfold ake_prove in HK. 
    injection HK as _ <-. cbn [shaped rv_key rv_signature_mac]. split; [assumption|]. apply hmac160_length. }
  apply (arrives_direct db e2 (de_tag da) V3 (MRevealSig reveal)) in X4;
    [|assumption|now left|assumption|exact I|assumption|assumption|right; exact LA|rewrite DA1; lia|rewrite DA1; auto|now rewrite DA1|assumption
     |rewrite EA1, IA1; cbn [in_assembler set_ake set_assembler]; now apply cleanup_ready|assumption].
  destruct X4 as (W3 & a3 & ia3 & y4 & RA3 & NP4 & R4 & S4 & H4). rewrite DA1, EA1 in H4.
  assert (U3' := U3 _ (conj IJ3 W3)). cbn [unexceptional] in U3'.
  destruct (AG2 U3') as (ma & sg & HR & AG3). clear AG2.
  unfold inst_handle in H4. cbn [em_version em_message em_sender] in H4. cbn [in_ake set_assembler] in H4.
  assert (AK1 : in_ake ia1 = sta) by (rewrite IA1; reflexivity). rewrite AK1, HA, HR in H4.
  destruct (secure C da e3 _ (de_tag db) (MatAKE ma)) as [is4|?|] eqn:SC4; [| |apply pair3 in H4; destruct H4 as (_ & _ & H4); congruence].
  2:{ exfalso. unfold secure in SC4. apply (bind_no_err _ _ _) in SC4; [assumption| |].
      - intros y. unfold p_secure, enc3_new. cbn [in_state set_ake set_assembler].
        destruct (in_state ia1); try discriminate; apply bind_no_err; try discriminate; intros; unfold km_new, kr_new, pr_new, dh_generate; noerr.
      - intros s0. destruct (status_eqb _ _); discriminate. }
  apply injecting_inv in H4. destruct H4 as [(IJ4 & IA3 & Y4) | [(? & E & _) | (_ & ?)]]; [|now apply inject_no_err in E|congruence].
  apply inject_transported in IJ4. cbn [in_receiver set_assembler] in IJ4, Y4.
  assert (IR1 : in_receiver ia1 = de_tag db) by (rewrite IA1; exact IE). rewrite IR1 in IJ4, Y4.
  apply secure3 in SC4. destruct SC4 as (kma & KMA & ES4).
  (* 5 *)
  pose proof (sinv_receive_all _ _ _ _ _ _ X5 N5 SB2) as (SB3 & DB3). rewrite DB1 in DB2.
  assert (EB2 : entry (de_tag da) (se_instances sb2) = ib2) by (rewrite S3; apply entry_put).
  assert (SHS : shaped C V3 (MSignature sg)).
  { unfold ake_handle_reveal in HR. destruct sta; try discriminate. destruct (reveal_result _ _ _ _ _ _ _) as [p0|?|] eqn:RR; try discriminate.
    assert (p0 = (ma, sg)) as -> by congruence. unfold reveal_result in RR. repeat bind_inv RR. destruct p as [[pk kid] sgb]. repeat bind_inv RR.
    destruct (ake_prove _ _ _ _ _ _) eqn:APR. injection RR as _ <-. cbn [shaped sg_signature_mac].
    unfold ake_prove in APR. injection APR as _ <-. apply hmac160_length. }
  apply (arrives_direct da e3 (de_tag db) V3 (MSignature sg)) in X5;
    [|assumption|now left|assumption|exact I|assumption|assumption|right; exact LB|rewrite DB2; lia|rewrite DB2; auto|now rewrite DB2|assumption
     |rewrite EB2, IB2; cbn [in_assembler set_ake set_assembler]; now apply cleanup_ready|assumption].
  destruct X5 as (W4 & a4 & ib4 & y5 & RA4 & NP5 & R5 & S5 & H5). rewrite DB2, EB2 in H5.
  assert (U4' := U4 _ (conj IJ4 W4)). cbn [unexceptional] in U4'.
  destruct (AG3 U4') as (mb & HS & OB & OA & AGR). clear AG3.
  unfold inst_handle in H5. cbn [em_version em_message em_sender] in H5. cbn [in_ake set_assembler] in H5.
  assert (AK2 : in_ake ib2 = stb2) by (rewrite IB2; reflexivity). rewrite AK2, HS in H5.
  destruct (secure C db e4 _ (de_tag da) (MatAKE mb)) as [is5|?|] eqn:SC5; [| |apply pair3 in H5; destruct H5 as (_ & _ & H5); congruence].
  2:{ exfalso. unfold secure in SC5. apply (bind_no_err _ _ _) in SC5; [assumption| |].
      - intros y. unfold p_secure, enc3_new. cbn [in_state set_ake set_assembler].
        destruct (in_state ib2); try discriminate; apply bind_no_err; try discriminate; intros; unfold km_new, kr_new, pr_new, dh_generate; noerr.
      - intros s0. destruct (status_eqb _ _); discriminate. }
  assert (IR2 : in_receiver ib2 = de_tag da) by (rewrite IB2; exact IEB).
  apply pair3 in H5. destruct H5 as (IB4 & P5 & Y5). cbn [in_receiver set_assembler] in Y5. rewrite IR2 in Y5.
  apply secure3 in SC5. destruct SC5 as (kmb & KMB & ES5).
  split.
  { unfold resting. rewrite S4, S5, !entry_put, IA3, ES4, <- IB4, ES5.
    cbn [in_assembler in_ake in_dake set_ake set_assembler set_state].
    rewrite IA1, IB2. cbn [in_assembler in_ake in_dake set_ake set_assembler set_state].
    split; (split; [now apply cleanup_ready|split; [exact I|assumption]]). }
  split; [|repeat split; congruence].
  split; [assumption|assumption|fold da; congruence|fold db; congruence|].
  pose proof AGR as (SS & G1 & G2 & _ & TB & TA).
  exists ia3, ib4, kma, kmb, (am_ssid ma). rewrite <- TA, <- TB.
  fold da db. split; [rewrite S4; apply get_put_same|]. split; [rewrite S5; apply get_put_same|].
  split; [rewrite IA3, ES4; cbn [in_assembler set_ake set_assembler set_state]; now apply cleanup_ready|].
  split; [rewrite <- IB4, ES5; cbn [in_assembler set_ake set_assembler set_state]; now apply cleanup_ready|].
  split; [rewrite IA3, ES4; reflexivity|]. split; [rewrite <- IB4, ES5, <- SS; reflexivity|].
  exists (ev_dh e1), (ev_dh e0), (ev_km0 e3), (ev_km1 e3), (ev_km0 e4), (ev_km1 e4). cbn [cv_a cv_b cv_ab cv_ba].
  rewrite G2, OA, OB in KMA. rewrite G1, OA, OB in KMB. auto.
Qed.
Lemma handshake3 sa sb (x : exchange C sa sb) ka kb :
  sinv sa -> sinv sb -> legal_details (se_details sa) -> legal_details (se_details sb) ->
  resting sa (de_tag (se_details sb)) -> resting sb (de_tag (se_details sa)) ->
  preferred (se_details sa) V3 -> allowed (se_details sb) V3 ->
  dh_params_ok C -> dsa_key_ok C ka -> dsa_key_ok C kb ->
  ev_dsa (x_e3 x) = Some ka -> ev_dsa (x_e2 x) = Some kb -> length (ev_r (x_e0 x)) = 16%nat ->
  plain_run3 C x ->
  secured3 ka kb sa sb (x_sa2 x) (x_sb3 x) /\ x_p5 x = [] /\
  x_r1 x = [Ok UMNone] /\ x_r2 x = answered (length (x_p1 x)) (Ok UMNone) /\
  x_r3 x = answered (length (x_p2 x)) (Ok UMNone) /\
  x_r4 x = answered (length (x_p3 x)) (Ok (UMSessionStarted (de_tag (se_details sb)))) /\
  x_r5 x = answered (length (x_p4 x)) (Ok (UMSessionStarted (de_tag (se_details sa)))).
Proof. intros. apply (handshake3_full sa sb x ka kb); assumption. Qed.
End WithCrypto.
