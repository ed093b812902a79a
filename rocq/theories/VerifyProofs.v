(* OTRv3: the verification of a peer between two sessions, carried by the conversation of their key managers. *)
From Verif Require Import Base BaseLemmas Types Crypto CryptoProofs Encoding EncodingProofs ClientProfile Messages MessagesProofs Fragment
  KeyManager KeyManagerProofs DataV3 SpecData3 DataV3Proofs History3Proofs Conv3Proofs Data3Lemmas Ratchet DataV4 AKE DAKE SMP SMP4
  SpecSMP SMPSafeProofs
  Protocol Session SpecWire SpecSession SessionProofs SessionPartyProofs SessionInvProofs SessionSendProofs SessionRecvProofs SessionLemmas
  SpecNet NetProofs NetAKEProofs Net3Proofs SpecVerify.
From Coq Require Import Lia ZifyN ZifyNat.
Local Open Scope N_scope.

Lemma listed2 {A} (P : A -> Prop) a b : Forall P [a; b] -> P a /\ P b.
Proof. rewrite !Forall_forall. intros H. repeat split; apply H; cbn; auto. Qed.
Lemma listed3 {A} (P : A -> Prop) a b c : Forall P [a; b; c] -> P a /\ P b /\ P c.
Proof. rewrite !Forall_forall. intros H. repeat split; apply H; cbn; auto. Qed.
Lemma listed4 {A} (P : A -> Prop) a b c d : Forall P [a; b; c; d] -> P a /\ P b /\ P c /\ P d.
Proof. rewrite !Forall_forall. intros H. split; [|split; [|split]]; apply H; cbn; auto. Qed.
Lemma listed5 {A} (P : A -> Prop) a b c d e : Forall P [a; b; c; d; e] -> P a /\ P b /\ P c /\ P d /\ P e.
Proof. rewrite !Forall_forall. intros H. split; [|split; [|split; [|split]]]; apply H; cbn; auto 10. Qed.

(** ** Records *)

Lemma write_tlv_inv t w : write_tlv t = Ok w -> w = tlv_bytes t /\ N.of_nat (length (tlv_value t)) < 65536.
Proof.
  unfold write_tlv. destruct (N.ltb_spec (N.of_nat (length (tlv_value t))) 65536); [|discriminate]. intros [= <-]. auto.
Qed.
Lemma parse_record t : tlv_range t -> 2 <= tlv_type t -> parse_message (x00 :: tlv_bytes t) = Ok (Confidential [] [t]).
Proof.
  intros R T. pose proof (parse_text_records [] [t] (Forall_cons _ R (Forall_nil _))) as P.
  cbn [without_nul filter concat map app existsb] in P. rewrite app_nil_r in P. change (filter _ []) with (@nil byte) in P. cbn [app] in P. rewrite P.
  destruct (N.eqb_spec (tlv_type t) 1); [lia|]. cbn [orb].
  destruct (N.eqb_spec (tlv_type t) 0); [lia|]. reflexivity.
Qed.
Lemma smp3_type t : is_smp3_tlv t = true -> 2 <= tlv_type t < 65536.
Proof.
  unfold is_smp3_tlv, TLV_SMP_1, TLV_SMP_1Q, TLV_SMP_2, TLV_SMP_3, TLV_SMP_4, TLV_SMP_ABORT. cbn [existsb]. intros H.
  repeat (apply orb_true_iff in H; destruct H as [H|H]; [apply N.eqb_eq in H; lia|]). discriminate.
Qed.

Section WithCrypto.
Context (C : Crypto) (GO : dh_group_ok C).

Lemma P0 : c_dh_p C <> 0. Proof. destruct GO; lia. Qed.

(** ** The key managers of two users who take turns *)

Definition pairing3 (tx ty : N) (X Y : key_manager) : Prop :=
  wf3 X /\ wf3 Y /\ half C tx ty X Y [] /\ half C ty tx Y X [] /\ turn_inv X Y.

Lemma pair_round tx ty X Y ig text m X' rnd Y' r : pairing3 tx ty X Y ->
  encrypt3 C tx ty X ig text = Ok (m, X') ->
  decrypt3 C Y m (encode_authenticator_data tx ty m) rnd = (Y', r) -> r <> Panic ->
  r = Ok text /\ pairing3 ty tx Y' X'.
Proof.
  intros (WX & WY & HX & HY & TI) E D NP.
  pose proof (turn_step C P0 (public_nonzero C GO) _ _ _ _ _ _ _ _ _ _ _ WX WY HX HY TI E D NP) as [(got & ->) TI'].
  set (s0 := mkConv3 X Y [] []). set (s1 := mkConv3 X' Y [(m, text)] []). set (s2 := mkConv3 X' Y' [] []).
  assert (I0 : conv_inv C tx ty s0) by exact (conj WX (conj WY (conj HX HY))).
  assert (S1 : step3 C tx ty s0 (Sending true m) s1) by (eapply (s3_send_a C tx ty s0); exact E).
  assert (S2 : step3 C tx ty s1 (Delivered true m text got) s2) by (eapply (s3_deliver_a C tx ty s1); [reflexivity|exact D]).
  destruct (step_inv C P0 (public_nonzero C GO) _ _ _ _ _ I0 S1) as [I1 _].
  destruct (step_inv C P0 (public_nonzero C GO) _ _ _ _ _ I1 S2) as [(W1 & W2 & H1 & H2) [EX _]].
  split; [f_equal; eapply EX; reflexivity|]. exact (conj W2 (conj W1 (conj H2 (conj H1 TI')))).
Qed.

(** ** One side *)

(* the payloads are a data message for client t *)
Definition carries3 (d : details) (t : N) (ps : list bytes) (m : data3) : Prop :=
  transportable ps /\ shaped C V3 (MData m) /\ exists e, env_ok e /\ transported d e t V3 (MData m) ps.

Lemma start_sim3 d t s k smp e secret question s' ps r smp1 t1 : holds3 d t s k smp -> wf3 k -> env_ok e -> transportable ps ->
  start_smp C e s t secret question = (s', ps, r) -> r <> Panic ->
  smp_initiate C (ev_smp_host e) (ev_smp e) smp secret question = (smp1, Ok t1) -> tlv_type t1 < 65536 ->
  exists m k', r = Ok tt /\ tlv_range t1 /\ encrypt3 C (de_tag d) t k true (x00 :: tlv_bytes t1) = Ok (m, k') /\
    holds3 d t s' k' smp1 /\ carries3 d t ps m.
Proof.
  intros (SI & D & NK & i & G & RE & ST) W EO TP H NP SM TY.
  assert (SC : call C (fun _ => e) s (OpStartSmp t secret question) = (s', ps, match r with Ok _ => Ok AnDone | Err x => Err x | Panic => Panic end))
    by (unfold call, answering; rewrite H; now destruct r).
  apply sinv_call in SC; [|now destruct r|assumption]. destruct SC as [SI' D'].
  assert (RI : in_receiver i = t) by (exact (sinv_get _ _ _ SI G)).
  unfold start_smp, on_instance in H. rewrite G in H. unfold inst_start_smp in H. rewrite ST, SM in H. cbn [p_version] in H.
  unfold prepare_tlv in H. destruct (write_tlv t1) as [w|x|] eqn:WT; cbn [bind] in H.
  2: unfold write_tlv in WT; destruct (_ <? _); discriminate.
  2: apply SessionProofs.pair3 in H; destruct H as (_ & _ & <-); congruence.
  apply write_tlv_inv in WT. destruct WT as [-> WL]. cbn [p_prepare] in H.
  destruct (encrypt3 C (de_tag d) t k true (x00 :: tlv_bytes t1)) as [[m k']|x|] eqn:EN; cbn [bind] in H.
  2: now apply encrypt3_no_err in EN.
  2: apply SessionProofs.pair3 in H; destruct H as (_ & _ & <-); congruence.
  destruct (injecting _ _ _ _) as [[i' o'] r'] eqn:IN. apply injecting_inv in IN.
  destruct IN as [(IJ & -> & ->)|[(z & IJ & _)|(_ & ->)]]; [|now apply inject_no_err in IJ
    |apply SessionProofs.pair3 in H; destruct H as (_ & _ & <-); congruence].
  apply SessionProofs.pair3 in H. destruct H as (<- & <- & <-). apply inject_transported in IJ. rewrite RI, D in IJ.
  pose proof (encrypt3_shaped _ _ _ _ _ _ _ _ W NK EN) as (SH & NK' & IG).
  exists m, k'. split; [reflexivity|]. split; [split; assumption|]. split; [reflexivity|]. split.
  - split; [assumption|]. split; [congruence|]. split; [assumption|].
    exists (set_state i (PEnc3 (de_tag d) t k' smp1)). split; [apply get_put|]. split; [exact RE|reflexivity].
  - split; [assumption|]. split; [assumption|]. exists e. auto.
Qed.

Lemma handled_is h rnd c t c' r : smp_handle C h rnd c t = (c', Ok r) -> is_smp3_tlv t = true.
Proof. intros H. destruct (is_smp3_tlv t) eqn:E; [reflexivity|]. rewrite (handle_not_smp C) in H by exact E. discriminate. Qed.

Lemma record_sim3 d0 d t s k smp e ps m s' out rs :
  holds3 d t s k smp -> de_tag d0 = t -> allowed d V3 -> legal_details d -> legal_details d0 -> env_ok e ->
  carries3 d0 (de_tag d) ps m -> receive_all C e s ps = (s', out, rs) -> ~ In Panic rs ->
  exists k1 r1, decrypt3 C k m (encode_authenticator_data t (de_tag d) m) (ev_ack e) = (k1, r1) /\ r1 <> Panic /\
  forall rec smp' reply report, wf3 k1 -> r1 = Ok (x00 :: tlv_bytes rec) -> tlv_range rec ->
  smp_handle C (ev_smp_host e) (ev_smp e) smp rec = (smp', Ok reply) -> smp_report t (sm_status smp') = report -> report <> Panic ->
  rs = answered (length ps) report /\
  match reply with
  | None => out = [] /\ holds3 d t s' k1 smp'
  | Some t2 => transportable out -> tlv_type t2 < 65536 -> exists m2 k2, tlv_range t2 /\
      encrypt3 C (de_tag d) t k1 true (x00 :: tlv_bytes t2) = Ok (m2, k2) /\ holds3 d t s' k2 smp' /\ carries3 d t out m2
  end.
Proof.
  intros (SI & D & NK & i & G & RE & ST) <- AL LD LD0 EO (F2 & F3 & e0 & EO0 & F5) RA NP.
  pose proof (sinv_receive_all C _ _ _ _ _ _ RA NP SI) as (SI' & D').
  assert (EI : entry (de_tag d0) (se_instances s) = i) by (unfold entry; now rewrite G).
  assert (RI : in_receiver i = de_tag d0) by (exact (sinv_get _ _ _ SI G)).
  apply (arrives_direct C d0 e0 (de_tag d) V3 (MData m)) in RA;
    [|assumption|now left|assumption|exact I|assumption|assumption|right; exact LD|rewrite D; destruct LD; lia|rewrite D; auto|now rewrite D
     |assumption|now rewrite EI|assumption].
  destruct RA as (_ & a & i' & r & RA & NR & -> & -> & H). rewrite D, EI in H.
  unfold inst_handle in H. cbn [em_version em_message em_sender em_receiver] in H. unfold inst_data3 in H.
  cbn [in_state set_assembler set_state in_receiver] in H. rewrite ST in H. cbn [p_handle3] in H.
  destruct (decrypt3 C k m (encode_authenticator_data (de_tag d0) (de_tag d) m) (ev_ack e)) as [k1 r1] eqn:DE.
  exists k1, r1. split; [reflexivity|]. split.
  { intros ->. cbn [after_decrypt] in H. apply SessionProofs.pair3 in H. destruct H as (_ & _ & H). congruence. }
  intros rec smp' reply report W1 -> TR SM RP NRP. pose proof (handled_is _ _ _ _ _ _ SM) as IS. cbn [after_decrypt] in H.
  rewrite parse_record in H by (assumption || now apply smp3_type). cbn iota beta in H.
  cbn [existsb] in H. unfold single_smp in H. cbn [filter] in H. rewrite IS in H. cbn [orb] in H. rewrite SM in H.
  cbn [in_receiver set_assembler set_state] in H. rewrite RI, RP in H.
  assert (NK1 : narrow k1) by (eapply decrypt3_narrow; eassumption).
  unfold smp_finish in H. destruct reply as [t2|].
  - unfold prepare_tlv in H. cbn [in_state set_state] in H. destruct (write_tlv t2) as [w|x|] eqn:WT; cbn [bind] in H.
    2: unfold write_tlv in WT; destruct (_ <? _); discriminate.
    2: apply SessionProofs.pair3 in H; destruct H as (_ & _ & <-); congruence.
    apply write_tlv_inv in WT. destruct WT as [-> WL]. cbn [p_prepare] in H.
    destruct (encrypt3 C (de_tag d) (de_tag d0) k1 true (x00 :: tlv_bytes t2)) as [[m2 k2]|x|] eqn:EN; cbn [bind] in H.
    2: now apply encrypt3_no_err in EN.
    2: apply SessionProofs.pair3 in H; destruct H as (_ & _ & <-); congruence.
    cbn [p_version] in H.
    destruct (inject d e _ V3 _ _) as [o|x|] eqn:IJ; [|now apply inject_no_err in IJ
      |apply SessionProofs.pair3 in H; destruct H as (_ & _ & <-); congruence].
    apply inject_transported in IJ. cbn [in_receiver set_assembler set_state] in IJ. rewrite RI in IJ.
    pose proof (encrypt3_shaped _ _ _ _ _ _ _ _ W1 NK1 EN) as (SH & NK2 & IG).
    assert (E3 : (in_state i' = PEnc3 (de_tag d) (de_tag d0) k2 smp' /\ ready (in_assembler i')) /\ out = o /\ r = report)
      by (destruct report; [| |congruence]; apply SessionProofs.pair3 in H; destruct H as (<- & <- & <-); cbn [in_state in_assembler set_state set_assembler]; auto using cleanup_ready).
    destruct E3 as ([IS' RE'] & -> & ->). split; [reflexivity|]. intros TO TY.
    exists m2, k2. split; [split; assumption|]. split; [reflexivity|]. split.
    + split; [assumption|]. split; [congruence|]. split; [assumption|]. exists i'. rewrite get_put. auto.
    + split; [assumption|]. split; [assumption|]. exists e. auto.
  - assert (E3 : (in_state i' = PEnc3 (de_tag d) (de_tag d0) k1 smp' /\ ready (in_assembler i')) /\ out = [] /\ r = report)
      by (destruct report; [| |congruence]; apply SessionProofs.pair3 in H; destruct H as (<- & <- & <-); cbn [in_state in_assembler set_state set_assembler]; auto using cleanup_ready).
    destruct E3 as ([IS' RE'] & -> & ->). split; [reflexivity|]. split; [reflexivity|].
    split; [assumption|]. split; [congruence|]. split; [assumption|]. exists i'. rewrite get_put. auto.
Qed.

(** ** A verification *)

Definition verdict3 (st : smp_status) (t : N) : user_message := match st with SmpCompleted => UMSmpSucceeded t | _ => UMSmpFailed t end.
Lemma report3 st t : st = SmpCompleted \/ st = SmpAbortedFor SecretsDiffer -> smp_report t st = Ok (verdict3 st t).
Proof. now intros [->| ->]. Qed.
Lemma reach_idle ssid fp c : smp_group C -> smp_reach C ssid fp c -> (sm_status c <> SmpInProgress <-> SpecSMP.idle c).
Proof.
  intros SG R. destruct (reach_ok C SG ssid fp c R) as ([_ ST] & _). unfold SpecSMP.idle in *. destruct ST as [S1 S2].
  split; [intros N; destruct (sm_state c); [reflexivity|exfalso; apply N, S2; discriminate..]|intros I P; now apply S1 in P].
Qed.

(* session sx of dx is encrypted with client ty, waits for no message of a verification, and knows the key of the peer *)
Definition side3 (d : details) (t : N) (ssid : bytes) (k : dsa_keypair) (s : session) (X : key_manager) (x : smp_context) : Prop :=
  holds3 d t s X x /\ smp_reach C ssid (otr3_fingerprint C (dsa_pk k)) x /\ SpecSMP.idle x.

Lemma verify_sim3 dx dy ssid kx ky sx sy X Y x y secret question (v : verification C (de_tag dx) (de_tag dy) sx sy secret question) :
  smp_group C -> legal_details dx -> legal_details dy -> allowed dx V3 -> allowed dy V3 ->
  side3 dx (de_tag dy) ssid ky sx X x -> side3 dy (de_tag dx) ssid kx sy Y y -> pairing3 (de_tag dx) (de_tag dy) X Y ->
  ready3 (Some kx) (Some ky) v ->
  (exists X' Y' x' y', side3 dx (de_tag dy) ssid ky (v_sx3 v) X' x' /\ side3 dy (de_tag dx) ssid kx (v_sy2 v) Y' y' /\
     pairing3 (de_tag dx) (de_tag dy) X' Y') /\
  ((same3 v /\ told v UMSmpSucceeded) \/ (other3 v /\ told v UMSmpFailed)).
Proof.
  intros SG LX LY AX AY (HX & RX & IX) (HY & RY & IY) PR (NQ & AN & [KX KY] & LE).
  destruct (reach_ok C SG _ _ _ RX) as (_ & SX & FX). destruct (reach_ok C SG _ _ _ RY) as (_ & SY & FY).
  assert (STX : state_of sx (de_tag dy) = PEnc3 (de_tag dx) (de_tag dy) X x)
    by (destruct HX as (_ & _ & _ & i & G & _ & ST); unfold state_of; now rewrite G).
  assert (STY : state_of sy (de_tag dx) = PEnc3 (de_tag dy) (de_tag dx) Y y)
    by (destruct HY as (_ & _ & _ & i & G & _ & ST); unfold state_of; now rewrite G).
  assert (SSX : ses_ssid sx (de_tag dy) = Ok ssid)
    by (destruct HX as (_ & _ & _ & i & G & _ & ST); unfold ses_ssid, inst_ssid; now rewrite G, ST, SX).
  specialize (LE _ _ _ _ _ _ _ _ STX STY).
  destruct (answer v) as [reply|] eqn:EA; [|congruence].
  destruct v as [e1 e2 e3 e4 e5 sx1 sx2 sx3 sy1 sy2 p1 p2 p3 p4 p5 r1 r2 r3 r4 r5 S1 S2 S3 S4 S5 [NP1 NPS] CA EN].
  unfold told, same3, other3, number3, answer in *.
  cbn [v_e1 v_e2 v_e3 v_e4 v_e5 v_sx1 v_sx2 v_sx3 v_sy1 v_sy2 v_p1 v_p2 v_p3 v_p4 v_p5 v_r1 v_r2 v_r3 v_r4 v_r5] in *.
  cbv zeta in LE.
  set (hx := ev_smp_host e1) in *. set (hy := ev_smp_host e2) in *.
  apply not_in_app in NPS. destruct NPS as [NP2 NPS]. apply not_in_app in NPS. destruct NPS as [NP3 NPS].
  apply not_in_app in NPS. destruct NPS as [NP4 NP5].
  apply listed4 in CA; apply listed5 in EN; apply listed3 in KX; apply listed2 in KY.
  destruct CA as (C1 & C2 & C3 & C4). destruct EN as (O1 & O2 & O3 & O4 & O5).
  destruct KX as ((K1 & _) & (K3 & A3) & (K5 & A5)). destruct KY as ((K2 & _) & (K4 & A4)).
  assert (H3 : ev_smp_host e3 = hx) by (unfold hx, ev_smp_host; now rewrite K1, K3, A3).
  assert (H5 : ev_smp_host e5 = hx) by (unfold hx, ev_smp_host; now rewrite K1, K5, A5).
  assert (H4 : ev_smp_host e4 = hy) by (unfold hy, ev_smp_host; now rewrite K2, K4, A4).
  assert (HKX : sh_key hx = Some (dsa_pk kx)) by (unfold hx, ev_smp_host; cbn [sh_key]; now rewrite K1).
  assert (HKY : sh_key hy = Some (dsa_pk ky)) by (unfold hy, ev_smp_host; cbn [sh_key]; now rewrite K2).
  pose proof (SMPRunProofs.run C SG hx hy x y _ _ secret reply question (ev_smp e1) (ev_smp e3) (ev_smp e2) (ev_smp e4) (ev_smp e5)
                HKX HKY FX FY (eq_trans SX (eq_sym SY)) IX IY NQ EA) as RUN.
  cbv zeta in RUN. rewrite SY in RUN.
  set (n1 := smp_secret C _ _ ssid secret) in RUN. set (n2 := smp_secret C _ _ ssid reply) in RUN.
  assert (SN1 : secret_number C hx hy ssid secret = Some n1) by (unfold secret_number; now rewrite HKX, HKY).
  assert (SN2 : secret_number C hx hy ssid reply = Some n2) by (unfold secret_number; now rewrite HKX, HKY).
  match type of RUN with honest_run _ _ _ _ _ _ _ _ _ _ _ _ ?w => set (vd := w) in RUN end.
  assert (VD : vd = SmpCompleted \/ vd = SmpAbortedFor SecretsDiffer) by (unfold vd; destruct (_ =? _)%Z; auto).
  destruct RUN as (x1 & t1 & I1 & RUN). destruct (LE _ _ I1) as [L1 LE1].
  destruct (RUN L1) as (y1 & t2 & I2 & ST2 & RUN2). destruct (LE1 _ _ I2) as [L2 LE2].
  destruct (RUN2 L2) as (x2 & t3 & I3 & ST3 & RUN3). destruct (LE2 _ _ I3) as [L3 LE3].
  destruct (RUN3 L3) as (y2 & t4 & I4 & ST4 & RUN4). pose proof (LE3 _ _ I4) as L4.
  destruct (RUN4 L4) as (x3 & I5 & ST5).
  clear LE LE1 LE2 LE3 RUN RUN2 RUN3 RUN4 L1 L2 L3 L4.
  pose proof (handled_is _ _ _ _ _ _ I2) as Y1. pose proof (handled_is _ _ _ _ _ _ I3) as Y2.
  pose proof (handled_is _ _ _ _ _ _ I4) as Y3. pose proof (handled_is _ _ _ _ _ _ I5) as Y4.
  (* message 1 *)
  assert (WX : wf3 X) by apply PR. assert (WY : wf3 Y) by apply PR.
  destruct (start_sim3 _ _ _ _ _ _ _ _ _ _ _ _ _ HX WX O1 C1 S1 NP1 I1 (proj2 (smp3_type _ Y1))) as (m1 & X1 & -> & T1 & E1 & HX1 & F1).
  destruct (record_sim3 dx dy _ _ _ _ _ _ _ _ _ _ HY eq_refl AY LY LX O2 F1 S2 NP2) as (Y1' & q1 & D1 & N1 & AR1).
  destruct (pair_round _ _ _ _ _ _ _ _ _ _ _ PR E1 D1 N1) as [-> PR1].
  destruct (AR1 t1 y1 (Some t2) (Ok UMNone) (proj1 PR1) eq_refl T1 I2) as [-> B1]; [now rewrite ST2|discriminate|].
  destruct (B1 C2 (proj2 (smp3_type _ Y2))) as (m2 & Y2' & T2 & E2 & HY2 & F2). clear B1 AR1.
  (* message 2 *)
  rewrite <- H3 in I3.
  destruct (record_sim3 dy dx _ _ _ _ _ _ _ _ _ _ HX1 eq_refl AX LX LY O3 F2 S3 NP3) as (X2' & q2 & D2 & N2 & AR2).
  destruct (pair_round _ _ _ _ _ _ _ _ _ _ _ PR1 E2 D2 N2) as [-> PR2].
  destruct (AR2 t2 x2 (Some t3) (Ok UMNone) (proj1 PR2) eq_refl T2 I3) as [-> B2]; [now rewrite ST3|discriminate|].
  destruct (B2 C3 (proj2 (smp3_type _ Y3))) as (m3 & X3' & T3 & E3 & HX3 & F3). clear B2 AR2.
  (* message 3 *)
  rewrite <- H4 in I4.
  destruct (record_sim3 dx dy _ _ _ _ _ _ _ _ _ _ HY2 eq_refl AY LY LX O4 F3 S4 NP4) as (Y3' & q3 & D3 & N3 & AR3).
  destruct (pair_round _ _ _ _ _ _ _ _ _ _ _ PR2 E3 D3 N3) as [-> PR3].
  destruct (AR3 t3 y2 (Some t4) (Ok (verdict3 vd (de_tag dx))) (proj1 PR3) eq_refl T3 I4) as [-> B3];
    [rewrite ST4; now apply report3|discriminate|].
  destruct (B3 C4 (proj2 (smp3_type _ Y4))) as (m4 & Y4' & T4 & E4 & HY4 & F4). clear B3 AR3.
  (* message 4 *)
  rewrite <- H5 in I5.
  destruct (record_sim3 dy dx _ _ _ _ _ _ _ _ _ _ HX3 eq_refl AX LX LY O5 F4 S5 NP5) as (X4' & q4 & D4 & N4 & AR4).
  destruct (pair_round _ _ _ _ _ _ _ _ _ _ _ PR3 E4 D4 N4) as [-> PR4].
  destruct (AR4 t4 x3 None (Ok (verdict3 vd (de_tag dy))) (proj1 PR4) eq_refl T4 I5) as [-> [-> HX5]];
    [rewrite ST5; now apply report3|discriminate|]. clear AR4.
  assert (RX3 : smp_reach C ssid (otr3_fingerprint C (dsa_pk ky)) x3).
  { eapply reach_handle; [|exact I5|discriminate]. eapply reach_handle; [|exact I3|discriminate].
    eapply reach_initiate; [exact RX|exact I1|discriminate]. }
  assert (RY2 : smp_reach C ssid (otr3_fingerprint C (dsa_pk kx)) y2).
  { eapply reach_handle; [|exact I4|discriminate]. eapply reach_handle; [exact RY|exact I2|discriminate]. }
  split.
  - exists X4', Y4', x3, y2. split; [|split; [|exact PR4]].
    + split; [assumption|]. split; [assumption|]. apply (reach_idle _ _ _ SG RX3). rewrite ST5. now destruct VD as [-> | ->].
    + split; [assumption|]. split; [assumption|]. apply (reach_idle _ _ _ SG RY2). rewrite ST4. now destruct VD as [-> | ->].
  - rewrite SSX, EA.
    assert (Q0 : dh_q C <> 0) by (intros Q; destruct SG as (_ & PQ & _); rewrite Q in PQ; now apply Znumtheory.not_prime_0 in PQ).
    assert (ZN : vd = if n1 mod dh_q C =? n2 mod dh_q C then SmpCompleted else SmpAbortedFor SecretsDiffer).
    { unfold vd. rewrite <- !N2Z.inj_mod. destruct (Z.eqb_spec (Z.of_N (n1 mod dh_q C)) (Z.of_N (n2 mod dh_q C))) as [E|E].
      - apply N2Z.inj in E. now rewrite E, N.eqb_refl.
      - destruct (N.eqb_spec (n1 mod dh_q C) (n2 mod dh_q C)); [congruence|reflexivity]. }
    assert (EX1 : exists s0, Ok ssid = Ok s0 /\ secret_number C hx hy s0 secret = Some n1) by (exists ssid; auto).
    assert (EX2 : exists s0, Ok ssid = Ok s0 /\ secret_number C hx hy s0 reply = Some n2) by (exists ssid; auto).
    destruct (N.eqb_spec (n1 mod dh_q C) (n2 mod dh_q C)) as [E|E]; rewrite ZN; [left|right];
      (split; [exists reply, n1, n2; auto|auto 10]).
Qed.

(** ** A conversation with verifications *)

Definition course_inv3 (da db : details) (ssid : bytes) (ka kb : dsa_keypair) (a : bool) (l : link) : Prop :=
  li_ab l = [] /\ li_ba l = [] /\
  exists A B x y, side3 da (de_tag db) ssid kb (li_a l) A x /\ side3 db (de_tag da) ssid ka (li_b l) B y /\
    if a then pairing3 (de_tag da) (de_tag db) A B else pairing3 (de_tag db) (de_tag da) B A.

Lemma course_turn3 da db ssid ka kb a l text l1 text' rs out l2 :
  legal_details da -> legal_details db -> allowed da V3 -> allowed db V3 -> course_inv3 da db ssid ka kb a l ->
  net_step C (de_tag da) (de_tag db) l (Sends a text) l1 -> net_step C (de_tag da) (de_tag db) l1 (Arrives a text' rs out) l2 ->
  text' = text /\ shown (if a then de_tag da else de_tag db) text rs out /\ course_inv3 da db ssid ka kb (negb a) l2.
Proof.
  intros LA LB AA AB (QA & QB & A & B & x & y & (HA & RA & IA) & (HB & RB & IB) & PR) S1 S2. destruct a; cbn [negb].
  - inversion S1 as [? e t s ps HS EO TP E1 E2 E3| | | | | | |]; subst.
    inversion S2 as [| | | |? e2 ps2 t2 r s2 o2 rs2 Q RC NP E1 E2 E3| | |]; subst. cbn [li_ab li_ba li_a li_b] in *.
    rewrite QA in Q. cbn [app] in Q. injection Q as <- <- <-.
    destruct (send_sim3 _ _ _ _ _ _ _ _ _ _ HA (proj1 PR) AA EO TP HS) as (m & A' & EN & HA' & FL).
    destruct (arrive_sim3 C da db _ _ _ _ _ _ _ _ _ _ _ HB eq_refl AB LB LA FL RC NP) as (B' & q & DE & NQ & AR).
    destruct (pair_round _ _ _ _ _ _ _ _ _ _ _ PR EN DE NQ) as [-> PR']. destruct (AR eq_refl) as [HB' SH].
    split; [reflexivity|]. split; [assumption|]. split; [reflexivity|]. split; [assumption|]. exists A', B', x, y.
    split; [exact (conj HA' (conj RA IA))|]. split; [exact (conj HB' (conj RB IB))|assumption].
  - inversion S1 as [|? e t s ps HS EO TP E1 E2 E3| | | | | |]; subst.
    inversion S2 as [| | | | |? e2 ps2 t2 r s2 o2 rs2 Q RC NP E1 E2 E3| |]; subst. cbn [li_ab li_ba li_a li_b] in *.
    rewrite QB in Q. cbn [app] in Q. injection Q as <- <- <-.
    destruct (send_sim3 _ _ _ _ _ _ _ _ _ _ HB (proj1 PR) AB EO TP HS) as (m & B' & EN & HB' & FL).
    destruct (arrive_sim3 C db da _ _ _ _ _ _ _ _ _ _ _ HA eq_refl AA LA LB FL RC NP) as (A' & q & DE & NQ & AR).
    destruct (pair_round _ _ _ _ _ _ _ _ _ _ _ PR EN DE NQ) as [-> PR']. destruct (AR eq_refl) as [HA' SH].
    split; [reflexivity|]. split; [assumption|]. split; [assumption|]. split; [reflexivity|]. exists A', B', x, y.
    split; [exact (conj HA' (conj RA IA))|]. split; [exact (conj HB' (conj RB IB))|assumption].
Qed.

Lemma course_other3 da db ssid ka kb a l b l1 : course_inv3 da db ssid ka kb a l ->
  net_step C (de_tag da) (de_tag db) l (Elsewhere b) l1 -> course_inv3 da db ssid ka kb a l1.
Proof.
  intros (QA & QB & A & B & x & y & (HA & RA & IA) & (HB & RB & IB) & PR) S.
  inversion S as [| | | | | |? es o s out r K NP GI|? es o s out r K NP GI]; subst; split; try assumption; split; try assumption;
    exists A, B, x, y; (split; [|split; [|assumption]]); cbn [li_a li_b]; (split; [|split; assumption]);
    assumption || (eapply other_sim3; eassumption).
Qed.

Lemma course_verify_a3 da db ssid ka kb l secret question (v : verification C (de_tag da) (de_tag db) (li_a l) (li_b l) secret question) :
  smp_group C -> legal_details da -> legal_details db -> allowed da V3 -> allowed db V3 -> course_inv3 da db ssid ka kb true l ->
  ready3 (Some ka) (Some kb) v ->
  course_inv3 da db ssid ka kb true (mkLink (v_sx3 v) (v_sy2 v) (li_ab l) (li_ba l)) /\
  ((same3 v /\ told v UMSmpSucceeded) \/ (other3 v /\ told v UMSmpFailed)).
Proof.
  intros SG LA LB AA AB (QA & QB & A & B & x & y & SA & SB & PR) RD.
  destruct (verify_sim3 _ _ _ _ _ _ _ _ _ _ _ _ _ v SG LA LB AA AB SA SB PR RD) as ((A' & B' & x' & y' & SA' & SB' & PR') & R).
  split; [|exact R]. split; [assumption|]. split; [assumption|]. exists A', B', x', y'. auto.
Qed.
Lemma course_verify_b3 da db ssid ka kb l secret question (v : verification C (de_tag db) (de_tag da) (li_b l) (li_a l) secret question) :
  smp_group C -> legal_details da -> legal_details db -> allowed da V3 -> allowed db V3 -> course_inv3 da db ssid ka kb false l ->
  ready3 (Some kb) (Some ka) v ->
  course_inv3 da db ssid ka kb false (mkLink (v_sy2 v) (v_sx3 v) (li_ab l) (li_ba l)) /\
  ((same3 v /\ told v UMSmpSucceeded) \/ (other3 v /\ told v UMSmpFailed)).
Proof.
  intros SG LA LB AA AB (QA & QB & A & B & x & y & SA & SB & PR) RD.
  destruct (verify_sim3 _ _ _ _ _ _ _ _ _ _ _ _ _ v SG LB LA AB AA SB SA PR RD) as ((B' & A' & y' & x' & SB' & SA' & PR') & R).
  split; [|exact R]. split; [assumption|]. split; [assumption|]. exists A', B', x', y'. auto.
Qed.

Lemma start_pairing tx ty s : start3 C s -> pairing3 tx ty (cv_a s) (cv_b s) /\ pairing3 ty tx (cv_b s) (cv_a s).
Proof.
  intros S. pose proof (start_inv C P0 (public_nonzero C GO) tx ty s S) as (WA & WB & HA & HB).
  destruct S as (xa & xb & ra0 & ra1 & rb0 & rb1 & EA & EB & Q1 & Q2). rewrite Q1 in HA. rewrite Q2 in HB.
  apply km_new_state in EA. apply km_new_state in EB.
  destruct EA as (A1 & A2 & _ & _ & _ & _ & A3). destruct EB as (B1 & B2 & _ & _ & _ & _ & B3).
  split; (split; [assumption|]; split; [assumption|]; split; [assumption|]; split; [assumption|]);
    unfold turn_inv; rewrite A3, B3, ctr_initial; [rewrite A1, B2|rewrite A2, B1]; auto.
Qed.
End WithCrypto.
