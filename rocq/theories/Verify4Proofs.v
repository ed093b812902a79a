(* OTRv4: the verification of a peer between two sessions, carried by the conversation of their ratchets. *)
From Coq Require Import Lia ZifyN ZifyNat.
From Verif Require Import Base BaseLemmas Types Crypto CryptoProofs Encoding EncodingProofs ClientProfile Messages MessagesProofs Fragment
  KeyManager DataV3 Ratchet DataV4 SpecCurve EdGroup SpecData4 DataV4Proofs History4Proofs AKE DAKE SMP SMP4
  SpecSMP4 SMP4Proofs Conv4Proofs
  Protocol Session SpecWire SpecSession SessionProofs SessionPartyProofs SessionInvProofs SessionSendProofs SessionRecvProofs SessionLemmas
  SpecNet NetProofs NetAKEProofs NetDAKEProofs Net3Proofs Net4Proofs SpecVerify VerifyProofs.
Local Open Scope N_scope.

Lemma smp4_type t : is_smp4_tlv t = true -> 2 <= tlv_type t < 65536.
Proof.
  unfold is_smp4_tlv, TLV_SMP_1, TLV_SMP_2, TLV_SMP_3, TLV_SMP_4, TLV_SMP_ABORT. cbn [existsb]. intros H.
  repeat (apply orb_true_iff in H; destruct H as [H|H]; [apply N.eqb_eq in H; lia|]). discriminate.
Qed.

Section WithCrypto.
Context (C : Crypto) (G : groups_ok4 C) (EC : SpecNet.encodable C).

(** ** The ratchets when one user speaks at a time *)

Definition pairing4 (sx sy : N) (x y : double_ratchet) : Prop := inv4 C sx sy x y [] [] /\ has_floor C x y.

Lemma pair_round4 sx sy x y ig text rnd m x' now y' r : pairing4 sx sy x y ->
  encrypt4 C sx sy x ig text [] rnd = Ok (m, x') ->
  decrypt4 C y m (encode_authenticator_data4 sx sy m) now = (y', r) -> r <> Panic ->
  (r = Ok text /\ pairing4 sx sy x' y' /\ pairing4 sy sx y' x') \/
  (y' = y /\ (exists e, r = Err e) /\ d4_dh m = Some (mx_public_dh (dr_shared y)) /\ pairing4 sx sy x' y).
Proof.
  intros [IV FL] E D NP. destruct (floor_send C G _ _ _ _ _ _ _ _ _ now IV FL E) as (FL' & IV' & CA).
  pose proof (last_index C _ _ _ _ _ _ _ _ E) as LI.
  destruct r as [got|e|]; [left|right|congruence].
  - destruct (take4 C G _ _ _ _ _ _ _ _ _ _ _ IV' D) as [_ ->].
    destruct (floor_take C G _ _ _ _ _ _ _ _ _ IV' FL' LI D) as (IV2 & F1 & F2).
    split; [reflexivity|]. split; [split; assumption|]. split; [now apply inv4_sym|assumption].
  - assert (YY : y' = y).
    { unfold decrypt4 in D. destruct (let* s := _ in _) as [[]| |]; congruence. }
    split; [assumption|]. split; [eauto|]. split; [|split; [exact (drop4 C _ _ _ _ _ _ _ IV')|assumption]].
    destruct CA as [(z & CA)|CA]; [rewrite CA in D; discriminate|assumption].
Qed.
Lemma pair_lost4 sx sy x y ig text rnd m x' : pairing4 sx sy x y -> encrypt4 C sx sy x ig text [] rnd = Ok (m, x') -> pairing4 sx sy x' y.
Proof.
  intros [IV FL] E. destruct (floor_send C G _ _ _ _ _ _ _ _ _ 0 IV FL E) as (FL' & IV' & _).
  split; [exact (drop4 C _ _ _ _ _ _ _ IV')|assumption].
Qed.
Lemma pairing_own sx sy x y ig text rnd m x' : pairing4 sx sy x y -> encrypt4 C sx sy x ig text [] rnd = Ok (m, x') -> own_keys C x'.
Proof. intros [IV _] E. pose proof (send4 C _ _ _ _ _ _ _ _ _ _ _ IV E) as X. apply X. Qed.
Lemma pairing_small sx sy x y : pairing4 sx sy x y -> Conv4Proofs.small x /\ Conv4Proofs.small y.
Proof. intros [IV _]. split; apply IV. Qed.

(** ** One side *)

Definition carries4 (d : details) (t : N) (ps : list bytes) (m : data4) : Prop :=
  transportable ps /\ shaped C V4 (MData4 m) /\ data4_validate C m = Ok tt /\
  exists e, env_ok e /\ transported d e t V4 (MData4 m) ps.

Lemma start_sim4 d t s k smp e secret question s' ps r smp1 t1 : holds4 d t s k smp -> Conv4Proofs.small k ->
  (forall ig text m k', encrypt4 C (de_tag d) t k ig text [] (ev_send e) = Ok (m, k') -> own_keys C k') ->
  env_ok e -> transportable ps ->
  start_smp C e s t secret question = (s', ps, r) -> r <> Panic ->
  smp4_initiate C (ev_smp4 e) smp secret question = (smp1, Ok t1) -> tlv_type t1 < 65536 ->
  exists m k', r = Ok tt /\ tlv_range t1 /\ encrypt4 C (de_tag d) t k true (x00 :: tlv_bytes t1) [] (ev_send e) = Ok (m, k') /\
    holds4 d t s' k' smp1 /\ carries4 d t ps m.
Proof.
  intros (SI & D & NK & i & GI & RE & ST) SMA OWN EO TP H NP SM TY.
  assert (SC : call C (fun _ => e) s (OpStartSmp t secret question) = (s', ps, match r with Ok _ => Ok AnDone | Err x => Err x | Panic => Panic end))
    by (unfold call, answering; rewrite H; now destruct r).
  apply sinv_call in SC; [|now destruct r|assumption]. destruct SC as [SI' D'].
  assert (RI : in_receiver i = t) by (exact (sinv_get _ _ _ SI GI)).
  unfold start_smp, on_instance in H. rewrite GI in H. unfold inst_start_smp in H. rewrite ST, SM in H. cbn [p_version] in H.
  unfold prepare_tlv in H. destruct (write_tlv t1) as [w|x|] eqn:WT; cbn [bind] in H.
  2: unfold write_tlv in WT; destruct (_ <? _); discriminate.
  2: apply SessionProofs.pair3 in H; destruct H as (_ & _ & <-); congruence.
  apply write_tlv_inv in WT. destruct WT as [-> WL]. cbn [p_prepare] in H.
  destruct (encrypt4 C (de_tag d) t k true (x00 :: tlv_bytes t1) [] (ev_send e)) as [[m k']|x|] eqn:EN; cbn [bind] in H.
  2: now apply encrypt4_no_err in EN.
  2: apply SessionProofs.pair3 in H; destruct H as (_ & _ & <-); congruence.
  destruct (injecting _ _ _ _) as [[i' o'] r'] eqn:IN. apply injecting_inv in IN.
  destruct IN as [(IJ & -> & ->)|[(z & IJ & _)|(_ & ->)]]; [|now apply inject_no_err in IJ
    |apply SessionProofs.pair3 in H; destruct H as (_ & _ & <-); congruence].
  apply SessionProofs.pair3 in H. destruct H as (<- & <- & <-). apply inject_transported in IJ. rewrite RI, D in IJ.
  pose proof (encrypt4_shaped C G EC _ _ _ _ _ _ _ _ SMA NK (OWN _ _ _ _ EN) EN) as (SH & VA & NK' & IG).
  exists m, k'. split; [reflexivity|]. split; [split; assumption|]. split; [reflexivity|]. split.
  - split; [assumption|]. split; [congruence|]. split; [assumption|].
    exists (set_state i (PEnc4 (de_tag d) t k' smp1)). split; [apply get_put|]. split; [exact RE|reflexivity].
  - split; [assumption|]. split; [assumption|]. split; [assumption|]. exists e. auto.
Qed.

Lemma record_sim4 d0 d t s k smp e ps m s' out rs :
  holds4 d t s k smp -> de_tag d0 = t -> allowed d V4 -> legal_details d -> legal_details d0 -> env_ok e ->
  carries4 d0 (de_tag d) ps m -> receive_all C e s ps = (s', out, rs) -> ~ In Panic rs ->
  (d4_dh m = Some (mx_public_dh (dr_shared k)) -> repeats_key C s t ps) /\
  exists k1 r1, decrypt4 C k m (encode_authenticator_data4 t (de_tag d) m) (ev_now e) = (k1, r1) /\ r1 <> Panic /\
  forall rec smp' reply report, Conv4Proofs.small k1 ->
  (forall ig text m k', encrypt4 C (de_tag d) t k1 ig text [] (ev_send e) = Ok (m, k') -> own_keys C k') ->
  r1 = Ok (x00 :: tlv_bytes rec) -> tlv_range rec -> is_smp4_tlv rec = true ->
  smp4_handle C (ev_answer e) (ev_smp4 e) smp rec = (smp', Ok reply) -> smp4_report t (s4_status smp') = report -> report <> Panic ->
  rs = answered (length ps) report /\
  match reply with
  | None => out = [] /\ holds4 d t s' k1 smp'
  | Some t2 => transportable out -> tlv_type t2 < 65536 -> exists m2 k2, tlv_range t2 /\
      encrypt4 C (de_tag d) t k1 true (x00 :: tlv_bytes t2) [] (ev_send e) = Ok (m2, k2) /\ holds4 d t s' k2 smp' /\ carries4 d t out m2
  end.
Proof.
  intros (SI & D & NK & i & GI & RE & ST) <- AL LD LD0 EO (F2 & F3 & FV & e0 & EO0 & F5) RA NP.
  pose proof (sinv_receive_all C _ _ _ _ _ _ RA NP SI) as (SI' & D').
  assert (EI : entry (de_tag d0) (se_instances s) = i) by (unfold entry; now rewrite GI).
  assert (RI : in_receiver i = de_tag d0) by (exact (sinv_get _ _ _ SI GI)).
  apply (arrives_direct C d0 e0 (de_tag d) V4 (MData4 m)) in RA;
    [|assumption|now right|assumption|exact I|assumption|assumption|right; exact LD|rewrite D; destruct LD; lia|rewrite D; auto|now rewrite D
     |assumption|now rewrite EI|assumption].
  destruct RA as (W & a & i' & r & RA & NR & -> & -> & H). rewrite D, EI in H.
  split.
  { intros DH. exists d0, e0, m, (mx_public_dh (dr_shared k)), (de_tag d), (de_tag d0), k, smp. rewrite D.
    split; [split; assumption|]. split; [assumption|]. split; [|reflexivity]. unfold state_of. now rewrite GI. }
  unfold inst_handle in H. cbn [em_version em_message em_sender em_receiver] in H. unfold inst_data4 in H. rewrite FV in H.
  cbn [in_state set_assembler set_state in_receiver] in H. rewrite ST in H. cbn [p_handle4] in H.
  destruct (decrypt4 C k m (encode_authenticator_data4 (de_tag d0) (de_tag d) m) (ev_now e)) as [k1 r1] eqn:DE.
  exists k1, r1. split; [reflexivity|]. split.
  { intros ->. cbn [after_decrypt] in H. apply SessionProofs.pair3 in H. destruct H as (_ & _ & H). congruence. }
  intros rec smp' reply report SMA OWN -> TR IS SM RP NRP. cbn [after_decrypt] in H.
  rewrite parse_record in H by (assumption || now apply smp4_type). cbn iota beta in H.
  cbn [existsb] in H. unfold single_smp in H. cbn [filter] in H. rewrite IS in H. cbn [orb] in H. rewrite SM in H.
  cbn [in_receiver set_assembler set_state] in H. rewrite RI, RP in H.
  assert (NK1 : dr_pn k1 < 4294967296) by (rewrite (decrypt4_pn C _ _ _ _ _ _ DE); exact NK).
  unfold smp_finish in H. destruct reply as [t2|].
  - unfold prepare_tlv in H. cbn [in_state set_state] in H. destruct (write_tlv t2) as [w|x|] eqn:WT; cbn [bind] in H.
    2: unfold write_tlv in WT; destruct (_ <? _); discriminate.
    2: apply SessionProofs.pair3 in H; destruct H as (_ & _ & <-); congruence.
    apply write_tlv_inv in WT. destruct WT as [-> WL]. cbn [p_prepare] in H.
    destruct (encrypt4 C (de_tag d) (de_tag d0) k1 true (x00 :: tlv_bytes t2) [] (ev_send e)) as [[m2 k2]|x|] eqn:EN; cbn [bind] in H.
    2: now apply encrypt4_no_err in EN.
    2: apply SessionProofs.pair3 in H; destruct H as (_ & _ & <-); congruence.
    cbn [p_version] in H.
    destruct (inject d e _ V4 _ _) as [o|x|] eqn:IJ; [|now apply inject_no_err in IJ
      |apply SessionProofs.pair3 in H; destruct H as (_ & _ & <-); congruence].
    apply inject_transported in IJ. cbn [in_receiver set_assembler set_state] in IJ. rewrite RI in IJ.
    pose proof (encrypt4_shaped C G EC _ _ _ _ _ _ _ _ SMA NK1 (OWN _ _ _ _ EN) EN) as (SH & VA & NK2 & IG).
    assert (E3 : (in_state i' = PEnc4 (de_tag d) (de_tag d0) k2 smp' /\ ready (in_assembler i')) /\ out = o /\ r = report)
      by (destruct report; [| |congruence]; apply SessionProofs.pair3 in H; destruct H as (<- & <- & <-); auto).
    destruct E3 as ([IS' RE'] & -> & ->). split; [reflexivity|]. intros TO TY.
    exists m2, k2. split; [split; assumption|]. split; [reflexivity|]. split.
    + split; [assumption|]. split; [congruence|]. split; [assumption|]. exists i'. rewrite get_put. auto.
    + split; [assumption|]. split; [assumption|]. split; [assumption|]. exists e. auto.
  - assert (E3 : (in_state i' = PEnc4 (de_tag d) (de_tag d0) k1 smp' /\ ready (in_assembler i')) /\ out = [] /\ r = report)
      by (destruct report; [| |congruence]; apply SessionProofs.pair3 in H; destruct H as (<- & <- & <-); auto).
    destruct E3 as ([IS' RE'] & -> & ->). split; [reflexivity|]. split; [reflexivity|].
    split; [assumption|]. split; [congruence|]. split; [assumption|]. exists i'. rewrite get_put. auto.
Qed.

(** ** A verification *)

Definition verdict4 (same : bool) (t : N) : user_message := if same then UMSmpSucceeded t else UMSmpFailed t.

Definition side4 (d : details) (t : N) (us them ssid : bytes) (s : session) (X : double_ratchet) (x : smp4_context) : Prop :=
  holds4 d t s X x /\ idle4 x /\ s4_status x <> S4InProgress /\ s4_us x = us /\ s4_them x = them /\ s4_ssid x = ssid.

Lemma secret_nonneg us them ssid secret n : smp4_secret C us them ssid secret = Ok n -> (0 <= n)%Z.
Proof.
  intros X. unfold smp4_secret in X. apply bind_ok in X. destruct X as (dg & _ & X).
  replace n with (Z.of_N (le_val dg)) by congruence. apply N2Z.is_nonneg.
Qed.

Lemma verify_sim4 dx dy us them ssid sx sy X Y x y secret question (v : verification C (de_tag dx) (de_tag dy) sx sy secret question) :
  smp4_group C -> legal_details dx -> legal_details dy -> allowed dx V4 -> allowed dy V4 ->
  side4 dx (de_tag dy) us them ssid sx X x -> side4 dy (de_tag dx) them us ssid sy Y y -> pairing4 (de_tag dx) (de_tag dy) X Y ->
  ready4 v ->
  (exists X' Y' x' y', side4 dx (de_tag dy) us them ssid (v_sx3 v) X' x' /\ side4 dy (de_tag dx) them us ssid (v_sy2 v) Y' y' /\
     pairing4 (de_tag dx) (de_tag dy) X' Y' /\ pairing4 (de_tag dy) (de_tag dx) Y' X') /\
  ((same4 v /\ told v UMSmpSucceeded) \/ (other4 v /\ told v UMSmpFailed)).
Proof.
  intros SG LX LY AX AY (HX & IX & PX & UX & TX & SX) (HY & IY & PY & UY & TY & SY) PR
    ((reply & n & m & EA & NN & NM & US) & RK1 & RK2 & RK3 & RK4).
  assert (STX : state_of sx (de_tag dy) = PEnc4 (de_tag dx) (de_tag dy) X x)
    by (destruct HX as (_ & _ & _ & i & GI & _ & ST); unfold state_of; now rewrite GI).
  assert (SAME : exists same : bool, (same = true <-> (c_ed_q C | n - m)%Z) /\
            (same = true -> (n mod c_ed_q C = m mod c_ed_q C)%Z) /\ (same = false -> (n mod c_ed_q C <> m mod c_ed_q C)%Z)).
  { assert (Q : (0 < c_ed_q C)%Z) by (destruct SG as (_ & _ & _ & _ & Q & _); lia).
    assert (EQ : (n mod c_ed_q C = m mod c_ed_q C)%Z <-> (c_ed_q C | n - m)%Z).
    { split; intros E.
      - apply Z.mod_divide; [lia|]. rewrite Zminus_mod, E, Z.sub_diag. apply Z.mod_0_l. lia.
      - destruct E as [k K]. replace n with (m + k * c_ed_q C)%Z by lia. apply Z_mod_plus_full. }
    exists (n mod c_ed_q C =? m mod c_ed_q C)%Z. rewrite <- EQ, Z.eqb_eq. split; [reflexivity|]. split; [auto|].
    intros E. now apply Z.eqb_neq. }
  destruct SAME as (same & SD & S1T & S1F).
  assert (NX : smp4_secret C (s4_us x) (s4_them x) (s4_ssid x) secret = Ok n)
    by (destruct NN as (? & ? & ? & c & E & N); rewrite STX in E; injection E as <- <- <- <-; exact N).
  assert (MX : smp4_secret C (s4_us x) (s4_them x) (s4_ssid x) reply = Ok m)
    by (destruct NM as (? & ? & ? & c & E & N); rewrite STX in E; injection E as <- <- <- <-; exact N).
  assert (CONC : told v (verdict4 same) -> (same4 v /\ told v UMSmpSucceeded) \/ (other4 v /\ told v UMSmpFailed)).
  { intros T. destruct same; [left|right]; (split; [|exact T]); exists reply, n, m; auto. }
  cut ((exists X' Y' x' y', side4 dx (de_tag dy) us them ssid (v_sx3 v) X' x' /\ side4 dy (de_tag dx) them us ssid (v_sy2 v) Y' y' /\
     pairing4 (de_tag dx) (de_tag dy) X' Y' /\ pairing4 (de_tag dy) (de_tag dx) Y' X') /\ told v (verdict4 same)).
  { intros [H T]. auto. }
  clear CONC S1T S1F NN NM.
  destruct v as [e1 e2 e3 e4 e5 sx1 sx2 sx3 sy1 sy2 p1 p2 p3 p4 p5 r1 r2 r3 r4 r5 S1 S2 S3 S4 S5 [NP1 NPS] CA EN].
  unfold told, answer in *.
  cbn [v_e1 v_e2 v_e3 v_e4 v_e5 v_sx1 v_sx2 v_sx3 v_sy1 v_sy2 v_p1 v_p2 v_p3 v_p4 v_p5 v_r1 v_r2 v_r3 v_r4 v_r5] in *.
  apply not_in_app in NPS. destruct NPS as [NP2 NPS]. apply not_in_app in NPS. destruct NPS as [NP3 NPS].
  apply not_in_app in NPS. destruct NPS as [NP4 NP5].
  apply listed4 in CA; apply listed5 in EN. destruct CA as (C1 & C2 & C3 & C4). destruct EN as (O1 & O2 & O3 & O4 & O5).
  pose proof (secret_nonneg _ _ _ _ _ MX) as M0.
  assert (ROUND : forall t u K L ig text rnd mm K' now L' r, pairing4 t u K L -> encrypt4 C t u K ig text [] rnd = Ok (mm, K') ->
            decrypt4 C L mm (encode_authenticator_data4 t u mm) now = (L', r) -> r <> Panic ->
            d4_dh mm <> Some (mx_public_dh (dr_shared L)) -> r = Ok text /\ pairing4 t u K' L' /\ pairing4 u t L' K').
  { intros t u K L ig text rnd mm K' now L' r P E D NP ND. destruct (pair_round4 _ _ _ _ _ _ _ _ _ _ _ _ P E D NP) as [H|(_ & _ & H & _)]; [exact H|contradiction]. }
  (* message 1 *)
  destruct (run_1 C SG _ _ _ _ _ _ US x secret question PX NX) as (c2 & c3 & K2 & K3 & I1).
  destruct (start_sim4 _ _ _ _ _ _ _ _ _ _ _ _ _ HX (proj1 (pairing_small _ _ _ _ PR)) (fun ig text m k => pairing_own _ _ _ _ ig text _ m k PR)
              O1 C1 S1 NP1 I1) as (m1 & X1 & -> & T1 & E1 & HX1 & F1); [reflexivity|].
  destruct (record_sim4 dx dy _ _ _ _ _ _ _ _ _ _ HY eq_refl AY LY LX O2 F1 S2 NP2) as (R1 & Y1' & q1 & D1 & N1 & AR1).
  destruct (ROUND _ _ _ _ _ _ _ _ _ _ _ _ PR E1 D1 N1) as (-> & _ & PR1); [auto|].
  assert (QL : N.of_nat (length question) < 4294967296).
  { destruct T1 as [_ T1]. cbn [tlv_value] in T1. rewrite app_length in T1. unfold write_data in T1. rewrite app_length in T1. lia. }
  destruct (run_2 C SG _ _ _ _ _ _ M0 US (ev_answer e2) y reply question c2 c3 IY QL EA) as (f2 & f3 & cp & G2 & G3 & GP & I2);
    [rewrite UY, TY, SY, <- UX, <- TX, <- SX; exact MX|exact K2|exact K3|].
  destruct (AR1 _ _ _ (Ok UMNone) (proj1 (pairing_small _ _ _ _ PR1)) (fun ig text m k => pairing_own _ _ _ _ ig text _ m k PR1) eq_refl T1 eq_refl I2)
    as [-> B1]; [reflexivity|discriminate|].
  destruct (B1 C2) as (m2 & Y2' & T2 & E2 & HY2 & F2); [reflexivity|]. clear B1 AR1.
  (* message 2 *)
  destruct (record_sim4 dy dx _ _ _ _ _ _ _ _ _ _ HX1 eq_refl AX LX LY O3 F2 S3 NP3) as (R2 & X2' & q2 & D2 & N2 & AR2).
  destruct (ROUND _ _ _ _ _ _ _ _ _ _ _ _ PR1 E2 D2 N2) as (-> & _ & PR2); [auto|].
  destruct (run_3 C SG _ _ _ _ _ _ US (ev_answer e3) x f2 f3 cp G2 G3 GP) as (cp' & cr & GP' & GR & I3).
  destruct (AR2 _ _ _ (Ok UMNone) (proj1 (pairing_small _ _ _ _ PR2)) (fun ig text m k => pairing_own _ _ _ _ ig text _ m k PR2) eq_refl T2 eq_refl I3)
    as [-> B2]; [reflexivity|discriminate|].
  destruct (B2 C3) as (m3 & X3' & T3 & E3 & HX3 & F3); [reflexivity|]. clear B2 AR2.
  (* message 3 *)
  destruct (record_sim4 dx dy _ _ _ _ _ _ _ _ _ _ HY2 eq_refl AY LY LX O4 F3 S4 NP4) as (R3 & Y3' & q3 & D3 & N3 & AR3).
  destruct (ROUND _ _ _ _ _ _ _ _ _ _ _ _ PR2 E3 D3 N3) as (-> & _ & PR3); [auto|].
  destruct (run_4 C SG _ _ _ _ _ _ US (ev_answer e4) y cp' cr same SD GP' GR) as (cr' & GR' & I4).
  destruct (AR3 _ _ _ (Ok (verdict4 same (de_tag dx))) (proj1 (pairing_small _ _ _ _ PR3)) (fun ig text m k => pairing_own _ _ _ _ ig text _ m k PR3)
              eq_refl T3 eq_refl I4) as [-> B3]; [now destruct same|discriminate|].
  destruct (B3 C4) as (m4 & Y4' & T4 & E4 & HY4 & F4); [reflexivity|]. clear B3 AR3.
  (* message 4 *)
  destruct (record_sim4 dy dx _ _ _ _ _ _ _ _ _ _ HX3 eq_refl AX LX LY O5 F4 S5 NP5) as (R4 & X4' & q4 & D4 & N4 & AR4).
  destruct (ROUND _ _ _ _ _ _ _ _ _ _ _ _ PR3 E4 D4 N4) as (-> & PR4' & PR4); [auto|].
  pose proof (run_5 C SG _ _ _ _ _ _ US (ev_answer e5) (ev_smp4 e5) x cr' same SD GR') as I5.
  destruct (AR4 _ _ _ (Ok (verdict4 same (de_tag dy))) (proj1 (pairing_small _ _ _ _ PR4)) (fun ig text m k => pairing_own _ _ _ _ ig text _ m k PR4)
              eq_refl T4 eq_refl I5) as [-> [-> HX5]]; [now destruct same|discriminate|]. clear AR4.
  split; [|auto 10].
  eexists X4', Y4', _, _. split; [|split; [|split; [exact PR4|exact PR4']]].
  - split; [exact HX5|]. unfold with_state, idle4. cbn. split; [reflexivity|]. split; [now destruct same|]. auto.
  - split; [exact HY4|]. unfold with_state, idle4. cbn. split; [reflexivity|]. split; [now destruct same|]. auto.
Qed.

(** ** A conversation with verifications *)

Section Course.
Context (da db : details) (LA : legal_details da) (LB : legal_details db) (AA : allowed da V4) (AB : allowed db V4)
  (fa fb ssid : bytes).
Local Notation ta := (de_tag da).
Local Notation tb := (de_tag db).

Definition course_inv4 (a : bool) (l : link) : Prop :=
  li_ab l = [] /\ li_ba l = [] /\
  exists A B x y, side4 da tb fa fb ssid (li_a l) A x /\ side4 db ta fb fa ssid (li_b l) B y /\
    if a then pairing4 ta tb A B else pairing4 tb ta B A.

(* a message is lost or arrives *)
Lemma course_lost4 a l text l1 l2 : course_inv4 a l ->
  net_step C ta tb l (Sends a text) l1 -> net_step C ta tb l1 (Loses a) l2 -> course_inv4 a l2.
Proof.
  intros (QA & QB & A & B & x & y & (HA & RA) & (HB & RB) & PR) S1 S2. destruct a.
  - inversion S1 as [? e t s ps HS EO TP E1 E2 E3| | | | | | |]; subst.
    inversion S2 as [| |? z r Q E1 E2 E3| | | | |]; subst. cbn [li_ab li_ba li_a li_b] in *.
    rewrite QA in Q. cbn [app] in Q. injection Q as <- <-.
    destruct (send_sim4 C G EC _ _ _ _ _ _ _ _ _ HA (proj1 (pairing_small _ _ _ _ PR)) (fun m k => pairing_own _ _ _ _ _ _ _ m k PR) AA EO TP HS)
      as (m & A' & EN & HA' & FL).
    split; [reflexivity|]. split; [assumption|]. exists A', B, x, y. split; [exact (conj HA' RA)|]. split; [exact (conj HB RB)|].
    exact (pair_lost4 _ _ _ _ _ _ _ _ _ PR EN).
  - inversion S1 as [|? e t s ps HS EO TP E1 E2 E3| | | | | |]; subst.
    inversion S2 as [| | |? z r Q E1 E2 E3| | | |]; subst. cbn [li_ab li_ba li_a li_b] in *.
    rewrite QB in Q. cbn [app] in Q. injection Q as <- <-.
    destruct (send_sim4 C G EC _ _ _ _ _ _ _ _ _ HB (proj1 (pairing_small _ _ _ _ PR)) (fun m k => pairing_own _ _ _ _ _ _ _ m k PR) AB EO TP HS)
      as (m & B' & EN & HB' & FL).
    split; [assumption|]. split; [reflexivity|]. exists A, B', x, y. split; [exact (conj HA RA)|]. split; [exact (conj HB' RB)|].
    exact (pair_lost4 _ _ _ _ _ _ _ _ _ PR EN).
Qed.

Lemma course_turn4 a l text l1 text' rs out l2 : course_inv4 a l ->
  net_step C ta tb l (Sends a text) l1 -> net_step C ta tb l1 (Arrives a text' rs out) l2 ->
  text' = text /\ course_inv4 a l2 /\
  (shown (if a then ta else tb) text rs out /\ course_inv4 (negb a) l2 \/
   refused (if a then ta else tb) rs out /\
   exists ps, (if a then li_ab l1 else li_ba l1) = [(ps, text)] /\ repeats_key C (if a then li_b l1 else li_a l1) (if a then ta else tb) ps).
Proof.
  intros (QA & QB & A & B & x & y & (HA & RA) & (HB & RB) & PR) S1 S2. destruct a; cbn [negb].
  - inversion S1 as [? e t s ps HS EO TP E1 E2 E3| | | | | | |]; subst.
    inversion S2 as [| | | |? e2 ps2 t2 r s2 o2 rs2 Q RC NP E1 E2 E3| | |]; subst. cbn [li_ab li_ba li_a li_b] in *.
    rewrite QA in Q |- *. cbn [app] in Q |- *. injection Q as <- <- <-.
    destruct (send_sim4 C G EC _ _ _ _ _ _ _ _ _ HA (proj1 (pairing_small _ _ _ _ PR)) (fun m k => pairing_own _ _ _ _ _ _ _ m k PR) AA EO TP HS)
      as (m & A' & EN & HA' & FL).
    destruct (arrive_sim4 C da db _ _ _ _ _ _ _ _ _ _ _ HB eq_refl AB LB LA FL RC NP) as ((e0 & SA) & B' & q & DE & NQ & AR). cbn [fst] in DE, SA.
    split; [reflexivity|].
    destruct (pair_round4 _ _ _ _ _ _ _ _ _ _ _ _ PR EN DE NQ) as [(-> & P1 & P2)|(-> & (z & ->) & DH & P1)].
    + destruct (AR eq_refl) as [HB' SH]. split; [|left; split; [assumption|]]; (split; [reflexivity|]; split; [assumption|]); exists A', B', x, y;
        (split; [exact (conj HA' RA)|]; split; [exact (conj HB' RB)|assumption]).
    + destruct AR as [HB' RF]. split.
      * split; [reflexivity|]. split; [assumption|]. exists A', B, x, y. split; [exact (conj HA' RA)|]. split; [exact (conj HB' RB)|assumption].
      * right. split; [assumption|]. exists ps. split; [reflexivity|].
        destruct HB as (_ & DB & _ & i & GI & _ & ST).
        exists da, e0, m, (mx_public_dh (dr_shared B)), tb, ta, B, y. rewrite DB.
        split; [assumption|]. split; [assumption|]. split; [|reflexivity]. unfold state_of. now rewrite GI.
  - inversion S1 as [|? e t s ps HS EO TP E1 E2 E3| | | | | |]; subst.
    inversion S2 as [| | | | |? e2 ps2 t2 r s2 o2 rs2 Q RC NP E1 E2 E3| |]; subst. cbn [li_ab li_ba li_a li_b] in *.
    rewrite QB in Q |- *. cbn [app] in Q |- *. injection Q as <- <- <-.
    destruct (send_sim4 C G EC _ _ _ _ _ _ _ _ _ HB (proj1 (pairing_small _ _ _ _ PR)) (fun m k => pairing_own _ _ _ _ _ _ _ m k PR) AB EO TP HS)
      as (m & B' & EN & HB' & FL).
    destruct (arrive_sim4 C db da _ _ _ _ _ _ _ _ _ _ _ HA eq_refl AA LA LB FL RC NP) as ((e0 & SA) & A' & q & DE & NQ & AR). cbn [fst] in DE, SA.
    split; [reflexivity|].
    destruct (pair_round4 _ _ _ _ _ _ _ _ _ _ _ _ PR EN DE NQ) as [(-> & P1 & P2)|(-> & (z & ->) & DH & P1)].
    + destruct (AR eq_refl) as [HA' SH]. split; [|left; split; [assumption|]]; (split; [assumption|]; split; [reflexivity|]); exists A', B', x, y;
        (split; [exact (conj HA' RA)|]; split; [exact (conj HB' RB)|assumption]).
    + destruct AR as [HA' RF]. split.
      * split; [assumption|]. split; [reflexivity|]. exists A, B', x, y. split; [exact (conj HA' RA)|]. split; [exact (conj HB' RB)|assumption].
      * right. split; [assumption|]. exists ps. split; [reflexivity|].
        destruct HA as (_ & DA & _ & i & GI & _ & ST).
        exists db, e0, m, (mx_public_dh (dr_shared A)), ta, tb, A, x. rewrite DA.
        split; [assumption|]. split; [assumption|]. split; [|reflexivity]. unfold state_of. now rewrite GI.
Qed.

Lemma course_other4 a l b l1 : course_inv4 a l -> net_step C ta tb l (Elsewhere b) l1 -> course_inv4 a l1.
Proof.
  intros (QA & QB & A & B & x & y & (HA & RA) & (HB & RB) & PR) S.
  inversion S as [| | | | | |? es o s out r K NP GI|? es o s out r K NP GI]; subst; split; try assumption; split; try assumption;
    exists A, B, x, y; (split; [|split; [|assumption]]); cbn [li_a li_b]; (split; [|assumption]);
    assumption || (eapply other_sim4; eassumption).
Qed.

Lemma course_verify_a4 a l secret question (v : verification C ta tb (li_a l) (li_b l) secret question) : smp4_group C ->
  course_inv4 true l -> ready4 v ->
  course_inv4 a (mkLink (v_sx3 v) (v_sy2 v) (li_ab l) (li_ba l)) /\
  ((same4 v /\ told v UMSmpSucceeded) \/ (other4 v /\ told v UMSmpFailed)).
Proof.
  intros SG (QA & QB & A & B & x & y & SA & SB & PR) RD.
  destruct (verify_sim4 _ _ _ _ _ _ _ _ _ _ _ _ _ v SG LA LB AA AB SA SB PR RD) as ((A' & B' & x' & y' & SA' & SB' & P1 & P2) & R).
  split; [|exact R]. split; [assumption|]. split; [assumption|]. exists A', B', x', y'. destruct a; auto.
Qed.
Lemma course_verify_b4 a l secret question (v : verification C tb ta (li_b l) (li_a l) secret question) : smp4_group C ->
  course_inv4 false l -> ready4 v ->
  course_inv4 a (mkLink (v_sy2 v) (v_sx3 v) (li_ab l) (li_ba l)) /\
  ((same4 v /\ told v UMSmpSucceeded) \/ (other4 v /\ told v UMSmpFailed)).
Proof.
  intros SG (QA & QB & A & B & x & y & SA & SB & PR) RD.
  destruct (verify_sim4 _ _ _ _ _ _ _ _ _ _ _ _ _ v SG LB LA AB AA SB SA PR RD) as ((B' & A' & y' & x' & SB' & SA' & P1 & P2) & R).
  split; [|exact R]. split; [assumption|]. split; [assumption|]. exists A', B', x', y'. destruct a; auto.
Qed.
End Course.

Lemma start_pairing4 sx sy s : start4 C s -> pairing4 sx sy (cw_a s) (cw_b s) /\ pairing4 sy sx (cw_b s) (cw_a s).
Proof.
  intros S. destruct (start4_inv C G sx sy s S) as (IV & SD & Z).
  destruct S as (? & ? & ? & ? & ? & ? & ? & ? & ? & ? & ? & ? & _ & _ & _ & _ & Q1 & Q2). rewrite Q1, Q2 in IV.
  split; (split; [|unfold has_floor; auto 6]); [assumption|now apply inv4_sym].
Qed.
End WithCrypto.
