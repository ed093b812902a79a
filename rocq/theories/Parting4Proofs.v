(* OTRv4: the end of a conversation between two sessions. *)
From Verif Require Import Base BaseLemmas Types Crypto CryptoProofs Encoding EncodingProofs ClientProfile Messages MessagesProofs Fragment
  KeyManager DataV3 Ratchet DataV4 SpecCurve EdGroup SpecData4 DataV4Proofs History4Proofs Conv4Proofs AKE DAKE SMP SMP4
  Protocol Session SpecWire SpecSession SessionProofs SessionPartyProofs SessionInvProofs SessionSendProofs SessionRecvProofs SessionLemmas
  SpecNet NetProofs NetAKEProofs NetDAKEProofs Net3Proofs Net4Proofs SpecVerify Verify4Proofs SpecParting.
From Coq Require Import Lia ZifyN ZifyNat.
Local Open Scope N_scope.

Section WithCrypto.
Context (C : Crypto) (G : groups_ok4 C) (EC : encodable C).

(** ** One side *)

(* the keys are those of the conversation whether or not MAC keys are waiting to be revealed *)
Lemma inv4_collect sx sy x y xy yx : inv4 C sx sy x y xy yx -> inv4 C sx sy (fst (dr_collect_reveals x)) y xy yx.
Proof. intros H. exact H. Qed.
Lemma floor_collect x y : has_floor C x y -> has_floor C (fst (dr_collect_reveals x)) y.
Proof. intros H. exact H. Qed.

Lemma final4_encrypt our their d rnd : final4 C our their d rnd =
  encrypt4 C our their (fst (dr_collect_reveals d)) true DISCONNECT (snd (dr_collect_reveals d)) rnd.
Proof. reflexivity. Qed.

(* the payloads are a farewell *)
Definition farewell4 (d : details) (t : N) (ps : list bytes) (q : data4 * bytes) : Prop :=
  snd q = DISCONNECT /\ d4_ignore_unreadable (fst q) = true /\ carries4 C d t ps (fst q).

Lemma end_sim4 d t s k smp e s' ps r : holds4 d t s k smp -> Conv4Proofs.small k ->
  (forall m k', final4 C (de_tag d) t k (ev_send e) = Ok (m, k') -> own_keys C k') -> env_ok e -> transportable ps ->
  end_session C e s t = (s', ps, Ok r) ->
  r = UMReset t /\ status_of s' t = Plaintext /\
  exists m k', final4 C (de_tag d) t k (ev_send e) = Ok (m, k') /\ farewell4 d t ps (m, DISCONNECT).
Proof.
  intros (SI & D & NK & i & GI & RE & ST) SM OWN EO TP H.
  assert (RI : in_receiver i = t) by (exact (sinv_get _ _ _ SI GI)).
  unfold end_session, on_instance in H. rewrite GI in H. unfold inst_reset in H. unfold in_status in H. rewrite ST in H.
  cbn [p_finish p_status status_eqb p_version] in H.
  destruct (final4 C (de_tag d) t k (ev_send e)) as [[m k']|x|] eqn:EN; cbn [bind] in H.
  2: now apply final4_no_err in EN.
  2: apply SessionProofs.pair3 in H; destruct H as (_ & _ & H); discriminate.
  destruct (injecting _ _ _ _) as [[i' o'] r'] eqn:IN. apply injecting_inv in IN.
  destruct IN as [(IJ & -> & ->)|[(z & IJ & _)|(_ & ->)]]; [|now apply inject_no_err in IJ
    |apply SessionProofs.pair3 in H; destruct H as (_ & _ & H); discriminate].
  apply SessionProofs.pair3 in H. destruct H as (<- & <- & [= <-]). apply inject_transported in IJ. rewrite RI, D in IJ.
  pose proof EN as EN'. rewrite final4_encrypt in EN'.
  apply (encrypt4_shaped C G EC) in EN' as (SH & VA & NK' & IG); [|exact SM|exact NK|eapply OWN; reflexivity].
  split; [now rewrite RI|]. split; [unfold status_of, state_of; now rewrite get_put|].
  exists m, k'. split; [reflexivity|]. split; [reflexivity|]. split; [exact IG|].
  split; [assumption|]. split; [assumption|]. split; [assumption|]. exists e. auto.
Qed.

Lemma expire_all_at d es timeout t i l : get_inst t l = Some i -> forall l' out, expire_all C d es timeout l = (l', out, Ok tt) ->
  exists i' pre ps post, inst_expire C d (es t) i timeout = (i', ps, Ok tt) /\ get_inst t l' = Some i' /\ out = pre ++ ps ++ post.
Proof.
  induction l as [|[t0 i0] l IH]; intros GI l' out H; [discriminate|]. cbn [expire_all] in H. cbn [get_inst] in GI.
  destruct (inst_expire C d (es t0) i0 timeout) as [[i1 o1] r1] eqn:E1.
  destruct r1 as [[]|x|]; try discriminate. destruct (expire_all C d es timeout l) as [[l1 o2] r2] eqn:E2. injection H as <- <- ->.
  cbn [get_inst]. destruct (N.eqb_spec t0 t) as [->|NE].
  - injection GI as ->. exists i1, [], o1, o2. auto.
  - destruct (IH GI _ _ eq_refl) as (i' & pre & ps & post & A & B & ->). exists i', (o1 ++ pre), ps, post. now rewrite <- app_assoc.
Qed.

Lemma expire_sim4 d t s k smp es timeout s' out : holds4 d t s k smp -> Conv4Proofs.small k ->
  (forall m k', final4 C (de_tag d) t k (ev_send (es t)) = Ok (m, k') -> own_keys C k') ->
  expire C es s timeout = (s', out, Ok tt) -> status_of s' t = Finished ->
  exists pre ps post m k', out = pre ++ ps ++ post /\ final4 C (de_tag d) t k (ev_send (es t)) = Ok (m, k') /\
    transported d (es t) t V4 (MData4 m) ps /\ (env_ok (es t) -> transportable ps -> farewell4 d t ps (m, DISCONNECT)).
Proof.
  intros (SI & D & NK & i & GI & RE & ST) SM OWN H SF.
  assert (RI : in_receiver i = t) by (exact (sinv_get _ _ _ SI GI)).
  unfold expire in H. destruct (expire_all C (se_details s) es timeout (se_instances s)) as [[l o] r] eqn:E.
  assert (r = Ok tt /\ l = se_instances s' /\ o = out) as (-> & -> & ->).
  { destruct r as [[]|x|]; apply SessionProofs.pair3 in H; destruct H as (<- & <- & H); try discriminate. auto. }
  destruct (expire_all_at _ _ _ _ _ _ GI _ _ E) as (i' & pre & ps & post & EI & GI' & ->).
  apply expire_inst in EI; [|discriminate].
  destruct EI as [(_ & -> & _)|[(_ & -> & _ & our & their & dr & smp' & m & dr' & ST' & F & TR)|(x & X & _)]]; [| |discriminate].
  - exfalso. revert SF. unfold status_of, state_of. rewrite GI', ST. discriminate.
  - rewrite ST in ST'. injection ST' as <- <- <- <-. exists pre, ps, post, m, dr'. split; [reflexivity|]. split; [assumption|].
    rewrite D, RI in TR. split; [assumption|]. intros EO TP. pose proof F as F'. rewrite final4_encrypt in F'.
    apply (encrypt4_shaped C G EC) in F' as (SH & VA & NK' & IG); [|exact SM|exact NK|eapply OWN; exact F].
    split; [reflexivity|]. split; [exact IG|]. split; [assumption|]. split; [assumption|]. split; [assumption|].
    exists (es t). auto.
Qed.

Lemma farewell_sim4 d0 d t s k smp e ps q s' out rs :
  holds4 d t s k smp -> de_tag d0 = t -> allowed d V4 -> legal_details d -> legal_details d0 ->
  farewell4 d0 (de_tag d) ps q -> receive_all C e s ps = (s', out, rs) -> ~ In Panic rs ->
  (exists e0, sent_as C d0 e0 (de_tag d) V4 ps (MData4 (fst q))) /\
  exists k' r, decrypt4 C k (fst q) (encode_authenticator_data4 t (de_tag d) (fst q)) (ev_now e) = (k', r) /\ r <> Panic /\
    match r with
    | Ok got => got = DISCONNECT -> told_finished t rs out /\ status_of s' t = Finished
    | _ => unnoticed rs out /\ holds4 d t s' k' smp
    end.
Proof.
  intros (SI & D & NK & i & GI & RE & ST) <- AL LD LD0 (F1 & F4 & F2 & F3 & FV & e0 & EO & F5) RA NP.
  destruct q as [m qt]. cbn [fst snd] in *. subst qt.
  pose proof (sinv_receive_all C _ _ _ _ _ _ RA NP SI) as (SI' & D').
  assert (EI : entry (de_tag d0) (se_instances s) = i) by (unfold entry; now rewrite GI).
  assert (RI : in_receiver i = de_tag d0) by (exact (sinv_get _ _ _ SI GI)).
  apply (arrives_direct C d0 e0 (de_tag d) V4 (MData4 m)) in RA;
    [|assumption|now right|assumption|exact I|assumption|assumption|right; exact LD|rewrite D; destruct LD; lia|rewrite D; auto|now rewrite D
     |assumption|now rewrite EI|assumption].
  destruct RA as (W & a & i' & r & RA & NR & -> & -> & H). rewrite D, EI in H.
  split; [exists e0; split; assumption|].
  unfold inst_handle in H. cbn [em_version em_message em_sender em_receiver] in H. unfold inst_data4 in H. rewrite FV in H.
  cbn [in_state set_assembler set_state in_receiver] in H. rewrite ST in H. cbn [p_handle4] in H.
  destruct (decrypt4 C k m (encode_authenticator_data4 (de_tag d0) (de_tag d) m) (ev_now e)) as [k' r1] eqn:DE.
  assert (NK' : dr_pn k' < 4294967296) by (rewrite (decrypt4_pn C _ _ _ _ _ _ DE); exact NK).
  exists k', r1. split; [reflexivity|]. destruct r1 as [got|x|].
  - split; [discriminate|]. intros ->. cbn [after_decrypt] in H. rewrite parse_disconnect in H. cbn iota beta in H.
    fin3 H. split.
    + exists (length ps). rewrite RI. split; reflexivity.
    + unfold status_of, state_of. now rewrite get_put.
  - split; [discriminate|]. cbn [after_decrypt] in H. cbn iota beta in H. rewrite data_error_unreadable, F4 in H. fin3 H. split.
    + exists (length ps). split; reflexivity.
    + split; [assumption|]. split; [congruence|]. split; [assumption|]. eexists. rewrite get_put. split; [reflexivity|].
      split; [|reflexivity]. exact RA.
  - exfalso. cbn [after_decrypt] in H. apply SessionProofs.pair3 in H. destruct H as (_ & _ & H). congruence.
Qed.

(** ** Both sides *)

Definition under_way4 (d : details) (t : N) (x : list bytes * option bytes) (q : data4 * bytes) : Prop :=
  match snd x with
  | Some text => flight4 C d t (fst x, text) q
  | None => farewell4 d t (fst x) q
  end.
(* the party with ratchet x has left *)
Definition parted4 (dx dy : details) (smp : smp4_context) (x : double_ratchet) (p : parting) (y : double_ratchet)
    (xy yx : list (data4 * bytes)) : Prop :=
  inv4 C (de_tag dx) (de_tag dy) x y xy yx /\
  holds4 dy (de_tag dx) (pa_session p) y smp /\ Forall2 (under_way4 dx (de_tag dy)) (pa_queue p) xy.

Lemma parting_sim4 dx dy smp x p0 y0 xy0 yx0 p : legal_details dx -> legal_details dy -> allowed dy V4 ->
  parted4 dx dy smp x p0 y0 xy0 yx0 -> parting_run C (de_tag dx) p0 p -> exists y xy yx, parted4 dx dy smp x p y xy yx.
Proof.
  intros LX LY AY PA0 R. induction R as [|p p' R IH ST]; [eauto|].
  destruct IH as (y & xy & yx & IV & HY & FX).
  destruct ST as [p e text sx ps HS EO TP|p z r E|p e ps text r sx out rs E RA NP|p es o sx out r K NP GI].
  - assert (OWN : forall m k, encrypt4 C (de_tag dy) (de_tag dx) y false (without_nul text) [] (ev_send e) = Ok (m, k) -> own_keys C k).
    { intros m k EN. apply inv4_sym in IV. pose proof (send4 C _ _ _ _ _ _ _ _ _ _ _ IV EN) as X. apply X. }
    assert (SM : Conv4Proofs.small y) by apply IV.
    destruct (send_sim4 C G EC _ _ _ _ _ _ _ _ _ HY SM OWN AY EO TP HS) as (m & k' & EN & HY' & FL).
    exists k', xy, (yx ++ [(m, without_nul text)]).
    split; [|split; assumption]. apply inv4_sym. eapply send4; [apply inv4_sym; exact IV|exact EN].
  - rewrite E in FX. inversion FX as [|x' q r' qs F1 F2 E1 E2]; subst x' r' xy.
    exists y, qs, yx. split; [eapply drop4; exact IV|]. split; assumption.
  - rewrite E in FX. inversion FX as [|x' q r' qs F1 F2 E1 E2]; subst x' r' xy. destruct q as [m qt].
    unfold under_way4 in F1. cbn [fst snd] in F1.
    destruct (arrive_sim4 C dx dy (de_tag dx) _ _ _ _ _ _ _ _ _ _ HY eq_refl AY LY LX F1 RA NP) as (_ & k' & rr & DE & NR & RR).
    cbn [fst] in DE. assert (QT : qt = without_nul text) by apply F1. exists k', qs, yx.
    destruct rr as [got|x'|]; [| |congruence].
    + destruct (take4 C G _ _ _ _ _ _ _ _ _ _ _ IV DE) as [IV' EG].
      destruct RR as [HY' SHW]; [congruence|]. split; [exact IV'|]. split; assumption.
    + destruct RR as [HY' RFD]. pose proof (decrypt4_err C _ _ _ _ _ _ DE). subst k'.
      split; [eapply drop4; exact IV|]. split; assumption.
  - exists y, xy, yx. split; [assumption|]. split; [eapply other_sim4; eassumption|assumption].
Qed.

Lemma final_own dx dy x y xy yx rnd : inv4 C dx dy x y xy yx -> forall m k', final4 C dx dy x rnd = Ok (m, k') -> own_keys C k'.
Proof.
  intros IV m k' F. assert (IVC : inv4 C dx dy (fst (dr_collect_reveals x)) y xy yx) by exact IV.
  rewrite final4_encrypt in F. pose proof (send4 C _ _ _ _ _ _ _ _ _ _ _ IVC F) as X. apply X.
Qed.

Lemma farewell_cases4 dx dy smpy x y xy yx sy q rnd m k' ps :
  legal_details dx -> legal_details dy -> allowed dy V4 -> inv4 C (de_tag dx) (de_tag dy) x y xy yx ->
  holds4 dy (de_tag dx) sy y smpy -> Forall2 (flight4 C dx (de_tag dy)) q xy ->
  final4 C (de_tag dx) (de_tag dy) x rnd = Ok (m, k') -> farewell4 dx (de_tag dy) ps (m, DISCONNECT) ->
  told_or_unnoticed C (de_tag dx) sy q ps /\
  (xy = [] -> yx = [] -> has_floor C x y -> ~ repeats_key C sy (de_tag dx) ps -> surely_told C (de_tag dx) sy ps).
Proof.
  intros LX LY AY IV HY FX F FW.
  assert (IVC : inv4 C (de_tag dx) (de_tag dy) (fst (dr_collect_reveals x)) y xy yx) by exact IV.
  rewrite final4_encrypt in F. pose proof (send4 C _ _ _ _ _ _ _ _ _ _ _ IVC F) as IV1. split.
  - intros sy1 rest e' sy' out rs PR RA NP.
    assert (PT : parted4 dx dy smpy k' (mkParting sy (with_farewell q ps)) y (xy ++ [(m, DISCONNECT)]) yx).
    { split; [exact IV1|]. split; [exact HY|]. cbn [pa_queue]. unfold with_farewell.
      apply Forall2_app; [|constructor; [exact FW|constructor]].
      clear - FX. induction FX as [|[z t] q qs Q F IH]; cbn [map]; constructor; assumption. }
    destruct (parting_sim4 dx dy smpy _ _ _ _ _ _ LX LY AY PT PR) as (y2 & xy2 & yx2 & IV2 & HY2 & FX2).
    cbn [pa_session pa_queue] in HY2, FX2. inversion FX2 as [|x' q2 r' qs F1 F2 E1 E2]; subst x' r' xy2.
    unfold under_way4 in F1. cbn [fst snd] in F1. destruct q2 as [m2 qt].
    destruct (farewell_sim4 dx dy _ _ _ _ _ _ _ _ _ _ HY2 eq_refl AY LY LX F1 RA NP) as (_ & k2 & rr & DE & NR & RR). cbn [fst] in DE.
    destruct rr as [got|z|]; [| |congruence].
    + left. apply RR. assert (QT : qt = DISCONNECT) by apply F1. rewrite <- QT. exact (proj2 (take4 C G _ _ _ _ _ _ _ _ _ _ _ IV2 DE)).
    + right. destruct RR as [U (_ & _ & _ & j & GJ & _ & ST)]. split; [exact U|]. unfold status_of, state_of. now rewrite GJ, ST.
  - intros -> -> FL NRK e' sy' out rs RA NP.
    destruct (farewell_sim4 dx dy _ _ _ _ _ _ _ _ _ _ HY eq_refl AY LY LX FW RA NP) as ((e0 & SA) & k2 & rr & DE & NR & RR). cbn [fst] in *.
    assert (FLC : has_floor C (fst (dr_collect_reveals x)) y) by exact FL.
    destruct rr as [got|z|]; [| |congruence].
    + apply RR. cbn [app] in IV1. exact (proj2 (take4 C G _ _ _ _ _ _ _ _ _ _ _ IV1 DE)).
    + exfalso. destruct (floor_send C G _ _ _ _ _ _ _ _ _ (ev_now e') IVC FLC F) as (_ & _ & [(y' & DL)|EQ]).
      { rewrite DL in DE. discriminate. }
      apply NRK. destruct HY as (_ & D1 & _ & i & GI & _ & IST).
      exists dx, e0, m, (mx_public_dh (dr_shared y)), (de_tag dy), (de_tag dx), y, smpy.
      rewrite D1. split; [assumption|]. split; [assumption|]. split; [|reflexivity]. unfold state_of. now rewrite GI.
Qed.

Lemma farewell_net4 da db smpa smpb l0 s0 hs l (a : bool) :
  let dx := if a then da else db in let dy := if a then db else da in
  let sx := if a then li_a l else li_b l in let sy := if a then li_b l else li_a l in
  let q := if a then li_ab l else li_ba l in
  legal_details da -> legal_details db -> allowed da V4 -> allowed db V4 -> start4 C s0 -> linked4 C da db smpa smpb l0 s0 ->
  net_run C (de_tag da) (de_tag db) l0 hs l ->
  (forall e sx' ps r, end_session C e sx (de_tag dy) = (sx', ps, Ok r) -> env_ok e -> transportable ps ->
    (r = UMReset (de_tag dy) /\ status_of sx' (de_tag dy) = Plaintext) /\
    told_or_unnoticed C (de_tag dx) sy q ps /\
    (speaking (de_tag da) (de_tag db) a hs -> ~ repeats_key C sy (de_tag dx) ps -> surely_told C (de_tag dx) sy ps)) /\
  (forall es timeout sx' out, expire C es sx timeout = (sx', out, Ok tt) -> status_of sx' (de_tag dy) = Finished -> env_ok (es (de_tag dy)) ->
    exists pre ps post m, out = pre ++ ps ++ post /\ goodbye C (ev_send (es (de_tag dy))) (state_of sx (de_tag dy)) V4 m /\
      transported dx (es (de_tag dy)) (de_tag dy) V4 m ps /\
      (transportable ps -> told_or_unnoticed C (de_tag dx) sy q ps /\
        (speaking (de_tag da) (de_tag db) a hs -> ~ repeats_key C sy (de_tag dx) ps -> surely_told C (de_tag dx) sy ps))).
Proof.
  intros dx dy sx sy q LA LB AA AB S0 L0 R.
  destruct (net_sim4 C G EC da db LA LB AA AB smpa smpb l0 s0 hs l S0 L0 R) as (os & s & CV & L & MI). pose proof L as (HA & HB & FA & FB).
  pose proof (conversation4_inv C G _ _ _ _ _ CV) as [IV _].
  assert (FLO : speaking (de_tag da) (de_tag db) a hs -> (cw_ab s = [] /\ cw_ba s = []) /\ has_floor C (side a s) (side (negb a) s)).
  { intros SP. pose proof (speaking_floor C G da db a hs s0 SP os s MI CV) as FL.
    destruct (floor_inv C G _ _ _ _ _ _ CV FL) as (Q & F & _). auto. }
  assert (exists x y xy yx smpx smpy, inv4 C (de_tag dx) (de_tag dy) x y xy yx /\ holds4 dx (de_tag dy) sx x smpx /\
    holds4 dy (de_tag dx) sy y smpy /\ Forall2 (flight4 C dx (de_tag dy)) q xy /\
    legal_details dx /\ legal_details dy /\ allowed dy V4 /\
    (speaking (de_tag da) (de_tag db) a hs -> xy = [] /\ yx = [] /\ has_floor C x y)) as
    (x & y & xy & yx & smpx & smpy & IV' & HX & HY & FX & LX & LY & AY & FL).
  { destruct a; subst dx dy sx sy q; cbn [side negb] in FLO.
    - exists (cw_a s), (cw_b s), (cw_ab s), (cw_ba s), smpa, smpb. intuition.
    - apply inv4_sym in IV. exists (cw_b s), (cw_a s), (cw_ba s), (cw_ab s), smpb, smpa. intuition. }
  pose proof (proj1 (proj2 (proj2 IV'))) as SM.
  split.
  - intros e sx' ps r EN EO TP.
    destruct (end_sim4 _ _ _ _ _ _ _ _ _ HX SM (final_own _ _ _ _ _ _ _ IV') EO TP EN) as (RR & SP & m & k' & F & FW). split; [auto|].
    destruct (farewell_cases4 dx dy smpy x y xy yx sy q _ m k' ps LX LY AY IV' HY FX F FW) as (P2 & P3). split; [exact P2|].
    intros SK. destruct (FL SK) as (Q1 & Q2 & Q3). now apply P3.
  - intros es timeout sx' out EX SF EO.
    destruct (expire_sim4 _ _ _ _ _ _ _ _ _ HX SM (final_own _ _ _ _ _ _ _ IV') EX SF) as (pre & ps & post & m & k' & -> & F & TR & FW).
    exists pre, ps, post, (MData4 m). split; [reflexivity|]. split; [|split; [exact TR|]].
    { destruct HX as (_ & _ & _ & i & GI & _ & ST). unfold state_of. rewrite GI, ST. split; [reflexivity|]. exists m, k'. auto. }
    intros TP.
    destruct (farewell_cases4 dx dy smpy x y xy yx sy q _ m k' ps LX LY AY IV' HY FX F (FW EO TP)) as (P2 & P3). split; [exact P2|].
    intros SK. destruct (FL SK) as (Q1 & Q2 & Q3). now apply P3.
Qed.
End WithCrypto.
