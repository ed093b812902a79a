(* OTRv3: the end of a conversation between two sessions. *)
From Verif Require Import Base BaseLemmas Types Crypto CryptoProofs Encoding EncodingProofs ClientProfile Messages MessagesProofs Fragment
  KeyManager KeyManagerProofs DataV3 SpecData3 DataV3Proofs History3Proofs Conv3Proofs Data3Lemmas Ratchet DataV4 AKE DAKE SMP SMP4
  Protocol Session SpecWire SpecSession SessionProofs SessionPartyProofs SessionInvProofs SessionSendProofs SessionRecvProofs SessionLemmas
  SpecNet NetProofs NetAKEProofs Net3Proofs NetLemmas SpecVerify VerifyProofs SpecParting.
From Coq Require Import Lia ZifyN ZifyNat.
Local Open Scope N_scope.

Section WithCrypto.
Context (C : Crypto) (GO : dh_group_ok C).

(** ** One side *)

(* the payloads are a farewell *)
Definition farewell3 (d : details) (t : N) (ps : list bytes) (q : data3 * bytes) : Prop :=
  snd q = DISCONNECT /\ d3_ignore_unreadable (fst q) = true /\ carries3 C d t ps (fst q).

Lemma end_sim3 d t s k smp e s' ps r : holds3 d t s k smp -> wf3 k -> env_ok e -> transportable ps ->
  end_session C e s t = (s', ps, Ok r) ->
  r = UMReset t /\ status_of s' t = Plaintext /\
  exists m k', encrypt3 C (de_tag d) t k true DISCONNECT = Ok (m, k') /\ farewell3 d t ps (m, DISCONNECT).
Proof.
  intros (SI & D & NK & i & G & RE & ST) W EO TP H.
  assert (RI : in_receiver i = t) by (exact (sinv_get _ _ _ SI G)).
  unfold end_session, on_instance in H. rewrite G in H. unfold inst_reset in H. unfold in_status in H. rewrite ST in H.
  cbn [p_finish p_status status_eqb p_version] in H. change DISCONNECT_CONTENT with DISCONNECT in H.
  destruct (encrypt3 C (de_tag d) t k true DISCONNECT) as [[m k']|x|] eqn:EN; cbn [bind] in H.
  2: now apply encrypt3_no_err in EN.
  2: apply SessionProofs.pair3 in H; destruct H as (_ & _ & H); discriminate.
  destruct (injecting _ _ _ _) as [[i' o'] r'] eqn:IN. apply injecting_inv in IN.
  destruct IN as [(IJ & -> & ->)|[(z & IJ & _)|(_ & ->)]]; [|now apply inject_no_err in IJ
    |apply SessionProofs.pair3 in H; destruct H as (_ & _ & H); discriminate].
  apply SessionProofs.pair3 in H. destruct H as (<- & <- & [= <-]). apply inject_transported in IJ. rewrite RI, D in IJ.
  pose proof (encrypt3_shaped _ _ _ _ _ _ _ _ W NK EN) as (SH & NK' & IG).
  split; [now rewrite RI|]. split; [unfold status_of, state_of; now rewrite get_put|].
  exists m, k'. split; [reflexivity|]. split; [reflexivity|]. split; [exact IG|]. split; [assumption|]. split; [assumption|]. exists e. auto.
Qed.

Lemma farewell_sim3 d0 d t s k smp e ps q s' out rs :
  holds3 d t s k smp -> de_tag d0 = t -> allowed d V3 -> legal_details d -> legal_details d0 ->
  farewell3 d0 (de_tag d) ps q -> receive_all C e s ps = (s', out, rs) -> ~ In Panic rs ->
  exists k' r, decrypt3 C k (fst q) (encode_authenticator_data t (de_tag d) (fst q)) (ev_ack e) = (k', r) /\ r <> Panic /\
    match r with
    | Ok got => got = DISCONNECT -> told_finished t rs out /\ status_of s' t = Finished
    | _ => unnoticed rs out /\ holds3 d t s' k' smp
    end.
Proof.
  intros (SI & D & NK & i & G & RE & ST) <- AL LD LD0 (F1 & F4 & F2 & F3 & e0 & EO & F5) RA NP.
  destruct q as [m qt]. cbn [fst snd] in *. subst qt.
  pose proof (sinv_receive_all C _ _ _ _ _ _ RA NP SI) as (SI' & D').
  assert (EI : entry (de_tag d0) (se_instances s) = i) by (unfold entry; now rewrite G).
  assert (RI : in_receiver i = de_tag d0) by (exact (sinv_get _ _ _ SI G)).
  apply (arrives_direct C d0 e0 (de_tag d) V3 (MData m)) in RA;
    [|assumption|now left|assumption|exact I|assumption|assumption|right; exact LD|rewrite D; destruct LD; lia|rewrite D; auto|now rewrite D
     |assumption|now rewrite EI|assumption].
  destruct RA as (_ & a & i' & r & RA & NR & -> & -> & H). rewrite D, EI in H.
  unfold inst_handle in H. cbn [em_version em_message em_sender em_receiver] in H. unfold inst_data3 in H.
  cbn [in_state set_assembler set_state in_receiver] in H. rewrite ST in H. cbn [p_handle3] in H.
  destruct (decrypt3 C k m (encode_authenticator_data (de_tag d0) (de_tag d) m) (ev_ack e)) as [k' r1] eqn:DE.
  assert (NK' : narrow k') by (eapply decrypt3_narrow; eassumption).
  exists k', r1. split; [reflexivity|]. destruct r1 as [got|x|].
  - split; [discriminate|]. intros ->. cbn [after_decrypt] in H. rewrite parse_disconnect in H. cbn iota beta in H.
    fin3 H. split.
    + exists (length ps). rewrite RI. split; reflexivity.
    + unfold status_of, state_of. now rewrite get_put.
  - split; [discriminate|]. cbn [after_decrypt] in H. cbn iota beta in H. rewrite data_error_unreadable, F4 in H. fin3 H. split.
    + exists (length ps). split; reflexivity.
    + split; [assumption|]. split; [congruence|]. split; [assumption|]. eexists. rewrite get_put. split; [reflexivity|].
      split; [|reflexivity]. cbn [in_assembler set_state set_assembler]. now apply cleanup_ready.
  - exfalso. cbn [after_decrypt] in H. apply SessionProofs.pair3 in H. destruct H as (_ & _ & H). congruence.
Qed.

(** ** Both sides *)

Definition flip3 (s : conv3) : conv3 := mkConv3 (cv_b s) (cv_a s) (cv_ba s) (cv_ab s).
Lemma conv_inv_flip tx ty s : conv_inv C tx ty s -> conv_inv C ty tx (flip3 s).
Proof. intros (A & B & D & E). exact (conj B (conj A (conj E D))). Qed.
Lemma step_inv3 tx ty s o s' : conv_inv C tx ty s -> step3 C tx ty s o s' ->
  conv_inv C tx ty s' /\ (forall a m sent got, o = Delivered a m sent got -> got = sent).
Proof. intros I S. destruct (step_inv C (P0 C GO) (public_nonzero C GO) _ _ _ _ _ I S) as (A & B & _). auto. Qed.

Definition under_way3 (d : details) (t : N) (x : list bytes * option bytes) (q : data3 * bytes) : Prop :=
  match snd x with
  | Some text => flight3 C d t (fst x, text) q
  | None => farewell3 d t (fst x) q
  end.
(* the first party of s has left *)
Definition parted3 (dx dy : details) (smp : smp_context) (p : parting) (s : conv3) : Prop :=
  conv_inv C (de_tag dx) (de_tag dy) s /\
  holds3 dy (de_tag dx) (pa_session p) (cv_b s) smp /\ Forall2 (under_way3 dx (de_tag dy)) (pa_queue p) (cv_ab s).

Lemma parting_sim3 dx dy smp p0 s0 p : legal_details dx -> legal_details dy -> allowed dy V3 ->
  parted3 dx dy smp p0 s0 -> parting_run C (de_tag dx) p0 p -> exists s, parted3 dx dy smp p s.
Proof.
  intros LX LY AY PA0 R. induction R as [|p p' R IH ST]; [eauto|].
  destruct IH as (s & IV & HY & FX). pose proof IV as (_ & WY & _).
  destruct ST as [p e text sx ps HS EO TP|p x r E|p e ps text r sx out rs E RA NP|p es o sx out r K NP GI].
  - destruct (send_sim3 C _ _ _ _ _ _ _ _ _ HY WY AY EO TP HS) as (m & k' & EN & HY' & FL).
    exists (mkConv3 (cv_a s) k' (cv_ab s) (cv_ba s ++ [(m, without_nul text)])).
    split; [eapply step_inv3; [exact IV|eapply s3_send_b; eassumption]|]. split; assumption.
  - rewrite E in FX. inversion FX as [|x' q r' qs F1 F2 E1 E2]; subst x' r'. symmetry in E2.
    exists (mkConv3 (cv_a s) (cv_b s) qs (cv_ba s)).
    split; [eapply step_inv3; [exact IV|eapply s3_lose_a; eassumption]|]. split; assumption.
  - rewrite E in FX. inversion FX as [|x' q r' qs F1 F2 E1 E2]; subst x' r'. symmetry in E2. destruct q as [m qt].
    unfold under_way3 in F1. cbn [fst snd] in F1.
    destruct (arrive_sim3 C dx dy (de_tag dx) _ _ _ _ _ _ _ _ _ _ HY eq_refl AY LY LX F1 RA NP) as (k' & rr & DE & NR & RR).
    cbn [fst] in DE. assert (QT : qt = without_nul text) by apply F1. exists (mkConv3 (cv_a s) k' qs (cv_ba s)).
    destruct rr as [got|x|]; [| |congruence].
    + assert (SS : step3 C (de_tag dx) (de_tag dy) s (Delivered true m qt got) (mkConv3 (cv_a s) k' qs (cv_ba s)))
        by (eapply s3_deliver_a; eassumption).
      destruct (step_inv3 _ _ _ _ _ IV SS) as [IV' EX]. pose proof (EX _ _ _ _ eq_refl) as EG.
      destruct RR as [HY' SHW]; [congruence|]. split; [exact IV'|]. split; assumption.
    + destruct RR as [HY' RFD]. split; [eapply step_inv3; [exact IV|eapply s3_reject_a; eassumption]|]. split; assumption.
  - exists s. split; [assumption|]. split; [eapply other_sim3; eassumption|assumption].
Qed.

(* the farewell, wherever the conversation stands *)
Lemma farewell_cases3 dx dy smpx smpy s sx sy q e sx' ps r :
  legal_details dx -> legal_details dy -> allowed dx V3 -> allowed dy V3 -> conv_inv C (de_tag dx) (de_tag dy) s ->
  holds3 dx (de_tag dy) sx (cv_a s) smpx -> holds3 dy (de_tag dx) sy (cv_b s) smpy ->
  Forall2 (flight3 C dx (de_tag dy)) q (cv_ab s) ->
  end_session C e sx (de_tag dy) = (sx', ps, Ok r) -> env_ok e -> transportable ps ->
  (r = UMReset (de_tag dy) /\ status_of sx' (de_tag dy) = Plaintext) /\
  told_or_unnoticed C (de_tag dx) sy q ps /\
  (forall e' sy' out rs, cv_ab s = [] -> cv_ba s = [] -> be_val (km_their_ctr (cv_b s)) = 0 ->
    receive_all C e' sy ps = (sy', out, rs) -> ~ In Panic rs ->
    told_finished (de_tag dx) rs out /\ status_of sy' (de_tag dx) = Finished).
Proof.
  intros LX LY AX AY IV HX HY FX EN EO TP. pose proof IV as (WX & WY & HF1 & HF2).
  destruct (end_sim3 _ _ _ _ _ _ _ _ _ HX WX EO TP EN) as (-> & SP & m & k' & EC & FW). split; [auto|].
  set (s1 := mkConv3 k' (cv_b s) (cv_ab s ++ [(m, DISCONNECT)]) (cv_ba s)).
  assert (SD : step3 C (de_tag dx) (de_tag dy) s (Sending true m) s1) by (eapply s3_send_a; eassumption). split.
  - intros sy1 rest e' sy' out rs PR RA NP.
    assert (PT : parted3 dx dy smpy (mkParting sy (with_farewell q ps)) s1).
    { split; [eapply step_inv3; eassumption|]. split; [exact HY|]. cbn [pa_queue cv_ab s1]. unfold with_farewell.
      apply Forall2_app; [|constructor; [exact FW|constructor]].
      clear - FX. induction FX as [|[x y] q qs Q F IH]; cbn [map]; constructor; assumption. }
    destruct (parting_sim3 dx dy smpy _ s1 _ LX LY AY PT PR) as (s2 & IV2 & HY2 & FX2).
    cbn [pa_session pa_queue] in HY2, FX2. inversion FX2 as [|x' q2 r' qs F1 F2 E1 E2]; subst x' r'. symmetry in E2.
    unfold under_way3 in F1. cbn [fst snd] in F1. destruct q2 as [m2 qt].
    destruct (farewell_sim3 dx dy _ _ _ _ _ _ _ _ _ _ HY2 eq_refl AY LY LX F1 RA NP) as (k2 & rr & DE & NR & RR). cbn [fst] in DE.
    destruct rr as [got|x|]; [| |congruence].
    + left. apply RR. assert (QT : qt = DISCONNECT) by apply F1. rewrite <- QT.
      assert (SS : step3 C (de_tag dx) (de_tag dy) s2 (Delivered true m2 qt got) (mkConv3 (cv_a s2) k2 qs (cv_ba s2)))
        by (eapply s3_deliver_a; eassumption).
      eapply (proj2 (step_inv3 _ _ _ _ _ IV2 SS)). reflexivity.
    + right. destruct RR as [U (_ & _ & _ & j & G & _ & ST)]. split; [exact U|]. unfold status_of, state_of. now rewrite G, ST.
  - intros e' sy' out rs Q1 Q2 Z RA NP.
    destruct (farewell_sim3 dx dy _ _ _ _ _ _ _ _ _ _ HY eq_refl AY LY LX FW RA NP) as (k2 & rr & DE & NR & RR). cbn [fst] in DE.
    assert (E1 : cv_ab s1 = [(m, DISCONNECT)]) by (unfold s1; cbn [cv_ab]; now rewrite Q1).
    destruct (step_inv3 _ _ _ _ _ IV SD) as [IV1 _].
    destruct rr as [got|x|]; [| |congruence].
    + apply RR. assert (SS : step3 C (de_tag dx) (de_tag dy) s1 (Delivered true m DISCONNECT got) (mkConv3 (cv_a s1) k2 [] (cv_ba s1)))
        by (eapply s3_deliver_a; [exact E1|exact DE]).
      eapply (proj2 (step_inv3 _ _ _ _ _ IV1 SS)). reflexivity.
    + exfalso. assert (SS : step3 C (de_tag dx) (de_tag dy) s1 (Rejected true m DISCONNECT) (mkConv3 (cv_a s1) k2 [] (cv_ba s1)))
        by (eapply s3_reject_a; [exact E1|exact DE]).
      destruct (step_inv C (P0 C GO) (public_nonzero C GO) _ _ _ _ _ IV1 SS) as (_ & _ & RJ & _).
      pose proof (RJ _ _ eq_refl) as LE. cbn [cv_b s1] in LE. rewrite Z in LE.
      pose proof (encrypt3_step _ _ _ _ _ _ _ _ WX EC) as (_ & _ & _ & _ & LT & _ & _). lia.
Qed.

Lemma farewell_net3 da db smpa smpb l0 s0 hs l (a : bool) e sx' ps r :
  let dx := if a then da else db in let dy := if a then db else da in
  let sx := if a then li_a l else li_b l in let sy := if a then li_b l else li_a l in
  legal_details da -> legal_details db -> allowed da V3 -> allowed db V3 -> start3 C s0 -> linked3 C da db smpa smpb l0 s0 ->
  net_run C (de_tag da) (de_tag db) l0 hs l ->
  end_session C e sx (de_tag dy) = (sx', ps, Ok r) -> env_ok e -> transportable ps ->
  (r = UMReset (de_tag dy) /\ status_of sx' (de_tag dy) = Plaintext) /\
  told_or_unnoticed C (de_tag dx) sy (if a then li_ab l else li_ba l) ps /\
  (forall b, alternating b hs -> surely_told C (de_tag dx) sy ps).
Proof.
  intros dx dy sx sy LA LB AA AB S0 L0 R EN EO TP.
  destruct (net_sim3 C da db _ _ _ s0 hs l GO LA LB AA AB S0 L0 R) as (os & s & CV & (HA & HB & FA & FB) & MI).
  assert (IV : conv_inv C (de_tag da) (de_tag db) s) by (eapply (conversation_inv C (P0 C GO) (public_nonzero C GO)); eassumption).
  assert (TZ : forall b, alternating b hs -> cv_ab s = [] /\ cv_ba s = [] /\ be_val (km_their_ctr (cv_a s)) = 0 /\ be_val (km_their_ctr (cv_b s)) = 0).
  { intros b AL. pose proof (alternating_turns C _ _ _ _ s0 GO AL os s MI CV) as TU.
    destruct (turns_inv C (P0 C GO) (public_nonzero C GO) _ _ _ _ _ _ TU CV) as ((Q1 & Q2 & TI) & _).
    unfold turn_inv in TI. destruct b; tauto. }
  destruct a; subst dx dy sx sy.
  - destruct (farewell_cases3 da db smpa smpb s (li_a l) (li_b l) (li_ab l) e sx' ps r LA LB AA AB IV HA HB FA EN EO TP) as (P1 & P2 & P3).
    split; [exact P1|]. split; [exact P2|]. intros b AL e' sy' out rs. destruct (TZ b AL) as (Q1 & Q2 & _ & Z). now apply P3.
  - destruct (farewell_cases3 db da smpb smpa (flip3 s) (li_b l) (li_a l) (li_ba l) e sx' ps r LB LA AB AA (conv_inv_flip _ _ _ IV) HB HA FB EN EO TP)
      as (P1 & P2 & P3).
    split; [exact P1|]. split; [exact P2|]. intros b AL e' sy' out rs. destruct (TZ b AL) as (Q1 & Q2 & Z & _). now apply P3.
Qed.
End WithCrypto.
