(* A conversation that one side has lost begins anew. *)
From Verif Require Import Base BaseLemmas Types Crypto CryptoProofs Encoding EncodingProofs ClientProfile Messages MessagesProofs Fragment
  KeyManager KeyManagerProofs DataV3 SpecData3 DataV3Proofs History3Proofs Conv3Proofs Data3Lemmas Ratchet DataV4 SpecCurve SpecData4 Conv4Proofs
  AKE SpecAKE DAKE SpecDAKE SMP SMP4
  Protocol Session SpecWire SpecSession SessionProofs SessionPartyProofs SessionInvProofs SessionSendProofs SessionRecvProofs SessionLemmas
  SpecNet NetProofs NetAKEProofs NetDAKEProofs Net3Proofs NetLemmas Net4Proofs Net4Lemmas SpecStart StartProofs SpecRecover.
From Coq Require Import Lia ZifyN ZifyNat.
Local Open Scope N_scope.

Section WithCrypto.
Context (C : Crypto).

(** ** The parts *)

Lemma put_entry_other s t i u : u <> t -> entry u (se_instances (put s t i)) = entry u (se_instances s).
Proof. intros N. unfold entry, put. cbn [se_instances with_instances]. rewrite get_set_other; [reflexivity|congruence]. Qed.

Lemma not_encrypted s t : status_of s t <> Encrypted -> in_state (entry t (se_instances s)) = PPlain \/ in_state (entry t (se_instances s)) = PFin.
Proof.
  unfold status_of, state_of, entry. destruct (get_inst t _) as [i|]; [|now left].
  destruct (in_state i); cbn [p_status]; auto; intros H; now destruct H.
Qed.

(* the data message is unreadable to the side that has lost the conversation *)
Lemma lost3 d d' n e ps text q n' out rs : sinv n -> se_details n = d' -> allowed d' V3 -> legal_details d -> legal_details d' ->
  resting n (de_tag d) -> status_of n (de_tag d) <> Encrypted -> flight3 C d (de_tag d') (ps, text) q ->
  receive_all C e n ps = (n', out, rs) -> ~ In Panic rs ->
  refused (de_tag d) rs out /\ sinv n' /\ se_details n' = d' /\ resting n' (de_tag d) /\
  status_of n' (de_tag d) = status_of n (de_tag d) /\ (forall u, u <> de_tag d -> entry u (se_instances n') = entry u (se_instances n)).
Proof.
  intros SI D AL LD LD' RS ST (F1 & F2 & F3 & F4 & e0 & EO & F5) RA NP. destruct q as [m qt]. cbn [fst snd] in *.
  pose proof (sinv_receive_all C _ _ _ _ _ _ RA NP SI) as (SI' & D'). destruct RS as (RE & RK & RD).
  apply (arrives_direct C d e0 (de_tag d') V3 (MData m)) in RA;
    [|assumption|now left|assumption|exact I|assumption|assumption|right; exact LD'|rewrite D; destruct LD'; lia|rewrite D; auto|now rewrite D
     |assumption|exact RE|assumption].
  destruct RA as (_ & a & i' & r & RA & NR & -> & -> & H). apply not_encrypted in ST.
  pose proof (sinv_entry n (de_tag d) SI) as RI.
  unfold inst_handle in H. cbn [em_version em_message em_sender em_receiver] in H. unfold inst_data3 in H.
  cbn [in_state set_assembler set_state in_receiver] in H.
  set (i := entry (de_tag d) (se_instances n)) in *.
  assert (K : i' = set_state (set_assembler (set_assembler i a) (assembler_cleanup_v3 a)) (in_state i) /\ out = [UNREADABLE_REPLY] /\
              r = Err (UnreadableMessage (de_tag d))).
  { destruct ST as [ST|ST]; rewrite ST in *; cbn [p_handle3] in H; cbn iota beta in H; rewrite data_error_unreadable, F4 in H; fin3 H;
      rewrite <- RI; auto. }
  destruct K as (-> & -> & ->). split; [exists (length ps); auto|]. split; [assumption|]. split; [congruence|].
  assert (SS : status_of (put n (de_tag d) (set_state (set_assembler (set_assembler i a) (assembler_cleanup_v3 a)) (in_state i))) (de_tag d) = status_of n (de_tag d)).
  { unfold status_of, state_of. rewrite get_put. cbn [in_state set_state]. subst i. unfold entry. destruct (get_inst _ _); reflexivity. }
  split; [|split; [exact SS|intros u N; now apply put_entry_other]].
  unfold resting, entry. rewrite get_put. cbn [in_assembler in_ake in_dake set_state set_assembler].
  split; [now apply cleanup_ready|]. split; assumption.
Qed.
Lemma lost4 d d' n e ps text q n' out rs : sinv n -> se_details n = d' -> allowed d' V4 -> legal_details d -> legal_details d' ->
  resting n (de_tag d) -> status_of n (de_tag d) <> Encrypted -> flight4 C d (de_tag d') (ps, text) q ->
  receive_all C e n ps = (n', out, rs) -> ~ In Panic rs ->
  refused (de_tag d) rs out /\ sinv n' /\ se_details n' = d' /\ resting n' (de_tag d) /\
  status_of n' (de_tag d) = status_of n (de_tag d) /\ (forall u, u <> de_tag d -> entry u (se_instances n') = entry u (se_instances n)).
Proof.
  intros SI D AL LD LD' RS ST (F1 & F2 & F3 & FV & F4 & e0 & EO & F5) RA NP. destruct q as [m qt]. cbn [fst snd] in *.
  pose proof (sinv_receive_all C _ _ _ _ _ _ RA NP SI) as (SI' & D'). destruct RS as (RE & RK & RD).
  apply (arrives_direct C d e0 (de_tag d') V4 (MData4 m)) in RA;
    [|assumption|now right|assumption|exact I|assumption|assumption|right; exact LD'|rewrite D; destruct LD'; lia|rewrite D; auto|now rewrite D
     |assumption|exact RE|assumption].
  destruct RA as (_ & a & i' & r & RA & NR & -> & -> & H). apply not_encrypted in ST.
  pose proof (sinv_entry n (de_tag d) SI) as RI.
  unfold inst_handle in H. cbn [em_version em_message em_sender em_receiver] in H. unfold inst_data4 in H. rewrite FV in H.
  cbn [in_state set_assembler set_state in_receiver] in H.
  set (i := entry (de_tag d) (se_instances n)) in *.
  assert (K : i' = set_state (set_assembler i a) (in_state i) /\ out = [UNREADABLE_REPLY] /\
              r = Err (UnreadableMessage (de_tag d))).
  { destruct ST as [ST|ST]; rewrite ST in *; cbn [p_handle4] in H; cbn iota beta in H; rewrite data_error_unreadable, F4 in H; fin3 H;
      rewrite <- RI; auto. }
  destruct K as (-> & -> & ->). split; [exists (length ps); auto|]. split; [assumption|]. split; [congruence|].
  assert (SS : status_of (put n (de_tag d) (set_state (set_assembler i a) (in_state i))) (de_tag d) = status_of n (de_tag d)).
  { unfold status_of, state_of. rewrite get_put. cbn [in_state set_state]. subst i. unfold entry. destruct (get_inst _ _); reflexivity. }
  split; [|split; [exact SS|intros u N; now apply put_entry_other]].
  unfold resting, entry. rewrite get_put. cbn [in_assembler in_ake in_dake set_state set_assembler].
  split; [exact RA|]. split; assumption.
Qed.

(* the other side answers the complaint with a query message *)
Lemma complained e s s' out rs : enabled (se_details s) -> error_start_ake (de_policy (se_details s)) = true ->
  receive_all C e s [UNREADABLE_REPLY] = (s', out, rs) ->
  rs = [Ok (UMError UNREADABLE_TEXT)] /\ s' = s /\ ses_query s = (s, out, Ok tt).
Proof.
  intros EN ER H. cbn [receive_all] in H. destruct (receive C e s UNREADABLE_REPLY) as [[s1 o1] r1] eqn:R. fin3 H.
  unfold receive in R. apply enabled_not_disabled in EN as DI. rewrite DI in R.
  assert (MF : match_fragment UNREADABLE_REPLY = false) by reflexivity. rewrite MF in R.
  unfold receive_message in R. assert (PA : parse C UNREADABLE_REPLY = Ok (MsgError UNREADABLE_TEXT)) by reflexivity. rewrite PA, ER in R.
  destruct (query_eq s EN) as (v & _ & Q). unfold ses_query. rewrite Q in *. fin3 R. rewrite app_nil_r. auto.
Qed.

Lemma complained_quiet e s s' out rs : enabled (se_details s) -> error_start_ake (de_policy (se_details s)) = false ->
  receive_all C e s [UNREADABLE_REPLY] = (s', out, rs) ->
  rs = [Ok (UMError UNREADABLE_TEXT)] /\ s' = s /\ out = [].
Proof.
  intros EN ER H. cbn [receive_all] in H. destruct (receive C e s UNREADABLE_REPLY) as [[s1 o1] r1] eqn:R. fin3 H.
  unfold receive in R. apply enabled_not_disabled in EN as DI. rewrite DI in R.
  assert (MF : match_fragment UNREADABLE_REPLY = false) by reflexivity. rewrite MF in R.
  unfold receive_message in R. assert (PA : parse C UNREADABLE_REPLY = Ok (MsgError UNREADABLE_TEXT)) by reflexivity. rewrite PA, ER in R.
  fin3 R. auto.
Qed.

(** ** A conversation does not disturb the rest *)

(* no exchange of its own that client t might still answer *)
Definition settled (i : instance) : Prop :=
  match in_ake i with AkeAwaitingDHKey _ _ | AkeAwaitingRevealSig _ _ _ => False | _ => True end /\
  match in_dake i with DakeAwaitingAuthR _ => False | _ => True end.
Lemma settled_kx i i' : same_kx i i' -> settled i -> settled i'.
Proof. intros [A B]. unfold settled. now rewrite A, B. Qed.
Lemma resting_settled s t : resting s t -> settled (at_ s t).
Proof. intros (_ & H). exact H. Qed.
Lemma settled_resting s t i : settled (at_ s t) -> get_inst t (se_instances s) = Some i -> ready (in_assembler i) -> resting s t.
Proof. unfold settled, resting, at_, entry. intros H G R. rewrite G in *. split; assumption. Qed.

Lemma send_settled e s t text s' out ps u : send C e s t text = (s', out, Ok ps) -> settled (at_ s u) -> settled (at_ s' u).
Proof.
  intros H. apply settled_kx. apply send_inv in H; [|discriminate].
  destruct H as [(_ & -> & _)|(_ & [(_ & -> & _)|(i & G & [(_ & _ & -> & _)|(_ & _ & i' & tg & S & ->)])])]; try apply kx_refl.
  apply send_moves in S; [|discriminate]. destruct S as (_ & _ & _ & A & B).
  assert (K : same_kx (at_ s t) i') by (unfold at_, entry; rewrite G; split; assumption).
  exact (kx_put s t i' u K).
Qed.
Lemma arrive_settled v m d d' e0 ps n e n' out rs : transported d e0 (de_tag d') v m ps -> SpecFragment.otr_version v -> shaped C v m -> direct v m ->
  of_conversation m -> env_ok e0 -> transportable ps -> se_details n = d' -> allowed d' v -> legal_details d -> legal_details d' ->
  (exists i, get_inst (de_tag d) (se_instances n) = Some i /\ ready (in_assembler i)) ->
  receive_all C e n ps = (n', out, rs) -> ~ In Panic rs -> settled (at_ n (de_tag d)) -> settled (at_ n' (de_tag d)).
Proof.
  intros T V SH DI OC EO TP D AL LD LD' (i & G & RE) RA NP. apply settled_kx.
  apply (arrives_direct C d e0 (de_tag d') v m) in RA;
    [|assumption|assumption|assumption|assumption|assumption|assumption|right; exact LD'|rewrite D; destruct LD'; lia|rewrite D; auto|now rewrite D
     |assumption|unfold entry; rewrite G; exact RE|assumption].
  destruct RA as (_ & a & i' & r & _ & _ & _ & -> & H). apply handle_kx in H; [|exact OC].
  rewrite at_put_same. exact H.
Qed.
Lemma elsewhere_settled s s' t : get_inst t (se_instances s') = get_inst t (se_instances s) -> settled (at_ s t) -> settled (at_ s' t).
Proof. unfold at_, entry. now intros ->. Qed.

Lemma net_settled3 da db smpa smpb l0 s0 hs l : dh_group_ok C -> legal_details da -> legal_details db -> allowed da V3 -> allowed db V3 ->
  start3 C s0 -> linked3 C da db smpa smpb l0 s0 -> net_run C (de_tag da) (de_tag db) l0 hs l ->
  settled (at_ (li_a l0) (de_tag db)) -> settled (at_ (li_b l0) (de_tag da)) ->
  settled (at_ (li_a l) (de_tag db)) /\ settled (at_ (li_b l) (de_tag da)).
Proof.
  intros GO LA LB AA AB S0 L0 H TA TB. induction H as [|hs l h l' H IH ST]; [auto|]. destruct IH as [IA IB].
  destruct (net_sim3 C da db smpa smpb l0 s0 hs l GO LA LB AA AB S0 L0 H) as (os & cs & _ & (HA & HB & FA & FB) & _).
  destruct HA as (_ & DA & _ & ia & GA & RA & _). destruct HB as (_ & DB & _ & ib & GB & RB & _).
  destruct ST as [l e text sx ps HS EO TP|l e text sx ps HS EO TP|l x r E|l x r E|l e ps text r sx out rs E RC NP
                 |l e ps text r sx out rs E RC NP|l es o sx out r K NP GI|l es o sx out r K NP GI]; cbn [li_a li_b]; split;
    try assumption; try (eapply send_settled; eassumption); try (eapply elsewhere_settled; eassumption).
  - rewrite E in FA. inversion FA as [|x' q r' qs (F1 & F2 & F3 & F4 & e0 & EO & F5) _ E1 E2]. cbn [fst snd] in *.
    eapply (arrive_settled V3 _ da db); try eassumption; [now left|exact I|exact I|eauto].
  - rewrite E in FB. inversion FB as [|x' q r' qs (F1 & F2 & F3 & F4 & e0 & EO & F5) _ E1 E2]. cbn [fst snd] in *.
    eapply (arrive_settled V3 _ db da); try eassumption; [now left|exact I|exact I|eauto].
Qed.
Lemma net_settled4 da db smpa smpb l0 s0 hs l : groups_ok4 C -> encodable C -> legal_details da -> legal_details db -> allowed da V4 -> allowed db V4 ->
  start4 C s0 -> linked4 C da db smpa smpb l0 s0 -> net_run C (de_tag da) (de_tag db) l0 hs l ->
  settled (at_ (li_a l0) (de_tag db)) -> settled (at_ (li_b l0) (de_tag da)) ->
  settled (at_ (li_a l) (de_tag db)) /\ settled (at_ (li_b l) (de_tag da)).
Proof.
  intros GO EC LA LB AA AB S0 L0 H TA TB. induction H as [|hs l h l' H IH ST]; [auto|]. destruct IH as [IA IB].
  destruct (net_sim4 C GO EC da db LA LB AA AB smpa smpb l0 s0 hs l S0 L0 H) as (os & cs & _ & (HA & HB & FA & FB) & _).
  destruct HA as (_ & DA & _ & ia & GA & RA & _). destruct HB as (_ & DB & _ & ib & GB & RB & _).
  destruct ST as [l e text sx ps HS EO TP|l e text sx ps HS EO TP|l x r E|l x r E|l e ps text r sx out rs E RC NP
                 |l e ps text r sx out rs E RC NP|l es o sx out r K NP GI|l es o sx out r K NP GI]; cbn [li_a li_b]; split;
    try assumption; try (eapply send_settled; eassumption); try (eapply elsewhere_settled; eassumption).
  - rewrite E in FA. inversion FA as [|x' q r' qs (F1 & F2 & F3 & FV & F4 & e0 & EO & F5) _ E1 E2]. rewrite E1 in *. cbn [fst snd] in *.
    eapply (arrive_settled V4 _ da db); try eassumption; [now right|exact I|exact I|eauto].
  - rewrite E in FB. inversion FB as [|x' q r' qs (F1 & F2 & F3 & FV & F4 & e0 & EO & F5) _ E1 E2]. rewrite E1 in *. cbn [fst snd] in *.
    eapply (arrive_settled V4 _ db da); try eassumption; [now right|exact I|exact I|eauto].
Qed.

Lemma net3_settled da db sa sb x : start_net3 C da db sa sb x ->
  settled (at_ (x_sa2 x) (de_tag db)) /\ settled (at_ (x_sb3 x) (de_tag da)).
Proof.
  intros ((ha & HA) & (hb & HB) & LA & LB & RA & RB & PA & AB & PO & (ka & kb & KA & KB & EA & EB) & RL & PR).
  apply history_inv in HA as [SA DA]. apply history_inv in HB as [SB DB]. rewrite <- DA, <- DB in *.
  destruct (handshake3_full C sa sb x ka kb) as ((R1 & R2) & _); try assumption. split; now apply resting_settled.
Qed.
Lemma net4_settled da db sa sb x : start_net4 C da db sa sb x ->
  settled (at_ (x_sa2 x) (de_tag db)) /\ settled (at_ (x_sb3 x) (de_tag da)).
Proof.
  intros ((ha & HA) & (hb & HB) & LA & LB & RA & RB & PA & AB & ID & GO & EC & HO).
  apply history_inv in HA as [SA DA]. apply history_inv in HB as [SB DB]. rewrite <- DA, <- DB in *.
  destruct (handshake4_full C GO EC sa sb x) as ((R1 & R2) & _); try assumption. split; now apply resting_settled.
Qed.

(** ** The whole *)

Lemma converses_send3 d d' s e text s' ps : dh_group_ok C -> converses3 C d d' s ->
  send C e s (de_tag d') text = (s', [], Ok ps) -> env_ok e -> transportable ps ->
  allowed d V3 /\ allowed d' V3 /\ legal_details d /\ legal_details d' /\ dh_params_ok C /\
  sinv s' /\ se_details s' = d /\ resting s' (de_tag d') /\ exists q, flight3 C d (de_tag d') (ps, text) q.
Proof.
  intros GO H HS EO TP.
  destruct H as [(sa & sb & x & hs & l & H & R & ->)|(sa & sb & x & hs & l & H & R & ->)];
    pose proof H as (_ & _ & LA & LB & _ & _ & PA & AB & PO & _); apply preferred_allowed in PA;
    pose proof (net3_settled _ _ _ _ _ H) as (TA & TB); apply net3_secured in H; destruct H as ((ka & kb & _ & _ & SEC) & _ & DA & DB); apply secured_linked in SEC;
    destruct SEC as (s0 & ssid & S0 & L0); rewrite DA, DB in L0.
  - destruct (net_sim3 C d d' _ _ _ s0 hs l GO LA LB PA AB S0 L0 R) as (os & cs & CV & (HA & HB & _ & _) & _).
    assert (IV : conv_inv C (de_tag d) (de_tag d') cs) by (assert (P0 : c_dh_p C <> 0) by (destruct GO; lia);
      eapply (conversation_inv C P0 (public_nonzero C GO)); eassumption).
    destruct IV as (WA & WB & _ & _).
    destruct (send_sim3 _ _ _ _ _ _ _ _ _ _ HA WA PA EO TP HS) as (m & k' & EN & (SI & D & _ & i & G & RE & _) & FL).
    do 7 (split; [assumption|]). split; [|eauto]. apply (settled_resting _ _ i); [|assumption|assumption].
    eapply send_settled; [exact HS|]. eapply (net_settled3 d d'); eassumption.
  - destruct (net_sim3 C d' d _ _ _ s0 hs l GO LA LB PA AB S0 L0 R) as (os & cs & CV & (HA & HB & _ & _) & _).
    assert (IV : conv_inv C (de_tag d') (de_tag d) cs) by (assert (P0 : c_dh_p C <> 0) by (destruct GO; lia);
      eapply (conversation_inv C P0 (public_nonzero C GO)); eassumption).
    destruct IV as (WA & WB & _ & _).
    destruct (send_sim3 _ _ _ _ _ _ _ _ _ _ HB WB AB EO TP HS) as (m & k' & EN & (SI & D & _ & i & G & RE & _) & FL).
    do 7 (split; [assumption|]). split; [|eauto]. apply (settled_resting _ _ i); [|assumption|assumption].
    eapply send_settled; [exact HS|]. eapply (net_settled3 d' d); eassumption.
Qed.
Lemma converses_send4 d d' s e text s' ps : converses4 C d d' s ->
  send C e s (de_tag d') text = (s', [], Ok ps) -> env_ok e -> transportable ps ->
  allowed d V4 /\ allowed d' V4 /\ legal_details d /\ legal_details d' /\ groups_ok4 C /\ encodable C /\
  sinv s' /\ se_details s' = d /\ resting s' (de_tag d') /\ exists q, flight4 C d (de_tag d') (ps, text) q.
Proof.
  intros H HS EO TP.
  destruct H as [(sa & sb & x & hs & l & H & R & ->)|(sa & sb & x & hs & l & H & R & ->)];
    pose proof H as (_ & _ & LA & LB & _ & _ & PA & AB & _ & GO & EC & _); apply preferred_allowed in PA;
    pose proof (net4_settled _ _ _ _ _ H) as (TA & TB); apply net4_secured in H; destruct H as ((SEC & _) & DA & DB); apply secured_linked4 in SEC;
    destruct SEC as (s0 & fa & fb & ssid & S0 & L0); rewrite DA, DB in L0.
  - destruct (net_sim4 C GO EC d d' LA LB PA AB _ _ _ s0 hs l S0 L0 R) as (os & cs & CV & L & _).
    pose proof (conversation4_inv C GO _ _ _ _ _ CV) as [IV _].
    destruct (send_case C GO EC d d' PA AB _ _ l cs true e text s' ps L IV HS EO TP) as (m & k & _ & _ & (SI & D & _ & i & G & RE & _) & FL).
    cbn [d_of negb] in *. do 8 (split; [assumption|]). split; [|eauto]. apply (settled_resting _ _ i); [|assumption|assumption].
    eapply send_settled; [exact HS|]. eapply (net_settled4 d d'); eassumption.
  - destruct (net_sim4 C GO EC d' d LA LB PA AB _ _ _ s0 hs l S0 L0 R) as (os & cs & CV & L & _).
    pose proof (conversation4_inv C GO _ _ _ _ _ CV) as [IV _].
    destruct (send_case C GO EC d' d PA AB _ _ l cs false e text s' ps L IV HS EO TP) as (m & k & _ & _ & (SI & D & _ & i & G & RE & _) & FL).
    cbn [d_of negb] in *. do 8 (split; [assumption|]). split; [|eauto]. apply (settled_resting _ _ i); [|assumption|assumption].
    eapply send_settled; [exact HS|]. eapply (net_settled4 d' d); eassumption.
Qed.

Lemma recovers3 d d' s n text s' n' at_n at_s out :
  dh_group_ok C -> converses3 C d d' s -> preferred d V3 -> error_start_ake (de_policy d) = true ->
  forgotten C d' (de_tag d) n -> speaks_to C (de_tag d') text s n s' n' at_n at_s out ->
  (exists k, at_n = answered k (Err (UnreadableMessage (de_tag d)))) /\ at_s = [Ok (UMError UNREADABLE_TEXT)] /\
  ses_query s' = (s', out, Ok tt) /\
  forall y : exchange C s' n', honest3 C y ->
    x_p0 y = out /\ connected (x_sa2 y) (x_sb3 y) /\
    x_r4 y = answered (length (x_p3 y)) (Ok (UMSessionStarted (de_tag d'))) /\
    x_r5 y = answered (length (x_p4 y)) (Ok (UMSessionStarted (de_tag d))).
Proof.
  intros GO CO PF ER ((h & HN) & RN & SN) (e1 & e2 & e3 & s1 & ps & replies & HS & EO & TP & R1 & N1 & R2 & N2).
  apply history_inv in HN as [SI DN].
  destruct (converses_send3 _ _ _ _ _ _ _ GO CO HS EO TP) as (AL & AL' & LD & LD' & PO & SI1 & D1 & RS1 & q & FL).
  destruct (lost3 _ _ _ _ _ _ _ _ _ _ SI DN AL' LD LD' RN SN FL R1 N1) as ((k & -> & ->) & SI' & DN' & RN' & _ & _).
  apply complained in R2; [|rewrite D1; now left|now rewrite D1]. destruct R2 as (-> & -> & Q).
  split; [eauto|]. split; [reflexivity|]. split; [assumption|].
  intros y ((ka & kb & KA & KB & EA & EB) & RL & PR).
  split. { pose proof (x_query y) as XQ. rewrite Q in XQ. apply pair3 in XQ. symmetry. apply XQ. }
  destruct (handshake3 C s1 n' y ka kb) as (SEC & P5 & _ & _ & _ & R4 & R5); try assumption; try (rewrite ?D1, ?DN'; assumption).
  rewrite ?D1, ?DN' in *. split; [|auto].
  destruct SEC as [IA IB DA DB (ia & ib & kma & kmb & ssid & GA & GB & RA & RB & SA & SB & S0)].
  unfold connected. rewrite DA, DB. rewrite ?D1, ?DN' in *.
  split; [unfold status_of, state_of; now rewrite GA, SA|]. split; [unfold status_of, state_of; now rewrite GB, SB|].
  unfold ses_ssid. rewrite GA, GB. unfold inst_ssid. now rewrite SA, SB.
Qed.

Lemma recovers4 d d' s n text s' n' at_n at_s out :
  converses4 C d d' s -> preferred d V4 -> error_start_ake (de_policy d) = true ->
  forgotten C d' (de_tag d) n -> in_dake (entry 0 (se_instances n)) = DakeInitial ->
  speaks_to C (de_tag d') text s n s' n' at_n at_s out ->
  (exists k, at_n = answered k (Err (UnreadableMessage (de_tag d)))) /\ at_s = [Ok (UMError UNREADABLE_TEXT)] /\
  ses_query s' = (s', out, Ok tt) /\
  forall y : exchange C s' n', honest4 C d d' (x_e0 y) (x_e1 y) (x_e2 y) ->
    x_p0 y = out /\ connected (x_sa2 y) (x_sb3 y) /\
    x_r3 y = answered (length (x_p2 y)) (Ok (UMSessionStarted (de_tag d))) /\
    x_r4 y = answered (length (x_p3 y)) (Ok (UMSessionStarted (de_tag d'))).
Proof.
  intros CO PF ER ((h & HN) & RN & SN) ID (e1 & e2 & e3 & s1 & ps & replies & HS & EO & TP & R1 & N1 & R2 & N2).
  apply history_inv in HN as [SI DN].
  destruct (converses_send4 _ _ _ _ _ _ _ CO HS EO TP) as (AL & AL' & LD & LD' & GO & EC & SI1 & D1 & RS1 & q & FL).
  destruct (lost4 _ _ _ _ _ _ _ _ _ _ SI DN AL' LD LD' RN SN FL R1 N1) as ((k & -> & ->) & SI' & DN' & RN' & _ & OT).
  apply complained in R2; [|rewrite D1; now right|now rewrite D1]. destruct R2 as (-> & -> & Q).
  split; [eauto|]. split; [reflexivity|]. split; [assumption|].
  intros y HY.
  split. { pose proof (x_query y) as XQ. rewrite Q in XQ. apply pair3 in XQ. symmetry. apply XQ. }
  assert (ID' : in_dake (entry 0 (se_instances n')) = DakeInitial) by (rewrite OT; [assumption|destruct LD; lia]).
  destruct (handshake4 C GO EC s1 n' y) as (SEC & _ & _ & _ & _ & R3 & R4 & _); try assumption; try (rewrite ?D1, ?DN'; assumption).
  rewrite ?D1, ?DN' in *. split; [|auto].
  destruct SEC as [IA IB DA DB (ia & ib & dra & drb & fa & fb & ssid & GA & GB & RA & RB & SA & SB & S0)].
  unfold connected. rewrite DA, DB. rewrite ?D1, ?DN' in *.
  split; [unfold status_of, state_of; now rewrite GA, SA|]. split; [unfold status_of, state_of; now rewrite GB, SB|].
  unfold ses_ssid. rewrite GA, GB. unfold inst_ssid. now rewrite SA, SB.
Qed.

Lemma stays_lost3 d d' s n text s' n' at_n at_s out :
  dh_group_ok C -> converses3 C d d' s -> error_start_ake (de_policy d) = false ->
  forgotten C d' (de_tag d) n -> speaks_to C (de_tag d') text s n s' n' at_n at_s out ->
  (exists k, at_n = answered k (Err (UnreadableMessage (de_tag d)))) /\ at_s = [Ok (UMError UNREADABLE_TEXT)] /\ out = [] /\
  status_of n' (de_tag d) = status_of n (de_tag d).
Proof.
  intros GO CO ER ((h & HN) & RN & SN) (e1 & e2 & e3 & s1 & ps & replies & HS & EO & TP & R1 & N1 & R2 & N2).
  apply history_inv in HN as [SI DN].
  destruct (converses_send3 _ _ _ _ _ _ _ GO CO HS EO TP) as (AL & AL' & LD & LD' & PO & SI1 & D1 & RS1 & q & FL).
  destruct (lost3 _ _ _ _ _ _ _ _ _ _ SI DN AL' LD LD' RN SN FL R1 N1) as ((k & -> & ->) & _ & _ & _ & ST & _).
  apply complained_quiet in R2; [|rewrite D1; now left|now rewrite D1]. destruct R2 as (-> & -> & ->). eauto.
Qed.
End WithCrypto.
