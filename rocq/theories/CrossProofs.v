(* Both users start an OTRv3 exchange at the same time: it comes to nothing. *)
From Verif Require Import Base BaseLemmas Types Crypto Encoding EncodingProofs ClientProfile Messages MessagesProofs Fragment SpecFragment
  KeyManager DataV3 SpecData3 Ratchet DataV4 AKE SpecAKE AKEProofs AKEConvProofs AKELemmas CryptoProofs DAKE SMP SMP4 Protocol Session SpecWire
  WireLemmas SpecSession SessionProofs SessionPartyProofs SessionInvProofs SessionSendProofs SessionRecvProofs SessionLemmas SpecNet NetProofs
  NetAKEProofs SpecStart.
From Coq Require Import Lia ZifyN ZifyNat.
Import SpecSession.
Local Open Scope N_scope.

Section WithCrypto.
Context (C : Crypto).

Lemma state_entry s t : state_of s t = in_state (entry t (se_instances s)).
Proof. unfold state_of, entry. now destruct (get_inst t (se_instances s)). Qed.

(* one of the two clients: its details, the other's tag, the state of the conversation with the other, its
   session, the application at its last call and what it sent then *)
Definition at_rest (d : details) (t : N) (st : pstate) (s : session) : Prop :=
  sinv s /\ se_details s = d /\ state_of s t = st /\ ready (in_assembler (entry t (se_instances s))).
Definition committed (s : session) : Prop :=
  exists z our x, get_inst 0 (se_instances s) = Some z /\ in_ake z = AkeAwaitingDHKey our x /\ length x = 16%nat.
Definition no_exchange (s : session) (t : N) : Prop :=
  match in_ake (entry t (se_instances s)) with AkeAwaitingDHKey _ _ | AkeAwaitingRevealSig _ _ _ => False | _ => True end.
Definition good_env (e : env) : Prop :=
  (exists k, ev_dsa e = Some k) /\ length (ev_r e) = 16%nat /\ env_ok e /\ dh_public_ok C (dh_public (dh_new C (ev_dh e))).

Definition stage (k : nat) (d : details) (t : N) (st : pstate) (s : session) (ps : list bytes) : Prop :=
  at_rest d t st s /\
  match k with
  | 0%nat => ps = [query_message V3] /\ no_exchange s t
  | 1%nat => committed s /\ no_exchange s t /\ exists e m, good_env e /\ transported d e 0 V3 (MDHCommit m) ps
  | 2%nat => committed s /\ exists e m, good_env e /\ transported d e t V3 (MDHKey m) ps /\ dh_public_ok C (dk_gy m)
  | 3%nat => (exists our gy x prev, in_ake (entry t (se_instances s)) = AkeAwaitingSig our gy x prev) /\
         exists e m, good_env e /\ transported d e t V3 (MRevealSig m) ps /\ shaped C V3 (MRevealSig m)
  | _ => ps = []
  end.

Lemma step_query d t st s e s' out rs : 256 <= t -> allowed d V3 -> at_rest d t st s -> no_exchange s t -> good_env e ->
  receive_all C e s [query_message V3] = (s', out, rs) -> ~ In Panic rs -> stage 1 d t st s' out.
Proof.
  intros LT AL (SI & D & S0 & RE) NE GE H NP. pose proof (sinv_receive_all C _ _ _ _ _ _ H NP SI) as (SI' & D').
  apply query3_answered in H; [|assumption|now rewrite D|assumption].
  destruct H as (z & st' & m & GZ & IR & _ & -> & AI & T).
  assert (EQ : entry t (se_instances (put s 0 (set_ake z st'))) = entry t (se_instances s))
    by (unfold entry; rewrite get_put_other by lia; reflexivity).
  split; [split; [assumption|]; split; [congruence|]; split; [now rewrite state_put_other by lia|now rewrite EQ]|].
  split; [|split; [unfold no_exchange; now rewrite EQ|]].
  - unfold ake_initiate in AI. apply bind_ok in AI. destruct AI as (our & G & AI).
    exists (set_ake z st'), our, (ev_r e). split; [apply get_put_same|]. split; [cbn [in_ake set_ake]; congruence|apply GE].
  - exists e, m. split; [assumption|]. now rewrite <- D.
Qed.

Lemma step_commit d t st s e0 m ps e s' out rs dp : legal_details d -> legal_details dp -> de_tag dp = t -> allowed d V3 ->
  at_rest d t st s -> committed s -> no_exchange s t -> good_env e0 -> transported dp e0 0 V3 (MDHCommit m) ps ->
  good_env e -> transportable ps -> receive_all C e s ps = (s', out, rs) -> ~ In Panic rs -> stage 2 d t st s' out.
Proof.
  intros LD LP ET AL (SI & D & S0 & RE) (z & our & x & GZ & AZ & LX) NE GE0 T GE TP H NP.
  pose proof LD as [LD1 LD2]. pose proof LP as [LP1 LP2].
  pose proof (sinv_receive_all C _ _ _ _ _ _ H NP SI) as (SI' & D').
  apply (arrives_direct C dp e0 0 V3 (MDHCommit m)) in H;
    [|assumption|now left|exact I|exact I|assumption|apply GE0|now left|rewrite D; lia|auto|now rewrite D|assumption|now rewrite ET|assumption].
  destruct H as (_ & a & i' & r & RA & NPr & _ & -> & HH). rewrite ET, D in HH. rewrite ET in *.
  set (i := entry t (se_instances s)) in *.
  assert (IE : in_receiver i = t) by (now apply sinv_entry).
  unfold inst_handle in HH. cbn [em_version em_message em_sender in_ake set_assembler] in HH.
  assert (HC : ake_handle_dhcommit C (in_ake i) m (ev_dh e) = dhcommit_from_initial C (in_ake i) m (ev_dh e))
    by (unfold no_exchange in NE; fold i in NE; unfold ake_handle_dhcommit; now destruct (in_ake i)).
  rewrite HC in HH. unfold dhcommit_from_initial in HH.
  destruct (dh_generate C (ev_dh e)) as [o|?|] eqn:G;
    [|unfold dh_generate in G; destruct (_ =? _) in G; discriminate|apply pair3 in HH; destruct HH as (_ & _ & HH); congruence].
  assert (OO : o = dh_new C (ev_dh e)) by (unfold dh_generate in G; destruct (_ =? _) in G; congruence).
  apply injecting_inv in HH. destruct HH as [(IJ & -> & _) | [(? & E & _) | (_ & ?)]]; [|now apply inject_no_err in E|congruence].
  apply inject_transported in IJ. cbn [in_receiver set_assembler] in IJ. rewrite IE in IJ.
  split.
  - split; [assumption|]. split; [congruence|]. rewrite state_entry, entry_put. cbn [in_state in_assembler set_ake set_assembler].
    split; [rewrite <- S0; symmetry; apply state_entry|]. now apply cleanup_ready.
  - split; [exists z, our, x; rewrite get_put_other by lia; auto|].
    exists e, (mkDHKey (dh_public o)). split; [assumption|]. split; [assumption|]. cbn [dk_gy]. rewrite OO. apply GE.
Qed.

Lemma step_key d t st s e0 m ps e s' out rs dp : legal_details d -> legal_details dp -> de_tag dp = t -> allowed d V3 -> dh_params_ok C ->
  at_rest d t st s -> committed s -> good_env e0 -> transported dp e0 (de_tag d) V3 (MDHKey m) ps -> dh_public_ok C (dk_gy m) ->
  good_env e -> transportable ps -> receive_all C e s ps = (s', out, rs) -> ~ In Panic rs -> stage 3 d t st s' out.
Proof.
  intros LD LP ET AL PO (SI & D & S0 & RE) (z & our & x & GZ & AZ & LX) GE0 T OK GE TP H NP.
  pose proof (sinv_receive_all C _ _ _ _ _ _ H NP SI) as (SI' & D').
  apply (arrives_dhkey C dp e0 (de_tag d) m ps s e s' out rs z our x) in H;
    [|assumption|assumption|apply GE0|now rewrite D|now rewrite D|now rewrite D|assumption|now rewrite ET|assumption|assumption|assumption|assumption].
  destruct H as (_ & a & i' & r & RA & NPr & _ & -> & HH). rewrite ET, D in HH. rewrite ET in *.
  set (i := entry t (se_instances s)) in *.
  assert (IE : in_receiver i = t) by (now apply sinv_entry).
  unfold inst_handle in HH. cbn [em_version em_message em_sender in_ake set_ake set_assembler] in HH.
  destruct GE as ((k & DK) & GR). unfold ake_handle_dhkey in HH. rewrite (verify_ok C PO _ OK), DK in HH. cbn [negb] in HH.
  destruct (ake_prove _ _ _ _ _ _) as [en mac] eqn:PR.
  apply injecting_inv in HH. destruct HH as [(IJ & -> & _) | [(? & E & _) | (_ & ?)]]; [|now apply inject_no_err in E|congruence].
  apply inject_transported in IJ. cbn [in_receiver set_assembler set_ake] in IJ. rewrite IE in IJ.
  split.
  - split; [assumption|]. split; [congruence|]. rewrite state_entry, entry_put. cbn [in_state in_assembler set_ake set_assembler].
    split; [rewrite <- S0; symmetry; apply state_entry|]. now apply cleanup_ready.
  - split; [rewrite entry_put; cbn [in_ake set_ake]; eauto|].
    exists e, (mkRevealSig x en mac). split; [split; [eauto|assumption]|]. split; [assumption|].
    cbn [shaped rv_key rv_signature_mac]. split; [assumption|]. unfold ake_prove in PR. injection PR as _ <-. apply hmac160_length.
Qed.

Lemma step_reveal d t st s e0 m ps e s' out rs dp : legal_details d -> legal_details dp -> de_tag dp = t -> allowed d V3 ->
  at_rest d t st s -> (exists our gy x prev, in_ake (entry t (se_instances s)) = AkeAwaitingSig our gy x prev) ->
  good_env e0 -> transported dp e0 (de_tag d) V3 (MRevealSig m) ps -> shaped C V3 (MRevealSig m) -> transportable ps ->
  receive_all C e s ps = (s', out, rs) -> ~ In Panic rs -> stage 4 d t st s' out.
Proof.
  intros LD LP ET AL (SI & D & S0 & RE) (our & gy & x & prev & AK) GE0 T SH TP H NP.
  pose proof LD as [LD1 LD2]. pose proof (sinv_receive_all C _ _ _ _ _ _ H NP SI) as (SI' & D').
  apply (arrives_direct C dp e0 (de_tag d) V3 (MRevealSig m)) in H;
    [|assumption|now left|assumption|exact I|assumption|apply GE0|right; exact LD|rewrite D; lia|rewrite D; auto|now rewrite D|assumption|now rewrite ET|assumption].
  destruct H as (_ & a & i' & r & RA & NPr & _ & -> & HH). rewrite ET, D in HH. rewrite ET in *.
  unfold inst_handle in HH. cbn [em_version em_message em_sender in_ake set_assembler] in HH. rewrite AK in HH.
  cbn [ake_handle_reveal] in HH. apply pair3 in HH. destruct HH as (<- & <- & _).
  split; [|reflexivity]. split; [assumption|]. split; [congruence|]. rewrite state_entry, entry_put. cbn [in_state in_assembler set_ake set_assembler].
  split; [rewrite <- S0; symmetry; apply state_entry|]. now apply cleanup_ready.
Qed.

(* one client in one round; [ps] is what the other sent, [out] what it sends *)
Lemma cross_step k d dp st st' s ps0 sp ps e s' out rs : (k <= 4)%nat -> legal_details d -> legal_details dp -> allowed d V3 -> dh_params_ok C ->
  stage k d (de_tag dp) st s ps0 -> stage k dp (de_tag d) st' sp ps -> good_env e -> transportable ps ->
  receive_all C e s ps = (s', out, rs) -> ~ In Panic rs -> stage (Nat.min 4 (S k)) d (de_tag dp) st s' out.
Proof.
  intros LE LD LP AL PO [A B] [_ B'] GE TP H NP. pose proof LP as [LP1 LP2].
  destruct k as [|[|[|[|[|k]]]]]; [| | | | |lia]; cbn [stage] in B, B'; cbn [Nat.min].
  - destruct B as (_ & B). destruct B' as (-> & _). eapply step_query; eauto.
  - destruct B as (B1 & B2 & _). destruct B' as (_ & _ & e0 & m & G0 & T).
    exact (step_commit d _ st s e0 m ps e s' out rs dp LD LP eq_refl AL A B1 B2 G0 T GE TP H NP).
  - destruct B as (B1 & _). destruct B' as (_ & e0 & m & G0 & T & OK).
    exact (step_key d _ st s e0 m ps e s' out rs dp LD LP eq_refl AL PO A B1 G0 T OK GE TP H NP).
  - destruct B as (B1 & _). destruct B' as (_ & e0 & m & G0 & T & OK).
    exact (step_reveal d _ st s e0 m ps e s' out rs dp LD LP eq_refl AL A B1 G0 T OK TP H NP).
  - subst ps. cbn [receive_all] in H. apply pair3 in H. destruct H as (<- & <- & _). split; [assumption|reflexivity].
Qed.

Lemma working_good k e : working3 C k e -> good_env e.
Proof. intros (A & B & D & E). split; [eauto|auto]. Qed.

Theorem crossed3 da db ha hb sa sb ka kb sa' sb' :
  history C da ha sa -> history C db hb sb -> legal_details da -> legal_details db ->
  resting sa (de_tag db) -> resting sb (de_tag da) -> preferred da V3 -> preferred db V3 -> dh_params_ok C ->
  both_start C (working3 C ka) (working3 C kb) sa sb sa' sb' ->
  state_of sa' (de_tag db) = state_of sa (de_tag db) /\ state_of sb' (de_tag da) = state_of sb (de_tag da).
Proof.
  intros HA HB LA LB RA RB PA PB PO (pa & pb & QA & QB & RO).
  apply history_inv in HA as [SA DA]. apply history_inv in HB as [SB DB].
  assert (AL : forall d, preferred d V3 -> allowed d V3) by (intros d [(_ & ?)|(_ & ? & _)]; [discriminate|assumption]).
  assert (Q : forall s out, preferred (se_details s) V3 -> ses_query s = (s, out, Ok tt) -> out = [query_message V3]).
  { intros s out P H. unfold ses_query in H. destruct (query_eq s) as (v & PV & E); [left; now apply AL|]. rewrite E in H.
    apply pair3 in H. destruct H as (_ & <- & _). do 2 f_equal.
    destruct P as [(_ & ?)|(N4 & _)]; [discriminate|]. destruct PV as [(? & _)|(_ & _ & ->)]; [contradiction|reflexivity]. }
  apply Q in QA; [|now rewrite DA]. apply Q in QB; [|now rewrite DB]. subst pa pb.
  assert (IN : forall z, rounds C (working3 C ka) (working3 C kb) (mkCrossed sa sb [query_message V3] [query_message V3]) z ->
    exists k, (k <= 4)%nat /\ stage k da (de_tag db) (state_of sa (de_tag db)) (cs_a z) (cs_to_b z) /\
               stage k db (de_tag da) (state_of sb (de_tag da)) (cs_b z) (cs_to_a z)).
  { clear RO. intros z RO.
    induction RO as [|ea eb y z RO IH WA WB (T1 & T2 & ra & rb & R1 & R2 & NP)].
    - cbn [cs_a cs_b cs_to_a cs_to_b]. exists 0%nat. split; [lia|]. destruct RA as (A1 & A2 & _). destruct RB as (B1 & B2 & _).
      split; (split; [split; [assumption|]; split; [assumption|]; split; [reflexivity|assumption]|split; [reflexivity|assumption]]).
    - destruct IH as (k & LE & S1 & S2). apply not_in_app in NP as (N1 & N2). exists (Nat.min 4 (S k)). split; [lia|].
      split; [exact (cross_step k da db _ _ _ _ _ _ ea _ _ ra LE LA LB (AL _ PA) PO S1 S2 (working_good _ _ WA) T1 R1 N1)
             |exact (cross_step k db da _ _ _ _ _ _ eb _ _ rb LE LB LA (AL _ PB) PO S2 S1 (working_good _ _ WB) T2 R2 N2)]. }
  destruct (IN _ RO) as (k & _ & [(_ & _ & X & _) _] & [(_ & _ & Y & _) _]). auto.
Qed.
End WithCrypto.
