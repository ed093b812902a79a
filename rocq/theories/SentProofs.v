(* Everything a session sends has the layout of SpecFormat. *)
From Coq Require Import String Lia.
From Verif Require Import Base BaseLemmas Types Crypto Encoding Messages Fragment FragmentProofs SpecFragment KeyManager DataV3 Ratchet DataV4
  AKE DAKE SMP SMP4 Protocol Session SpecSession SpecReport SessionProofs SessionInvProofs SessionSendProofs SessionRecvProofs SessionLemmas
  StartProofs SpecFollow FollowProofs ReportProofs SpecFormat FormatProofs SpecSent.
Import SpecSession.
Local Open Scope N_scope.

Lemma query_text v : otr_version v -> query_message v = asking v.
Proof. intros [->| ->]; vm_compute; reflexivity. Qed.
Lemma reply_text : UNREADABLE_REPLY = complaint.
Proof. vm_compute. reflexivity. Qed.
Lemma mark_text v : otr_version v -> whitespace_tag v = mark v.
Proof. intros [->| ->]; vm_compute; reflexivity. Qed.
Lemma preferred_version d v : preferred d v -> otr_version v /\ allowed d v.
Proof. unfold otr_version. intros [(A & ->)|(_ & A & ->)]; auto. Qed.
Lemma transported_sent d e t v m ps : transported d e t v m ps -> SENT v (de_tag d) t m ps.
Proof.
  intros (b & E & H). exists b. split; [now apply encoded_ok|].
  destruct H as [(_ & ->)|(_ & fs & F & A)]; [now left|right].
  apply FragmentProofs.fragment_ok in F. destruct F as (_ & P & _). exists (match v with V3 => [x00; x00; x00; x00] | _ => ev_fragment e end), fs.
  split; [assumption|]. clear P. induction A as [|f p fs ps X A IH]; constructor; [now apply FormatProofs.fragment_ok|assumption].
Qed.
Lemma transported_wire d e t v m ps : otr_version v -> transported d e t v m ps -> WIRE d ps.
Proof.
  intros V T. rewrite <- (app_nil_r ps). eapply W_message; [exact V|eapply transported_sent; eassumption|constructor].
Qed.
Lemma wire_app d a b : WIRE d a -> WIRE d b -> WIRE d (a ++ b).
Proof.
  intros A B. induction A as [|ps _ IH|v ps V L _ IH|v r m qs ps V S _ IH]; cbn [app]; [assumption|now apply W_complaint|now apply W_asking|].
  rewrite <- app_assoc. econstructor; eassumption.
Qed.
Lemma wire_asking d v : preferred d v -> WIRE d [query_message v].
Proof. intros P. apply preferred_version in P. destruct P as [V A]. rewrite (query_text v V). apply W_asking; [assumption..|constructor]. Qed.

Section WithCrypto.
Context (C : Crypto).

Lemma prepared_version e s t s' m : prepare_tlv C e s t = Ok (s', m) -> s <> PPlain -> otr_version (p_version s').
Proof.
  unfold prepare_tlv. intros H NP. destruct (write_tlv t) as [w|x|]; try discriminate. cbn [bind] in H.
  unfold otr_version. destruct s as [|our their k smp|our their k smp|]; cbn [p_prepare] in H; [congruence| | |discriminate].
  - destruct (encrypt3 C our their k true (x00 :: w)) as [[m0 k']|x|]; try discriminate. cbn [bind] in H.
    assert (s' = PEnc3 our their k' smp) as -> by congruence. now left.
  - destruct (encrypt4 C our their k true (x00 :: w) [] (ev_send e)) as [[m0 k']|x|]; try discriminate. cbn [bind] in H.
    assert (s' = PEnc4 our their k' smp) as -> by congruence. now right.
Qed.
Lemma start_smp_wire d e i sec q i' out r : inst_start_smp C d e i sec q = (i', out, r) -> WIRE d out.
Proof.
  unfold inst_start_smp. intros H. destruct (in_state i) as [|our their k smp|our their k smp|]; try (fin3 H; constructor).
  - destruct (smp_initiate _ _ _ _ _ _) as [smp' [t|x|]]; try (fin3 H; constructor).
    destruct (prepare_tlv C e _ t) as [[s m]|x|] eqn:PT; try (fin3 H; constructor).
    unfold injecting in H. destruct (inject _ _ _ _ _ _) as [o|x|] eqn:I; fin3 H; try constructor.
    apply inject_transported in I. eapply transported_wire; [|eassumption].
    first [now left|eapply prepared_version; [exact PT|discriminate]].
  - destruct (smp4_initiate _ _ _ _ _) as [smp' [t|x|]]; try (fin3 H; constructor).
    destruct (prepare_tlv C e _ t) as [[s m]|x|] eqn:PT; try (fin3 H; constructor).
    unfold injecting in H. destruct (inject _ _ _ _ _ _) as [o|x|] eqn:I; fin3 H; try constructor.
    apply inject_transported in I. eapply transported_wire; [|eassumption].
    first [now right|eapply prepared_version; [exact PT|discriminate]].
Qed.
Lemma abort_smp_wire d e i i' out r : inst_abort_smp C d e i = (i', out, r) -> WIRE d out.
Proof.
  unfold inst_abort_smp. intros H. destruct (in_state i) as [|our their k smp|our their k smp|]; try (fin3 H; constructor).
  - destruct (smp_abort smp) as [smp' t]. destruct (prepare_tlv C e _ t) as [[s m]|x|] eqn:PT; try (fin3 H; constructor).
    unfold injecting in H. destruct (inject _ _ _ _ _ _) as [o|x|] eqn:I; fin3 H; try constructor.
    apply inject_transported in I. eapply transported_wire; [|eassumption].
    first [now left|eapply prepared_version; [exact PT|discriminate]].
  - destruct (smp4_abort smp) as [smp' t]. destruct (prepare_tlv C e _ t) as [[s m]|x|] eqn:PT; try (fin3 H; constructor).
    unfold injecting in H. destruct (inject _ _ _ _ _ _) as [o|x|] eqn:I; fin3 H; try constructor.
    apply inject_transported in I. eapply transported_wire; [|eassumption].
    first [now right|eapply prepared_version; [exact PT|discriminate]].
Qed.
Lemma reset_wire d e i i' out r : inst_reset C d e i = (i', out, r) -> WIRE d out.
Proof.
  unfold inst_reset. intros H. destruct (p_finish C _ _) as [b|x|] eqn:F; try (fin3 H; constructor).
  destruct (status_eqb _ _); destruct b; try (fin3 H; constructor).
  unfold injecting in H. destruct (inject _ _ _ _ _ _) as [o|x|] eqn:I; fin3 H; try constructor.
  apply inject_transported in I. eapply transported_wire; [|eassumption].
  unfold otr_version. destruct (in_state i); cbn [p_version]; auto; discriminate F.
Qed.
Lemma initiate_wire d e i v i' out r : inst_initiate C d e i v = (i', out, r) -> r <> Panic -> WIRE d out.
Proof.
  intros H NP. apply initiate_out in H as X; [|assumption]. destruct X as [(_ & m & X)|(_ & ->)]; [|constructor].
  eapply transported_wire; [|eassumption]. unfold inst_initiate in H. unfold otr_version. destruct v; auto; fin3 H; congruence.
Qed.

Lemma on_the_wire d h s es o s' out r : history C d h s -> enabled d -> call C es s o = (s', out, r) -> r <> Panic ->
  WIRE d out /\
  (forall ps, r = Ok (AnPayloads ps) ->
     exists t c, o = OpSend t c /\ (status_of s t = Plaintext /\ require_encryption (de_policy d) = false /\ CLEAR d c ps \/
                                    status_of s t = Encrypted /\ WIRE d ps)).
Proof.
  intros HI EN H NP. apply history_inv in HI as I. destruct I as [SI D].
  assert (T : forall u t v m ps, otr_version v -> transported d (es u) t v m ps -> WIRE d ps).
  { intros u t v m ps V X. eapply transported_wire; eassumption. }
  unfold call in H. destruct o; apply answering_inv in H; try assumption; destruct H as (r0 & H & -> & NP0).
  - split; [|intros ps E; destruct r0; discriminate].
    destruct (negotiates C d h s _ _ _ _ _ HI EN H NP0) as [->|[->|[(v & _ & P & ->)|[(vs & v & m & _ & CH & X)|(em & m & _ & AL & X)]]]].
    + constructor.
    + rewrite reply_text. apply W_complaint. constructor.
    + now apply wire_asking.
    + eapply T; [|eassumption]. unfold otr_version. destruct CH as [(_ & _ & ->)|(_ & _ & _ & ->)]; auto.
    + eapply T; [|eassumption]. unfold otr_version. destruct (em_version em); cbn in AL; tauto.
  - assert (EN' := EN). rewrite <- D in EN'.
    destruct (status_of s tag) eqn:SS.
    + destruct (require_encryption (de_policy d)) eqn:RQ.
      * destruct (required_lemma C d h s (es tag) tag content HI EN RQ SS) as (o & x & E & O). rewrite E in H.
        apply pair3 in H. destruct H as (<- & <- & <-). split; [|intros ps E0; discriminate].
        destruct O as [->|(v & P & ->)]; [constructor|now apply wire_asking].
      * destruct (get_inst tag (se_instances s)) eqn:G.
        -- destruct (plain_lemma C d h s (es tag) tag content s' out r0 HI EN RQ ltac:(congruence) SS H) as [-> X].
           split; [constructor|]. intros ps E. exists tag, content. split; [reflexivity|]. left. split; [assumption|]. split; [reflexivity|].
           destruct X as [(v & A & P & ->)| ->]; cbn [res_map] in E; [right|left; congruence].
           exists v. apply preferred_version in P. destruct P as [V L]. rewrite <- (mark_text v V). repeat (split; [assumption|]). congruence.
        -- unfold send in H. rewrite (enabled_not_disabled _ EN'), G in H. fin3 H. split; [constructor|]. intros ps E. discriminate E.
    + assert (out = []) as -> by (apply send_private_out in H; [assumption|assumption|congruence]). split; [constructor|].
      intros ps E. assert (r0 = Ok ps) as -> by (destruct r0; cbn [res_map] in E; congruence).
      exists tag, content. split; [reflexivity|]. right. split; [assumption|]. rewrite D in *.
      destruct (send_encrypted C (es tag) s tag SI) as [(key & mk & own & peer & next & ctr & rv & A)|(key & mk & pn & i & j & pt & dh & rv & A)];
        [rewrite D; assumption|assumption|..]; apply A in H; destruct H as (_ & X); rewrite D in X; (eapply T; [|eassumption]); [now left|now right].
    + rewrite (send_finished C (es tag) s tag content EN' SS) in H. fin3 H. split; [constructor|]. intros ps E. discriminate.
  - split; [|intros ps E; destruct r0; discriminate].
    unfold initiate in H. apply on_entry_inv in H; [|assumption]. destruct H as (i' & H & ->). rewrite D in H.
    now apply initiate_wire in H.
  - split; [|intros ps E; destruct r0; discriminate].
    unfold end_session in H. apply on_instance_inv in H; [|assumption].
    destruct H as [(_ & -> & -> & ->) | (i & i' & G & X & ->)]; [constructor|]. rewrite D in X. now apply reset_wire in X.
  - split; [|intros ps E; destruct r0; discriminate].
    unfold ses_query in H. assert (EN' := EN). rewrite <- D in EN'. destruct (query_eq s EN') as (v & P & Q). rewrite Q in H. fin3 H.
    rewrite D in P. now apply wire_asking.
  - split; [|intros ps E; destruct r0; discriminate].
    unfold start_smp in H. apply on_instance_inv in H; [|assumption].
    destruct H as [(_ & -> & -> & ->) | (i & i' & G & X & ->)]; [constructor|]. rewrite D in X. now apply start_smp_wire in X.
  - split; [|intros ps E; destruct r0; discriminate].
    unfold abort_smp in H. apply on_instance_inv in H; [|assumption].
    destruct H as [(_ & -> & -> & ->) | (i & i' & G & X & ->)]; [constructor|]. rewrite D in X. now apply abort_smp_wire in X.
  - split; [|intros ps E; destruct r0; discriminate].
    apply expire_total in H as R; [|assumption]. subst r0. apply expire_ok in H; [|assumption].
    destruct H as (_ & _ & outs & -> & F). rewrite D in F. clear - F T.
    induction F as [|t x l outs X F IH]; cbn [List.concat]; [constructor|]. apply wire_app; [|assumption].
    destruct X as [(_ & ->)|(_ & m & _ & X)]; [constructor|]. eapply T; [|eassumption]. now right.
Qed.
End WithCrypto.
