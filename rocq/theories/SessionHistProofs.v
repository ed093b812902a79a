(* Sessions: properties of whole histories. *)
From Verif Require Import Base BaseLemmas Types Crypto Encoding EncodingProofs Messages Fragment KeyManager DataV3
  Ratchet DataV4 AKE DAKE SMP SMP4 Protocol Session SpecSession SessionProofs SessionPartyProofs SessionInvProofs
  SessionSendProofs.
From Coq Require Import Lia ZifyN ZifyNat.
Local Open Scope N_scope.

Lemma tag_verify_legal t x : tag_verify t = Ok x -> x = t /\ legal_tag t.
Proof.
  unfold tag_verify, legal_tag, INSTANCE_MIN_VALID. destruct (_ && _) eqn:E; [discriminate|]. intros [= ->].
  split; [reflexivity|]. apply andb_false_iff in E. destruct E as [E|E]; apply N.ltb_ge in E; lia.
Qed.
Lemma parse_fragment_legal p f : parse_fragment p = Ok (Some f) -> legal_tag (fr_sender f) /\ legal_tag (fr_receiver f).
Proof.
  assert (B : forall v c, build_fragment v c = Ok (Some f) -> legal_tag (fr_sender f) /\ legal_tag (fr_receiver f)).
  { intros v c H. unfold build_fragment in H. apply bind_ok in H. destruct H as (a & _ & H).
    apply bind_ok in H. destruct H as (b & _ & H). unfold tag_opt in H.
    destruct (tag_verify (hex_num (ca_sender c))) as [x|?|] eqn:X; try discriminate.
    destruct (tag_verify (hex_num (ca_receiver c))) as [y|?|] eqn:Y; try discriminate.
    injection H as <-. apply tag_verify_legal in X, Y. destruct X as [-> X], Y as [-> Y]. auto. }
  unfold parse_fragment. destruct (search match_v4 p); [apply B|]. destruct (search match_v3 p); [apply B|discriminate].
Qed.

Section WithCrypto.
Context (C : Crypto).

(** ** What a received payload can touch *)

Lemma receive_touch e s p s' out r : receive C e s p = (s', out, r) -> r <> Panic ->
  se_tagged s' = se_tagged s /\
  forall u, get_inst u (se_instances s') = get_inst u (se_instances s)
    \/ (match_fragment p = true /\ exists f, parse_fragment p = Ok (Some f) /\ fr_sender f = u)
    \/ (exists em, carries C s p em /\ em_sender em = u /\ u <> 0 /\ verify_header (se_details s) em = Ok tt)
    \/ u = 0.
Proof.
  intros H NP. apply receive_split in H; [|assumption].
  assert (ST : se_tagged (stored s p) = se_tagged s) by apply stored_tagged.
  assert (SU : forall u, get_inst u (se_instances (stored s p)) = get_inst u (se_instances s)
    \/ (match_fragment p = true /\ exists f, parse_fragment p = Ok (Some f) /\ fr_sender f = u)).
  { intros u. unfold stored. destruct (match_fragment p); [|auto].
    destruct (parse_fragment p) as [[f|]|?|] eqn:PF; auto.
    destruct (N.eq_dec (fr_sender f) u) as [E|NE]; [right; eauto|left; now apply get_put_other]. }
  destruct H as [(_ & -> & _) | [(_ & b & CO & H) | (_ & _ & _ & [-> | (-> & _)] & _)]];
    [auto| |auto|split; [assumption|]; intros u; destruct (SU u); auto].
  assert (G : se_tagged s' = se_tagged (stored s p) /\
    forall u, get_inst u (se_instances s') = get_inst u (se_instances (stored s p))
    \/ (exists em, carries C s p em /\ em_sender em = u /\ u <> 0 /\ verify_header (se_details s) em = Ok tt) \/ u = 0).
  2:{ destruct G as [G1 G2]. split; [congruence|]. intros u. destruct (G2 u) as [-> | G]; [|tauto].
      destruct (SU u); tauto. }
  assert (INI : forall v s1 o1 r1, initiate C e (stored s p) v 0 = (s1, o1, r1) -> r1 <> Panic ->
    se_tagged s1 = se_tagged (stored s p) /\
    forall u, get_inst u (se_instances s1) = get_inst u (se_instances (stored s p))
    \/ (exists em, carries C s p em /\ em_sender em = u /\ u <> 0 /\ verify_header (se_details s) em = Ok tt) \/ u = 0).
  { intros v s1 o1 r1 X NPX. apply initiate_inv in X; [|assumption]. destruct X as (i' & _ & -> & S & _).
    split; [reflexivity|]. intros u. destruct (N.eq_dec u 0) as [->|NE]; [auto|].
    left. apply get_put_other. congruence. }
  apply message_split in H; [|assumption].
  destruct H as [(x & _ & -> & _) | [(c & _ & -> & _) | [(c & _ & H) | [(vs & c & _ & H) | [(vs & _ & H) | (em & PA & H)]]]]];
    auto.
  - apply deliver_inv in H; [|assumption]. destruct H as (-> & _). auto.
  - destruct H as [(_ & H) | (_ & v & s1 & r1 & _ & H1 & NP1 & H)].
    + apply deliver_inv in H; [|assumption]. destruct H as (-> & _). auto.
    + apply INI in H1; [|assumption]. destruct H as [(_ & H) | (-> & _)]; [|auto].
      apply deliver_inv in H; [|assumption]. destruct H as (-> & _). auto.
  - destruct H as [(_ & -> & _) | (v & r1 & _ & H1 & H)]; [auto|].
    eapply INI; [exact H1|]. destruct H as [((m & ->) & _) | (_ & x & ->)]; congruence.
  - apply encoded_split in H; [|assumption].
    destruct H as [(-> & _) | [(-> & _) | (V & NZ & _ & i0 & i' & A & H & ->)]]; auto.
    split; [reflexivity|]. intros u. destruct (N.eq_dec (em_sender em) u) as [<-|NE].
    + right. left. exists em. split; [exists b; auto|]. split; [reflexivity|]. split; [assumption|].
      now rewrite stored_details in V.
    + left. now apply get_put_other.
Qed.

Lemma header_legal d em : verify_header d em = Ok tt ->
  legal_tag (em_sender em) /\ em_sender em <> 0 /\ legal_tag (em_receiver em) /\
  (em_receiver em = 0 \/ em_receiver em = de_tag d) /\
  (em_receiver em = 0 -> exists m, em_message em = MDHCommit m \/ exists m, em_message em = MIdentity m).
Proof.
  unfold verify_header. intros H.
  assert (H' : (let* _ := tag_verify (em_sender em) in
      if em_sender em =? 0 then Err ProtocolViolation
      else let* _ := tag_verify (em_receiver em) in
        if (em_receiver em =? 0) && negb (match em_message em with MDHCommit _ | MIdentity _ => true | _ => false end)
        then Err ProtocolViolation
        else if negb (em_receiver em =? 0) && negb (em_receiver em =? de_tag d)
        then Err MessageForOtherInstance else Ok tt) = Ok tt)
    by (destruct (em_version em); try discriminate; exact H).
  clear H. apply bind_ok in H'. destruct H' as (a & A & H). apply tag_verify_legal in A. destruct A as [_ A].
  destruct (em_sender em =? 0) eqn:Z; [discriminate|]. apply N.eqb_neq in Z.
  apply bind_ok in H. destruct H as (b & B & H). apply tag_verify_legal in B. destruct B as [_ B].
  destruct (_ && _) eqn:X; [discriminate|]. destruct (negb (em_receiver em =? 0) && _) eqn:Y; [discriminate|].
  split; [assumption|]. split; [assumption|]. split; [assumption|]. split.
  - apply andb_false_iff in Y. destruct Y as [Y|Y]; apply negb_false_iff, N.eqb_eq in Y; auto.
  - intros R. rewrite R in X. cbn [N.eqb andb] in X. destruct (em_message em); try discriminate.
    + exists m. now left.
    + eexists. right. eauto.
      Unshelve. exact (mkDHCommit [] []).
Qed.

(* the keys of the table *)
Lemma call_keys es s o s' out r u : call C es s o = (s', out, r) -> r <> Panic ->
  get_inst u (se_instances s) = None -> get_inst u (se_instances s') <> None ->
  legal_tag u \/ exists v, o = OpInitiate v u.
Proof.
  intros H NP G0 G1. unfold call in H.
  assert (ANS : forall A (f : A -> answer) x, answering f x = (s', out, r) ->
     exists r0, x = (s', out, r0) /\ r = res_map f r0 /\ r0 <> Panic).
  { intros A f [[s1 o1] r1] X. unfold answering in X. fin3 X. exists r1.
    split; [reflexivity|]. split; [reflexivity|]. intros ->. now apply NP. }
  assert (OI : forall A (f : instance -> effect instance A) t r0, on_instance s t f = (s', out, r0) -> r0 <> Panic -> False).
  { intros A f t r0 X NP0. apply on_instance_inv in X; [|assumption].
    destruct X as [(_ & -> & _) | (i & i' & G & X & ->)]; [congruence|].
    destruct (N.eq_dec t u) as [<-|NE]; [congruence|]. now rewrite get_put_other in G1. }
  destruct o; apply ANS in H; destruct H as (r0 & H & _ & NP0).
  - left. apply receive_touch in H; [|assumption]. destruct H as [_ H].
    destruct (H u) as [H'|[(_ & f & PF & <-)|[(em & _ & <- & _ & V)| ->]]].
    + congruence.
    + now apply parse_fragment_legal in PF.
    + now apply header_legal in V.
    + now left.
  - apply send_inv in H; [|assumption].
    destruct H as [(_ & -> & _) | (_ & [(_ & -> & _) | (i & G & [(_ & _ & -> & _) | (_ & _ & i' & tg & S & ->)])])];
      try congruence.
    cbn [se_instances] in G1. destruct (N.eq_dec tag u) as [<-|NE]; [congruence|].
    now rewrite get_set_other in G1.
  - apply initiate_inv in H; [|assumption]. destruct H as (i' & _ & -> & _).
    destruct (N.eq_dec tag u) as [<-|NE]; [right; eauto|]. now rewrite get_put_other in G1.
  - exfalso. eapply OI; eassumption.
  - unfold ses_query in H. destruct (query s); fin3 H; congruence.
  - exfalso. eapply OI; eassumption.
  - exfalso. eapply OI; eassumption.
  - exfalso. unfold expire in H.
    destruct (expire_all C (se_details s) es timeout (se_instances s)) as [[l' o] x] eqn:E.
    assert (s' = with_instances s l' /\ r0 = x) as [-> ->] by (destruct x; fin3 H; auto; congruence).
    apply expire_all_inv in E; [|assumption]. destruct E as [K _].
    apply in_keys in G1. cbn [with_instances se_instances] in G1. rewrite K in G1. now apply in_keys in G1.
Qed.
Lemma run_legal s0 h s : run C s0 h s ->
  (forall u, get_inst u (se_instances s0) <> None -> legal_tag u) ->
  (forall ev v u, In ev h -> ev_op ev = OpInitiate v u -> legal_tag u) ->
  forall u, get_inst u (se_instances s) <> None -> legal_tag u.
Proof.
  intros R I0 L. induction R as [|h s es o s' out r R IH Hc NP]; [auto|]. intros u G.
  destruct (get_inst u (se_instances s)) eqn:G0.
  - apply IH; [|congruence]. intros ev v w X. apply (L ev v w). apply in_or_app. now left.
  - eapply call_keys in Hc; [|assumption|eassumption|exact G]. destruct Hc as [?|(v & ->)]; [assumption|].
    eapply L; [apply in_or_app; right; now left|reflexivity].
Qed.

(** ** has_sessions *)

Lemma has_sessions_ok s : sinv s ->
  has_sessions s = Ok (existsb (fun '(_, i) => status_eqb (in_status i) Encrypted || status_eqb (in_status i) Finished)
             (se_instances s)).
Proof.
  intros [A ND (z & Z1 & Z2) _]. unfold has_sessions.
  replace (forallb _ (se_instances s)) with true; [reflexivity|]. symmetry. apply forallb_forall.
  intros [k i] IN. unfold all_inst in A. rewrite Forall_forall in A. specialize (A _ IN). cbv beta iota in A.
  rewrite A, N.eqb_refl. cbn [andb]. destruct (k =? 0) eqn:E; [|reflexivity]. cbn [negb orb].
  apply N.eqb_eq in E. subst k. rewrite E in IN. apply in_get in IN; [|assumption]. rewrite Z1 in IN.
  injection IN as <-. unfold in_status. now rewrite Z2.
Qed.
Lemma has_sessions_iff s : sinv s ->
  exists b, has_sessions s = Ok b /\ (b = true <-> exists t, status_of s t <> Plaintext).
Proof.
  intros I. rewrite has_sessions_ok by assumption. eexists. split; [reflexivity|].
  rewrite existsb_exists. unfold status_of, state_of. split.
  - intros ([t i] & IN & E). exists t. apply in_get in IN; [|exact (si_nodup _ I)]. rewrite IN.
    unfold in_status in E. destruct (p_status (in_state i)); discriminate.
  - intros (t & S). destruct (get_inst t (se_instances s)) as [i|] eqn:G; [|now destruct S].
    exists (t, i). split; [now apply get_in|]. unfold in_status. destruct (p_status (in_state i)); auto.
Qed.

(** ** Status over histories *)

Lemma run_not_plain s h s' t : run C s h s' -> sinv s -> status_of s t <> Plaintext -> Forall (fun ev => ~ ended t ev) h ->
  status_of s' t <> Plaintext.
Proof.
  intros R I S. induction R as [|h s1 es o s' out r R IH Hc NP]; [auto|]. intros F.
  apply Forall_app in F. destruct F as [F1 F2]. specialize (IH F1). apply Forall_inv in F2.
  apply run_inv in R; [|assumption]. destruct R as [J _].
  apply call_status with (t := t) in Hc; [|assumption|assumption].
  destruct Hc as [-> | [(-> & _) | [(_ & -> & _) | (_ & ->)]]]; try congruence.
  exfalso. now apply F2.
Qed.
Lemma run_finished s h s' t : run C s h s' -> sinv s -> status_of s t = Finished ->
  Forall (fun ev => ~ ended t ev /\ ~ started_with t ev) h -> status_of s' t = Finished.
Proof.
  intros R I S. induction R as [|h s1 es o s' out r R IH Hc NP]; [auto|]. intros F.
  apply Forall_app in F. destruct F as [F1 F2]. specialize (IH F1). apply Forall_inv in F2.
  apply run_inv in R; [|assumption]. destruct R as [J _].
  apply call_status with (t := t) in Hc; [|assumption|assumption].
  destruct Hc as [-> | [(_ & _ & ->) | [(X & _) | (_ & ->)]]]; try congruence.
  - exfalso. now apply (proj2 F2).
  - exfalso. now apply (proj1 F2).
Qed.

(** ** Whitespace tags *)

Lemma without_nul_idem c : without_nul (without_nul c) = without_nul c.
Proof.
  unfold without_nul. induction c as [|b c IH]; cbn [filter]; [reflexivity|].
  destruct (negb (byte_eqb b x00)) eqn:E; cbn [filter]; [rewrite E; now f_equal|assumption].
Qed.
Lemma without_nul_app a b : without_nul (a ++ b) = without_nul a ++ without_nul b.
Proof. unfold without_nul. apply filter_app. Qed.
Lemma tag_no_nul v : without_nul (whitespace_tag v) = whitespace_tag v.
Proof. destruct v; reflexivity. Qed.
Lemma tag_length v : length (whitespace_tag v) = 24%nat.
Proof. destruct v; reflexivity. Qed.
Lemma tag_head v : exists r, whitespace_tag v = x20 :: r.
Proof. destruct v; eexists; reflexivity. Qed.
Lemma not_own_tag v c : c <> whitespace_tag v ++ without_nul c.
Proof.
  intros E. assert (W : without_nul c = whitespace_tag v ++ without_nul c).
  { rewrite E at 1. now rewrite without_nul_app, tag_no_nul, without_nul_idem. }
  apply (f_equal (@length byte)) in W. rewrite app_length, tag_length in W. lia.
Qed.
Lemma encode_message_head v sd rc m b : encode_message v sd rc m = Ok b -> exists r, b = x3f :: r.
Proof.
  unfold encode_message, serialize_message. intros H. apply bind_ok in H. destruct H as (x & _ & H).
  injection H as <-. eexists. reflexivity.
Qed.
Lemma encode_fragment_head f b : encode_fragment f = Ok b -> exists r, b = x3f :: r.
Proof.
  unfold encode_fragment. destruct (fr_version f); try discriminate; destruct (_ || _)%bool; try discriminate;
    intros H; injection H as <-; eexists; reflexivity.
Qed.
Lemma transported_head d e t v m ps : transported d e t v m ps -> Forall (fun p => exists r, p = x3f :: r) ps.
Proof.
  intros (b & EB & [(_ & ->) | (_ & fs & _ & F)]).
  - constructor; [now apply encode_message_head in EB|constructor].
  - clear - F. induction F as [|f p fs ps E F IH]; constructor; [now apply encode_fragment_head in E|assumption].
Qed.

Lemma send_tagged e s t c s' out ps v : sinv s -> send C e s t c = (s', out, Ok ps) ->
  ps = [whitespace_tag v ++ without_nul c] ->
  send_whitespace_tag (de_policy (se_details s)) = true /\ se_tagged s = false /\ se_tagged s' = true.
Proof.
  intros I H E. apply send_inv in H as SI; [|discriminate].
  destruct SI as [(_ & _ & _ & X) | (D & [(_ & _ & _ & X) | (i & G & [(_ & _ & _ & X) | (RQ & _)])])].
  - injection X as X. rewrite X in E. injection E as E. now apply not_own_tag in E.
  - discriminate.
  - destruct X as [(_ & X) | (x & _ & _ & X)]; discriminate.
  - assert (EN : enabled (se_details s)).
    { unfold enabled, allowed. unfold otr_disabled in D.
      destruct (allow_v3 _), (allow_v4 _); cbn in D; auto; discriminate. }
    destruct (status_of s t) eqn:S.
    + assert (RF : require_encryption (de_policy (se_details s)) = false).
      { destruct RQ as [?|N0]; [assumption|]. exfalso. apply N0. unfold status_of, state_of in S. now rewrite G in S. }
      apply send_plain in H; [|assumption|assumption|congruence|assumption].
      destruct H as [_ [(v' & W & T & _ & _ & T') | (_ & X & _)]]; [auto|].
      injection X as ->. exfalso. apply (f_equal (fun l => length (hd [] l))) in E. cbn [hd] in E.
      rewrite app_length, tag_length in E. lia.
    + exfalso. destruct (tag_head v) as (w & TH).
      assert (F : Forall (fun p => exists r, p = x3f :: r) ps).
      { destruct (send_encrypted C e s t I EN S) as
          [(k1 & k2 & a1 & a2 & a3 & a4 & a5 & A) | (k1 & k2 & a1 & a2 & a3 & a4 & a5 & a6 & A)];
          destruct (A _ _ _ _ H) as [_ T]; eapply transported_head, T. }
      subst ps. apply Forall_inv in F. destruct F as (q & F). rewrite TH in F. discriminate.
    + rewrite send_finished in H by assumption. apply pair3 in H. destruct H as (_ & _ & H). discriminate.
Qed.

Lemma send_tag_mono e s t c s' out r : send C e s t c = (s', out, r) -> r <> Panic ->
  se_tagged s = true -> se_tagged s' = true.
Proof.
  intros H NP T. apply send_inv in H; [|assumption].
  destruct H as [(_ & -> & _) | (D & [(_ & -> & _) | (i & G & [(_ & _ & -> & _) | (RQ & _ & i' & tg & S & ->)])])]; auto.
  cbn [se_tagged]. unfold inst_send in S. rewrite T in S.
  destruct (p_prepare _ _ _ _ _) as [[st m]|x|]; [|fin3 S; reflexivity|fin3 S; congruence].
  destruct m; try (fin3 S; congruence); try (fin3 S; reflexivity).
  destruct (negb (status_eqb _ _)); [fin3 S; congruence|]. cbn [negb] in S. rewrite andb_false_r in S. cbn [andb] in S.
  fin3 S. reflexivity.
Qed.
Lemma call_tagged es s o s' out r : call C es s o = (s', out, r) -> r <> Panic -> sinv s ->
  se_tagged s = true -> se_tagged s' = true.
Proof.
  intros H NP I T. unfold call in H.
  assert (ANS : forall A (f : A -> answer) x, answering f x = (s', out, r) ->
     exists r0, x = (s', out, r0) /\ r = res_map f r0 /\ r0 <> Panic).
  { intros A f [[s1 o1] r1] X. unfold answering in X. fin3 X. exists r1.
    split; [reflexivity|]. split; [reflexivity|]. intros ->. now apply NP. }
  assert (OI : forall A (f : instance -> effect instance A) t r0, on_instance s t f = (s', out, r0) -> r0 <> Panic ->
    se_tagged s' = se_tagged s).
  { intros A f t r0 X NP0. apply on_instance_inv in X; [|assumption].
    destruct X as [(_ & -> & _) | (i & i' & G & X & ->)]; reflexivity. }
  destruct o; apply ANS in H; destruct H as (r0 & H & _ & NP0).
  - apply receive_touch in H; [|assumption]. destruct H as [-> _]. assumption.
  - eapply send_tag_mono; eassumption.
  - apply initiate_inv in H; [|assumption]. destruct H as (i' & _ & -> & _). assumption.
  - apply OI in H; [congruence|assumption].
  - unfold ses_query in H. destruct (query s); fin3 H; auto.
  - apply OI in H; [congruence|assumption].
  - apply OI in H; [congruence|assumption].
  - unfold expire in H. destruct (expire_all _ _ _ _ _) as [[l' o] [x|x|]]; fin3 H; assumption.
Qed.
Lemma call_sent_tagged es s o s' out r : call C es s o = (s', out, r) -> r <> Panic -> sinv s ->
  sent_tagged (mkEvent o out r) ->
  send_whitespace_tag (de_policy (se_details s)) = true /\ se_tagged s = false /\ se_tagged s' = true.
Proof.
  intros H NP I (t & c & v & EO & ER). cbn [ev_op ev_result] in EO, ER. subst o.
  unfold call, answering in H. destruct (send C (es t) s t c) as [[s1 o1] r1] eqn:S. fin3 H.
  destruct r1 as [ps|x|]; try discriminate. injection ER as ->. eapply send_tagged; [assumption|exact S|reflexivity].
Qed.

Lemma run_app s0 h1 h2 s : run C s0 (h1 ++ h2) s -> exists s1, run C s0 h1 s1 /\ run C s1 h2 s.
Proof.
  remember (h1 ++ h2) as h eqn:E. intros R. revert h2 E.
  induction R as [|h s es o s' out r R IH Hc NP]; intros h2 E.
  - symmetry in E. apply app_eq_nil in E. destruct E as [-> ->]. exists s0. split; constructor.
  - destruct h2 as [|a h2'] using rev_ind.
    + rewrite app_nil_r in E. subst. exists s'. split; [|constructor]. econstructor; eassumption.
    + rewrite app_assoc in E. apply app_inj_tail in E. destruct E as [-> <-].
      destruct (IH _ eq_refl) as (s1 & R1 & R2). exists s1. split; [assumption|]. econstructor; eassumption.
Qed.
Lemma run_tagged s0 h s : run C s0 h s -> sinv s0 -> se_tagged s0 = true ->
  se_tagged s = true /\ Forall (fun ev => ~ sent_tagged ev) h.
Proof.
  intros R I T. induction R as [|h s es o s' out r R IH Hc NP]; [auto|]. destruct IH as [T1 F].
  apply run_inv in R; [|assumption]. destruct R as [J _].
  split; [eapply call_tagged; eassumption|]. apply Forall_app. split; [assumption|]. constructor; [|constructor].
  intros X. eapply call_sent_tagged in X; [|eassumption|assumption|assumption]. destruct X as (_ & X & _). congruence.
Qed.
Lemma run_single s0 h ev s : run C s0 (h ++ [ev]) s ->
  exists s1 es, run C s0 h s1 /\ call C es s1 (ev_op ev) = (s, ev_injected ev, ev_result ev) /\ ev_result ev <> Panic.
Proof.
  intros R. inversion R as [E|h' s1 es o s' out r R' Hc NP E]; subst.
  - now destruct h.
  - apply app_inj_tail in E. destruct E as [-> <-]. cbn [ev_op ev_injected ev_result]. eauto.
Qed.
Lemma history_tagged_once d h1 e1 h2 e2 h3 s :
  history C d (h1 ++ e1 :: h2 ++ e2 :: h3) s -> sent_tagged e1 -> sent_tagged e2 -> False.
Proof.
  intros H T1 T2. replace (h1 ++ e1 :: h2 ++ e2 :: h3) with ((h1 ++ [e1]) ++ (h2 ++ e2 :: h3)) in H
    by (rewrite <- app_assoc; reflexivity).
  apply run_app in H. destruct H as (s1 & R1 & R2).
  assert (I1 : sinv s1) by (apply run_inv in R1; [apply R1|apply sinv_new]).
  apply run_single in R1. destruct R1 as (s0 & es & R0 & Hc & NP).
  assert (I0 : sinv s0) by (apply run_inv in R0; [apply R0|apply sinv_new]).
  eapply call_sent_tagged in Hc; [|assumption|assumption|now destruct e1].
  destruct Hc as (_ & _ & TG). apply run_tagged in R2; [|assumption|assumption]. destruct R2 as [_ F].
  apply Forall_app in F. destruct F as [_ F]. inversion F; contradiction.
Qed.
Lemma history_tagged_policy d h s ev : history C d h s -> In ev h -> sent_tagged ev ->
  send_whitespace_tag (de_policy d) = true.
Proof.
  intros H IN T. apply in_split in IN. destruct IN as (h1 & h2 & ->).
  replace (h1 ++ ev :: h2) with ((h1 ++ [ev]) ++ h2) in H by (rewrite <- app_assoc; reflexivity).
  apply run_app in H. destruct H as (s1 & R1 & _).
  apply run_single in R1. destruct R1 as (s0 & es & R0 & Hc & NP).
  apply history_inv in R0. destruct R0 as [I0 D].
  eapply call_sent_tagged in Hc; [|assumption|assumption|now destruct ev]. rewrite D in Hc. apply Hc.
Qed.

End WithCrypto.
