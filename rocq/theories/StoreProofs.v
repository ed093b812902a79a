(* Which clients a session keeps an entry for. *)
From Verif Require Import Base BaseLemmas Types Crypto Encoding Messages Fragment Protocol Session SpecSession SpecStore SessionProofs SessionInvProofs
  SessionHistProofs SessionSendProofs StartProofs.
From Coq Require Import Lia.
Local Open Scope N_scope.

Lemma listed t s : In t (ses_instances s) <-> t <> 0 /\ get_inst t (se_instances s) <> None.
Proof.
  unfold ses_instances. rewrite filter_In, Bool.negb_true_iff, N.eqb_neq. rewrite in_keys. tauto.
Qed.
Lemma listed_put t s u i : In t (ses_instances (put s u i)) <-> In t (ses_instances s) \/ t = u /\ t <> 0.
Proof.
  rewrite !listed. destruct (N.eq_dec u t) as [->|NE].
  - rewrite get_put_same. split; [intros [? _]; auto|]. intros [[? _]|[_ ?]]; split; congruence.
  - rewrite get_put_other by assumption. split; [tauto|]. intros [?|[? _]]; [assumption|congruence].
Qed.

Lemma tag_legal t : legal_tag t -> tag_verify t = Ok t.
Proof.
  intros [->|T]; [reflexivity|]. unfold tag_verify. rewrite (proj2 (N.ltb_ge t INSTANCE_MIN_VALID)) by assumption. now rewrite Bool.andb_false_r.
Qed.
Lemma through_iff d em : gets_through d em <-> em_sender em <> 0 /\ verify_header d em = Ok tt /\ allowed d (em_version em).
Proof.
  split.
  - intros (A & S & R). assert (NZ : em_sender em <> 0) by lia. split; [assumption|]. split; [|assumption].
    assert (L : legal_tag (em_receiver em)) by (destruct R as [(L & _)|(-> & _)]; [now right|now left]).
    assert (E : (if (em_receiver em =? 0) && negb (match em_message em with MDHCommit _ | MIdentity _ => true | _ => false end)
      then Err ProtocolViolation
      else if negb (em_receiver em =? 0) && negb (em_receiver em =? de_tag d) then Err MessageForOtherInstance else Ok tt) = Ok tt).
    { destruct R as [(G & R)|(R & m & M)].
      - rewrite <- R, N.eqb_refl. rewrite (proj2 (N.eqb_neq _ 0)) by lia. reflexivity.
      - rewrite R. destruct M as [-> | (i & ->)]; reflexivity. }
    unfold verify_header. rewrite (tag_legal (em_sender em)) by now right. rewrite (tag_legal _ L). cbn [bind].
    rewrite (proj2 (N.eqb_neq _ _) NZ), E. destruct (em_version em); cbn [allowed] in A; easy.
  - intros (NZ & V & A). apply header_legal in V. destruct V as (LS & _ & LR & R & O). split; [assumption|]. split.
    + destruct LS; [contradiction|assumption].
    + destruct (N.eq_dec (em_receiver em) 0) as [Z|Z]; [right; auto|]. left. destruct LR, R; try contradiction. auto.
Qed.

Section WithCrypto.
Context (C : Crypto).

Lemma initiate_listed e s v u s' out r t : initiate C e s v u = (s', out, r) -> r <> Panic ->
  (In t (ses_instances s') <-> In t (ses_instances s) \/ t = u /\ t <> 0).
Proof. intros H NP. apply initiate_inv in H; [|assumption]. destruct H as (i & _ & -> & _). apply listed_put. Qed.

Lemma encoded_listed e s em s' out r t : receive_encoded C e s em = (s', out, r) -> r <> Panic ->
  (In t (ses_instances s') <-> In t (ses_instances s) \/ gets_through (se_details s) em /\ em_sender em = t).
Proof.
  intros H NP. rewrite through_iff. apply encoded_split in H; [|assumption].
  destruct H as [(-> & _ & [Z|A] & _) | [(-> & _ & _ & x & _ & V) | (V & NZ & A & i0 & i' & _ & _ & ->)]].
  - tauto.
  - tauto.
  - split; [tauto|]. intros [?|((_ & X & _) & _)]; [assumption|congruence].
  - rewrite listed_put. split; (intros [?|?]; [tauto|]).
    + right. destruct H as [-> _]. auto.
    + right. destruct H as [_ <-]. auto.
Qed.

Lemma text_listed s o c s' out r t : deliver_text s o c = (s', out, r) -> r <> Panic -> (In t (ses_instances s') <-> In t (ses_instances s)).
Proof. intros H NP. apply deliver_inv in H; [|assumption]. destruct H as (-> & _). tauto. Qed.

Lemma message_listed e s b s' out r t : receive_message C e s b = (s', out, r) -> r <> Panic ->
  (In t (ses_instances s') <-> In t (ses_instances s) \/
     exists em, parse C b = Ok (MsgEncoded em) /\ gets_through (se_details s) em /\ em_sender em = t).
Proof.
  intros H NP. apply message_split in H; [|assumption].
  assert (NO : forall m, parse C b = m -> (forall em, m <> Ok (MsgEncoded em)) ->
    (In t (ses_instances s') <-> In t (ses_instances s)) ->
    (In t (ses_instances s') <-> In t (ses_instances s) \/
     exists em, parse C b = Ok (MsgEncoded em) /\ gets_through (se_details s) em /\ em_sender em = t)).
  { intros m <- NE I. rewrite I. split; [tauto|]. intros [?|(em & P & _)]; [assumption|]. now apply NE in P. }
  assert (INI : forall v s1 o1 r1, initiate C e s v 0 = (s1, o1, r1) -> r1 <> Panic -> (In t (ses_instances s1) <-> In t (ses_instances s))).
  { intros v s1 o1 r1 X NPX. rewrite (initiate_listed _ _ _ _ _ _ _ t X NPX). split; [intros [?|[-> ?]]; [assumption|congruence]|tauto]. }
  destruct H as [(x & P & -> & _) | [(c & P & -> & _) | [(c & P & H) | [(vs & c & P & H) | [(vs & P & H) | (em & P & H)]]]]].
  - apply (NO _ P); [discriminate|tauto].
  - apply (NO _ P); [discriminate|tauto].
  - apply (NO _ P); [discriminate|]. now apply text_listed with (t := t) in H.
  - apply (NO _ P); [discriminate|]. destruct H as [(_ & H) | (_ & v & s1 & r1 & _ & H1 & NP1 & H)].
    + now apply text_listed with (t := t) in H.
    + apply INI in H1; [|assumption]. destruct H as [(_ & H) | (-> & _)]; [|assumption]. apply text_listed with (t := t) in H; [tauto|assumption].
  - apply (NO _ P); [discriminate|]. destruct H as [(_ & -> & _) | (v & r1 & _ & H1 & H)]; [tauto|].
    apply (INI _ _ _ _ H1). destruct H as [((m & ->) & _) | (_ & x & ->)]; congruence.
  - rewrite (encoded_listed _ _ _ _ _ _ t H NP). rewrite P. split; (intros [?|X]; [tauto|right]).
    + exists em. tauto.
    + destruct X as (em' & [= <-] & X). exact X.
Qed.

Lemma receive_listed e s p s' out r t : receive C e s p = (s', out, r) -> r <> Panic -> t <> 0 ->
  (In t (ses_instances s') <-> In t (ses_instances s) \/ introduces C s (OpReceive p) t).
Proof.
  unfold receive. intros H NP NZ. cbn [introduces].
  destruct (otr_disabled (de_policy (se_details s))) eqn:DI.
  { injection H as <- <- <-. split; [tauto|]. intros [?|(EN & _)]; [assumption|]. apply enabled_not_disabled in EN. congruence. }
  assert (EN : enabled (se_details s)).
  { unfold otr_disabled in DI. unfold enabled, allowed. destruct (allow_v3 _), (allow_v4 _); auto; discriminate. }
  assert (NOC : forall x, (forall b, ~ completes s p b) -> ((exists em, carries C s p em /\ x em) <-> False)).
  { intros x N. split; [|easy]. intros (em & (b & CO & _) & _). now apply N in CO. }
  destruct (match_fragment p) eqn:MF.
  2:{ rewrite (message_listed _ _ _ _ _ _ t H NP). split; (intros [?|X]; [tauto|right]).
      - split; [assumption|]. right. destruct X as (em & P & X). exists em. split; [|exact X]. exists p. split; [now left|assumption].
      - destruct X as (_ & [(f & (X & _) & _)|(em & (b & CO & P) & X)]); [congruence|]. exists em. split; [|exact X].
        destruct CO as [(_ & ->)|(f & a & X1 & _)]; [assumption|congruence]. }
  assert (ONE : forall f, fragment_through (se_details s) p f -> parse_fragment p = Ok (Some f)) by (intros f (_ & F & _); exact F).
  destruct (parse_fragment p) as [[f|]|x|] eqn:PF.
  2:{ injection H as <- <- <-. split; [tauto|]. intros [?|(_ & [(f & F & _)|(em & (b & [(? & _)|(f & a & _ & F & _)] & _) & _)])];
        [assumption|apply ONE in F; discriminate|congruence|congruence]. }
  2:{ now apply parse_fragment_no_err in PF. }
  2:{ injection H as <- <- <-. congruence. }
  destruct (verify_fragment f) eqn:VF; cbn [negb] in H.
  2:{ injection H as <- <- <-. split; [tauto|]. intros [?|(_ & [(f' & F & _)|(em & (b & [(? & _)|(f' & a & _ & F & V & _)] & _) & _)])];
        [assumption| |congruence|congruence]. destruct F as (_ & F & V & _). rewrite PF in F. injection F as <-. congruence. }
  destruct (negb (fr_receiver f =? 0) && negb (fr_receiver f =? de_tag (se_details s))) eqn:R.
  { assert (RR : ~ (fr_receiver f = 0 \/ fr_receiver f = de_tag (se_details s))).
    { apply andb_true_iff in R. destruct R as [R1 R2]. apply negb_true_iff, N.eqb_neq in R1, R2. tauto. }
    injection H as <- <- <-. split; [tauto|]. intros [?|(_ & [(f' & F & _)|(em & (b & [(? & _)|(f' & a & _ & F & V & RX & _)] & _) & _)])];
        [assumption| |congruence| ].
    - destruct F as (_ & F & _ & RX). rewrite PF in F. injection F as <-. contradiction.
    - rewrite PF in F. injection F as <-. contradiction. }
  assert (RR : fr_receiver f = 0 \/ fr_receiver f = de_tag (se_details s)).
  { apply andb_false_iff in R. destruct R as [R|R]; apply negb_false_iff, N.eqb_eq in R; auto. }
  destruct (assemble (in_assembler (entry (fr_sender f) (se_instances s))) f) as [a x] eqn:AS.
  set (s1 := put s (fr_sender f) (set_assembler (entry (fr_sender f) (se_instances s)) a)) in *.
  assert (TH : fragment_through (se_details s) p f) by (split; [assumption|]; auto).
  assert (FR : (exists f0, fragment_through (se_details s) p f0 /\ fr_sender f0 = t) <-> fr_sender f = t).
  { split; [|eauto]. intros (f0 & F & S). apply ONE in F. congruence. }
  assert (L1 : In t (ses_instances s1) <-> In t (ses_instances s) \/ fr_sender f = t).
  { unfold s1. rewrite listed_put. split; (intros [?|X]; [now left|right]); [destruct X|]; auto. }
  assert (CF : forall b, completes s p b <-> x = AsmOk b /\ match_fragment b = false).
  { intros b. split.
    - intros [(? & _)|(f' & a' & _ & F & _ & _ & A & M)]; [congruence|]. rewrite PF in F. injection F as <-. rewrite AS in A. injection A as <- ->. auto.
    - intros [-> M]. right. exists f, a. repeat (split; [assumption|]). assumption. }
  assert (QU : (forall b, ~ completes s p b) -> s' = s1 ->
    (In t (ses_instances s') <-> In t (ses_instances s) \/ enabled (se_details s) /\
     ((exists f0, fragment_through (se_details s) p f0 /\ fr_sender f0 = t) \/
      (exists em, carries C s p em /\ gets_through (se_details s) em /\ em_sender em = t)))).
  { intros N ->. rewrite L1, FR, (NOC _ N). tauto. }
  destruct x as [b|y|].
  - destruct (match_fragment b) eqn:MB.
    + injection H as <- <- <-. apply QU; [|reflexivity]. intros b' CO. apply CF in CO. destruct CO as [[= <-] ?]. congruence.
    + assert (HM : receive_message C e s1 b = (s', out, r)).
      { destruct (receive_message C e s1 b) as [[s2 o2] r2]. destruct r2; congruence. }
      rewrite (message_listed _ _ _ _ _ _ t HM NP), L1, FR. change (se_details s1) with (se_details s).
      assert (CM : (exists em, parse C b = Ok (MsgEncoded em) /\ gets_through (se_details s) em /\ em_sender em = t) <->
        exists em, carries C s p em /\ gets_through (se_details s) em /\ em_sender em = t).
      { split; intros (em & P & X); exists em; (split; [|exact X]).
        - exists b. split; [now apply CF|assumption].
        - destruct P as (b' & CO & P). apply CF in CO. destruct CO as [[= <-] _]. exact P. }
      rewrite CM. tauto.
  - apply QU; [intros b' CO; apply CF in CO; destruct CO; discriminate|]. destruct y; injection H as <- <- <-; reflexivity.
  - injection H as <- <- <-. congruence.
Qed.

Lemma expire_keys es l timeout l' out r d : expire_all C d es timeout l = (l', out, r) -> map fst l' = map fst l.
Proof.
  revert l' out r. induction l as [|[t i] l IH]; cbn [expire_all]; intros l' out r H; [injection H as <- <- <-; reflexivity|].
  destruct (inst_expire C d (es t) i timeout) as [[i' o] [u|x|]].
  - destruct (expire_all C d es timeout l) as [[l2 o2] x2] eqn:E. injection H as <- <- <-. cbn [map fst]. f_equal. eapply IH. reflexivity.
  - injection H as <- <- <-. reflexivity.
  - injection H as <- <- <-. reflexivity.
Qed.

Lemma call_listed es s o s' out r t : call C es s o = (s', out, r) -> r <> Panic -> t <> 0 ->
  (In t (ses_instances s') <-> In t (ses_instances s) \/ introduces C s o t).
Proof.
  intros H NP NZ.
  assert (OLD : forall u i, get_inst u (se_instances s) <> None -> (In t (ses_instances (put s u i)) <-> In t (ses_instances s))).
  { intros u i G. rewrite listed_put. split; [|tauto]. intros [?|[-> _]]; [assumption|]. now apply listed. }
  assert (ONI : forall u (A : Type) (f : instance -> effect instance A) s2 o2 r2, on_instance s u f = (s2, o2, r2) -> r2 <> Panic ->
    (In t (ses_instances s2) <-> In t (ses_instances s))).
  { intros u A f s2 o2 r2 X NX. apply on_instance_inv in X; [|assumption]. destruct X as [(_ & -> & _)|(i & i' & G & _ & ->)]; [tauto|].
    apply OLD. congruence. }
  destruct o as [p|u c|v u|u| |u a q|u|to]; cbn [call] in H; apply answering_inv in H; try assumption; destruct H as (r0 & H & _ & NP0).
  - now apply receive_listed with (t := t) in H.
  - cbn [introduces]. apply send_inv in H; [|assumption].
    destruct H as [(_ & -> & _)|(_ & [(_ & -> & _)|(i & G & H)])]; [tauto|tauto|].
    destruct H as [(_ & _ & -> & _)|(_ & _ & i' & tg & _ & ->)]; [tauto|].
    change (ses_instances (mkSession (se_details s) (set_inst u i' (se_instances s)) tg)) with (ses_instances (put s u i')).
    rewrite OLD by congruence. tauto.
  - cbn [introduces]. rewrite (initiate_listed _ _ _ _ _ _ _ t H NP0). split; (intros [?|X]; [tauto|right]); [destruct X|]; auto.
  - cbn [introduces]. rewrite (ONI _ _ _ _ _ _ H NP0). tauto.
  - cbn [introduces]. unfold ses_query in H. destruct (query s); injection H as <- <- <-; tauto.
  - cbn [introduces]. rewrite (ONI _ _ _ _ _ _ H NP0). tauto.
  - cbn [introduces]. rewrite (ONI _ _ _ _ _ _ H NP0). tauto.
  - cbn [introduces]. unfold expire in H. destruct (expire_all C (se_details s) es to (se_instances s)) as [[l o] x] eqn:E. apply expire_keys in E.
    assert (s' = with_instances s l) as -> by (destruct x; congruence).
    unfold ses_instances. cbn [with_instances se_instances]. rewrite E. tauto.
Qed.

End WithCrypto.
