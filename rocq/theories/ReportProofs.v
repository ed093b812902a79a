(* What the user is told about the status of a conversation, the size of the messages handed to the transport,
   and the Socialist Millionaire Protocol in sessions. *)
From Verif Require Import Base BaseLemmas Types Crypto CryptoProofs Encoding Messages Fragment FragmentProofs SpecFragment KeyManager
  DataV3 Ratchet DataV4 AKE DAKE SMP SMP4 Protocol Session SpecData3 SpecData4 SpecSession SpecSMP SpecSMP4 SMPLemmas SMP4Lemmas
  SessionProofs SessionInvProofs SessionSendProofs SessionRecvProofs SessionLemmas StartProofs SpecFollow SpecSmpFollow SpecReport FollowProofs.
From Coq Require Import Lia.
Local Open Scope N_scope.

(** ** Sizes *)

Lemma fragment_length max v s r rnd content fs f p : fragment_content max v s r rnd content = Ok fs -> In f fs ->
  encode_fragment f = Ok p -> (length p <= max)%nat.
Proof.
  intros H IN E. unfold fragment_content in H.
  assert (L : (length p <= (match fr_version f with V3 => OTRV3_HEADER_SIZE | _ => OTRV4_HEADER_SIZE end) + length (fr_payload f))%nat).
  { unfold encode_fragment in E. destruct (fr_version f); try discriminate;
      (match type of E with (if ?b then _ else _) = _ => destruct b; [discriminate|] end);
      (assert (K := f_equal (fun x => match x with Ok b => length b | _ => 0%nat end) E)); cbn beta iota in K;
      rewrite <- K, !app_length, ?app_length, !hex_digits_length, !dec_digits_length;
      unfold OTRV3_HEADER_SIZE, OTRV4_HEADER_SIZE; cbn [length OTR_FRAGMENT_V3_PREFIX OTR_FRAGMENT_SUFFIX]; lia. }
  assert (V : fr_version f = v /\ exists h, h = (match v with V3 => OTRV3_HEADER_SIZE | _ => OTRV4_HEADER_SIZE end) /\ (h < max)%nat /\
    (length (fr_payload f) <= max - h)%nat).
  { destruct v; try discriminate.
    all: destruct (Nat.leb_spec max OTRV3_HEADER_SIZE) + destruct (Nat.leb_spec max OTRV4_HEADER_SIZE); [discriminate|].
    all: destruct (Nat.leb_spec (length content) max); [discriminate|].
    all: match type of H with (if ?b then _ else _) = _ => destruct b; [|discriminate] end.
    all: injection H as <-.
    all: match type of IN with In _ (number_fragments ?v ?id ?s ?r ?total ?k ?l) =>
           destruct (number_spec v id s r total l k) as (P1 & _ & P3 & _) end.
    all: rewrite Forall_forall in P3; apply P3 in IN as P; destruct P as (PV & _).
    all: split; [exact PV|]; eexists; split; [reflexivity|]; split; [assumption|].
    all: match type of P1 with _ = chunks ?a ?b ?c => assert (CS := chunks_sizes a b c) end.
    all: rewrite Forall_forall in CS; apply CS; [lia|]; rewrite <- P1; now apply in_map. }
  destruct V as (V & h & -> & LT & LE). rewrite V in L. lia.
Qed.
Lemma transported_fits d e t v m ps p : transported d e t v m ps -> In p ps -> (length p <= ev_message_size e)%nat.
Proof.
  intros (b & _ & [(L & ->)|(_ & fs & F & E)]) IN.
  - destruct IN as [<-|[]]. exact L.
  - assert (exists f, In f fs /\ encode_fragment f = Ok p) as (f & INF & EF).
    { clear F. revert IN. induction E as [|f q fs ps X E IH]; [intros []|]. intros [<-|IN]; [exists f; split; [now left|assumption]|].
      destruct (IH IN) as (f' & A & B). exists f'. split; [now right|assumption]. }
    eapply fragment_length; eassumption.
Qed.

Section WithCrypto.
Context (C : Crypto).

Lemma start_smp_out d e i sec q i' out r : inst_start_smp C d e i sec q = (i', out, r) ->
  out = [] \/ exists v m, transported d e (in_receiver i) v m out.
Proof.
  unfold inst_start_smp. intros H. destruct (in_state i) as [|our their k smp|our their k smp|]; try (fin3 H; auto).
  - destruct (smp_initiate _ _ _ _ _ _) as [smp' [t|x|]]; try (fin3 H; auto).
    destruct (prepare_tlv C e _ t) as [[s m]|x|]; try (fin3 H; auto).
    unfold injecting in H. destruct (inject _ _ _ _ _ _) as [o|x|] eqn:I; fin3 H; auto. apply inject_transported in I. eauto.
  - destruct (smp4_initiate _ _ _ _ _) as [smp' [t|x|]]; try (fin3 H; auto).
    destruct (prepare_tlv C e _ t) as [[s m]|x|]; try (fin3 H; auto).
    unfold injecting in H. destruct (inject _ _ _ _ _ _) as [o|x|] eqn:I; fin3 H; auto. apply inject_transported in I. eauto.
Qed.
Lemma abort_smp_out d e i i' out r : inst_abort_smp C d e i = (i', out, r) ->
  out = [] \/ exists v m, transported d e (in_receiver i) v m out.
Proof.
  unfold inst_abort_smp. intros H. destruct (in_state i) as [|our their k smp|our their k smp|]; try (fin3 H; auto).
  - destruct (smp_abort smp) as [smp' t]. destruct (prepare_tlv C e _ t) as [[s m]|x|]; try (fin3 H; auto).
    unfold injecting in H. destruct (inject _ _ _ _ _ _) as [o|x|] eqn:I; fin3 H; auto. apply inject_transported in I. eauto.
  - destruct (smp4_abort smp) as [smp' t]. destruct (prepare_tlv C e _ t) as [[s m]|x|]; try (fin3 H; auto).
    unfold injecting in H. destruct (inject _ _ _ _ _ _) as [o|x|] eqn:I; fin3 H; auto. apply inject_transported in I. eauto.
Qed.
Lemma reset_out d e i i' out r : inst_reset C d e i = (i', out, r) ->
  out = [] \/ exists v m, transported d e (in_receiver i) v m out.
Proof.
  unfold inst_reset. intros H. destruct (p_finish C _ _) as [b|x|]; try (fin3 H; auto).
  destruct (status_eqb _ _); destruct b; try (fin3 H; auto).
  unfold injecting in H. destruct (inject _ _ _ _ _ _) as [o|x|] eqn:I; fin3 H; auto. apply inject_transported in I. eauto.
Qed.

Lemma limit d h s es o s' out r max : history C d h s -> enabled d -> (forall t, ev_message_size (es t) = max) ->
  call C es s o = (s', out, r) -> r <> Panic -> (forall t c, o = OpSend t c -> status_of s t <> Plaintext) ->
  (forall p, In p out -> fits max p) /\
  (forall ps p, r = Ok (AnPayloads ps) -> In p ps -> fits max p).
Proof.
  intros HI EN MX H NP SP. apply history_inv in HI as I. destruct I as [SI D].
  assert (T : forall u t v m ps p, transported d (es u) t v m ps -> In p ps -> fits max p).
  { intros u t v m ps p X IN. left. rewrite <- (MX u). eapply transported_fits; eassumption. }
  unfold call in H. destruct o; apply answering_inv in H; try assumption; destruct H as (r0 & H & -> & NP0).
  - split; [|intros ps p E; destruct r0; discriminate]. intros p IN.
    destruct (negotiates C d h s _ _ _ _ _ HI EN H NP0) as [->|[->|[(v & _ & _ & ->)|[(vs & v & m & _ & _ & X)|(em & m & _ & _ & X)]]]].
    + destruct IN.
    + destruct IN as [<-|[]]. right. now left.
    + destruct IN as [<-|[]]. right. right. eauto.
    + eapply T; eassumption.
    + eapply T; eassumption.
  - rewrite <- D in EN. specialize (SP tag content eq_refl). pose proof (send_private_out C _ _ _ _ _ _ _ EN SP H) as ->.
    split; [intros p []|]. intros ps p E IN. assert (r0 = Ok ps) as -> by (destruct r0; cbn [res_map] in E; congruence).
    destruct (status_of s tag) eqn:SS; [congruence| |].
    + rewrite D in *. destruct (send_encrypted C (es tag) s tag SI) as [(key & mk & own & peer & next & ctr & rv & A)|(key & mk & pn & i & j & pt & dh & rv & A)];
        [rewrite D; assumption|assumption|..]; apply A in H; destruct H as (_ & X); rewrite D in X; eapply T; eassumption.
    + rewrite (send_finished C (es tag) s tag content EN SS) in H. discriminate.
  - split; [|intros ps p E; destruct r0; discriminate]. intros p IN.
    unfold initiate in H. apply on_entry_inv in H; [|assumption]. destruct H as (i' & H & ->). rewrite D in H.
    apply initiate_out in H; [|assumption]. destruct H as [(_ & m & X)|(_ & ->)]; [eapply T; eassumption|destruct IN].
  - split; [|intros ps p E; destruct r0; discriminate]. intros p IN.
    unfold end_session in H. apply on_instance_inv in H; [|assumption].
    destruct H as [(_ & -> & -> & ->) | (i & i' & G & X & ->)]; [destruct IN|]. rewrite D in X.
    apply reset_out in X. destruct X as [->|(v & m & X)]; [destruct IN|eapply T; eassumption].
  - split; [|intros ps p E; destruct r0; discriminate]. intros p IN.
    unfold ses_query in H. rewrite <- D in EN. destruct (query_eq s EN) as (v & _ & Q). rewrite Q in H. fin3 H.
    destruct IN as [<-|[]]. right. right. eauto.
  - split; [|intros ps p E; destruct r0; discriminate]. intros p IN.
    unfold start_smp in H. apply on_instance_inv in H; [|assumption].
    destruct H as [(_ & -> & -> & ->) | (i & i' & G & X & ->)]; [destruct IN|]. rewrite D in X.
    apply start_smp_out in X. destruct X as [->|(v & m & X)]; [destruct IN|eapply T; eassumption].
  - split; [|intros ps p E; destruct r0; discriminate]. intros p IN.
    unfold abort_smp in H. apply on_instance_inv in H; [|assumption].
    destruct H as [(_ & -> & -> & ->) | (i & i' & G & X & ->)]; [destruct IN|]. rewrite D in X.
    apply abort_smp_out in X. destruct X as [->|(v & m & X)]; [destruct IN|eapply T; eassumption].
  - split; [|intros ps p E; destruct r0; discriminate]. intros p IN.
    apply expire_total in H as R; [|assumption]. subst r0. apply expire_ok in H; [|assumption].
    destruct H as (_ & _ & outs & -> & F). apply in_concat in IN. destruct IN as (o & IN & INP). rewrite D in F.
    assert (exists t, o = [] \/ exists m, transported d (es t) t V4 m o) as (t & X).
    { clear - F IN. induction F as [|t x l outs X F IH]; [destruct IN|]. destruct IN as [<-|IN]; [|auto].
      exists t. destruct X as [(_ & ->)|(_ & m & _ & X)]; eauto. }
    destruct X as [->|(m & X)]; [destruct INP|eapply T; eassumption].
Qed.

(** ** Changes of status *)

Lemma started_status e s p s' out t : sinv s -> receive C e s p = (s', out, Ok (UMSessionStarted t)) -> status_of s' t = Encrypted.
Proof.
  intros SI H. destruct (receive_follow C _ _ _ _ _ _ t H ltac:(discriminate) SI) as [(_ & _ & K)|(N & _)]; [|congruence].
  unfold status_of. destruct (state_of s' t); try contradiction; reflexivity.
Qed.
Lemma end_answer e s t s' out r : end_session C e s t = (s', out, r) -> r <> Panic -> sinv s -> status_of s t <> Plaintext ->
  r = Ok (UMReset t) /\ status_of s' t = Plaintext.
Proof.
  intros H NP SI SP. unfold status_of at 1. destruct (status_of s t) eqn:SS; [congruence| |].
  - destruct (end_sends C e s t s' out r SI SS H NP) as (v & m & _ & _ & -> & -> & _). auto.
  - destruct (end_finished C e s t SI SS) as (s1 & X & S & _). rewrite X in H. apply pair3 in H. destruct H as (<- & _ & <-).
    split; [reflexivity|]. now rewrite S.
Qed.

Lemma changes_told d h s es o s' out r t : history C d h s -> call C es s o = (s', out, r) -> r <> Panic ->
  status_of s' t <> status_of s t ->
  (status_of s' t = Encrypted /\ (exists p, o = OpReceive p) /\ r = Ok (AnMessage (UMSessionStarted t))) \/
  (status_of s t = Encrypted /\ status_of s' t = Finished /\
     ((exists p c, o = OpReceive p /\ r = Ok (AnMessage (UMSessionFinished t c))) \/ exists timeout, o = OpExpire timeout)) \/
  (status_of s' t = Plaintext /\ o = OpEnd t /\ r = Ok (AnMessage (UMReset t))).
Proof.
  intros HI H NP NE. apply history_inv in HI. destruct HI as [SI _].
  destruct (call_status C _ _ _ _ _ _ t H NP SI) as [E|[E|[E|(E1 & ->)]]]; [congruence|auto|auto|].
  right. right. unfold call in H. apply answering_inv in H; [|assumption]. destruct H as (r0 & H & -> & NP0).
  apply end_answer in H; [|assumption..|congruence]. destruct H as [-> ST]. auto.
Qed.
Lemma told_changes d h s es o s' out r t : history C d h s -> enabled d -> call C es s o = (s', out, r) ->
  (r = Ok (AnMessage (UMSessionStarted t)) -> status_of s' t = Encrypted) /\
  (forall c, r = Ok (AnMessage (UMSessionFinished t c)) -> status_of s t = Encrypted /\ status_of s' t = Finished) /\
  (r = Ok (AnMessage (UMReset t)) -> status_of s t <> Plaintext /\ status_of s' t = Plaintext).
Proof.
  intros HI EN H. apply history_inv in HI as I. destruct I as [SI D].
  assert (OTHER : forall m, r = Ok (AnMessage m) -> (exists p, o = OpReceive p) \/ (exists u, o = OpEnd u) \/ (exists v u, o = OpInitiate v u) ).
  { intros m ->. unfold call in H. destruct o; eauto;
      (apply answering_inv in H; [|discriminate]; destruct H as ([x|x|] & H & E & _); discriminate E). }
  assert (INI : forall m v u, r = Ok (AnMessage m) -> o = OpInitiate v u -> m = UMNone).
  { intros m v u -> ->. unfold call in H. apply answering_inv in H; [|discriminate]. destruct H as (r0 & H & E & NP0).
    apply initiate_kx in H; [|assumption|assumption].
    destruct H as [(_ & x & ->)|[(_ & -> & _)|(_ & _ & _ & -> & _)]]; cbn [res_map] in E; congruence. }
  assert (EA : forall m u, r = Ok (AnMessage m) -> o = OpEnd u -> m = UMNone \/ (m = UMReset u /\ status_of s u <> Plaintext /\ status_of s' u = Plaintext)).
  { intros m u -> ->. unfold call in H. apply answering_inv in H; [|discriminate]. destruct H as (r0 & H & E & NP0).
    destruct (status_of s u) eqn:SS.
    - unfold end_session in H. pose proof H as H0. apply on_instance_inv in H; [|assumption].
      destruct H as [(_ & -> & -> & ->) | (i & i' & G & X & ->)]; [discriminate|].
      fold (end_session C (es u) s u) in H0. rewrite (end_plaintext C (es u) s u) in H0; [|congruence|assumption].
      apply pair3 in H0. destruct H0 as (_ & _ & <-). cbn [res_map] in E. left. congruence.
    - apply end_answer in H; [|assumption..|congruence]. destruct H as [-> ST]. cbn [res_map] in E. right. split; [congruence|]. split; [congruence|assumption].
    - apply end_answer in H; [|assumption..|congruence]. destruct H as [-> ST]. cbn [res_map] in E. right. split; [congruence|]. split; [congruence|assumption]. }
  assert (RC : forall m p, r = Ok (AnMessage m) -> o = OpReceive p -> receive C (es 0) s p = (s', out, Ok m)).
  { intros m p -> ->. unfold call in H. apply answering_inv in H; [|discriminate]. destruct H as (r0 & H & E & NP0).
    destruct r0; cbn [res_map] in E; congruence. }
  assert (NR : forall p u, receive C (es 0) s p <> (s', out, Ok (UMReset u))).
  { intros p u R. rewrite <- D in EN. apply receive_arrives in R; [|assumption|assumption|discriminate].
    inversion R as [r1 S1 R1 |b0 t0 o0 CO PA S1 O|b0 t0 q o0 CO PA S1 Q O EQ EQ2|vs v o0 r1 OF CH S1 O R1 |em o0 r1 CA VH AL SO HA]; subst.
    - destruct R1 as [R1|(x & R1)]; discriminate.
    - destruct (q || _); discriminate.
    - destruct R1 as [R1|(x & R1 & _)]; discriminate.
    - destruct HA as [(_ & R1 & _) | [(ig & _ & _ & R1 & _) | (st1 & text & DE & R1 & _)]].
      + destruct R1 as [R1|[(R1 & _)|(y & R1)]]; discriminate.
      + destruct ig; discriminate.
      + unfold reported in R1. destruct (parse_message text) as [[c' ts|c']|y|]; try discriminate; [|contradiction].
        destruct (existsb _ ts); [destruct R1 as [R1|[R1|[R1|(y & R1)]]]; discriminate|discriminate]. }
  split; [|split].
  - intros R. destruct (OTHER _ R) as [(p & O)|[(u & O)|(v & u & O)]].
    + eapply started_status; [exact SI|exact (RC _ _ R O)].
    + destruct (EA _ _ R O) as [X|(X & _)]; discriminate.
    + pose proof (INI _ _ _ R O). discriminate.
  - intros c R. destruct (OTHER _ R) as [(p & O)|[(u & O)|(v & u & O)]].
    + destruct (peer_ends C d h s _ _ _ _ _ _ HI EN (RC _ _ R O)) as (_ & _ & A & B & _). auto.
    + destruct (EA _ _ R O) as [X|(X & _)]; discriminate.
    + pose proof (INI _ _ _ R O). discriminate.
  - intros R. destruct (OTHER _ R) as [(p & O)|[(u & O)|(v & u & O)]].
    + now apply (NR p t) in RC.
    + destruct (EA _ _ R O) as [X|(X & A & B)]; [discriminate|]. injection X as <-. auto.
    + pose proof (INI _ _ _ R O). discriminate.
Qed.

(** ** The Socialist Millionaire Protocol *)

Lemma verdict_encrypted e s p s' out t m : sinv s -> enabled (se_details s) -> receive C e s p = (s', out, Ok m) ->
  m = UMSmpSucceeded t \/ m = UMSmpFailed t -> status_of s t = Encrypted /\ status_of s' t = Encrypted.
Proof.
  intros SI EN H M. destruct (receive_status C _ _ _ _ _ _ t H ltac:(discriminate) SI) as [E|[(_ & E)|(_ & _ & c & E)]];
    [|destruct M; subst; discriminate..]. rewrite E. assert (status_of s t = Encrypted); [|auto].
  apply receive_arrives in H; [|assumption|assumption|discriminate].
  inversion H as [r1 S1 R1 |b0 t0 o0 CO PA S1 O|b0 t0 q o0 CO PA S1 Q O EQ EQ2|vs v o0 r1 OF CH S1 O R1 |em o0 r1 CA VH AL SO HA]; subst.
  - destruct R1 as [R1|(x & R1)]; destruct M; subst; discriminate.
  - destruct M; discriminate.
  - destruct (q || _), M; subst; discriminate.
  - destruct R1 as [R1|(x & R1 & _)]; destruct M; subst; discriminate.
  - destruct HA as [(_ & R1 & _) | [(ig & _ & _ & R1 & _) | (st1 & text & DE & R1 & _)]].
    + destruct R1 as [R1|[(R1 & _)|(y & R1)]]; destruct M; subst; discriminate.
    + destruct ig, M; subst; discriminate.
    + assert (em_sender em = t).
      { unfold reported in R1. destruct (parse_message text) as [[c' ts|c']|y|]; [|destruct M; subst; discriminate..|contradiction].
        destruct (existsb _ ts); [destruct R1 as [R1|[R1|[R1|(y & R1)]]]|]; destruct M; subst; congruence. }
      subst t. unfold status_of. clear - DE. unfold decrypts in DE. destruct (state_of s (em_sender em)), (em_message em); try contradiction; reflexivity.
Qed.

Lemma success_told d h s e p s' out t : smp_group C -> smp4_group C -> history C d h s -> enabled d ->
  receive C e s p = (s', out, Ok (UMSmpSucceeded t)) ->
  exists ev h1 gxs, latest_start t h ev h1 /\
    Forall2 (talk_in C d t) (h1 ++ [mkEvent (OpReceive p) out (Ok (AnMessage (UMSmpSucceeded t)))]) gxs /\
    keys_followed C d t (concat (map fst gxs)) (state_of s' t) /\ smp_proved C (concat (map snd gxs)) (state_of s' t).
Proof.
  intros G3 G4 HI EN H. apply history_inv in HI as I. destruct I as [SI D].
  assert (SE : status_of s t = Encrypted /\ status_of s' t = Encrypted) by (eapply verdict_encrypted; [exact SI|congruence|exact H|auto]).
  destruct SE as [SE SE'].
  destruct (history_talk C d h s t HI SE) as (_ & ev & h1 & gxs & L & F & K & KS).
  assert (Hc : call C (fun _ => e) s (OpReceive p) = (s', out, Ok (AnMessage (UMSmpSucceeded t)))) by (unfold call, answering; now rewrite H).
  assert (CM : completed (state_of s' t)).
  { destruct (receive_talk C _ _ _ _ _ _ t H ltac:(discriminate) SI) as [(X & _)|(_ & [X|(g & x & _ & _ & _ & HA)])]; [discriminate|contradiction|].
    destruct HA as [(_ & X & _)|(em & _ & HA & _)]; [congruence|]. now apply HA. }
  destruct (call_follow C _ _ _ _ _ _ t Hc ltac:(discriminate) SI) as [(X & _)|(_ & [X|X])]; [discriminate|contradiction|].
  rewrite D in X. destruct (X EN) as (gx & ST & SM & TK). exists ev, h1, (gxs ++ [gx]). split; [assumption|].
  split; [apply Forall2_app; [assumption|constructor; [exact TK|constructor]]|].
  rewrite !map_app, !concat_app. cbn [map concat]. rewrite !app_nil_r. split; [eapply steps_followed; eassumption|].
  assert (SF := smp_steps_followed C _ _ _ _ KS SM). clear - G3 G4 CM SF.
  destruct (state_of s' t); try contradiction; destruct SF as (ys & FY & HH); exists ys; (split; [assumption|]);
    [eapply success_only|eapply success_only4]; eassumption.
Qed.

Lemma smp_steps_ssid st x st' : smp_steps C st x st' ->
  match st, st' with
  | PEnc3 _ _ _ c, PEnc3 _ _ _ c' => sm_ssid c' = sm_ssid c
  | PEnc4 _ _ _ c, PEnc4 _ _ _ c' => s4_ssid c' = s4_ssid c
  | _, _ => False
  end.
Proof. destruct st, st'; cbn [smp_steps]; tauto. Qed.
Lemma ssid_of s t : status_of s t = Encrypted ->
  ses_ssid s t = match state_of s t with PEnc3 _ _ _ c => Ok (sm_ssid c) | PEnc4 _ _ _ c => Ok (s4_ssid c) | _ => Err IncorrectState end.
Proof.
  unfold status_of, state_of, ses_ssid. destruct (get_inst t (se_instances s)) as [i|]; [|discriminate].
  intros _. unfold inst_ssid. destruct (in_state i); reflexivity.
Qed.
Lemma ssid_constant d h s h2 s2 t : history C d h s -> status_of s t = Encrypted -> run C s h2 s2 ->
  Forall (fun ev => ~ started_with t ev) h2 -> status_of s2 t = Encrypted ->
  exists ssid, ses_ssid s t = Ok ssid /\ ses_ssid s2 t = Ok ssid.
Proof.
  intros HI SE R NS SE2. apply history_inv in HI as I. destruct I as [SI D].
  destruct (history_talk C d h s t HI SE) as (EN & _).
  destruct (run_talk C s h2 s2 t R SI ltac:(congruence) SE2 NS) as (gxs & _ & _ & SM). apply smp_steps_ssid in SM.
  rewrite (ssid_of _ _ SE), (ssid_of _ _ SE2). destruct (state_of s t), (state_of s2 t); try contradiction; rewrite SM; eauto.
Qed.

End WithCrypto.
