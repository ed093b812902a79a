(* The key exchange contexts of a session: what changes them, and what follows for repeated starts and for
   replayed messages. *)
From Verif Require Import Base BaseLemmas Types Crypto CryptoProofs Encoding ClientProfile Messages Fragment KeyManager DataV3 Ratchet DataV4
  AKE DAKE SMP SMP4 Protocol Session SpecSession SpecStart SessionProofs SessionPartyProofs SessionInvProofs SessionSendProofs SessionRecvProofs SessionHistProofs SessionLemmas.
From Coq Require Import Lia ZifyN ZifyNat.
Local Open Scope N_scope.

Section WithCrypto.
Context (C : Crypto).

(** ** Instances *)

Definition same_kx (i i' : instance) : Prop := in_ake i' = in_ake i /\ in_dake i' = in_dake i.
Lemma kx_refl i : same_kx i i. Proof. split; reflexivity. Qed.
Lemma kx_trans i i1 i2 : same_kx i i1 -> same_kx i1 i2 -> same_kx i i2.
Proof. intros [A B] [A' B']. split; congruence. Qed.
Lemma kx_state i s : same_kx i (set_state i s). Proof. split; reflexivity. Qed.

Ltac kx H := fin3 H; split; reflexivity.

Lemma injecting_kx {A} i i1 r (a : A) i' out y : injecting i i1 r a = (i', out, y) -> same_kx i i1 -> same_kx i i'.
Proof.
  unfold injecting. intros H K. destruct r; fin3 H; auto using kx_refl.
Qed.

Lemma smp_finish_kx d e i0 i sender reply report i' out r :
  smp_finish C d e i0 i sender reply report = (i', out, r) -> same_kx i0 i -> same_kx i0 i'.
Proof.
  unfold smp_finish. intros H K. destruct reply as [[t|]|x|].
  - destruct (prepare_tlv C e (in_state i) t) as [[s m]|x|].
    + destruct (inject _ _ _ _ _ _) as [o|x|]; try destruct report; fin3 H; auto using kx_refl;
        (eapply kx_trans; [exact K|apply kx_state]).
    + fin3 H. auto.
    + fin3 H. auto using kx_refl.
  - destruct report; fin3 H; auto using kx_refl.
  - fin3 H. auto.
  - fin3 H. auto using kx_refl.
Qed.

Lemma data_error_kx i ig x i' out r : data_error i ig x = (i', out, r) -> same_kx i i'.
Proof. intros H. apply data_error_inst in H. subst. apply kx_refl. Qed.

Lemma data3_kx d e i sd rc m i' out r : inst_data3 C d e i sd rc m = (i', out, r) -> same_kx i i'.
Proof.
  unfold inst_data3. destruct (p_handle3 C _ _ _ _) as [s x]. intros H. destruct x as [[content tlvs|content]|x|].
  - destruct (existsb is_smp3_tlv tlvs); [|kx H]. destruct (single_smp is_smp3_tlv tlvs) as [t|z|].
    + destruct s as [|our their k smp|our their k smp|]; try (kx H).
      destruct (smp_handle _ _ _ _ _) as [smp' reply]. eapply smp_finish_kx; [exact H|split; reflexivity].
    + kx H.
    + kx H.
  - kx H.
  - apply data_error_kx in H. eapply kx_trans; [|exact H]. apply kx_state.
  - kx H.
Qed.
Lemma data4_kx d e i sd rc m i' out r : inst_data4 C d e i sd rc m = (i', out, r) -> same_kx i i'.
Proof.
  unfold inst_data4. destruct (data4_validate C m) as [u|x|]; intros H; [|kx H|kx H].
  revert H. destruct (p_handle4 C _ _ _ _) as [s x]. intros H. destruct x as [[content tlvs|content]|x|].
  - destruct (existsb is_smp4_tlv tlvs); [|kx H]. destruct (single_smp is_smp4_tlv tlvs) as [t|z|].
    + destruct s as [|our their k smp|our their k smp|]; try (kx H).
      destruct (smp4_handle _ _ _ _ _) as [smp' reply]. eapply smp_finish_kx; [exact H|split; reflexivity].
    + kx H.
    + kx H.
  - kx H.
  - apply data_error_kx in H. eapply kx_trans; [|exact H]. apply kx_state.
  - kx H.
Qed.

(* data messages *)
Lemma handle_kx d e i em i' out r : inst_handle C d e i em = (i', out, r) -> of_conversation (em_message em) -> same_kx i i'.
Proof.
  unfold inst_handle. intros H D.
  destruct (em_version em), (em_message em); try contradiction D; try (kx H).
  - apply data3_kx in H. exact H.
  - apply data4_kx in H. exact H.
Qed.
Lemma start_smp_kx d e i sec q i' out r : inst_start_smp C d e i sec q = (i', out, r) -> same_kx i i'.
Proof.
  unfold inst_start_smp. intros H. destruct (in_state i) as [|our their k smp|our their k smp|]; try (kx H).
  - destruct (smp_initiate _ _ _ _ _ _) as [smp' [t|x|]]; try (kx H).
    destruct (prepare_tlv C e _ t) as [[s m]|x|]; try (kx H). eapply injecting_kx; [exact H|split; reflexivity].
  - destruct (smp4_initiate _ _ _ _ _) as [smp' [t|x|]]; try (kx H).
    destruct (prepare_tlv C e _ t) as [[s m]|x|]; try (kx H). eapply injecting_kx; [exact H|split; reflexivity].
Qed.
Lemma abort_smp_kx d e i i' out r : inst_abort_smp C d e i = (i', out, r) -> same_kx i i'.
Proof.
  unfold inst_abort_smp. intros H. destruct (in_state i) as [|our their k smp|our their k smp|]; try (kx H).
  - destruct (smp_abort smp) as [smp' t]. destruct (prepare_tlv C e _ t) as [[s m]|x|]; try (kx H).
    eapply injecting_kx; [exact H|split; reflexivity].
  - destruct (smp4_abort smp) as [smp' t]. destruct (prepare_tlv C e _ t) as [[s m]|x|]; try (kx H).
    eapply injecting_kx; [exact H|split; reflexivity].
Qed.

(** ** Sessions *)

Definition at_ (s : session) (t : N) : instance := entry t (se_instances s).
Lemma at_put_same s t i : at_ (put s t i) t = i. Proof. unfold at_, entry. now rewrite get_put_same. Qed.
Lemma at_put_other s t u i : t <> u -> at_ (put s t i) u = at_ s u.
Proof. intros NE. unfold at_, entry. now rewrite get_put_other. Qed.
Lemma kx_put s t i u : same_kx (at_ s t) i -> same_kx (at_ s u) (at_ (put s t i) u).
Proof.
  intros K. destruct (N.eq_dec t u) as [->|NE]; [now rewrite at_put_same|]. rewrite at_put_other by assumption. apply kx_refl.
Qed.
Lemma kx_stored s p u : same_kx (at_ s u) (at_ (stored s p) u).
Proof.
  unfold stored. destruct (match_fragment p); [|apply kx_refl]. destruct (parse_fragment p) as [[f|]|x|]; try apply kx_refl.
  apply kx_put. split; reflexivity.
Qed.

Lemma answering_inv {A} (f : A -> answer) x s' out r : answering f x = (s', out, r) -> r <> Panic ->
  exists r0, x = (s', out, r0) /\ r = res_map f r0 /\ r0 <> Panic.
Proof.
  destruct x as [[s1 o1] r1]. unfold answering. intros X NP. fin3 X. exists r1.
  split; [reflexivity|]. split; [reflexivity|]. intros ->. now apply NP.
Qed.

Lemma on_instance_kx {A} s t (f : instance -> effect instance A) s' out r u :
  on_instance s t f = (s', out, r) -> r <> Panic -> (forall i i' o x, f i = (i', o, x) -> same_kx i i') ->
  same_kx (at_ s u) (at_ s' u).
Proof.
  intros H NP F. apply on_instance_inv in H; [|assumption].
  destruct H as [(_ & -> & _)|(i & i' & G & X & ->)]; [apply kx_refl|]. apply F in X. apply kx_put. unfold at_, entry. now rewrite G.
Qed.

Lemma encoded_kx e s em s' out r : receive_encoded C e s em = (s', out, r) -> r <> Panic ->
  forall u, u <> em_sender em \/ of_conversation (em_message em) -> same_kx (at_ s u) (at_ s' u).
Proof.
  intros H NP u D. apply encoded_split in H; [|assumption].
  destruct H as [(-> & _)|[(-> & _)|(_ & NZ & _ & i0 & i' & A & H & ->)]]; try apply kx_refl.
  destruct D as [NE|D]; [rewrite at_put_other by auto; apply kx_refl|].
  apply kx_put. apply handle_kx in H; [|assumption].
  destruct A as [->|[(zi & a & _ & (k & E) & _)|(zi & a & _ & (k & E) & _)]]; [assumption| |]; rewrite E in D; contradiction D.
Qed.

(* every call but initiate and receive *)
Lemma other_kx es s o s' out r u : call C es s o = (s', out, r) -> r <> Panic -> sinv s ->
  match o with OpReceive _ | OpInitiate _ _ => False | _ => True end -> same_kx (at_ s u) (at_ s' u).
Proof.
  intros H NP SI N. unfold call in H. destruct o; try contradiction N; apply answering_inv in H; try assumption;
    destruct H as (r0 & H & _ & NP0).
  - apply send_inv in H; [|assumption].
    destruct H as [(_ & -> & _)|(_ & [(_ & -> & _)|(i & G & [(_ & _ & -> & _)|(_ & _ & i' & tg & S & ->)])])]; try apply kx_refl.
    apply send_moves in S; [|assumption]. destruct S as (_ & _ & _ & A & B).
    assert (K : same_kx (at_ s tag) i') by (unfold at_, entry; rewrite G; split; assumption).
    exact (kx_put s tag i' u K).
  - unfold end_session in H. eapply on_instance_kx; [exact H|assumption|].
    intros i i' o x X. unfold inst_reset in X.
    destruct (p_finish C _ _) as [a|y|]; [|kx X|kx X]. destruct (status_eqb _ _); destruct a; try (kx X).
    eapply injecting_kx; [exact X|split; reflexivity].
  - unfold ses_query in H. destruct (query s); fin3 H; apply kx_refl.
  - unfold start_smp in H. eapply on_instance_kx; [exact H|assumption|]. intros i i' o x X. now apply start_smp_kx in X.
  - unfold abort_smp in H. eapply on_instance_kx; [exact H|assumption|]. intros i i' o x X. now apply abort_smp_kx in X.
  - unfold expire in H. destruct (expire_all C _ es timeout (se_instances s)) as [[l' o1] x] eqn:E.
    assert (x <> Panic /\ s' = with_instances s l') as [NX ->] by (destruct x; fin3 H; split; congruence).
    destruct (expire_all_inv C _ _ _ _ _ _ _ E NX) as [K A]. unfold at_, entry. cbn [se_instances with_instances].
    destruct (get_inst u l') as [i'|] eqn:G'.
    + destruct (A _ _ (get_in _ _ _ G')) as (i & I & D). rewrite (in_get u _ i (si_nodup _ SI) I).
      destruct D as [->|(-> & _)]; [apply kx_refl|apply kx_state].
    + assert (get_inst u (se_instances s) = None) as ->; [|apply kx_refl].
      destruct (get_inst u (se_instances s)) as [i|] eqn:G; [|reflexivity]. exfalso.
      assert (In u (map fst l')) as I by (rewrite K; apply in_keys; congruence). apply in_keys in I. congruence.
Qed.

(** ** The unaddressed instance: it answers the first OTRv4 offer, and no other *)

Lemma initiate_kx e s v t s' out r : initiate C e s v t = (s', out, r) -> r <> Panic -> sinv s ->
  (same_kx (at_ s t) (at_ s' t) /\ exists x, r = Err x) \/
  (v = V3 /\ r = Ok UMNone /\ in_dake (at_ s' t) = in_dake (at_ s t) /\
   (exists our x, in_ake (at_ s' t) = AkeAwaitingDHKey our x) /\ exists m, transported (se_details s) e t V3 (MDHCommit m) out) \/
  (v = V4 /\ in_ake (at_ s' t) = in_ake (at_ s t) /\ in_dake (at_ s t) = DakeInitial /\ r = Ok UMNone /\
   (exists w, in_dake (at_ s' t) = DakeAwaitingAuthR w) /\ exists m, transported (se_details s) e t V4 (MIdentity m) out).
Proof.
  unfold initiate. intros H NP SI. apply on_entry_inv in H; [|assumption]. destruct H as (i' & H & ->).
  rewrite at_put_same. fold (at_ s t) in H.
  assert (RI : in_receiver (at_ s t) = t) by (apply sinv_entry; assumption).
  unfold inst_initiate in H. destruct v; try (fin3 H; congruence).
  - unfold ake_initiate in H. destruct (dh_generate C (ev_dh e)) as [our|x|]; cbn [bind] in H; [|fin3 H|fin3 H; congruence].
    + right. left. apply injecting_inv in H.
      destruct H as [(J & -> & ->)|[(x & E & _)|(_ & ->)]]; [|now apply inject_no_err in E|congruence].
      apply inject_transported in J. rewrite RI in J. cbn [in_ake in_dake set_ake]. eauto 10.
    + left. split; [apply kx_refl|eauto].
  - destruct (dake_initiate C (ev_dake_host e) (ev_dake e) (in_dake (at_ s t))) as [st [m|x|]] eqn:E; [| |fin3 H; congruence].
    + right. right. split; [reflexivity|]. apply injecting_inv in H.
      destruct H as [(J & -> & ->)|[(x & E' & _)|(_ & ->)]]; [|now apply inject_no_err in E'|congruence].
      cbn [in_ake set_dake in_dake]. split; [reflexivity|].
      unfold dake_initiate in E. destruct (in_dake (at_ s t)); try discriminate.
      destruct (let* payload := _ in _) as [w|x|]; try discriminate. injection E as <- <-.
      split; [reflexivity|]. split; [reflexivity|]. split; [eauto|]. apply inject_transported in J. rewrite RI in J. eauto.
    + left. split; [|fin3 H; eauto]. fin3 H. unfold dake_initiate in E. destruct (in_dake (at_ s t)) eqn:ED; try discriminate;
        try (injection E as <- <-; split; cbn [in_ake in_dake set_dake]; congruence).
      destruct (let* payload := _ in _) as [w|y|]; try discriminate. injection E as <- <-.
      split; cbn [in_ake in_dake set_dake]; congruence.
Qed.

(* one call: the key exchanges of the unaddressed instance stay as they are, or one starts *)
Definition ake0 (s : session) : ake_state := in_ake (at_ s 0).
Definition dake0 (s : session) : dake_state := in_dake (at_ s 0).
Definition waiting3 (s : session) : Prop := exists our r, ake0 s = AkeAwaitingDHKey our r.
Definition waiting4 (s : session) : Prop := exists w, dake0 s = DakeAwaitingAuthR w.

Definition zero_moves (d : details) (s s' : session) (out : list bytes) : Prop :=
  (ake0 s' = ake0 s \/ waiting3 s' /\ exists e m, transported d e 0 V3 (MDHCommit m) out) /\
  (dake0 s' = dake0 s \/ dake0 s = DakeInitial /\ waiting4 s' /\ exists e m, transported d e 0 V4 (MIdentity m) out).

Lemma zero_kx d s s' out : same_kx (at_ s 0) (at_ s' 0) -> zero_moves d s s' out.
Proof. intros [A B]. split; left; assumption. Qed.
Lemma zero_initiate e s v t s' out r : initiate C e s v t = (s', out, r) -> r <> Panic -> sinv s ->
  zero_moves (se_details s) s s' out.
Proof.
  intros H NP SI. destruct (N.eq_dec t 0) as [->|NZ].
  - destruct (initiate_kx _ _ _ _ _ _ _ H NP SI)
      as [(K & _)|[(_ & _ & K & W & m & T)|(_ & K & K1 & _ & W & m & T)]]; [now apply zero_kx| |].
    + split; [right|left]; eauto.
    + split; [left|right]; eauto 10.
  - apply initiate_inv in H; [|assumption]. destruct H as (i' & _ & -> & _). apply zero_kx. rewrite at_put_other by assumption. apply kx_refl.
Qed.

Lemma zero_call es s o s' out r : call C es s o = (s', out, r) -> r <> Panic -> sinv s ->
  zero_moves (se_details s) s s' out.
Proof.
  intros H NP SI. destruct o; try (apply zero_kx, (other_kx _ _ _ _ _ _ 0 H NP SI I)).
  - unfold call in H. apply answering_inv in H; [|assumption]. destruct H as (r0 & H & _ & NP0).
    apply receive_split in H; [|assumption].
    destruct H as [(_ & -> & _)|[(_ & b & CO & H)|(_ & _ & _ & [->|(-> & _)] & _)]]; try apply zero_kx, kx_refl;
      try apply zero_kx, kx_stored.
    assert (Z : zero_moves (se_details (stored s payload)) (stored s payload) s' out ->
      zero_moves (se_details s) s s' out).
    { destruct (kx_stored s payload 0) as [K1 K2]. unfold zero_moves, ake0, dake0. now rewrite K1, K2, stored_details. }
    apply Z. clear Z. apply (sinv_stored _ payload) in SI.
    remember (stored s payload) as s0 eqn:ES0. clear ES0.
    apply message_split in H; [|assumption].
    destruct H as [(x & _ & -> & _)|[(t & _ & -> & _)|[(t & _ & H)|[(vs & t & _ & H)|[(vs & _ & H)|(em & _ & H)]]]]];
      try apply zero_kx, kx_refl.
    + apply deliver_inv in H; [|assumption]. destruct H as (-> & _). apply zero_kx, kx_refl.
    + destruct H as [(_ & H)|(_ & v & s1 & r1 & _ & H1 & NP1 & H)].
      * apply deliver_inv in H; [|assumption]. destruct H as (-> & _). apply zero_kx, kx_refl.
      * assert (s' = s1) as ->.
        { destruct H as [(_ & H)|(-> & _)]; [|reflexivity]. apply deliver_inv in H; [|assumption]. now destruct H as (-> & _). }
        eapply zero_initiate; eassumption.
    + destruct H as [(_ & -> & _)|(v & r1 & _ & H1 & H)]; [apply zero_kx, kx_refl|]. eapply zero_initiate; [exact H1| |assumption].
      destruct H as [((m & ->) & _)|(_ & x & ->)]; congruence.
    + apply zero_kx. apply encoded_split in H; [|assumption].
      destruct H as [(-> & _)|[(-> & _)|(_ & NZ & _ & i0 & i' & A & H & ->)]]; try apply kx_refl.
      rewrite at_put_other by assumption. apply kx_refl.
  - unfold call in H. apply answering_inv in H; [|assumption]. destruct H as (r0 & H & _ & NP0). eapply zero_initiate; eassumption.
Qed.

Lemma waiting4_run s h s' : run C s h s' -> sinv s -> waiting4 s -> dake0 s' = dake0 s.
Proof.
  intros H SI (w & AW). induction H as [|h s1 es o s2 out r H IH K NP]; [reflexivity|].
  pose proof (proj1 (run_inv C s h s1 H SI)) as S1.
  destruct (zero_call _ _ _ _ _ _ K NP S1) as [_ [E|(E & _)]]; congruence.
Qed.
Lemma waiting3_run s h s' : run C s h s' -> sinv s -> waiting3 s -> waiting3 s'.
Proof.
  intros H SI (our & x & AW). induction H as [|h s1 es o s2 out r H IH K NP]; [eexists; eauto|].
  pose proof (proj1 (run_inv C s h s1 H SI)) as S1.
  destruct (zero_call _ _ _ _ _ _ K NP S1) as [[E|(E & _)] _]; [|assumption].
  destruct IH as (our' & x' & IH). exists our', x'. congruence.
Qed.
Lemma ake0_run s h s' : run C s h s' -> sinv s -> no_new_start3 (se_details s) h -> ake0 s' = ake0 s.
Proof.
  intros H SI. induction H as [|h s1 es o s2 out r H IH K NP]; intros N; [reflexivity|].
  pose proof (run_inv C s h s1 H SI) as [S1 D1].
  rewrite <- IH by (intros ev e m J; apply N, in_app_iff; now left).
  destruct (zero_call _ _ _ _ _ _ K NP S1) as [[E|(_ & e & m & E)] _]; [assumption|]. exfalso.
  apply (N (mkEvent o out r) e m); [apply in_app_iff; right; now left|]. cbn [ev_injected]. now rewrite <- D1.
Qed.
Lemma dake0_fresh d h s : history C d h s -> no_new_start4 d h -> dake0 s = DakeInitial.
Proof.
  intros H. induction H as [|h s1 es o s2 out r H IH K NP]; intros N; [reflexivity|].
  pose proof (history_inv C d h s1 H) as [S1 D1].
  destruct (zero_call _ _ _ _ _ _ K NP S1) as [_ [E|(_ & _ & e & m & T)]].
  - rewrite E. apply IH. intros ev e m I. apply N. apply in_app_iff. now left.
  - exfalso. apply (N (mkEvent o out r) e m); [apply in_app_iff; right; now left|]. cbn [ev_injected]. now rewrite <- D1.
Qed.
Lemma dake0_history d h s : history C d h s -> waiting4 s \/ dake0 s = DakeInitial.
Proof.
  intros H. induction H as [|h s1 es o s2 out r H IH K NP]; [now right|].
  pose proof (proj1 (history_inv C d h s1 H)) as S1.
  destruct (zero_call _ _ _ _ _ _ K NP S1) as [_ [E|(_ & E & _)]]; [|auto]. unfold waiting4. now rewrite E.
Qed.

(** ** Queries *)

Lemma query_received e s p v s' out r : enabled (se_details s) -> queries C (se_details s) p v ->
  receive C e s p = (s', out, r) -> r <> Panic ->
  exists r1, initiate C e s v 0 = (s', out, r1) /\ r1 <> Panic /\ ((exists m, r1 = Ok m) /\ r = Ok UMNone \/ r = r1 /\ exists x, r1 = Err x).
Proof.
  intros EN (MF & vs & PA & CH) H NP. apply select_chosen in CH. apply enabled_not_disabled in EN.
  unfold receive in H. rewrite EN, MF in H. unfold receive_message in H. rewrite PA, CH in H.
  destruct (initiate C e s v 0) as [[s1 o1] [m|x|]]; fin3 H; [| |congruence].
  - exists (Ok m). split; [reflexivity|]. split; [discriminate|]. left. eauto.
  - exists (Err x). split; [reflexivity|]. split; [discriminate|]. right. eauto.
Qed.
Lemma waiting_answered d h s ev v : history C d h s -> enabled d -> In ev h -> answered_query C d v ev ->
  match v with V3 => waiting3 s | V4 => waiting4 s | _ => True end.
Proof.
  intros H EN I (p & O & Q & R). apply in_split in I. destruct I as (h1 & h2 & ->).
  change (h1 ++ ev :: h2) with (h1 ++ ([ev] ++ h2)) in H. rewrite app_assoc in H. apply run_app in H. destruct H as (s2 & H1 & H2).
  pose proof (history_inv C _ _ _ H1) as [I2 _]. apply run_single in H1. destruct H1 as (s1 & es & H1 & K & NP).
  pose proof (history_inv C _ _ _ H1) as [I1 D1]. rewrite O, R in K. unfold call in K.
  apply answering_inv in K; [|discriminate]. destruct K as (r0 & K & RR & NP0).
  destruct r0 as [m| |]; try discriminate. injection RR as <-.
  apply query_received with (v := v) in K; [|now rewrite D1|now rewrite D1|discriminate].
  destruct K as (r1 & K & NP1 & [((m & ->) & _)|(<- & x & X)]); [|discriminate].
  apply initiate_kx in K; [|discriminate|assumption].
  destruct K as [(_ & x & X)|[(-> & _ & _ & W & _)|(-> & _ & _ & _ & W & _)]]; [discriminate| |].
  - eapply waiting3_run; eassumption.
  - pose proof (waiting4_run _ _ _ H2 I2 W) as E. destruct W as (w & W). exists w. unfold dake0 in *. congruence.
Qed.

(* the answer depends only on the unaddressed instance *)
Lemma same_answer e s s0 v s' out r s0' out0 r0 : sinv s -> sinv s0 -> se_details s = se_details s0 ->
  (v = V4 -> dake0 s = dake0 s0) ->
  initiate C e s v 0 = (s', out, r) -> initiate C e s0 v 0 = (s0', out0, r0) -> out = out0 /\ r = r0.
Proof.
  intros I I0 D E H H0. unfold initiate, on_entry in *. fold (at_ s 0) in H. fold (at_ s0 0) in H0.
  assert (R : in_receiver (at_ s 0) = 0) by (apply sinv_entry; assumption).
  assert (R0 : in_receiver (at_ s0 0) = 0) by (apply sinv_entry; assumption).
  rewrite D in H. unfold inst_initiate in *. unfold dake0 in E.
  assert (J : forall m, inject (se_details s0) e (at_ s 0) v 0 m = inject (se_details s0) e (at_ s0 0) v 0 m)
    by (intros; unfold inject; now rewrite R, R0).
  rewrite R in H. rewrite R0 in H0. destruct v.
  - fin3 H. fin3 H0. auto.
  - destruct (ake_initiate C (ev_dh e) (ev_r e)) as [[st m]|x|]; [|fin3 H; fin3 H0; auto|fin3 H; fin3 H0; auto].
    rewrite J in H. destruct (inject _ _ _ _ _ _) as [o|x|]; cbn [injecting] in *; fin3 H; fin3 H0; auto.
  - rewrite (E eq_refl) in H. destruct (dake_initiate C _ _ (in_dake (at_ s0 0))) as [st [m|x|]];
      [|fin3 H; fin3 H0; auto|fin3 H; fin3 H0; auto].
    rewrite J in H. destruct (inject _ _ _ _ _ _) as [o|x|]; cbn [injecting] in *; fin3 H; fin3 H0; auto.
  - fin3 H. fin3 H0. auto.
Qed.
Lemma query_same e s s0 p v s' out r s0' out0 r0 : sinv s -> sinv s0 -> se_details s = se_details s0 -> enabled (se_details s) ->
  (v = V4 -> dake0 s = dake0 s0) -> queries C (se_details s) p v ->
  receive C e s p = (s', out, r) -> receive C e s0 p = (s0', out0, r0) -> out = out0 /\ r = r0.
Proof.
  intros I I0 D EN E (MF & vs & PA & CH) H H0. apply select_chosen in CH. apply enabled_not_disabled in EN.
  unfold receive in *. rewrite <- D, EN, MF in H0. rewrite EN, MF in H. unfold receive_message in *.
  rewrite PA in H, H0. rewrite <- D, CH in H0. rewrite CH in H.
  destruct (initiate C e s v 0) as [[s1 o1] r1] eqn:K. destruct (initiate C e s0 v 0) as [[s2 o2] r2] eqn:K0.
  destruct (same_answer _ _ _ _ _ _ _ _ _ _ I I0 D E K K0) as [<- <-]. destruct r1; fin3 H; fin3 H0; auto.
Qed.

(** ** Quiet periods *)

Lemma quiet_is_run t s h s' : quiet_run C t s h s' -> run C s h s'.
Proof. intros H. induction H as [|h s1 es o s2 out r H IH Q K NP]; [constructor|]. econstructor; eassumption. Qed.
Lemma quiet_kx t s h s' : quiet_run C t s h s' -> sinv s -> t <> 0 -> same_kx (at_ s t) (at_ s' t).
Proof.
  intros H SI NZ. induction H as [|h s1 es o s2 out r H IH Q K NP]; [apply kx_refl|].
  eapply kx_trans; [apply IH|]. clear IH. apply quiet_is_run in H. unfold not_with in Q.
  pose proof (proj1 (run_inv C s h s1 H SI)) as S1. clear H SI s.
  destruct o; try (apply (other_kx _ _ _ _ _ _ t K NP S1 I)).
  - unfold call in K. apply answering_inv in K; [|assumption]. destruct K as (r0 & H & _ & NP0).
    apply receive_split in H; [|assumption].
    destruct H as [(_ & -> & _)|[(_ & b & CO & H)|(_ & _ & _ & [->|(-> & _)] & _)]]; try apply kx_refl; try apply kx_stored.
    eapply kx_trans; [apply (kx_stored s1 payload)|]. apply message_split in H; [|assumption].
    assert (INI : forall v s3 o3 r3, initiate C (es 0) (stored s1 payload) v 0 = (s3, o3, r3) -> r3 <> Panic ->
       same_kx (at_ (stored s1 payload) t) (at_ s3 t)).
    { intros v s3 o3 r3 J NJ. apply initiate_inv in J; [|assumption]. destruct J as (i' & _ & -> & _).
      rewrite at_put_other by auto. apply kx_refl. }
    destruct H as [(x & _ & -> & _)|[(u & _ & -> & _)|[(u & _ & H)|[(vs & u & _ & H)|[(vs & _ & H)|(em & PA & H)]]]]];
      try apply kx_refl.
    + apply deliver_inv in H; [|assumption]. destruct H as (-> & _). apply kx_refl.
    + destruct H as [(_ & H)|(_ & v & s3 & r1 & _ & H1 & NP1 & H)].
      * apply deliver_inv in H; [|assumption]. destruct H as (-> & _). apply kx_refl.
      * assert (s2 = s3) as ->.
        { destruct H as [(_ & H)|(-> & _)]; [|reflexivity]. apply deliver_inv in H; [|assumption]. now destruct H as (-> & _). }
        eapply INI; eassumption.
    + destruct H as [(_ & -> & _)|(v & r1 & _ & H1 & H)]; [apply kx_refl|]. eapply INI; [exact H1|].
      destruct H as [((m & ->) & _)|(_ & x & ->)]; congruence.
    + eapply encoded_kx; [exact H|assumption|]. destruct (N.eq_dec t (em_sender em)) as [->|]; [right|now left].
      apply (Q em); [exists b; auto|reflexivity].
  - unfold call in K. apply answering_inv in K; [|assumption]. destruct K as (r0 & H & _ & NP0).
    apply initiate_inv in H; [|assumption]. destruct H as (i' & _ & -> & _). rewrite at_put_other by auto. apply kx_refl.
Qed.
End WithCrypto.
