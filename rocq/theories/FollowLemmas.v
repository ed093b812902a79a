(* What follows for the texts sent and received in one conversation. *)
From Verif Require Import Base BaseLemmas Types Crypto CryptoProofs Encoding EncodingProofs Messages Fragment KeyManager
  DataV3 Ratchet DataV4 AKE DAKE SMP SMP4 Protocol Session SpecData3 SpecData4 SpecSession
  DataV3Proofs DataV4Proofs History3Proofs History4Proofs SessionProofs SessionInvProofs SessionSendProofs SessionRecvProofs SessionHistProofs SessionLemmas
  NetAKEProofs NetDAKEProofs StartProofs StartLemmas SpecFollow FollowProofs.
From Coq Require Import Lia ZifyN ZifyNat.
Local Open Scope N_scope.

Section WithCrypto.
Context (C : Crypto).

(** ** The positions of sent OTRv4 messages *)

Definition passed (d : double_ratchet) (m : data4) : Prop :=
  match dr_next d with
  | RECEIVER => d4_i m < dr_i d - 1 \/ (d4_i m = dr_i d - 1 /\ d4_j m < ra_message_id (dr_sender d))
  | SENDER => d4_i m < dr_i d
  end.
Lemma passed_send our their d ig text extra rnd m' d' : encrypt4 C our their d ig text extra rnd = Ok (m', d') ->
  passed d' m' /\ forall m, passed d m -> before4 m m' /\ passed d' m.
Proof.
  intros E. apply encrypt4_ok in E.
  destruct E as (d1 & rv & R & NX & Z & NE & -> & _ & _ & I & J & _).
  unfold passed, before4. cbn [dr_next dr_with_sender dr_i dr_sender ra_message_id]. rewrite NX, I, J.
  split; [right; lia|]. intros m P. destruct R as [NX0|d1 NX0 RS].
  - rewrite NX0 in P. lia.
  - rewrite NX0 in P. apply rotate_sender_ok in RS. destruct RS as (ecdh & sh & _ & _ & _ & -> & _).
    cbn [dr_i dr_sender ra_message_id]. cbn [dr_i fst dr_collect_reveals]. lia.
Qed.
Lemma passed_accept d m' auth now d' text m : decrypt4 C d m' auth now = (d', Ok text) -> passed d m -> passed d' m.
Proof.
  intros E P. apply accept_fields in E. destruct E as (ck & _ & _ & _ & S & E). unfold passed in *. rewrite S.
  destruct E as [(_ & _ & I & N & _)|(_ & N & I & N' & _)].
  - now rewrite N, I.
  - rewrite N' , I. rewrite N in P. lia.
Qed.
Lemma passed_run our their d0 h d m : run4 C our their d0 h d -> passed d0 m ->
  passed d m /\ forall m' text, In (Sent4 m' text) h -> before4 m m'.
Proof.
  intros R P. induction R as [|h d ig text rnd m' d' _ [IH1 IH2] E|h d m' auth now d' text mk _ [IH1 IH2] E _|h d m' auth now d' e _ [IH1 IH2] E].
  - split; [assumption|]. intros m' t' [].
  - apply passed_send in E. destruct E as [_ E]. destruct (E m IH1) as [BF PA]. split; [assumption|].
    intros m2 t2 H. apply in_app_or in H. destruct H as [H|[H|[]]]; [eauto|]. now injection H as <- <-.
  - split; [eapply passed_accept; eassumption|]. intros m2 t2 H. apply in_app_or in H. destruct H as [H|[H|[]]]; [eauto|discriminate].
  - apply decrypt4_err in E. subst d'. split; [assumption|]. intros m2 t2 H. apply in_app_or in H. destruct H as [H|[H|[]]]; [eauto|discriminate].
Qed.
Lemma sent_once our their h d h1 m1 t1 h2 m2 t2 h3 : history4 C our their h d ->
  h = h1 ++ Sent4 m1 t1 :: h2 ++ Sent4 m2 t2 :: h3 -> before4 m1 m2.
Proof.
  intros (d0 & _ & R) ->.
  replace (h1 ++ Sent4 m1 t1 :: h2 ++ Sent4 m2 t2 :: h3) with ((h1 ++ [Sent4 m1 t1]) ++ h2 ++ Sent4 m2 t2 :: h3) in R by now rewrite <- app_assoc.
  apply run4_split in R. destruct R as (d1 & R1 & R2).
  apply run4_snoc_inv in R1. destruct R1 as (dm & _ & ig & rnd & E).
  apply passed_send in E. destruct E as [P _].
  eapply passed_run; [exact R2|exact P|]. apply in_or_app. right. left. reflexivity.
Qed.

(** ** Two texts of one conversation *)

Lemma forall2_mid {A B} (R : A -> B -> Prop) l1 x l2 l : Forall2 R (l1 ++ x :: l2) l ->
  exists k1 y k2, l = k1 ++ y :: k2 /\ Forall2 R l1 k1 /\ R x y /\ Forall2 R l2 k2.
Proof.
  intros F. apply Forall2_app_inv_l in F. destruct F as (k1 & k & F1 & F2 & ->). inversion F2; subst. eauto 8.
Qed.

Lemma sent_distinct d t g1 m1 t1 g2 m2 t2 st : keys_followed C d t (g1 ++ [Sends m1 t1] ++ g2 ++ [Sends m2 t2]) st ->
  (exists x1 x2, m1 = MData x1 /\ m2 = MData x2 /\ (same_keys3 x1 x2 -> 0 < ctr3 x1 < ctr3 x2)) \/
  (exists x1 x2, m1 = MData4 x1 /\ m2 = MData4 x2 /\ before4 x1 x2).
Proof.
  cbn [app]. intros K. destruct st as [|our their k smp|our their k smp|]; try contradiction; destruct K as (-> & -> & l & F & H).
  - left. apply forall2_mid in F. destruct F as (l1 & y1 & l2 & -> & _ & E1 & F).
    apply forall2_mid in F. destruct F as (l3 & y2 & l4 & -> & _ & E2 & _).
    destruct m1; try contradiction; destruct y1; try contradiction. destruct m2; try contradiction; destruct y2; try contradiction.
    cbn [is3] in E1, E2. destruct E1 as [-> ->], E2 as [-> ->]. do 2 eexists. split; [reflexivity|]. split; [reflexivity|].
    eapply counters_never_repeat; [exact (begun3_history _ _ _ _ _ H)|reflexivity].
  - right. apply forall2_mid in F. destruct F as (l1 & y1 & l2 & -> & _ & E1 & F).
    apply forall2_mid in F. destruct F as (l3 & y2 & l4 & -> & _ & E2 & _).
    destruct m1; try contradiction; destruct y1; try contradiction. destruct m2; try contradiction; destruct y2; try contradiction.
    cbn [is4] in E1, E2. destruct E1 as [-> ->], E2 as [-> ->]. do 2 eexists. split; [reflexivity|]. split; [reflexivity|].
    eapply sent_once; [exact H|reflexivity].
Qed.

Lemma send_session e s t c s' out ps : sinv s -> enabled (se_details s) -> status_of s t = Encrypted ->
  send C e s t c = (s', out, Ok ps) ->
  exists m, steps C (state_of s t) [Sends m (without_nul c)] (state_of s' t) /\ transported (se_details s) e t (p_version (state_of s t)) m ps.
Proof.
  intros SI EN SE H. pose proof H as H0. apply send_inv in H; [|discriminate].
  destruct H as [(DI & _) | (_ & [(_ & _ & _ & R) | (i & G & [(_ & SP & _ & R) | (_ & _ & i' & tg & S & ->)])])].
  - apply disabled_not_enabled in DI. contradiction.
  - discriminate.
  - destruct R as [(_ & R)|(x & _ & _ & R)]; discriminate.
  - unfold status_of in *. rewrite (state_get _ _ _ G) in *. unfold state_of at 1. cbn [se_instances]. rewrite get_set_same.
    apply send_steps in S; [|discriminate|assumption]. destruct S as (ps' & m & E & ST & T). injection E as <-.
    exists m. split; [exact ST|]. rewrite (sinv_get _ _ _ SI G) in T. exact T.
Qed.
Lemma sent_session e s t c s' out ps : sinv s -> send C e s t c = (s', out, Ok ps) -> sinv s' /\ se_details s' = se_details s.
Proof.
  intros SI H. apply (run_inv C s [mkEvent (OpSend t c) out (Ok (AnPayloads ps))] s'); [|assumption].
  apply (run_call C s [] s (fun _ => e)); [constructor| |discriminate]. unfold call, answering. now rewrite H.
Qed.
Lemma sends_version st m text st' : steps C st [Sends m text] st' ->
  (p_version st = V3 /\ exists x, m = MData x) \/ (p_version st = V4 /\ exists x, m = MData4 x).
Proof.
  destruct st as [|our their k smp|our their k smp|]; try easy; destruct st' as [|our' their' k' smp'|our' their' k' smp'|]; try easy;
    intros (_ & _ & l & F & _); inversion F as [|a b ? ? X]; subst; destruct m; try contradiction; destruct b; try contradiction; eauto.
Qed.

Lemma fresh_sends d h s t e1 c1 s1 out1 ps1 h2 s2 e2 c2 s3 out2 ps2 : history C d h s -> status_of s t = Encrypted ->
  send C e1 s t c1 = (s1, out1, Ok ps1) -> run C s1 h2 s2 -> Forall (fun ev => ~ started_with t ev) h2 ->
  status_of s2 t = Encrypted -> send C e2 s2 t c2 = (s3, out2, Ok ps2) ->
  (exists m1 m2, transported d e1 t V3 (MData m1) ps1 /\ transported d e2 t V3 (MData m2) ps2 /\
     (same_keys3 m1 m2 -> 0 < ctr3 m1 < ctr3 m2)) \/
  (exists m1 m2, transported d e1 t V4 (MData4 m1) ps1 /\ transported d e2 t V4 (MData4 m2) ps2 /\ before4 m1 m2).
Proof.
  intros H SE S1 R NS SE2 S2. destruct (history_followed C d h s t H SE) as (EN & ev & h1 & gs & _ & _ & K).
  destruct (history_inv C d h s H) as [SI SD]. destruct (sent_session _ _ _ _ _ _ _ SI S1) as [SI1 SD1].
  destruct (run_inv C _ _ _ R SI1) as [SI2 SD2]. rewrite SD in SD1. rewrite SD1 in SD2.
  apply send_session in S1; [|congruence..]. destruct S1 as (m1 & ST1 & T1).
  apply run_steps with (t := t) in R; [|congruence..]. destruct R as (gs2 & _ & ST2).
  apply send_session in S2; [|congruence..]. destruct S2 as (m2 & ST3 & T2).
  pose proof (steps_followed C _ _ _ _ _ _ K (steps_trans C _ _ _ _ _ ST1 (steps_trans C _ _ _ _ _ ST2 ST3))) as K2.
  apply sent_distinct in K2. rewrite SD in T1. rewrite SD2 in T2.
  destruct K2 as [(x1 & x2 & -> & -> & D)|(x1 & x2 & -> & -> & D)]; [left|right]; exists x1, x2;
    destruct (sends_version _ _ _ _ ST1) as [[V1 [y1 Y1]]|[V1 [y1 Y1]]]; try discriminate Y1;
    destruct (sends_version _ _ _ _ ST3) as [[V2 [y2 Y2]]|[V2 [y2 Y2]]]; try discriminate Y2;
    rewrite V1 in T1; rewrite V2 in T2; auto.
Qed.

(** ** Texts shown *)

Lemma shown_enabled e s p s' out t c x : receive C e s p = (s', out, Ok (UMConfidential t c x)) -> enabled (se_details s).
Proof.
  intros H. apply receive_split in H; [|discriminate].
  destruct H as [(_ & _ & _ & R) | [(EN & _) | (EN & _)]]; [discriminate| |];
    revert EN; unfold enabled, allowed, otr_disabled; destruct (allow_v3 _), (allow_v4 _); try discriminate; auto.
Qed.
Lemma shown_encrypted e s p s' out t c x : sinv s -> receive C e s p = (s', out, Ok (UMConfidential t c x)) -> status_of s' t = Encrypted.
Proof.
  intros SI H. pose proof (shown_enabled _ _ _ _ _ _ _ _ H) as EN.
  apply receive_arrives in H; [|assumption|assumption|discriminate].
  inversion H as [r S R |b0 t0 o CO PA S O|b0 t0 q o CO PA S Q O EQ EQ2|vs v o r OF CH S O R
      |em o r CA VH AL SO HA]; subst.
  - destruct R as [R|(y & R)]; discriminate.
  - destruct (q || _); discriminate.
  - destruct R as [R|(y & R & _)]; discriminate.
  - destruct HA as [(_ & R & _) | [(ig & _ & _ & R & _) | (st1 & text & DE & R & _ & _ & T)]].
    + destruct R as [R|[(R & _)|(y & R)]]; discriminate.
    + destruct ig; discriminate.
    + unfold reported in R. destruct (parse_message text) as [[c' ts|c']|y|] eqn:PM; try discriminate; [|contradiction].
      destruct (existsb _ ts) eqn:EX; [destruct R as [R|[R|[R|(y & R)]]]; discriminate|].
      injection R as -> -> ->. destruct (T c' ts eq_refl EX) as [-> _] || destruct (T _ _ eq_refl EX) as [T1 _].
      unfold status_of. rewrite T1. clear - DE. unfold decrypts in DE.
      destruct (state_of s (em_sender em)), (em_message em); try contradiction.
      * destruct DE as (_ & k' & -> & _). reflexivity.
      * destruct DE as (_ & _ & k' & -> & _). reflexivity.
Qed.
Lemma shown_reads e s p s' out t c x : sinv s -> receive C e s p = (s', out, Ok (UMConfidential t c x)) ->
  exists em text, carries C s p em /\ em_sender em = t /\ steps C (state_of s t) [Reads em text] (state_of s' t).
Proof.
  intros SI H. pose proof (shown_encrypted _ _ _ _ _ _ _ _ SI H) as SE.
  pose proof (receive_follow C _ _ _ _ _ _ t H) as F. destruct F as [(R & _)|(_ & [N|(g & ST & RC)])]; try discriminate; try assumption; try congruence.
  destruct RC as [(_ & N)|(em & CA & ES & _ & RC)]; [now contradiction (N c x)|].
  destruct (RC c x eq_refl) as (text & -> & _). eauto.
Qed.

Lemma took_order d t g1 em1 x1 g2 em2 x2 g3 st m1 : keys_followed C d t (g1 ++ [Reads em1 x1] ++ g2 ++ Reads em2 x2 :: g3) st ->
  em_message em1 = MData4 m1 -> exists m2, em_message em2 = MData4 m2 /\ before4 m1 m2.
Proof.
  cbn [app]. intros K M. destruct st as [|our their k smp|our their k smp|]; try contradiction; destruct K as (-> & -> & l & F & H).
  - exfalso. apply forall2_mid in F. destruct F as (l1 & y1 & l2 & -> & _ & E1 & F).
    destruct y1 as [|m a [z|]]; try contradiction. destruct E1 as (E1 & _). congruence.
  - apply forall2_mid in F. destruct F as (l1 & y1 & l2 & -> & _ & E1 & F).
    apply forall2_mid in F. destruct F as (l3 & y2 & l4 & -> & _ & E2 & _).
    destruct y1; try contradiction. destruct y2; try contradiction.
    destruct E1 as (E1 & _). destruct E2 as (E2 & _). eexists. split; [exact E2|].
    rewrite E1 in M. injection M as <-. eapply accepted_once; [exact H|reflexivity].
Qed.
Lemma got_order d t g0 em0 x0 g1 em1 x1 g2 em2 x2 g3 st m0 m1 m2 :
  keys_followed C d t (g0 ++ [Reads em0 x0] ++ g1 ++ [Reads em1 x1] ++ g2 ++ Reads em2 x2 :: g3) st ->
  em_message em0 = MData m0 -> em_message em1 = MData m1 -> em_message em2 = MData m2 ->
  same_keys3 m0 m1 -> same_keys3 m1 m2 -> ctr3 m1 < ctr3 m2.
Proof.
  cbn [app]. intros K M0 M1 M2. destruct st as [|our their k smp|our their k smp|]; try contradiction; destruct K as (-> & -> & l & F & H).
  - apply forall2_mid in F. destruct F as (l1 & y1 & l2 & -> & _ & E1 & F).
    apply forall2_mid in F. destruct F as (l3 & y2 & l4 & -> & _ & E2 & F).
    apply forall2_mid in F. destruct F as (l5 & y3 & l6 & -> & _ & E3 & _).
    destruct y1 as [|? ? [?|]]; try contradiction. destruct y2 as [|? ? [?|]]; try contradiction. destruct y3 as [|? ? [?|]]; try contradiction.
    destruct E1 as (E1 & _). destruct E2 as (E2 & _). destruct E3 as (E3 & _).
    rewrite E1 in M0. injection M0 as <-. rewrite E2 in M1. injection M1 as <-. rewrite E3 in M2. injection M2 as <-.
    eapply replay_bound; [exact (begun3_history _ _ _ _ _ H)|reflexivity].
  - exfalso. apply forall2_mid in F. destruct F as (l1 & y1 & l2 & -> & _ & E1 & F).
    destruct y1; try contradiction. destruct E1 as (E1 & _). congruence.
Qed.

(* two texts of one conversation, one after the other *)
Lemma shown_next d t s e1 p1 s1 out1 c1 x1 h2 s2 e2 p2 s3 out2 c2 x2 : sinv s -> se_details s = d ->
  receive C e1 s p1 = (s1, out1, Ok (UMConfidential t c1 x1)) -> run C s1 h2 s2 -> Forall (fun ev => ~ started_with t ev) h2 ->
  receive C e2 s2 p2 = (s3, out2, Ok (UMConfidential t c2 x2)) ->
  sinv s2 /\ se_details s2 = d /\ exists g, steps C (state_of s1 t) g (state_of s2 t).
Proof.
  intros SI SD R1 RU NS R2. pose proof (shown_enabled _ _ _ _ _ _ _ _ R1) as EN.
  destruct (received_inv C _ _ _ _ _ _ R1 ltac:(discriminate) SI) as [SI1 SD1]. destruct (run_inv C _ _ _ RU SI1) as [SI2 SD2].
  split; [assumption|]. split; [congruence|]. apply shown_reads in R2; [|assumption]. destruct R2 as (em & y & _ & _ & ST).
  apply steps_status in ST. apply run_steps with (t := t) in RU; [|assumption|rewrite SD1; assumption|exact (proj1 ST)|assumption].
  destruct RU as (gs & _ & RU). eauto.
Qed.

Lemma shown_order4 d h s t e1 p1 s1 out1 c1 x1 h2 s2 e2 p2 s3 out2 c2 x2 em1 m1 em2 : history C d h s ->
  receive C e1 s p1 = (s1, out1, Ok (UMConfidential t c1 x1)) -> run C s1 h2 s2 -> Forall (fun ev => ~ started_with t ev) h2 ->
  receive C e2 s2 p2 = (s3, out2, Ok (UMConfidential t c2 x2)) ->
  carries C s p1 em1 -> carries C s2 p2 em2 -> em_message em1 = MData4 m1 ->
  exists m2, em_message em2 = MData4 m2 /\ before4 m1 m2.
Proof.
  intros H R1 RU NS R2 CA1 CA2 M. destruct (history_inv C d h s H) as [SI SD].
  destruct (shown_next _ _ _ _ _ _ _ _ _ _ _ _ _ _ _ _ _ SI SD R1 RU NS R2) as (SI2 & _ & g2 & ST2).
  apply shown_reads in R1; [|assumption]. destruct R1 as (em1' & y1 & CA1' & _ & ST1).
  apply shown_reads in R2; [|assumption]. destruct R2 as (em2' & y2 & CA2' & _ & ST3).
  rewrite (carries_fun C _ _ _ _ CA1' CA1) in *. rewrite (carries_fun C _ _ _ _ CA2' CA2) in *.
  apply steps_status in ST1 as SS1. destruct (history_followed C d h s t H (proj1 SS1)) as (_ & ev & h1 & gs & _ & _ & K).
  pose proof (steps_followed C _ _ _ _ _ _ K (steps_trans C _ _ _ _ _ ST1 (steps_trans C _ _ _ _ _ ST2 ST3))) as K2.
  eapply took_order; [exact K2|exact M].
Qed.
Lemma shown_order3 d h s t e0 p0 s0' out0 c0 x0 h1 s1 e1 p1 s1' out1 c1 x1 h2 s2 e2 p2 s2' out2 c2 x2 em0 em1 em2 m0 m1 m2 :
  history C d h s ->
  receive C e0 s p0 = (s0', out0, Ok (UMConfidential t c0 x0)) -> run C s0' h1 s1 -> Forall (fun ev => ~ started_with t ev) h1 ->
  receive C e1 s1 p1 = (s1', out1, Ok (UMConfidential t c1 x1)) -> run C s1' h2 s2 -> Forall (fun ev => ~ started_with t ev) h2 ->
  receive C e2 s2 p2 = (s2', out2, Ok (UMConfidential t c2 x2)) ->
  carries C s p0 em0 -> carries C s1 p1 em1 -> carries C s2 p2 em2 ->
  em_message em0 = MData m0 -> em_message em1 = MData m1 -> em_message em2 = MData m2 ->
  same_keys3 m0 m1 -> same_keys3 m1 m2 -> ctr3 m1 < ctr3 m2.
Proof.
  intros H R0 RU0 NS0 R1 RU1 NS1 R2 CA0 CA1 CA2 M0 M1 M2. destruct (history_inv C d h s H) as [SI SD].
  destruct (shown_next _ _ _ _ _ _ _ _ _ _ _ _ _ _ _ _ _ SI SD R0 RU0 NS0 R1) as (SI1 & SD1 & g1 & STa).
  destruct (shown_next _ _ _ _ _ _ _ _ _ _ _ _ _ _ _ _ _ SI1 SD1 R1 RU1 NS1 R2) as (SI2 & _ & g2 & STb).
  apply shown_reads in R0; [|assumption]. destruct R0 as (em0' & y0 & CA0' & _ & ST0).
  apply shown_reads in R1; [|assumption]. destruct R1 as (em1' & y1 & CA1' & _ & ST1).
  apply shown_reads in R2; [|assumption]. destruct R2 as (em2' & y2 & CA2' & _ & ST2).
  rewrite (carries_fun C _ _ _ _ CA0' CA0) in *. rewrite (carries_fun C _ _ _ _ CA1' CA1) in *. rewrite (carries_fun C _ _ _ _ CA2' CA2) in *.
  apply steps_status in ST0 as SS0. destruct (history_followed C d h s t H (proj1 SS0)) as (_ & ev & h' & gs & _ & _ & K).
  pose proof (steps_followed C _ _ _ _ _ _ K (steps_trans C _ _ _ _ _ ST0 (steps_trans C _ _ _ _ _ STa
    (steps_trans C _ _ _ _ _ ST1 (steps_trans C _ _ _ _ _ STb ST2))))) as K2.
  eapply got_order; [exact K2|eassumption..].
Qed.

(** ** The same, for the calls of a history *)

Lemma run_snoc_inv s0 h ev s : run C s0 (h ++ [ev]) s -> exists s1 es,
  run C s0 h s1 /\ call C es s1 (ev_op ev) = (s, ev_injected ev, ev_result ev) /\ ev_result ev <> Panic.
Proof.
  intros H. remember (h ++ [ev]) as l eqn:L. destruct H as [|h' s1 es o s' out r H Hc NP].
  - destruct h; discriminate.
  - apply app_inj_tail in L. destruct L as [-> <-]. eauto.
Qed.
Lemma run_at s0 h1 ev h2 s : run C s0 (h1 ++ ev :: h2) s -> exists s1 es s2,
  run C s0 h1 s1 /\ call C es s1 (ev_op ev) = (s2, ev_injected ev, ev_result ev) /\ run C s2 h2 s.
Proof.
  intros H. change (h1 ++ ev :: h2) with (h1 ++ ([ev] ++ h2)) in H. rewrite app_assoc in H. apply run_app in H.
  destruct H as (s2 & H1 & H2). apply run_snoc_inv in H1. destruct H1 as (s1 & es & R & Hc & _). eauto 8.
Qed.
Lemma call_shown es s p s' out t c x : call C es s (OpReceive p) = (s', out, Ok (AnMessage (UMConfidential t c x))) ->
  receive C (es 0) s p = (s', out, Ok (UMConfidential t c x)).
Proof.
  unfold call, answering. destruct (receive C (es 0) s p) as [[s1 o] [r|x0|]]; cbn [res_map]; intros H;
    [|discriminate..]. injection H as -> -> ->. reflexivity.
Qed.
Lemma unfragmented_carries s p em : match_fragment p = false -> parse C p = Ok (MsgEncoded em) -> carries C s p em.
Proof. intros MF PA. exists p. split; [now left|assumption]. Qed.

Lemma started_dec t ev : {started_with t ev} + {~ started_with t ev}.
Proof.
  unfold started_with. destruct (ev_result ev) as [[[]| |]| |]; try (right; discriminate).
  destruct (N.eq_dec tag t) as [->|N]; [left; reflexivity|right; congruence].
Qed.
Lemma started_or_not t h : (exists ev, In ev h /\ started_with t ev) \/ Forall (fun ev => ~ started_with t ev) h.
Proof.
  induction h as [|ev h [(e & I & S)|F]]; [right; constructor|left; exists e; split; [now right|assumption]|].
  destruct (started_dec t ev) as [S|N]; [left; exists ev; split; [now left|assumption]|right; now constructor].
Qed.

Lemma shown_once4 d h1 ev1 h2 ev2 h3 s p em m t c1 x1 c2 x2 : history C d (h1 ++ ev1 :: h2 ++ ev2 :: h3) s ->
  ev_op ev1 = OpReceive p -> ev_op ev2 = OpReceive p ->
  match_fragment p = false -> parse C p = Ok (MsgEncoded em) -> em_message em = MData4 m ->
  ev_result ev1 = Ok (AnMessage (UMConfidential t c1 x1)) -> ev_result ev2 = Ok (AnMessage (UMConfidential t c2 x2)) ->
  exists ev, In ev h2 /\ started_with t ev.
Proof.
  intros H O1 O2 MF PA M A1 A2. destruct (started_or_not t h2) as [X|NS]; [assumption|]. exfalso.
  apply run_at in H. destruct H as (s1 & es1 & s2 & H1 & C1 & H). apply run_at in H. destruct H as (s3 & es2 & s4 & H2 & C2 & _).
  rewrite O1, A1 in C1. rewrite O2, A2 in C2. apply call_shown in C1, C2.
  destruct (shown_order4 _ _ _ _ _ _ _ _ _ _ _ _ _ _ _ _ _ _ em m em H1 C1 H2 NS C2
    (unfragmented_carries _ _ _ MF PA) (unfragmented_carries _ _ _ MF PA) M) as (m2 & M2 & B).
  assert (m2 = m) by congruence. subst m2. unfold before4 in B. lia.
Qed.
Lemma shown_twice3 d h0 ev0 h1 ev1 h2 ev2 h3 s p em m t c0 x0 c1 x1 c2 x2 :
  history C d (h0 ++ ev0 :: h1 ++ ev1 :: h2 ++ ev2 :: h3) s ->
  ev_op ev0 = OpReceive p -> ev_op ev1 = OpReceive p -> ev_op ev2 = OpReceive p ->
  match_fragment p = false -> parse C p = Ok (MsgEncoded em) -> em_message em = MData m ->
  ev_result ev0 = Ok (AnMessage (UMConfidential t c0 x0)) ->
  ev_result ev1 = Ok (AnMessage (UMConfidential t c1 x1)) -> ev_result ev2 = Ok (AnMessage (UMConfidential t c2 x2)) ->
  exists ev, In ev (h1 ++ h2) /\ started_with t ev.
Proof.
  intros H O0 O1 O2 MF PA M A0 A1 A2. destruct (started_or_not t (h1 ++ h2)) as [X|NS]; [assumption|]. exfalso.
  apply Forall_app in NS. destruct NS as [NS1 NS2].
  apply run_at in H. destruct H as (s1 & es1 & s2 & H1 & C1 & H). apply run_at in H. destruct H as (s3 & es2 & s4 & H2 & C2 & H).
  apply run_at in H. destruct H as (s5 & es3 & s6 & H3 & C3 & _).
  rewrite O0, A0 in C1. rewrite O1, A1 in C2. rewrite O2, A2 in C3. apply call_shown in C1, C2, C3.
  pose proof (shown_order3 _ _ _ _ _ _ _ _ _ _ _ _ _ _ _ _ _ _ _ _ _ _ _ _ _ _ em em em m m m H1 C1 H2 NS1 C2 H3 NS2 C3
    (unfragmented_carries _ _ _ MF PA) (unfragmented_carries _ _ _ MF PA) (unfragmented_carries _ _ _ MF PA) M M M
    ltac:(split; reflexivity) ltac:(split; reflexivity)). lia.
Qed.
End WithCrypto.
