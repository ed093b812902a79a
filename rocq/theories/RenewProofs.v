(* Conversations that the users renew. *)
From Verif Require Import Base BaseLemmas Types Crypto CryptoProofs Encoding EncodingProofs ClientProfile Messages MessagesProofs Fragment
  KeyManager KeyManagerProofs DataV3 SpecData3 DataV3Proofs History3Proofs Conv3Proofs Data3Lemmas Ratchet DataV4 SpecCurve SpecData4 Conv4Proofs
  AKE SpecAKE DAKE SpecDAKE SMP SMP4
  Protocol Session SpecWire SpecSession SessionProofs SessionPartyProofs SessionInvProofs SessionSendProofs SessionRecvProofs SessionHistProofs SessionLemmas
  SpecNet NetProofs NetAKEProofs NetDAKEProofs Net3Proofs NetLemmas Net4Proofs Net4Lemmas SpecStart StartProofs StartLemmas RecoverProofs SpecRenew.
From Coq Require Import Lia ZifyN ZifyNat.
Local Open Scope N_scope.

Section WithCrypto.
Context (C : Crypto).

(** ** What happens in the network are calls *)

Lemma history_call d h s es o s' out r : history C d h s -> call C es s o = (s', out, r) -> r <> Panic ->
  exists h', history C d (h ++ h') s'.
Proof. intros H K NP. exists [mkEvent o out r]. eapply run_call; eassumption. Qed.
Lemma history_receive_all e ps : forall d h s s' out rs, history C d h s -> receive_all C e s ps = (s', out, rs) -> ~ In Panic rs ->
  exists h', history C d (h ++ h') s'.
Proof.
  induction ps as [|p ps IH]; intros d h s s' out rs H R NP; cbn [receive_all] in R.
  - apply pair3 in R. destruct R as (<- & _). exists []. now rewrite app_nil_r.
  - destruct (receive C e s p) as [[s1 o1] r1] eqn:R1. destruct (receive_all C e s1 ps) as [[s2 o2] r2] eqn:R2.
    apply pair3 in R. destruct R as (<- & _ & <-).
    assert (N1 : r1 <> Panic) by (intros ->; apply NP; now left).
    assert (K : call C (fun _ => e) s (OpReceive p) = (s1, o1, res_map AnMessage r1)) by (unfold call, answering; rewrite R1; reflexivity).
    destruct (history_call d h s _ _ _ _ _ H K) as (h1 & H1). { destruct r1; cbn [res_map]; congruence. }
    destruct (IH d _ s1 s2 o2 r2 H1 R2) as (h2 & H2). { intros I. apply NP. now right. }
    exists (h1 ++ h2). now rewrite app_assoc.
Qed.
Lemma history_send d h s e t text s' out ps : history C d h s -> send C e s t text = (s', out, Ok ps) -> exists h', history C d (h ++ h') s'.
Proof.
  intros H S. assert (K : call C (fun _ => e) s (OpSend t text) = (s', out, Ok (AnPayloads ps))) by (unfold call, answering; rewrite S; reflexivity).
  eapply history_call; [exact H|exact K|discriminate].
Qed.
Lemma history_net ta tb l0 hs l da db ha hb : net_run C ta tb l0 hs l -> history C da ha (li_a l0) -> history C db hb (li_b l0) ->
  (exists h, history C da (ha ++ h) (li_a l)) /\ (exists h, history C db (hb ++ h) (li_b l)).
Proof.
  intros R A B. induction R as [|hs l h l' R IH ST]; [split; exists []; now rewrite app_nil_r|]. destruct IH as [(ga & HA) (gb & HB)].
  assert (KA : exists h, history C da (ha ++ h) (li_a l)) by eauto. assert (KB : exists h, history C db (hb ++ h) (li_b l)) by eauto.
  assert (XA : forall s, (exists h, history C da ((ha ++ ga) ++ h) s) -> exists h, history C da (ha ++ h) s)
    by (intros s (g & H); exists (ga ++ g); now rewrite app_assoc).
  assert (XB : forall s, (exists h, history C db ((hb ++ gb) ++ h) s) -> exists h, history C db (hb ++ h) s)
    by (intros s (g & H); exists (gb ++ g); now rewrite app_assoc).
  destruct ST; cbn [li_a li_b] in *; split; try assumption; first [apply XA|apply XB];
    first [eapply history_send; eassumption|eapply history_receive_all; eassumption|eapply history_call; eassumption].
Qed.
Lemma history_exchange sa sb (x : exchange C sa sb) da db ha hb : history C da ha sa -> history C db hb sb ->
  (exists h, history C da (ha ++ h) (x_sa2 x)) /\
  (exists h1 h2, history C db (hb ++ h1) (x_sb1 x) /\ history C db ((hb ++ h1) ++ h2) (x_sb3 x)).
Proof.
  intros A B. destruct x as [e0 e1 e2 e3 e4 sa1 sa2 sb1 sb2 sb3 p0 p1 p2 p3 p4 p5 r1 r2 r3 r4 r5 XQ X1 X2 X3 X4 X5 XA XC XE].
  cbn [x_sa2 x_sb1 x_sb3]. apply not_in_app in XA as (N1 & XA). apply not_in_app in XA as (N2 & XA). apply not_in_app in XA as (N3 & XA).
  apply not_in_app in XA as (N4 & N5).
  destruct (history_receive_all _ _ _ _ _ _ _ _ A X2 N2) as (h2 & A1). destruct (history_receive_all _ _ _ _ _ _ _ _ A1 X4 N4) as (h4 & A2).
  destruct (history_receive_all _ _ _ _ _ _ _ _ B X1 N1) as (h1 & B1). destruct (history_receive_all _ _ _ _ _ _ _ _ B1 X3 N3) as (h3 & B2).
  destruct (history_receive_all _ _ _ _ _ _ _ _ B2 X5 N5) as (h5 & B3).
  split; [exists (h2 ++ h4); now rewrite app_assoc|]. exists h1, (h3 ++ h5). split; [assumption|]. now rewrite app_assoc.
Qed.

(** ** The other way round *)

Definition swap (l : link) : link := mkLink (li_b l) (li_a l) (li_ba l) (li_ab l).
Definition swap_h (h : happening) : happening :=
  match h with
  | Sends a t => Sends (negb a) t | Loses a => Loses (negb a) | Arrives a t rs out => Arrives (negb a) t rs out
  | Elsewhere a => Elsewhere (negb a)
  end.
Lemma swap_swap l : swap (swap l) = l. Proof. now destruct l. Qed.
Lemma net_step_swap ta tb l h l' : net_step C ta tb l h l' -> net_step C tb ta (swap l) (swap_h h) (swap l').
Proof.
  intros H. destruct H; unfold swap; cbn [li_a li_b li_ab li_ba swap_h negb].
  - eapply (n_send_b C tb ta (swap l)); eassumption.
  - eapply (n_send_a C tb ta (swap l)); eassumption.
  - eapply (n_lose_b C tb ta (swap l)); eassumption.
  - eapply (n_lose_a C tb ta (swap l)); eassumption.
  - eapply (n_arrive_b C tb ta (swap l)); eassumption.
  - eapply (n_arrive_a C tb ta (swap l)); eassumption.
  - eapply (n_other_b C tb ta (swap l)); eassumption.
  - eapply (n_other_a C tb ta (swap l)); eassumption.
Qed.

(** ** OTRv3 *)

Definition talks3 (da db : details) (l : link) : Prop :=
  exists sa sb x hs, start_net3 C da db sa sb x /\ net_run C (de_tag da) (de_tag db) (mkLink (x_sa2 x) (x_sb3 x) [] []) hs l.
Lemma talks3_step da db l h l' : talks3 da db l -> net_step C (de_tag da) (de_tag db) l h l' -> talks3 da db l'.
Proof. intros (sa & sb & x & hs & S & R) ST. exists sa, sb, x, (hs ++ [h]). split; [assumption|]. eapply n_step; eassumption. Qed.
Lemma talks3_begin da db sa sb x : start_net3 C da db sa sb x -> talks3 da db (mkLink (x_sa2 x) (x_sb3 x) [] []).
Proof. intros S. exists sa, sb, x, []. split; [assumption|constructor]. Qed.

Record at_rest3 (da db : details) (l : link) : Prop := {
  ar_ha : exists h, history C da h (li_a l); ar_hb : exists h, history C db h (li_b l);
  ar_la : legal_details da; ar_lb : legal_details db;
  ar_ra : resting (li_a l) (de_tag db); ar_rb : resting (li_b l) (de_tag da);
  ar_aa : allowed da V3; ar_ab : allowed db V3; ar_po : dh_params_ok C;
  ar_co : connected (li_a l) (li_b l) }.
Lemma at_rest3_swap da db l : at_rest3 da db l -> at_rest3 db da (swap l).
Proof. intros [? ? ? ? ? ? ? ? ? (X & Y & Z)]. split; try assumption. split; [exact Y|]. split; [exact X|now symmetry]. Qed.

Lemma talks3_rest da db l : dh_group_ok C -> talks3 da db l -> at_rest3 da db l.
Proof.
  intros GO (sa & sb & x & hs & H & R).
  pose proof H as ((ha & HA) & (hb & HB) & LA & LB & _ & _ & PA & AB & PO & _). apply preferred_allowed in PA.
  destruct (history_exchange sa sb x da db ha hb HA HB) as ((ga & HA2) & (gb & gb' & _ & HB3)).
  destruct (history_net _ _ _ _ _ _ _ _ _ R HA2 HB3) as ((fa & HA4) & (fb & HB4)). clear HA HB HA2 HB3.
  pose proof (net3_settled C _ _ _ _ _ H) as (TA & TB). apply net3_secured in H. destruct H as ((ka & kb & _ & _ & SEC) & _ & DA & DB).
  apply secured_linked in SEC. destruct SEC as (s0 & ssid & S0 & L0). rewrite DA, DB in L0.
  destruct (net_settled3 C da db _ _ _ s0 hs l GO LA LB PA AB S0 L0 R TA TB) as (TA2 & TB2).
  destruct (net_sim3 C da db _ _ _ s0 hs l GO LA LB PA AB S0 L0 R) as (os & cs & _ & L & _).
  destruct L as ((_ & DA2 & _ & ia & GA & RA & SA) & (_ & DB2 & _ & ib & GB & RB & SB) & _).
  split; try assumption; eauto using settled_resting.
  unfold connected. rewrite DA2, DB2. unfold status_of, state_of, ses_ssid, inst_ssid. rewrite GA, GB, SA, SB. auto.
Qed.
Lemma rest3_start da db l (y : exchange C (li_a l) (li_b l)) : at_rest3 da db l -> preferred da V3 -> honest3 C y ->
  start_net3 C da db (li_a l) (li_b l) y.
Proof. intros [] PA HO. unfold start_net3. auto 12. Qed.
Lemma start3_told da db sa sb (y : exchange C sa sb) : start_net3 C da db sa sb y -> connected (x_sa2 y) (x_sb3 y) /\ told3 y da db.
Proof.
  intros H. apply net3_secured in H. destruct H as ((ka & kb & _ & _ & SEC) & (_ & _ & _ & _ & R4 & R5) & DA & DB).
  split; [|split; assumption].
  destruct SEC as [IA IB DA2 DB2 (ia & ib & kma & kmb & ssid & GA & GB & RA & RB & SA & SB & S0)].
  unfold connected. rewrite DA2, DB2. rewrite ?DA, ?DB in *.
  unfold status_of, state_of, ses_ssid, inst_ssid. rewrite GA, GB, SA, SB. auto.
Qed.

Lemma renewed3_talks da db l : dh_group_ok C -> renewed3 C da db l -> preferred da V3 /\ (talks3 da db l \/ talks3 db da (swap l)).
Proof.
  intros GO H. induction H as [sa sb x S|l h l' H [PA IH] ST|l y H [PA IH] HO|l y H [PA IH] PB HO].
  - split; [apply S|]. left. now apply talks3_begin.
  - split; [assumption|]. destruct IH as [IH|IH]; [left|right]; eapply talks3_step; try eassumption. eapply net_step_swap. eassumption.
  - split; [assumption|]. left. apply talks3_begin. apply rest3_start; try assumption.
    destruct IH as [IH|IH]; [now apply talks3_rest|]. apply (talks3_rest _ _ _ GO), at_rest3_swap in IH. now rewrite swap_swap in IH.
  - split; [assumption|]. right. unfold swap. cbn [li_a li_b li_ab li_ba]. apply talks3_begin. apply (rest3_start db da (swap l)); try assumption.
    destruct IH as [IH|IH]; [apply at_rest3_swap|]; now apply talks3_rest.
Qed.

Lemma talks3_arrival da db l h l' : dh_group_ok C -> talks3 da db l -> net_step C (de_tag da) (de_tag db) l h l' -> shown_or_refused da db h.
Proof.
  intros GO (sa & sb & x & hs & S & R) ST. destruct h as [a t|a|a text rs out|a]; try exact I.
  destruct (net3_conversation C da db sa sb x (hs ++ [Arrives a text rs out]) l' S GO) as (K & _).
  - eapply n_step; eassumption.
  - apply K. apply in_app_iff. right. now left.
Qed.

Lemma renewable3 da db l : dh_group_ok C -> renewed3 C da db l ->
  connected (li_a l) (li_b l) /\
  (forall h l', net_step C (de_tag da) (de_tag db) l h l' -> shown_or_refused da db h) /\
  (forall y : exchange C (li_a l) (li_b l), honest3 C y -> connected (x_sa2 y) (x_sb3 y) /\ told3 y da db) /\
  (preferred db V3 -> forall y : exchange C (li_b l) (li_a l), honest3 C y -> connected (x_sa2 y) (x_sb3 y) /\ told3 y db da).
Proof.
  intros GO H. destruct (renewed3_talks da db l GO H) as [PA T].
  assert (AR : at_rest3 da db l).
  { destruct T as [T|T]; [now apply talks3_rest|]. apply (talks3_rest _ _ _ GO), at_rest3_swap in T. now rewrite swap_swap in T. }
  split; [apply AR|]. split; [|split].
  - intros h l' ST. destruct T as [T|T]; [eapply talks3_arrival; eassumption|].
    apply net_step_swap in ST. apply talks3_arrival in ST; [|assumption|assumption]. destruct h as [a t|a|a text rs out|a]; try exact I.
    now destruct a.
  - intros y HO. apply start3_told. now apply rest3_start.
  - intros PB y HO. apply start3_told. apply (rest3_start db da (swap l)); try assumption. now apply at_rest3_swap.
Qed.

(** ** OTRv4 *)

Definition talks4 (da db : details) (l : link) : Prop :=
  exists sa sb x hs, start_net4 C da db sa sb x /\ net_run C (de_tag da) (de_tag db) (mkLink (x_sa2 x) (x_sb3 x) [] []) hs l.
Lemma talks4_step da db l h l' : talks4 da db l -> net_step C (de_tag da) (de_tag db) l h l' -> talks4 da db l'.
Proof. intros (sa & sb & x & hs & S & R) ST. exists sa, sb, x, (hs ++ [h]). split; [assumption|]. eapply n_step; eassumption. Qed.
Lemma talks4_begin da db sa sb x : start_net4 C da db sa sb x -> talks4 da db (mkLink (x_sa2 x) (x_sb3 x) [] []).
Proof. intros S. exists sa, sb, x, []. split; [assumption|constructor]. Qed.

(* B has answered a query message *)
Definition has_answered (db : details) (h : list event) : Prop := exists ev, In ev h /\ answered_query C db V4 ev.
Record at_rest4 (da db : details) (l : link) : Prop := {
  av_ha : exists h, history C da h (li_a l); av_hb : exists h, history C db h (li_b l) /\ has_answered db h;
  av_la : legal_details da; av_lb : legal_details db;
  av_ra : resting (li_a l) (de_tag db); av_rb : resting (li_b l) (de_tag da);
  av_aa : allowed da V4; av_ab : allowed db V4; av_go : groups_ok4 C; av_ec : encodable C;
  av_co : connected (li_a l) (li_b l) }.

Lemma query4_of db : allowed db V4 -> queries C db (query_message V4) V4.
Proof. intros AL. split; [reflexivity|]. exists [V4]. split; [reflexivity|]. left. split; [now left|auto]. Qed.
Lemma exchange_query4 sa sb (x : exchange C sa sb) : allowed (se_details sa) V4 -> x_p0 x = [query_message V4].
Proof.
  intros AA. pose proof (x_query x) as XQ. unfold ses_query in XQ. destruct (query_eq sa) as (v & PV & Q); [now right|]. rewrite Q in XQ.
  apply pair3 in XQ. destruct XQ as (_ & <- & _). do 2 f_equal. destruct PV as [(_ & ->)|(NA & _)]; [reflexivity|contradiction].
Qed.

Lemma talks4_rest da db l : talks4 da db l -> at_rest4 da db l.
Proof.
  intros (sa & sb & x & hs & H & R).
  pose proof H as ((ha & HA) & (hb & HB) & LA & LB & _ & _ & PA & AB & _ & GO & EC & _). apply preferred_allowed in PA.
  pose proof (net4_settled C _ _ _ _ _ H) as (TA & TB). apply net4_secured in H. destruct H as ((SEC & _ & _ & R1 & _) & DA & DB).
  assert (AN : exists h, history C db (hb ++ h) (x_sb3 x) /\ has_answered db (hb ++ h)).
  { pose proof (exchange_query4 sa sb x) as Q. rewrite DA in Q. specialize (Q PA).
    destruct x as [e0 e1 e2 e3 e4 sa1 sa2 sb1 sb2 sb3 p0 p1 p2 p3 p4 p5 r1 r2 r3 r4 r5 XQ X1 X2 X3 X4 X5 XA XC XE].
    cbn [x_p0 x_sb3 x_r1] in *. subst p0 r1. clear - HB X1 X3 X5 XA AB. apply not_in_app in XA as (N1 & XA). apply not_in_app in XA as (N2 & XA). apply not_in_app in XA as (N3 & XA).
    apply not_in_app in XA as (N4 & N5). cbn [receive_all] in X1. destruct (receive C e0 sb (query_message V4)) as [[s1 o1] q1] eqn:R1.
    apply pair3 in X1. destruct X1 as (<- & _ & X1). assert (E : q1 = Ok UMNone) by congruence. subst q1. clear X1.
    assert (K : call C (fun _ => e0) sb (OpReceive (query_message V4)) = (s1, o1, Ok (AnMessage UMNone))) by (unfold call, answering; rewrite R1; reflexivity).
    assert (B1 : history C db (hb ++ [mkEvent (OpReceive (query_message V4)) o1 (Ok (AnMessage UMNone))]) s1)
      by (eapply run_call; [exact HB|exact K|discriminate]).
    destruct (history_receive_all _ _ _ _ _ _ _ _ B1 X3 N3) as (h3 & B2).
    destruct (history_receive_all _ _ _ _ _ _ _ _ B2 X5 N5) as (h5 & B3).
    eexists. split; [rewrite <- !app_assoc in B3; exact B3|]. eexists. split; [apply in_app_iff; right; now left|].
    exists (query_message V4). split; [reflexivity|]. split; [now apply query4_of|reflexivity]. }
  destruct AN as (gb & HB3 & ev & IN & AN).
  destruct (history_exchange sa sb x da db ha hb HA HB) as ((ga & HA2) & _).
  destruct (history_net _ _ _ _ _ _ _ _ _ R HA2 HB3) as ((fa & HA4) & (fb & HB4)). clear HA HB HA2 HB3.
  apply secured_linked4 in SEC. destruct SEC as (s0 & f1 & f2 & ssid & S0 & L0). rewrite DA, DB in L0.
  destruct (net_settled4 C da db _ _ _ s0 hs l GO EC LA LB PA AB S0 L0 R TA TB) as (TA2 & TB2).
  destruct (net_sim4 C GO EC da db LA LB PA AB _ _ _ s0 hs l S0 L0 R) as (os & cs & _ & L & _).
  destruct L as ((_ & DA2 & _ & ia & GA & RA & SA) & (_ & DB2 & _ & ib & GB & RB & SB) & _).
  split; try assumption; eauto using settled_resting.
  - eexists. split; [exact HB4|]. exists ev. split; [apply in_app_iff; now left|exact AN].
  - unfold connected. rewrite DA2, DB2. unfold status_of, state_of, ses_ssid, inst_ssid. rewrite GA, GB, SA, SB. auto.
Qed.
Lemma start4_told da db sa sb (y : exchange C sa sb) : start_net4 C da db sa sb y -> connected (x_sa2 y) (x_sb3 y) /\ told4 y da db.
Proof.
  intros H. apply net4_secured in H. destruct H as ((SEC & _ & _ & _ & _ & R3 & R4 & _) & DA & DB).
  split; [|split; assumption].
  destruct SEC as [IA IB DA2 DB2 (ia & ib & dra & drb & fa & fb & ssid & GA & GB & RA & RB & SA & SB & S0)].
  unfold connected. rewrite DA2, DB2. rewrite ?DA, ?DB in *.
  unfold status_of, state_of, ses_ssid, inst_ssid. rewrite GA, GB, SA, SB. auto.
Qed.
(* B asks *)
Lemma rest4_start da db l (y : exchange C (li_b l) (li_a l)) : at_rest4 da db l -> preferred db V4 -> can_answer (li_a l) ->
  honest4 C db da (x_e0 y) (x_e1 y) (x_e2 y) -> start_net4 C db da (li_b l) (li_a l) y.
Proof. intros [HA (h & HB & _)] PB ID HO. unfold start_net4. eauto 16. Qed.

(* a client that has answered once *)
Lemma deaf4 d h s : history C d h s -> has_answered d h -> allowed d V4 ->
  forall e, receive C e s (query_message V4) = (s, [], Err IncorrectState).
Proof. intros H (ev & I & A) AL e. eapply query_deaf; try eassumption. now apply query4_of. Qed.
Lemma deaf_exchange sa sb (y : exchange C sa sb) : allowed (se_details sa) V4 ->
  (forall e, receive C e sb (query_message V4) = (sb, [], Err IncorrectState)) ->
  x_r1 y = [Err IncorrectState] /\ x_p1 y = [] /\ x_sa2 y = sa /\ x_sb3 y = sb /\ x_r2 y ++ x_r3 y ++ x_r4 y ++ x_r5 y = [].
Proof.
  intros AA D. pose proof (exchange_query4 sa sb y AA) as Q.
  destruct y as [e0 e1 e2 e3 e4 sa1 sa2 sb1 sb2 sb3 p0 p1 p2 p3 p4 p5 r1 r2 r3 r4 r5 XQ X1 X2 X3 X4 X5 XA XC XE].
  cbn [x_p0 x_p1 x_sa2 x_sb3 x_r1 x_r2 x_r3 x_r4 x_r5] in *. subst p0. cbn [receive_all] in X1. rewrite D in X1.
  apply pair3 in X1. destruct X1 as (<- & <- & <-). cbn [app] in X2. cbn [receive_all] in X2. apply pair3 in X2. destruct X2 as (<- & <- & <-).
  cbn [receive_all] in X3. apply pair3 in X3. destruct X3 as (<- & <- & <-).
  cbn [receive_all] in X4. apply pair3 in X4. destruct X4 as (<- & <- & <-).
  cbn [receive_all] in X5. apply pair3 in X5. destruct X5 as (<- & <- & <-). auto.
Qed.
Lemma deaf_cannot s : (exists w, in_dake (entry 0 (se_instances s)) = DakeAwaitingAuthR w) -> ~ can_answer s.
Proof. intros (w & W) K. unfold can_answer in K. congruence. Qed.

(* the state of a renewed conversation: after the first exchange B is deaf, after the second one both are *)
Lemma renewed4_talks da db l : renewed4 C da db l ->
  preferred da V4 /\ (talks4 da db l \/
    talks4 db da (swap l) /\ exists h, history C db h (li_b l) /\ has_answered db h).
Proof.
  intros H. induction H as [sa sb x S|l h l' H [PA IH] ST|l y H [PA IH] PB CA HO].
  - split; [apply S|]. left. now apply talks4_begin.
  - split; [assumption|]. destruct IH as [IH|(IH & g & HG & AN)]; [left; eapply talks4_step; eassumption|].
    right. split; [eapply talks4_step; [exact IH|]; eapply net_step_swap; eassumption|].
    pose proof (talks4_rest _ _ _ IH) as AR. destruct (av_hb _ _ _ AR) as (ga & HA & _). cbn [swap li_b] in HA.
    assert (RR : net_run C (de_tag da) (de_tag db) l [h] l') by (apply (n_step C _ _ l [] l h l'); [constructor|assumption]).
    destruct (history_net _ _ _ _ _ _ _ _ _ RR HA HG) as (_ & (f & HF)).
    eexists. split; [exact HF|]. destruct AN as (ev & IN & AN). exists ev. split; [apply in_app_iff; now left|assumption].
  - split; [assumption|]. destruct IH as [IH|(IH & _)].
    + apply talks4_rest in IH. pose proof (av_hb _ _ _ IH) as (g & HG & ev & IN & AN).
      destruct (av_ha _ _ _ IH) as (ga & HA).
      pose proof (rest4_start _ _ _ y IH PB CA HO) as S. right. split; [now apply talks4_begin|].
      destruct (history_exchange _ _ y db da g ga HG HA) as ((f & HF) & _). eexists. split; [exact HF|].
      exists ev. split; [apply in_app_iff; now left|assumption].
    + exfalso. apply talks4_rest in IH. destruct (av_hb _ _ _ IH) as (g & HG & ev & IN & AN). cbn [swap li_b] in HG.
      pose proof (waiting_answered C da g (li_a l) ev V4 HG (or_intror (preferred_allowed _ _ PA)) IN AN) as W. cbn beta iota in W.
      revert CA. apply deaf_cannot. exact W.
Qed.

Lemma talks4_arrival da db l h l' : talks4 da db l -> net_step C (de_tag da) (de_tag db) l h l' -> shown_or_refused da db h.
Proof.
  intros (sa & sb & x & hs & S & R) ST. destruct h as [a t|a|a text rs out|a]; try exact I.
  destruct (net4_conversation C da db sa sb x (hs ++ [Arrives a text rs out]) l' S) as (K & _).
  - eapply n_step; eassumption.
  - apply K. apply in_app_iff. right. now left.
Qed.

Lemma renewable4 da db l : renewed4 C da db l ->
  connected (li_a l) (li_b l) /\
  (forall h l', net_step C (de_tag da) (de_tag db) l h l' -> shown_or_refused da db h) /\
  (preferred db V4 -> can_answer (li_a l) -> forall y : exchange C (li_b l) (li_a l),
     honest4 C db da (x_e0 y) (x_e1 y) (x_e2 y) -> connected (x_sa2 y) (x_sb3 y) /\ told4 y db da).
Proof.
  intros H. destruct (renewed4_talks da db l H) as [PA T].
  assert (CO : connected (li_a l) (li_b l)).
  { destruct T as [T|[T _]]; apply talks4_rest, av_co in T; [exact T|]. destruct T as (X & Y & Z). split; [exact Y|]. split; [exact X|now symmetry]. }
  split; [exact CO|]. split.
  - intros h l' ST. destruct T as [T|[T _]]; [eapply talks4_arrival; eassumption|].
    apply net_step_swap in ST. apply talks4_arrival in ST; [|assumption]. destruct h as [a t|a|a text rs out|a]; try exact I.
    now destruct a.
  - intros PB CA y HO. apply start4_told. destruct T as [T|[T _]]; [apply rest4_start; try assumption; now apply talks4_rest|].
    exfalso. apply talks4_rest in T. destruct (av_hb _ _ _ T) as (g & HG & ev & IN & AN). cbn [swap li_b] in HG.
    pose proof (waiting_answered C da g (li_a l) ev V4 HG (or_intror (preferred_allowed _ _ PA)) IN AN) as W. cbn beta iota in W.
    revert CA. apply deaf_cannot. exact W.
Qed.

(* the side that asked first asks in vain *)
Lemma renewed4_deaf da db l (y : exchange C (li_a l) (li_b l)) : renewed4 C da db l ->
  x_r1 y = [Err IncorrectState] /\ x_p1 y = [] /\ x_sa2 y = li_a l /\ x_sb3 y = li_b l /\ x_r2 y ++ x_r3 y ++ x_r4 y ++ x_r5 y = [].
Proof.
  intros H. destruct (renewed4_talks da db l H) as [PA T].
  assert (K : exists h, history C db h (li_b l) /\ has_answered db h /\ allowed db V4 /\ se_details (li_a l) = da).
  { destruct T as [T|(T & h & HB & AN)]; apply talks4_rest in T.
    - destruct (av_hb _ _ _ T) as (h & HB & AN). destruct (av_ha _ _ _ T) as (g & HA). apply history_inv in HA.
      exists h. split; [assumption|]. split; [assumption|]. split; [apply T|apply HA].
    - destruct (av_hb _ _ _ T) as (g & HA & _). cbn [swap li_b] in HA. apply history_inv in HA.
      exists h. split; [assumption|]. split; [assumption|]. split; [apply T|apply HA]. }
  destruct K as (h & HB & AN & AL & DA). apply deaf_exchange; [rewrite DA; now apply preferred_allowed|]. intros e. eapply deaf4; eassumption.
Qed.
End WithCrypto.
