(* Conversations that begin with a text that carries a whitespace tag. *)
From Verif Require Import Base BaseLemmas Types Crypto CryptoProofs Encoding Messages MessagesProofs WireLemmas Fragment
  DataV3 Ratchet DataV4 AKE DAKE SMP SMP4 Protocol Session SpecWire SpecSession SessionProofs SessionPartyProofs SessionInvProofs SessionSendProofs SessionRecvProofs
  SessionHistProofs SessionLemmas SpecNet NetProofs NetAKEProofs NetDAKEProofs Net3Proofs NetLemmas Net4Proofs Net4Lemmas SpecStart RecoverProofs
  SpecRenew RenewProofs SpecGreet.
From Coq Require Import Lia.
Local Open Scope N_scope.

Section WithCrypto.
Context (C : Crypto).

(** ** The first text carries the tag *)

Lemma send_flag e s t c s' out r : sinv s -> send C e s t c = (s', out, r) -> r <> Panic -> se_tagged s = false -> se_tagged s' = true ->
  exists v, r = Ok [whitespace_tag v ++ without_nul c].
Proof.
  intros I H NP T T'. apply send_inv in H as SI; [|assumption].
  destruct SI as [(_ & -> & _) | (D & [(_ & -> & _) | (i & G & [(_ & _ & -> & _) | (RQ & _ & i' & tg & S & ->)])])]; try congruence.
  cbn [se_tagged] in T'. unfold inst_send in S. rewrite T in S.
  destruct (p_prepare C (in_state i) false _ _) as [[st m]|x|] eqn:PP; [|fin3 S; congruence|fin3 S; congruence].
  destruct m; try (fin3 S; congruence).
  destruct (negb (status_eqb _ _)) eqn:SQ; [fin3 S; congruence|].
  destruct (in_state i) as [| | |] eqn:ST; cbn [p_prepare] in PP.
  - assert (EN : enabled (se_details s)).
    { unfold enabled, allowed. unfold otr_disabled in D. destruct (allow_v3 _), (allow_v4 _); cbn in D; auto; discriminate. }
    assert (RF : require_encryption (de_policy (se_details s)) = false).
    { destruct RQ as [?|N0]; [assumption|]. exfalso. apply N0. unfold in_status. now rewrite ST. }
    assert (SO : status_of s t = Plaintext) by (unfold status_of, state_of; now rewrite G, ST).
    apply send_plain in H; [|assumption|assumption|congruence|assumption].
    destruct H as [_ [(v & _ & _ & _ & R & _) | (_ & _ & X)]]; [eauto|]. cbn [se_tagged] in X. congruence.
  - exfalso. destruct (encrypt3 _ _ _ _ _ _) as [[? ?]|?|]; discriminate PP.
  - exfalso. destruct (encrypt4 _ _ _ _ _ _ _ _) as [[? ?]|?|]; discriminate PP.
  - discriminate PP.
Qed.
Lemma call_flag es s o s' out r : sinv s -> call C es s o = (s', out, r) -> r <> Panic -> se_tagged s = false -> se_tagged s' = true ->
  sent_tagged (mkEvent o out r).
Proof.
  intros I H NP T T'. unfold call in H.
  assert (ANS : forall A (f : A -> answer) x, answering f x = (s', out, r) ->
     exists r0, x = (s', out, r0) /\ r = res_map f r0 /\ r0 <> Panic).
  { intros A f [[s1 o1] r1] X. unfold answering in X. fin3 X. exists r1.
    split; [reflexivity|]. split; [reflexivity|]. intros ->. now apply NP. }
  assert (OI : forall A (f : instance -> effect instance A) t r0, on_instance s t f = (s', out, r0) -> r0 <> Panic ->
    se_tagged s' = se_tagged s).
  { intros A f t r0 X NP0. apply on_instance_inv in X; [|assumption].
    destruct X as [(_ & -> & _) | (i & i' & G & X & ->)]; reflexivity. }
  destruct o; apply ANS in H; destruct H as (r0 & H & ER & NP0).
  - apply receive_touch in H; [|assumption]. destruct H as [H _]. congruence.
  - pose proof (send_flag _ _ _ _ _ _ _ I H NP0 T T') as (v & ->). subst r. exists tag, content, v. split; reflexivity.
  - apply initiate_inv in H; [|assumption]. destruct H as (i' & _ & -> & _). cbn in T'. congruence.
  - apply OI in H; [congruence|assumption].
  - unfold ses_query in H. destruct (query s); fin3 H; congruence.
  - apply OI in H; [congruence|assumption].
  - apply OI in H; [congruence|assumption].
  - unfold expire in H. destruct (expire_all _ _ _ _ _) as [[l' o] [x|x|]]; fin3 H; cbn in T'; congruence.
Qed.
Lemma history_flag d h s : history C d h s -> se_tagged s = true -> exists ev, In ev h /\ sent_tagged ev.
Proof.
  unfold history. remember (session_new d) as s0 eqn:E0. intros R T. induction R as [|h s es o s' out r R IH Hc NP]; [now subst|].
  destruct (se_tagged s) eqn:TS.
  - destruct (IH eq_refl) as (ev & IN & ST). exists ev. split; [apply in_app_iff; now left|assumption].
  - eexists. split; [apply in_app_iff; right; now left|]. eapply call_flag; try eassumption.
    apply run_inv in R; [apply R|subst s0; apply sinv_new].
Qed.
Lemma first_text d h s e t c s' out r : history C d h s -> enabled d -> require_encryption (de_policy d) = false ->
  send_whitespace_tag (de_policy d) = true -> (forall ev, In ev h -> ~ sent_tagged ev) ->
  get_inst t (se_instances s) <> None -> status_of s t = Plaintext -> send C e s t c = (s', out, r) ->
  out = [] /\ exists v, preferred d v /\ r = Ok [whitespace_tag v ++ without_nul c].
Proof.
  intros HI EN RQ WT NT G S H. pose proof HI as HI0. apply history_inv in HI. destruct HI as [SI D]. subst d.
  apply send_plain in H; try assumption. destruct H as [-> [(v & _ & _ & P & R & _) | ([X|X] & _)]].
  - split; [reflexivity|]. exists v. auto.
  - congruence.
  - exfalso. apply history_flag with (2 := X) in HI0. destruct HI0 as (ev & IN & ST). now apply (NT ev).
Qed.

(** ** The tag acts as the query message *)

Lemma tag_parse v text : (v = V3 \/ v = V4) -> unmarked text -> parse C (whitespace_tag v ++ text) = Ok (MsgTagged [v] text).
Proof.
  intros V (A & B & D). destruct (tagged_single C v text V A B D) as (b & E & P).
  assert (b = whitespace_tag v ++ text) as <-; [|assumption]. destruct V as [-> | ->]; vm_compute in E |- *; congruence.
Qed.
Lemma tag_plain v text : match_fragment (whitespace_tag v ++ text) = false.
Proof. reflexivity. Qed.
Lemma query_parse v : (v = V3 \/ v = V4) -> parse C (query_message v) = Ok (MsgQuery [v]).
Proof. intros [-> | ->]; reflexivity. Qed.
Lemma select_single d v : (v = V3 \/ v = V4) -> allowed d v -> select_version (de_policy d) [v] = Some v.
Proof.
  intros [-> | ->] A; unfold allowed in A; unfold select_version; cbn; now rewrite A.
Qed.
Lemma deliver_displayed s s1 out text : sinv s -> sinv s1 -> se_details s1 = se_details s -> (forall u, status_of s1 u = status_of s u) ->
  exists r, deliver_text s1 out text = (s1, out, r) /\ displayed s text r.
Proof.
  intros I I1 D ST. unfold deliver_text. destruct (has_sessions_iff s1 I1) as (b & -> & B). eexists. split; [reflexivity|].
  rewrite D. unfold displayed. destruct (require_encryption _); [left; split; [now left|now rewrite Bool.orb_true_r]|].
  destruct b; cbn [orb].
  - left. destruct (proj1 B eq_refl) as (u & U). rewrite ST in U. eauto.
  - right. split; [reflexivity|]. split; [|reflexivity]. intros u. destruct (status_of s u) eqn:E; try reflexivity;
      assert (false = true) by (apply B; exists u; rewrite ST, E; discriminate); discriminate.
Qed.

Lemma tag_as_query d h s e v text s1 out1 r1 s2 out2 r2 : history C d h s -> (v = V3 \/ v = V4) -> allowed d v ->
  whitespace_start_ake (de_policy d) = true -> unmarked text ->
  receive C e s (whitespace_tag v ++ text) = (s1, out1, r1) -> receive C e s (query_message v) = (s2, out2, r2) ->
  s1 = s2 /\ out1 = out2 /\
  match r2 with Ok m => m = UMNone /\ displayed s text r1 | Err x => r1 = Err x | Panic => r1 = Panic end.
Proof.
  intros HI V AL WS UM R1 R2. pose proof HI as HI0. apply history_inv in HI. destruct HI as [SI D]. subst d.
  assert (OD : otr_disabled (de_policy (se_details s)) = false).
  { unfold otr_disabled. destruct V as [-> | ->]; unfold allowed in AL; rewrite AL; [reflexivity|apply Bool.andb_false_r]. }
  unfold receive in R1, R2. rewrite OD in R1, R2. rewrite tag_plain in R1.
  assert (match_fragment (query_message v) = false) as NF by (destruct V as [-> | ->]; reflexivity). rewrite NF in R2.
  unfold receive_message in R1, R2. rewrite tag_parse in R1 by assumption. rewrite query_parse in R2 by assumption.
  rewrite WS in R1. rewrite select_single in R1, R2 by assumption.
  destruct (initiate C e s v 0) as [[s0 o0] r0] eqn:IN.
  destruct r0 as [m|x|].
  - pose proof IN as K. apply initiate_inv in K; [|discriminate]. destruct K as (i' & _ & EP & ST & _).
    assert (S0 : sinv s0).
    { assert (K : call C (fun _ => e) s (OpInitiate v 0) = (s0, o0, Ok (AnMessage m))) by (unfold call, answering; rewrite IN; reflexivity).
      destruct (history_call C _ _ _ _ _ _ _ _ HI0 K) as (h' & H'); [discriminate|]. apply history_inv in H'. apply H'. }
    destruct (deliver_displayed s s0 o0 text SI S0) as (r & E & DI).
    + now subst s0.
    + intros u. subst s0. unfold status_of. destruct (N.eq_dec 0 u) as [<-|NE]; [now rewrite state_put_same, ST|now rewrite state_put_other].
    + rewrite E in R1. fin3 R1. fin3 R2. auto.
  - fin3 R1. fin3 R2. auto.
  - fin3 R1. apply pair3 in R2. destruct R2 as (<- & <- & <-). unfold initiate, on_entry in IN.
    destruct (inst_initiate _ _ _ _ _) as [[i' o'] [m|x|]]; apply pair3 in IN; destruct IN as (<- & <- & K);
      [discriminate K|discriminate K|auto].
Qed.

(** ** Conversations *)

Lemma greets3 da db sa sb e t text sa1 out (y : exchange C sa1 sb) :
  send C e sa t text = (sa1, out, Ok [whitespace_tag V3 ++ without_nul text]) -> unmarked (without_nul text) ->
  whitespace_start_ake (de_policy db) = true -> start_net3 C da db sa1 sb y ->
  (exists r, receive_all C (x_e0 y) sb [whitespace_tag V3 ++ without_nul text] = (x_sb1 y, x_p1 y, [r]) /\ displayed sb (without_nul text) r) /\
  connected (x_sa2 y) (x_sb3 y) /\ told3 y da db.
Proof.
  intros S UM WS ST. split; [|eapply start3_told; eassumption].
  pose proof (net3_handshake C da db sa1 sb y ST) as (_ & _ & _ & R1 & _).
  destruct ST as ((ha & HA) & (hb & HB) & LA & LB & _ & _ & PA & AL & _).
  pose proof (x_query y) as Q. pose proof (x_step1 y) as ST1. rewrite R1 in ST1.
  assert (P0 : x_p0 y = [query_message V3]).
  { apply history_inv in HA. destruct HA as [_ D]. unfold ses_query in Q.
    destruct (query_eq sa1) as (v & PV & E). { rewrite D. destruct PA as [[K _]|(_ & K & _)]; [now right|now left]. }
    rewrite E in Q. apply pair3 in Q. destruct Q as (_ & <- & _). rewrite D in PV.
    destruct PA as [[_ X]|(NA & _)]; [discriminate|]. destruct PV as [[K _]|(_ & _ & ->)]; [contradiction|reflexivity]. }
  rewrite P0 in ST1. cbn [receive_all] in ST1 |- *.
  destruct (receive C (x_e0 y) sb (query_message V3)) as [[s2 o2] r2] eqn:R2.
  destruct (receive C (x_e0 y) sb (whitespace_tag V3 ++ without_nul text)) as [[s1 o1] r1'] eqn:RT.
  destruct (tag_as_query db hb sb (x_e0 y) V3 (without_nul text) s1 o1 r1' s2 o2 r2 HB (or_introl eq_refl) AL WS UM RT R2) as (-> & -> & K).
  apply pair3 in ST1. destruct ST1 as (<- & <- & E). injection E as ->. destruct K as [_ K]. exists r1'. split; [reflexivity|exact K].
Qed.
Lemma greets4 da db sa sb e t text sa1 out (y : exchange C sa1 sb) :
  send C e sa t text = (sa1, out, Ok [whitespace_tag V4 ++ without_nul text]) -> unmarked (without_nul text) ->
  whitespace_start_ake (de_policy db) = true -> start_net4 C da db sa1 sb y ->
  (exists r, receive_all C (x_e0 y) sb [whitespace_tag V4 ++ without_nul text] = (x_sb1 y, x_p1 y, [r]) /\ displayed sb (without_nul text) r) /\
  connected (x_sa2 y) (x_sb3 y) /\ told4 y da db.
Proof.
  intros S UM WS ST. split; [|eapply start4_told; eassumption].
  pose proof (net4_handshake C da db sa1 sb y ST) as (_ & _ & _ & R1 & _).
  destruct ST as ((ha & HA) & (hb & HB) & LA & LB & _ & _ & PA & AL & _).
  pose proof (x_query y) as Q. pose proof (x_step1 y) as ST1. rewrite R1 in ST1.
  assert (P0 : x_p0 y = [query_message V4]).
  { apply history_inv in HA. destruct HA as [_ D]. unfold ses_query in Q.
    destruct (query_eq sa1) as (v & PV & E). { rewrite D. destruct PA as [[K _]|(_ & K & _)]; [now right|now left]. }
    rewrite E in Q. apply pair3 in Q. destruct Q as (_ & <- & _). rewrite D in PV.
    destruct PA as [[K _]|(_ & _ & X)]; [|discriminate]. destruct PV as [[_ ->]|(NA & _)]; [reflexivity|contradiction]. }
  rewrite P0 in ST1. cbn [receive_all] in ST1 |- *.
  destruct (receive C (x_e0 y) sb (query_message V4)) as [[s2 o2] r2] eqn:R2.
  destruct (receive C (x_e0 y) sb (whitespace_tag V4 ++ without_nul text)) as [[s1 o1] r1'] eqn:RT.
  destruct (tag_as_query db hb sb (x_e0 y) V4 (without_nul text) s1 o1 r1' s2 o2 r2 HB (or_intror eq_refl) AL WS UM RT R2) as (-> & -> & K).
  apply pair3 in ST1. destruct ST1 as (<- & <- & E). injection E as ->. destruct K as [_ K]. exists r1'. split; [reflexivity|exact K].
Qed.

(* without the policy *)
Lemma tag_ignored d h s e v text s' out r : history C d h s -> enabled d -> (v = V3 \/ v = V4) ->
  whitespace_start_ake (de_policy d) = false -> unmarked text ->
  receive C e s (whitespace_tag v ++ text) = (s', out, r) -> s' = s /\ out = [] /\ displayed s text r.
Proof.
  intros HI EN V WS UM R. apply history_inv in HI. destruct HI as [SI D]. subst d.
  unfold receive in R. rewrite (enabled_not_disabled _ EN), tag_plain in R.
  unfold receive_message in R. rewrite tag_parse in R by assumption. rewrite WS in R.
  destruct (deliver_displayed s s [] text SI SI eq_refl (fun _ => eq_refl)) as (r0 & E & DI). rewrite E in R. fin3 R. auto.
Qed.
End WithCrypto.
