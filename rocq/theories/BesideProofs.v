(* Proofs for SpecBeside.v. *)
From Verif Require Import Base Types Crypto Encoding Messages Fragment KeyManager DataV3 Ratchet DataV4 AKE DAKE SMP SMP4 Protocol Session
  SpecWire SpecSession SessionProofs SessionInvProofs SessionSendProofs SessionRecvProofs SessionLemmas SpecBeside.
Local Open Scope N_scope.

(** ** The conversation depends on the protocol state only *)

Definition look (i j : instance) : Prop := in_receiver i = in_receiver j /\ in_state i = in_state j.
Definition like {A} (x y : effect instance A) : Prop :=
  look (fst (fst x)) (fst (fst y)) /\ snd (fst x) = snd (fst y) /\ snd x = snd y.

Section WithCrypto.
Context (C : Crypto).

Lemma look_set i j st : look i j -> look (set_state i st) (set_state j st).
Proof. intros [A B]. now split. Qed.
Lemma like_mk {A} i j o (r : res A) : look i j -> like (i, o, r) (j, o, r).
Proof. intros L. now repeat split; apply L. Qed.
Lemma look_inject d e i j v n m : look i j -> inject d e i v n m = inject d e j v n m.
Proof. intros [A _]. unfold inject. now rewrite A. Qed.
Lemma like_injecting {A} i j i' j' r (a : A) : look i j -> look i' j' -> like (injecting i i' r a) (injecting j j' r a).
Proof. intros L L'. unfold injecting. destruct r; now apply like_mk. Qed.

Lemma like_data_error i j g x : look i j -> like (data_error i g x) (data_error j g x).
Proof.
  intros L. pose proof L as [A _]. unfold data_error. destruct x; try now apply like_mk.
  destruct (serialize_message _); try now apply like_mk. rewrite A. now apply like_mk.
Qed.
Lemma like_smp_finish d e i j i' j' n reply report : look i j -> look i' j' ->
  like (smp_finish C d e i i' n reply report) (smp_finish C d e j j' n reply report).
Proof.
  intros L L'. pose proof L' as [A' B']. unfold smp_finish. destruct reply as [[t|]|x|]; try now apply like_mk.
  - rewrite B'. destruct (prepare_tlv C e (in_state j') t) as [[st m]|x|]; try now apply like_mk.
    rewrite (look_inject d e (set_state i' st) (set_state j' st)) by now apply look_set.
    destruct (inject _ _ _ _ _ _); [|apply like_mk; now apply look_set|now apply like_mk].
    destruct report; apply like_mk; try assumption; now apply look_set.
  - destruct report; now apply like_mk.
Qed.

Lemma like_data3 d e i j s n m : look i j -> like (inst_data3 C d e i s n m) (inst_data3 C d e j s n m).
Proof.
  intros L. pose proof L as [A B]. unfold inst_data3. rewrite B.
  destruct (p_handle3 C (in_state j) m _ _) as [st r].
  destruct r as [[content tlvs|content]|x|]; try now apply like_mk.
  - destruct (existsb is_smp3_tlv tlvs); [|rewrite A; apply like_mk; now apply look_set].
    destruct (single_smp is_smp3_tlv tlvs) as [t|x|]; [|apply like_mk; now apply look_set|now apply like_mk].
    destruct st as [|our their k smp|our their k smp|]; try (apply like_mk; now apply look_set).
    destruct (smp_handle C _ _ smp t) as [smp' reply]. rewrite A. apply like_smp_finish; [assumption|]. now apply look_set, look_set.
  - rewrite A. apply like_mk. now apply look_set.
  - apply like_data_error. now apply look_set.
Qed.
Lemma like_data4 d e i j s n m : look i j -> like (inst_data4 C d e i s n m) (inst_data4 C d e j s n m).
Proof.
  intros L. pose proof L as [A B]. unfold inst_data4. rewrite B.
  destruct (data4_validate C m); try now apply like_mk.
  destruct (p_handle4 C (in_state j) m _ _) as [st r].
  destruct r as [[content tlvs|content]|x|]; try now apply like_mk.
  - destruct (existsb is_smp4_tlv tlvs); [|rewrite A; apply like_mk; now apply look_set].
    destruct (single_smp is_smp4_tlv tlvs) as [t|x|]; [|apply like_mk; now apply look_set|now apply like_mk].
    destruct st as [|our their k smp|our their k smp|]; try (apply like_mk; now apply look_set).
    destruct (smp4_handle C _ _ smp t) as [smp' reply]. rewrite A. apply like_smp_finish; [assumption|]. now apply look_set, look_set.
  - rewrite A. apply like_mk. now apply look_set.
  - apply like_data_error. now apply look_set.
Qed.
Lemma like_handle d e i j em : is_data em -> look i j -> like (inst_handle C d e i em) (inst_handle C d e j em).
Proof.
  intros [(m & V & M)|(m & V & M)] L; unfold inst_handle; rewrite V, M; cbv zeta.
  - apply like_data3. destruct L. now split.
  - now apply like_data4.
Qed.

Lemma like_reset d e i j : look i j -> like (inst_reset C d e i) (inst_reset C d e j).
Proof.
  intros L. pose proof L as [A B]. unfold inst_reset, in_status. rewrite A, B.
  destruct (p_finish C (in_state j) _) as [[m|]|x|]; try now apply like_mk.
  - destruct (status_eqb _ _); [now apply like_mk|]. rewrite (look_inject d e i j) by assumption.
    apply like_injecting; [assumption|now apply look_set].
  - destruct (status_eqb _ _); apply like_mk; now apply look_set.
Qed.
Lemma like_start_smp d e i j s q : look i j -> like (inst_start_smp C d e i s q) (inst_start_smp C d e j s q).
Proof.
  intros L. pose proof L as [A B]. unfold inst_start_smp. rewrite A, B.
  destruct (in_state j) as [|our their k smp|our their k smp|]; try now apply like_mk.
  - destruct (smp_initiate C _ _ smp s q) as [smp' t]. destruct t as [t|x|]; [|apply like_mk; now apply look_set|now apply like_mk].
    destruct (prepare_tlv C e _ t) as [[st m]|x|]; [|apply like_mk; now apply look_set|now apply like_mk].
    rewrite (look_inject d e i j) by assumption. apply like_injecting; [assumption|now apply look_set].
  - destruct (smp4_initiate C _ smp s q) as [smp' t]. destruct t as [t|x|]; [|apply like_mk; now apply look_set|now apply like_mk].
    destruct (prepare_tlv C e _ t) as [[st m]|x|]; [|apply like_mk; now apply look_set|now apply like_mk].
    rewrite (look_inject d e i j) by assumption. apply like_injecting; [assumption|now apply look_set].
Qed.
Lemma like_abort_smp d e i j : look i j -> like (inst_abort_smp C d e i) (inst_abort_smp C d e j).
Proof.
  intros L. pose proof L as [A B]. unfold inst_abort_smp. rewrite A, B.
  destruct (in_state j) as [|our their k smp|our their k smp|]; try now apply like_mk.
  - destruct (smp_abort smp) as [smp' t].
    destruct (prepare_tlv C e _ t) as [[st m]|x|]; try now apply like_mk.
    rewrite (look_inject d e i j) by assumption. apply like_injecting; [assumption|now apply look_set].
  - destruct (smp4_abort smp) as [smp' t].
    destruct (prepare_tlv C e _ t) as [[st m]|x|]; try now apply like_mk.
    rewrite (look_inject d e i j) by assumption. apply like_injecting; [assumption|now apply look_set].
Qed.
(* sending, in a private conversation *)
Lemma like_send d e i j g h c : look i j -> in_status i <> Plaintext ->
  look (fst (fst (inst_send C d e i g c))) (fst (fst (inst_send C d e j h c))) /\
  snd (inst_send C d e i g c) = snd (inst_send C d e j h c).
Proof.
  intros L NP. pose proof L as [A B]. unfold in_status in NP. unfold inst_send. rewrite A, B in *.
  destruct (in_state j) as [|our their k smp|our their k smp|] eqn:E; cbn [p_prepare] in *.
  - now cbn [p_status] in NP.
  - destruct (encrypt3 C our their k _ _) as [[m k']|x|]; cbn [bind]; now split.
  - destruct (encrypt4 C our their k _ _ _ _) as [[m k']|x|]; cbn [bind]; now split.
  - now split.
Qed.

(** ** Two sessions with the same conversation *)

Record twin (t : N) (s s1 : session) : Prop := mkTwin {
  tw_inv : sinv s; tw_inv1 : sinv s1; tw_details : se_details s1 = se_details s; tw_state : state_of s1 t = state_of s t }.

Lemma twin_get t s s1 i : twin t s s1 -> status_of s t <> Plaintext -> get_inst t (se_instances s) = Some i ->
  exists i1, get_inst t (se_instances s1) = Some i1 /\ look i i1.
Proof.
  intros [I I1 D S] NP G. assert (ST : status_of s1 t <> Plaintext) by (unfold status_of; rewrite S; exact NP).
  destruct (status_some s1 t _ eq_refl ST) as (i1 & G1 & _ & S1).
  exists i1. split; [assumption|]. split.
  - now rewrite (sinv_get _ _ _ I G), (sinv_get _ _ _ I1 G1).
  - rewrite <- S1, S. unfold state_of. now rewrite G.
Qed.
Lemma twin_instance {A} t s s1 (f : instance -> effect instance A) s' out r : twin t s s1 -> status_of s t <> Plaintext ->
  (forall i j, look i j -> like (f i) (f j)) -> on_instance s t f = (s', out, r) -> r <> Panic ->
  exists s1', on_instance s1 t f = (s1', out, r) /\ state_of s1' t = state_of s' t.
Proof.
  intros TW ST F H NP. apply on_instance_inv in H; [|assumption].
  destruct H as [(G & _)|(i & i' & G & H & ->)].
  { unfold status_of, state_of in ST. rewrite G in ST. now cbn in ST. }
  destruct (twin_get _ _ _ _ TW ST G) as (i1 & G1 & L). specialize (F _ _ L). unfold on_instance. rewrite G1.
  rewrite H in F. destruct (f i1) as [[j o] x]. destruct F as ((_ & F1) & F2 & F3). cbn [fst snd] in *. subst o x.
  exists (put s1 t j). rewrite !state_put_same. destruct r; try congruence; auto.
Qed.
Lemma twin_send t s s1 e c s' out r : twin t s s1 -> enabled (se_details s) -> status_of s t <> Plaintext ->
  send C e s t c = (s', out, r) -> r <> Panic ->
  exists s1', send C e s1 t c = (s1', out, r) /\ state_of s1' t = state_of s' t.
Proof.
  intros TW EN ST H NP. apply enabled_not_disabled in EN as DI.
  unfold send in H |- *. rewrite (tw_details _ _ _ TW). rewrite DI in *.
  destruct (get_inst t (se_instances s)) as [i|] eqn:G.
  2:{ unfold status_of, state_of in ST. rewrite G in ST. now cbn in ST. }
  destruct (twin_get _ _ _ _ TW ST G) as (i1 & G1 & L). rewrite G1.
  assert (SI : in_status i <> Plaintext). { unfold status_of, state_of in ST. rewrite G in ST. exact ST. }
  assert (SI1 : in_status i1 <> Plaintext). { unfold in_status in *. destruct L as [_ <-]. exact SI. }
  assert (Q : forall k, in_status k <> Plaintext -> status_eqb (in_status k) Plaintext = false) by (intros k; now destruct (in_status k)).
  rewrite (Q i SI) in H. rewrite (Q i1 SI1), Bool.andb_false_r in *.
  pose proof (like_send (se_details s) e i i1 (se_tagged s) (se_tagged s1) c L SI) as [[_ K1] K2].
  destruct (inst_send C _ e i _ c) as [[i' g] x]. destruct (inst_send C _ e i1 _ c) as [[i1' g1] x1]. cbn [fst snd] in *. subst x1.
  assert (GS : forall d0 l g0 k, state_of (mkSession d0 (set_inst t k l) g0) t = in_state k).
  { intros d0 l g0 k. exact (state_put_same (mkSession d0 l g0) t k). }
  destruct x as [ps|x|]; [| |congruence]; injection H as <- <- <-; eexists; (split; [reflexivity|]); now rewrite !GS.
Qed.

(* an encoded data message *)
Lemma twin_data s s1 e em s' out r : is_data em -> twin (em_sender em) s s1 ->
  receive_encoded C e s em = (s', out, r) -> r <> Panic ->
  exists s1', receive_encoded C e s1 em = (s1', out, r) /\ state_of s1' (em_sender em) = state_of s' (em_sender em).
Proof.
  intros DA TW H NP. pose proof TW as [I I1 D S]. unfold receive_encoded in H |- *. rewrite D.
  destruct (em_sender em =? 0); [injection H as <- <- <-; eauto|].
  destruct (verify_header (se_details s) em); [|injection H as <- <- <-; eauto|congruence].
  match goal with |- context [if ?b then _ else _] => destruct b end; [injection H as <- <- <-; eauto|].
  assert (GO : on_entry s (em_sender em) (fun i => inst_handle C (se_details s) e i em) = (s', out, r) ->
    exists s1', on_entry s1 (em_sender em) (fun i => inst_handle C (se_details s) e i em) = (s1', out, r) /\
      state_of s1' (em_sender em) = state_of s' (em_sender em)).
  { clear H. intros H. apply on_entry_inv in H; [|assumption]. destruct H as (i' & H & ->).
    assert (L : look (entry (em_sender em) (se_instances s)) (entry (em_sender em) (se_instances s1))).
    { split; [now rewrite !sinv_entry|]. now rewrite !entry_state. }
    apply (like_handle (se_details s) e _ _ em DA) in L. rewrite H in L. unfold on_entry.
    destruct (inst_handle C (se_details s) e (entry (em_sender em) (se_instances s1)) em) as [[j o] x].
    destruct L as ((_ & F1) & F2 & F3). cbn [fst snd] in *. subst o x.
    exists (put s1 (em_sender em) j). rewrite !state_put_same. destruct r; try congruence; auto. }
  destruct DA as [(m & V & M)|(m & V & M)]; rewrite V, M in *; now apply GO.
Qed.
Lemma opens_is_data st em text : opens C st em text -> is_data em.
Proof.
  unfold opens, is_data. destruct st, (em_message em) eqn:M; try easy; intros (V & _); eauto.
Qed.
Lemma twin_genuine t s s1 e p b s' out r : twin t s s1 -> enabled (se_details s) -> genuine C s t p b ->
  receive C e s p = (s', out, r) -> r <> Panic ->
  exists s1', receive C e s1 b = (s1', out, r) /\ state_of s1' t = state_of s' t.
Proof.
  intros TW EN (CO & em & text & PA & <- & OP) H NP. apply enabled_not_disabled in EN as DI. pose proof TW as [I I1 D S].
  assert (MB : match_fragment b = false).
  { destruct CO as [(X & ->)|(f & a & _ & _ & _ & _ & _ & X)]; exact X. }
  unfold receive at 1. rewrite D, DI, MB. unfold receive_message. rewrite PA.
  assert (E : receive_encoded C e (stored s p) em = (s', out, r)).
  { eapply receive_completes in H; [|eassumption..]. unfold receive_message in H. rewrite PA in H. exact H. }
  apply opens_is_data in OP.
  eapply twin_data; [assumption| |exact E|assumption].
  constructor; [now apply sinv_stored|assumption|now rewrite stored_details|now rewrite stored_state].
Qed.

(** ** Calls outside the conversation *)

Lemma outside_state t es s o s' out r : sinv s -> enabled (se_details s) -> call C es s o = (s', out, r) -> r <> Panic ->
  outside C es s t o r -> state_of s' t = state_of s t.
Proof.
  intros I EN H NP O.
  assert (AN : forall A (f : A -> answer) x, answering f x = (s', out, r) ->
    exists r0, x = (s', out, r0) /\ r = res_map f r0 /\ r0 <> Panic).
  { intros A f [[s0 o0] r0] X. injection X as <- <- <-. exists r0. repeat split. now intros ->. }
  assert (OI : forall A (f : instance -> effect instance A) u r0, on_instance s u f = (s', out, r0) -> r0 <> Panic -> u <> t ->
    state_of s' t = state_of s t).
  { intros A f u r0 X N0 U. apply on_instance_inv in X; [|assumption].
    destruct X as [(_ & -> & _)|(i & i' & _ & _ & ->)]; [reflexivity|]. now apply state_put_other. }
  destruct o as [p|u c|v u|u| |u sec q|u|timeout]; cbn [call outside] in H, O; apply AN in H; destruct H as (r0 & H & -> & N0).
  - destruct O as [NG NS]. apply receive_arrives in H; [|assumption..].
    destruct H as [x S _|b x o _ _ S _|b x q o _ _ S _ _|vs v o x _ _ S _ _|em o x CA _ _ OT HA];
      [apply S..|].
    destruct (N.eq_dec (em_sender em) t) as [E|NE]; [|apply OT; congruence]. rewrite E in HA.
    destruct CA as (b & CO & PA).
    assert (NO : forall text, ~ opens C (state_of s t) em text).
    { intros text OP. apply (NG b). split; [assumption|]. exists em, text. auto. }
    destruct HA as [(_ & _ & _ & K)|[(ig & _ & _ & _ & _ & K)|(st1 & text & D & _)]].
    + apply K. intros ->. apply NS. cbn [res_map]. now rewrite E.
    + now apply K.
    + apply decrypts_opens in D. now apply NO in D.
  - apply send_inv in H; [|assumption].
    destruct H as [(_ & -> & _)|(_ & [(_ & -> & _)|(i & G & H)])]; [reflexivity..|].
    destruct H as [(_ & _ & -> & _)|(_ & _ & i' & g & _ & ->)]; [reflexivity|].
    exact (state_put_other (mkSession (se_details s) (se_instances s) g) u t i' O).
  - apply initiate_inv in H; [|assumption]. destruct H as (i' & _ & -> & S & _).
    destruct (N.eq_dec u t) as [<-|NE]; [now rewrite state_put_same|now apply state_put_other].
  - eapply OI; eassumption.
  - unfold ses_query in H. destruct (query s); injection H as <- _ _; reflexivity.
  - eapply OI; eassumption.
  - eapply OI; eassumption.
  - apply (expire_any C es s timeout s' out r0 t) in H; [|assumption..]. destruct H as [H|(X & _)]; [assumption|contradiction].
Qed.

(** ** The conversation goes on as if nothing else happened *)

Lemma about_twin t es s s1 o s' out r : twin t s s1 -> enabled (se_details s) -> status_of s t <> Plaintext -> about t o ->
  call C es s o = (s', out, r) -> r <> Panic ->
  exists s1', call C es s1 o = (s1', out, r) /\ state_of s1' t = state_of s' t.
Proof.
  intros TW EN ST AB H NP. pose proof (tw_details _ _ _ TW) as D.
  assert (AN : forall A (f : A -> answer) (x y : effect session A), answering f x = (s', out, r) ->
    (forall r0, x = (s', out, r0) -> r0 <> Panic -> exists s1', y = (s1', out, r0) /\ state_of s1' t = state_of s' t) ->
    exists s1', answering f y = (s1', out, r) /\ state_of s1' t = state_of s' t).
  { intros A f [[s0 o0] r0] y X F. injection X as <- <- <-. destruct (F r0 eq_refl) as (s1' & -> & E); [now intros ->|].
    exists s1'. now split. }
  destruct o as [p|u c|v u|u| |u sec q|u|timeout]; cbn [about] in AB; try contradiction; subst u; cbn [call] in H |- *;
    (eapply AN; [exact H|]); intros r0 X N0.
  - eapply twin_send; eassumption.
  - unfold end_session in X |- *. rewrite D. eapply twin_instance; try eassumption. intros i j L. now apply like_reset.
  - unfold start_smp in X |- *. rewrite D. eapply twin_instance; try eassumption. intros i j L. now apply like_start_smp.
  - unfold abort_smp in X |- *. rewrite D. eapply twin_instance; try eassumption. intros i j L. now apply like_abort_smp.
Qed.

Lemma beside_run t s0 h k s : beside C t s0 h k s -> sinv s0 -> enabled (se_details s0) ->
  run C s0 h s /\ exists s1, run C s0 k s1 /\ twin t s s1.
Proof.
  intros B I0 EN. induction B as [|h k s es o s' out r B IH H NP O|h k s es o s' out r B IH H NP AB ST|h k s es p b s' out r B IH H NP G].
  - split; [constructor|]. exists s0. split; constructor; auto.
  - destruct IH as (R & s1 & R1 & [I I1 D S]). split; [econstructor; eassumption|]. exists s1. split; [assumption|].
    destruct (run_inv _ _ _ _ R I0) as [_ DS].
    destruct (sinv_call _ _ _ _ _ _ _ H NP I) as [I' D']. constructor; [assumption|assumption|congruence|].
    rewrite S. symmetry. eapply outside_state; try eassumption. now rewrite DS.
  - destruct IH as (R & s1 & R1 & TW). split; [econstructor; eassumption|].
    destruct (run_inv _ _ _ _ R I0) as [_ DS]. pose proof TW as [I I1 D S].
    assert (EN' : enabled (se_details s)) by now rewrite DS.
    destruct (about_twin _ _ _ _ _ _ _ _ TW EN' ST AB H NP) as (s1' & H1 & S1).
    exists s1'. split; [econstructor; eassumption|].
    destruct (sinv_call _ _ _ _ _ _ _ H NP I) as [I' D']. destruct (sinv_call _ _ _ _ _ _ _ H1 NP I1) as [I1' D1'].
    constructor; [assumption|assumption|congruence|assumption].
  - destruct IH as (R & s1 & R1 & TW). split; [econstructor; eassumption|].
    destruct (run_inv _ _ _ _ R I0) as [_ DS]. pose proof TW as [I I1 D S].
    assert (EN' : enabled (se_details s)) by now rewrite DS.
    assert (E : exists s1', call C es s1 (OpReceive b) = (s1', out, r) /\ state_of s1' t = state_of s' t).
    { cbn [call] in H |- *. destruct (receive C (es 0) s p) as [[s2 o2] r2] eqn:RC. injection H as <- <- <-.
      destruct (twin_genuine t s s1 (es 0) p b s2 o2 r2 TW EN' G RC) as (s1' & -> & E); [now intros ->|].
      exists s1'. now split. }
    destruct E as (s1' & H1 & S1). exists s1'. split; [econstructor; eassumption|].
    destruct (sinv_call _ _ _ _ _ _ _ H NP I) as [I' D']. destruct (sinv_call _ _ _ _ _ _ _ H1 NP I1) as [I1' D1'].
    constructor; [assumption|assumption|congruence|assumption].
Qed.

(* recognising genuine and other messages in examples *)
Lemma read_genuine e s p s' out t c tlvs r : sinv s -> enabled (se_details s) -> match_fragment p = false ->
  receive C e s p = (s', out, Ok r) -> r = UMConfidential t c tlvs \/ r = UMSessionFinished t c -> genuine C s t p p.
Proof.
  intros I EN MF H R. apply receive_arrives in H; [|assumption|assumption|discriminate].
  inversion H as [x S Q|b x o _ _ S _ E|b x q o _ _ S _ _ E|vs v o x _ _ S _ Q|em o x CA _ _ OT HA]; subst.
  - destruct Q as [Q|(y & Q)]; [|discriminate]. injection Q as ->. destruct R; discriminate.
  - destruct R; subst; discriminate.
  - destruct (_ || _); destruct R; subst; discriminate.
  - destruct Q as [Q|(y & Q & _)]; [|discriminate]. injection Q as ->. destruct R; discriminate.
  - destruct CA as (b & CO & PA).
    assert (b = p) as -> by (destruct CO as [(_ & X)|(f & a & X & _)]; congruence).
    destruct HA as [(_ & [Q|[(Q & _)|(y & Q)]] & _)|[(ig & _ & _ & Q & _)|(st1 & text & D & RE & _)]].
    + injection Q as ->. destruct R; discriminate.
    + injection Q as ->. destruct R; discriminate.
    + discriminate.
    + destruct ig; [injection Q as ->; destruct R; discriminate|discriminate].
    + apply decrypts_opens in D. assert (T : em_sender em = t).
      { unfold reported in RE. destruct (parse_message text) as [[cc tt|cc]|y|]; [| |discriminate|contradiction].
        - destruct (existsb _ tt).
          + destruct RE as [E|[E|[E|(y & E)]]]; try discriminate; injection E as ->; destruct R; discriminate.
          + injection RE as ->. destruct R as [R|R]; [now injection R|discriminate].
        - injection RE as ->. destruct R as [R|R]; [discriminate|now injection R]. }
      subst t. split; [assumption|]. exists em, text. auto.
Qed.
Lemma other_not_genuine s t p : match_fragment p = false ->
  (forall em, parse C p = Ok (MsgEncoded em) -> match em_message em with MData _ | MData4 _ => False | _ => True end) ->
  forall b, ~ genuine C s t p b.
Proof.
  intros MF P b (CO & em & text & PA & _ & OP).
  assert (b = p) as -> by (destruct CO as [(_ & X)|(f & a & X & _)]; congruence).
  apply opens_is_data in OP. specialize (P em PA). destruct OP as [(m & _ & M)|(m & _ & M)]; now rewrite M in P.
Qed.
End WithCrypto.
