From Verif Require Import Base BaseLemmas Types Crypto Encoding Messages Fragment KeyManager DataV3 Ratchet DataV4 AKE DAKE SMP SMP4 Protocol Session
  SpecSession SessionProofs SessionInvProofs SpecLongTerm LongTermProofs SpecSize.
From Coq Require Import Lia.
Local Open Scope N_scope.

Lemma same_texts_refl d es1 es2 l : same_texts d es1 es2 l l.
Proof. induction l; constructor; assumption. Qed.
Lemma same_texts_app d es1 es2 a1 a2 b1 b2 : same_texts d es1 es2 a1 a2 -> same_texts d es1 es2 b1 b2 -> same_texts d es1 es2 (a1 ++ b1) (a2 ++ b2).
Proof.
  intros A B. induction A as [|w l1 l2 _ IH|t v r w ps1 ps2 l1 l2 S1 S2 _ IH]; [exact B|cbn; constructor; exact IH|].
  rewrite <- !app_assoc. exact (st_sent _ _ _ t v r w _ _ _ _ S1 S2 IH).
Qed.
Lemma map_res_forall2 {A B} (f : A -> res B) l ps : map_res f l = Ok ps -> Forall2 (fun a p => f a = Ok p) l ps.
Proof.
  revert ps. induction l as [|a l IH]; cbn; intros ps H; [injection H as <-; constructor|].
  destruct (f a) as [b| |] eqn:E; cbn in H; try discriminate H. destruct (map_res f l) as [bs| |]; cbn in H; try discriminate H.
  injection H as <-. constructor; [exact E|]. apply IH. reflexivity.
Qed.
Lemma payloads_sent d e r v w ps : payloads d e r v w = Ok ps -> sent_as d e v r w ps.
Proof.
  unfold payloads. destruct (Nat.leb_spec (length w) (ev_message_size e)) as [L|L]; intros H; [injection H as <-; left; split; [exact L|reflexivity]|].
  right. split; [exact L|]. destruct (fragment_content _ _ _ _ _ _) as [fs| |] eqn:F; cbn in H; try discriminate H.
  exists fs. split; [reflexivity|]. exact (map_res_forall2 _ _ _ H).
Qed.

Section WithCrypto.
Context (C : Crypto) (d : details) (es1 es2 : N -> env).

Definition rel {S A} (x y : effect S A) : Prop :=
  let '(i1, o1, r1) := x in let '(i2, o2, r2) := y in
  r1 <> Panic -> r2 <> Panic -> i1 = i2 /\ same_texts d es1 es2 o1 o2 /\ r1 = r2.
Lemma rel_refl {S A} (x : effect S A) : rel x x.
Proof. destruct x as [[i o] r]. intros _ _. split; [reflexivity|]. split; [apply same_texts_refl|reflexivity]. Qed.

Section At.
Context (t0 : N) (SB : same_but_size (es1 t0) (es2 t0)).
Local Notation e1 := (es1 t0).
Local Notation e2 := (es2 t0).

Lemma sz_payloads t v w a b : payloads d e1 t v w = Ok a -> payloads d e2 t v w = Ok b -> same_texts d es1 es2 a b.
Proof.
  intros A B. rewrite <- (app_nil_r a), <- (app_nil_r b). apply (st_sent _ _ _ t0 v t w); [exact (payloads_sent _ _ _ _ _ _ A)|exact (payloads_sent _ _ _ _ _ _ B)|constructor].
Qed.
Lemma sz_inject i v t m a b : inject d e1 i v t m = Ok a -> inject d e2 i v t m = Ok b -> same_texts d es1 es2 a b.
Proof.
  unfold inject. destruct (negb _); [discriminate|]. destruct (encode_message _ _ _ _); cbn; try discriminate. apply sz_payloads.
Qed.
Lemma rel_inject {A} before after i v t m (a : A) : rel (injecting before after (inject d e1 i v t m) a) (injecting before after (inject d e2 i v t m) a).
Proof.
  pose proof (inject_no_err d e1 i v t m) as N1. pose proof (inject_no_err d e2 i v t m) as N2. pose proof (sz_inject i v t m) as X. unfold injecting.
  destruct (inject d e1 i v t m) as [o1|x|]; [|exfalso; exact (N1 x eq_refl)|]; (destruct (inject d e2 i v t m) as [o2|x|]; [|exfalso; exact (N2 x eq_refl)|]);
    intros P1 P2; try congruence.
  split; [reflexivity|]. split; [exact (X o1 o2 eq_refl eq_refl)|reflexivity].
Qed.
Ltac fields := destruct SB as [? ? ? ? ? ? ? ? ? ? ? ? ? ? ?].

Lemma sz_prepare s t : prepare_tlv C e1 s t = prepare_tlv C e2 s t.
Proof. fields. unfold prepare_tlv. replace (ev_send e1) with (ev_send e2) by congruence. reflexivity. Qed.
Lemma sz_secure d' i t m : secure C d' e1 i t m = secure C d' e2 i t m.
Proof. fields. unfold secure. replace (ev_km0 e1) with (ev_km0 e2) by congruence. replace (ev_km1 e1) with (ev_km1 e2) by congruence. reflexivity. Qed.
Lemma sz_dake_host : ev_dake_host e1 = ev_dake_host e2.
Proof. fields. unfold ev_dake_host. congruence. Qed.
Lemma sz_smp_host : ev_smp_host e1 = ev_smp_host e2.
Proof. fields. unfold ev_smp_host. replace (ev_dsa e1) with (ev_dsa e2) by congruence. replace (ev_answer e1) with (ev_answer e2) by congruence. reflexivity. Qed.
Lemma sz_finish i0 i t r rep : rel (smp_finish C d e1 i0 i t r rep) (smp_finish C d e2 i0 i t r rep).
Proof.
  unfold smp_finish. destruct r as [[u|]| |]; try apply rel_refl. rewrite sz_prepare. destruct (prepare_tlv C e2 _ _) as [[s m]| |]; try apply rel_refl. cbv zeta.
  pose proof (inject_no_err d e1 (set_state i s) (p_version s) t m) as N1. pose proof (inject_no_err d e2 (set_state i s) (p_version s) t m) as N2.
  pose proof (sz_inject (set_state i s) (p_version s) t m) as X.
  destruct (inject d e1 _ _ _ _) as [o1|x|]; [|exfalso; exact (N1 x eq_refl)|]; (destruct (inject d e2 _ _ _ _) as [o2|x|]; [|exfalso; exact (N2 x eq_refl)|]);
    destruct rep; intros P1 P2; try congruence; (split; [reflexivity|]; split; [exact (X o1 o2 eq_refl eq_refl)|reflexivity]).
Qed.
Lemma sz_initiate_inst i v : rel (inst_initiate C d e1 i v) (inst_initiate C d e2 i v).
Proof.
  pose proof sz_dake_host as H. fields. unfold inst_initiate. destruct v; try apply rel_refl.
  - replace (ev_dh e1) with (ev_dh e2) by congruence. replace (ev_r e1) with (ev_r e2) by congruence.
    destruct (ake_initiate C _ _) as [[? ?]| |]; try apply rel_refl. apply rel_inject.
  - rewrite H. replace (ev_dake e1) with (ev_dake e2) by congruence. destruct (dake_initiate C _ _ _) as [st [m| |]]; try apply rel_refl. apply rel_inject.
Qed.
Lemma rel_on_entry {A} s t (f g : instance -> effect instance A) : rel (f (entry t (se_instances s))) (g (entry t (se_instances s))) -> rel (on_entry s t f) (on_entry s t g).
Proof.
  unfold on_entry. destruct (f _) as [[i1 o1] r1], (g _) as [[i2 o2] r2]. intros H.
  destruct r1, r2; cbn; intros P1 P2; try congruence;
    (destruct H as (-> & T & E); [congruence|congruence|]; split; [reflexivity|]; split; [exact T|congruence]).
Qed.
Lemma rel_on_instance {A} s t (f g : instance -> effect instance A) : (forall i, rel (f i) (g i)) -> rel (on_instance s t f) (on_instance s t g).
Proof.
  unfold on_instance. intros R. destruct (get_inst t _) as [i|]; [|apply rel_refl]. specialize (R i). destruct (f i) as [[i1 o1] r1], (g i) as [[i2 o2] r2].
  destruct r1, r2; cbn; intros P1 P2; try congruence;
    (destruct R as (-> & T & E); [congruence|congruence|]; split; [reflexivity|]; split; [exact T|congruence]).
Qed.
Lemma sz_initiate s v t : se_details s = d -> rel (initiate C e1 s v t) (initiate C e2 s v t).
Proof. intros D. unfold initiate. rewrite D. apply rel_on_entry. apply sz_initiate_inst. Qed.
Lemma sz_reset i : rel (inst_reset C d e1 i) (inst_reset C d e2 i).
Proof.
  fields. unfold inst_reset. replace (ev_send e1) with (ev_send e2) by congruence. destruct (p_finish C _ _) as [m| |]; try apply rel_refl. cbv zeta.
  destruct (status_eqb _ _); [apply rel_refl|]. destruct m; [|apply rel_refl]. apply rel_inject.
Qed.
Lemma sz_expire i t : rel (inst_expire C d e1 i t) (inst_expire C d e2 i t).
Proof.
  fields. unfold inst_expire. replace (ev_send e1) with (ev_send e2) by congruence. destruct (p_expire C _ _ _) as [[m|]| |]; try apply rel_refl. apply rel_inject.
Qed.
Lemma sz_abort i : rel (inst_abort_smp C d e1 i) (inst_abort_smp C d e2 i).
Proof.
  unfold inst_abort_smp. destruct (in_state i); try apply rel_refl.
  - destruct (smp_abort _) as [a b]. rewrite sz_prepare. destruct (prepare_tlv C e2 _ _) as [[? ?]| |]; try apply rel_refl. apply rel_inject.
  - destruct (smp4_abort _) as [a b]. rewrite sz_prepare. destruct (prepare_tlv C e2 _ _) as [[? ?]| |]; try apply rel_refl. apply rel_inject.
Qed.
Lemma sz_start i x q : rel (inst_start_smp C d e1 i x q) (inst_start_smp C d e2 i x q).
Proof.
  pose proof sz_smp_host as H. pose proof sz_prepare as PP. fields. unfold inst_start_smp. destruct (in_state i); try apply rel_refl.
  - rewrite H. replace (ev_smp e1) with (ev_smp e2) by congruence. destruct (smp_initiate C _ _ _ _ _) as [a b]. destruct b; try apply rel_refl. rewrite PP.
    destruct (prepare_tlv C e2 _ _) as [[? ?]| |]; try apply rel_refl. apply rel_inject.
  - replace (ev_smp4 e1) with (ev_smp4 e2) by congruence. destruct (smp4_initiate C _ _ _ _) as [a b]. destruct b; try apply rel_refl. rewrite PP.
    destruct (prepare_tlv C e2 _ _) as [[? ?]| |]; try apply rel_refl. apply rel_inject.
Qed.
Lemma sz_data3 i a b m : rel (inst_data3 C d e1 i a b m) (inst_data3 C d e2 i a b m).
Proof.
  pose proof sz_smp_host as H. fields. unfold inst_data3. replace (ev_ack e1) with (ev_ack e2) by congruence. destruct (p_handle3 C _ _ _ _) as [s r].
  destruct r as [c| |]; try apply rel_refl. destruct c; try apply rel_refl. destruct (existsb _ _); [|apply rel_refl]. destruct (single_smp _ _); try apply rel_refl.
  destruct s; try apply rel_refl. rewrite H. replace (ev_smp e1) with (ev_smp e2) by congruence. destruct (smp_handle C _ _ _ _) as [? ?]. apply sz_finish.
Qed.
Lemma sz_data4 i a b m : rel (inst_data4 C d e1 i a b m) (inst_data4 C d e2 i a b m).
Proof.
  fields. unfold inst_data4. destruct (data4_validate C m); try apply rel_refl. unfold ev_now. replace (ev_send e1) with (ev_send e2) by congruence.
  destruct (p_handle4 C _ _ _ _) as [s r]. destruct r as [c| |]; try apply rel_refl.
  destruct c; try apply rel_refl. destruct (existsb _ _); [|apply rel_refl]. destruct (single_smp _ _); try apply rel_refl.
  destruct s; try apply rel_refl. replace (ev_answer e1) with (ev_answer e2) by congruence. replace (ev_smp4 e1) with (ev_smp4 e2) by congruence.
  destruct (smp4_handle C _ _ _ _) as [? ?]. apply sz_finish.
Qed.
Lemma sz_handle i em : rel (inst_handle C d e1 i em) (inst_handle C d e2 i em).
Proof.
  pose proof sz_dake_host as KH. pose proof sz_secure as SC. unfold inst_handle. cbv zeta.
  destruct (em_version em), (em_message em); try apply rel_refl; try apply sz_data3; try apply sz_data4; fields.
  - replace (ev_dh e1) with (ev_dh e2) by congruence. destruct (ake_handle_dhcommit C _ _ _) as [st [r| |]]; try apply rel_refl. apply rel_inject.
  - replace (ev_dsa e1) with (ev_dsa e2) by congruence. replace (ev_nonce e1) with (ev_nonce e2) by congruence.
    destruct (ake_handle_dhkey C _ _ _ _) as [st [r| |]]; try apply rel_refl. apply rel_inject.
  - replace (ev_dsa e1) with (ev_dsa e2) by congruence. replace (ev_nonce e1) with (ev_nonce e2) by congruence.
    destruct (ake_handle_reveal C _ _ _ _) as [st [[? ?]| |]]; try apply rel_refl. rewrite SC.
    destruct (secure C _ _ _ _ _); try apply rel_refl. apply rel_inject.
  - destruct (ake_handle_signature C _ _) as [st [r| |]]; try apply rel_refl. rewrite SC. apply rel_refl.
  - rewrite KH. replace (ev_dake e1) with (ev_dake e2) by congruence. replace (ev_ring e1) with (ev_ring e2) by congruence.
    destruct (dake_handle_identity C _ _ _ _ _ _ _) as [st [r| |]]; try apply rel_refl. apply rel_inject.
  - unfold ev_now. rewrite KH. replace (ev_ring e1) with (ev_ring e2) by congruence. replace (ev_send e1) with (ev_send e2) by congruence.
    destruct (dake_handle_auth_r C _ _ _ _ _ _ _ _ _) as [st [[mat r]| |]]; try apply rel_refl. rewrite SC.
    match goal with |- context [inject d e1 ?i ?v ?t ?m] =>
      pose proof (inject_no_err d e1 i v t m) as N1; pose proof (inject_no_err d e2 i v t m) as N2; pose proof (sz_inject i v t m) as X end.
    destruct (inject d e1 _ _ _ _) as [o1|x|]; [|exfalso; exact (N1 x eq_refl)|]; (destruct (inject d e2 _ _ _ _) as [o2|x|]; [|exfalso; exact (N2 x eq_refl)|]);
      try destruct (secure C d e2 _ _ _); intros P1 P2; try congruence; (split; [reflexivity|]; split; [exact (X o1 o2 eq_refl eq_refl)|reflexivity]).
  - unfold ev_now. replace (ev_send e1) with (ev_send e2) by congruence.
    destruct (dake_handle_auth_i C _ _ _ _ _) as [st [r| |]]; apply rel_refl.
Qed.
Lemma sz_encoded s em : se_details s = d -> rel (receive_encoded C e1 s em) (receive_encoded C e2 s em).
Proof.
  intros D. unfold receive_encoded. cbv zeta. rewrite D. destruct (em_sender em =? 0); [apply rel_refl|]. destruct (verify_header _ _); try apply rel_refl.
  destruct (_ || _); [apply rel_refl|].
  destruct (em_version em), (em_message em); try (apply rel_on_entry; apply sz_handle).
  - destruct (get_inst 0 _); [|apply rel_refl]. destruct (transfer_ake_context _); try apply rel_refl; apply rel_on_entry; [|apply sz_handle].
    destruct (adopt_ake_context _ _); try apply rel_refl. apply sz_handle.
  - destruct (get_inst 0 _); [|apply rel_refl]. destruct (transfer_dake_context _); try apply rel_refl; apply rel_on_entry; [|apply sz_handle].
    destruct (adopt_dake_context _ _); try apply rel_refl. apply sz_handle.
Qed.
Lemma sz_deliver s o1 o2 b : same_texts d es1 es2 o1 o2 -> rel (deliver_text s o1 b) (deliver_text s o2 b).
Proof.
  intros T. unfold deliver_text. destruct (has_sessions s); intros P1 P2; try congruence; (split; [reflexivity|]; split; [exact T|reflexivity]).
Qed.
Lemma sz_message s b : se_details s = d -> rel (receive_message C e1 s b) (receive_message C e2 s b).
Proof.
  intros D. unfold receive_message. cbv zeta. destruct (parse C b) as [m| |] eqn:P; try apply rel_refl. destruct m; try apply rel_refl.
  - destruct (whitespace_start_ake _); [|apply rel_refl]. destruct (select_version _ _) as [v|]; [|apply rel_refl].
    pose proof (sz_initiate s v 0 D) as H. destruct (initiate C e1 s v 0) as [[i1 o1] r1], (initiate C e2 s v 0) as [[i2 o2] r2]. cbn in H.
    destruct r1 as [?| |], r2 as [?| |];
      try (destruct (H ltac:(discriminate) ltac:(discriminate)) as (-> & T & E); try discriminate E);
      try (apply sz_deliver; exact T); try (intros P1 P2; congruence).
    + destruct (deliver_text i1 o1 _) as [[? ?] ?]. intros P1 P2; congruence.
    + injection E as ->. intros _ _. split; [reflexivity|]. split; [exact T|reflexivity].
    + destruct (deliver_text i2 o2 _) as [[? ?] ?]. intros P1 P2; congruence.
  - destruct (select_version _ _) as [v|]; [|apply rel_refl].
    pose proof (sz_initiate s v 0 D) as H. destruct (initiate C e1 s v 0) as [[i1 o1] r1], (initiate C e2 s v 0) as [[i2 o2] r2]. cbn in H.
    destruct r1 as [?| |], r2 as [?| |]; intros P1 P2; try congruence;
      (destruct (H ltac:(discriminate) ltac:(discriminate)) as (-> & T & E); try discriminate E; refine (conj eq_refl (conj T _)); congruence).
  - apply sz_encoded. exact D.
Qed.
Lemma sz_receive s p : se_details s = d -> rel (receive C e1 s p) (receive C e2 s p).
Proof.
  intros D. unfold receive. cbv zeta. destruct (otr_disabled _); [apply rel_refl|]. destruct (match_fragment p).
  - destruct (parse_fragment p) as [[f|]| |]; try apply rel_refl. destruct (negb (verify_fragment f)); [apply rel_refl|].
    destruct (negb (fr_receiver f =? 0) && _); [apply rel_refl|].
    destruct (assemble _ f) as [a r]. destruct r as [b|x|]; try apply rel_refl. destruct (match_fragment b); [apply rel_refl|].
    pose proof (sz_message (put s (fr_sender f) (set_assembler (entry (fr_sender f) (se_instances s)) a)) b D) as H.
    destruct (receive_message C e1 _ b) as [[i1 o1] r1], (receive_message C e2 _ b) as [[i2 o2] r2]. cbn in H.
    destruct r1, r2; intros P1 P2; try congruence; apply H; assumption.
  - apply sz_message. exact D.
Qed.
Lemma sz_send s t b s1 o1 r1 s2 o2 r2 : se_details s = d -> send C e1 s t b = (s1, o1, r1) -> send C e2 s t b = (s2, o2, r2) ->
  r1 <> Panic -> r2 <> Panic -> s1 = s2 /\ same_texts d es1 es2 o1 o2 /\
  (r1 = r2 \/ exists l1 l2, r1 = Ok l1 /\ r2 = Ok l2 /\ same_texts d es1 es2 l1 l2).
Proof.
  intros D. unfold send. cbv zeta. rewrite D.
  assert (RF : forall x : effect session (list bytes), x = (s1, o1, r1) -> x = (s2, o2, r2) -> r1 <> Panic -> r2 <> Panic ->
    s1 = s2 /\ same_texts d es1 es2 o1 o2 /\ (r1 = r2 \/ exists l1 l2, r1 = Ok l1 /\ r2 = Ok l2 /\ same_texts d es1 es2 l1 l2)).
  { intros x -> E _ _. injection E as -> -> ->. split; [reflexivity|]. split; [apply same_texts_refl|left; reflexivity]. }
  destruct (otr_disabled _); [apply RF|]. destruct (get_inst t _) as [i|]; [|apply RF].
  destruct (_ && _); [apply RF|].
  unfold inst_send. assert (ES : ev_send e1 = ev_send e2) by (fields; congruence). rewrite ES.
  destruct (p_prepare C _ _ _ _) as [[ps m]| |]; [|apply RF|apply RF]. destruct m; try apply RF.
  - destruct (encode_message _ _ _ _) as [w| |]; cbn; [|apply RF|apply RF].
    pose proof (payloads_no_err d e1 (in_receiver i) (p_version ps) w) as N1. pose proof (payloads_no_err d e2 (in_receiver i) (p_version ps) w) as N2.
    pose proof (sz_payloads (in_receiver i) (p_version ps) w) as X.
    destruct (payloads d e1 _ _ _) as [a|x|]; [|exfalso; exact (N1 x eq_refl)|]; (destruct (payloads d e2 _ _ _) as [a2|x|]; [|exfalso; exact (N2 x eq_refl)|]);
      intros E1 E2 P1 P2; injection E1 as <- <- <-; injection E2 as <- <- <-; try congruence.
    split; [reflexivity|]. split; [constructor|]. right. exists a, a2. split; [reflexivity|]. split; [reflexivity|]. exact (X a a2 eq_refl eq_refl).
  - destruct (encode_message _ _ _ _) as [w| |]; cbn; [|apply RF|apply RF].
    pose proof (payloads_no_err d e1 (in_receiver i) (p_version ps) w) as N1. pose proof (payloads_no_err d e2 (in_receiver i) (p_version ps) w) as N2.
    pose proof (sz_payloads (in_receiver i) (p_version ps) w) as X.
    destruct (payloads d e1 _ _ _) as [a|x|]; [|exfalso; exact (N1 x eq_refl)|]; (destruct (payloads d e2 _ _ _) as [a2|x|]; [|exfalso; exact (N2 x eq_refl)|]);
      intros E1 E2 P1 P2; injection E1 as <- <- <-; injection E2 as <- <- <-; try congruence.
    split; [reflexivity|]. split; [constructor|]. right. exists a, a2. split; [reflexivity|]. split; [reflexivity|]. exact (X a a2 eq_refl eq_refl).
Qed.
End At.

Lemma sz_expire_all t l : (forall u, same_but_size (es1 u) (es2 u)) -> rel (expire_all C d es1 t l) (expire_all C d es2 t l).
Proof.
  intros S. induction l as [|[u i] r IH]; [apply rel_refl|]. cbn. pose proof (sz_expire u (S u) i t) as H.
  destruct (inst_expire C d (es1 u) i t) as [[i1 o1] r1], (inst_expire C d (es2 u) i t) as [[i2 o2] r2]. cbn in H.
  destruct (expire_all C d es1 t r) as [[l1 p1] x1], (expire_all C d es2 t r) as [[l2 p2] x2]. cbn in IH.
  destruct r1 as [[]| |], r2 as [[]| |]; intros P1 P2; try congruence;
    destruct (H ltac:(discriminate) ltac:(discriminate)) as (-> & T & E); try discriminate E.
  - destruct (IH P1 P2) as (-> & T2 & ->). split; [reflexivity|]. split; [apply same_texts_app; assumption|reflexivity].
  - injection E as ->. split; [reflexivity|]. split; [exact T|reflexivity].
Qed.
End WithCrypto.

Lemma rel_answering d es1 es2 {A} (f : A -> answer) (x y : effect session A) s1 o1 r1 s2 o2 r2 : rel d es1 es2 x y ->
  answering f x = (s1, o1, r1) -> answering f y = (s2, o2, r2) -> r1 <> Panic -> r2 <> Panic ->
  s1 = s2 /\ same_texts d es1 es2 o1 o2 /\ same_answer d es1 es2 r1 r2.
Proof.
  destruct x as [[i1 p1] q1], y as [[i2 p2] q2]. cbn. intros R E1 E2 P1 P2. injection E1 as <- <- <-. injection E2 as <- <- <-.
  destruct R as (-> & T & ->); [destruct q1; cbn in P1; congruence|destruct q2; cbn in P2; congruence|]. split; [reflexivity|]. split; [exact T|left; reflexivity].
Qed.
Lemma call_size C es1 es2 s o s1 o1 r1 s2 o2 r2 : (forall t, same_but_size (es1 t) (es2 t)) ->
  call C es1 s o = (s1, o1, r1) -> call C es2 s o = (s2, o2, r2) -> r1 <> Panic -> r2 <> Panic ->
  s1 = s2 /\ same_texts (se_details s) es1 es2 o1 o2 /\ same_answer (se_details s) es1 es2 r1 r2.
Proof.
  intros S. destruct o as [p|t b|v t|t| |t x q|t|t]; cbn [call].
  - apply rel_answering. apply sz_receive; [apply S|reflexivity].
  - destruct (send C (es1 t) s t b) as [[a1 b1] c1] eqn:A. destruct (send C (es2 t) s t b) as [[a2 b2] c2] eqn:B. cbn. intros E1 E2 P1 P2.
    injection E1 as <- <- <-. injection E2 as <- <- <-.
    destruct (sz_send C _ es1 es2 t (S t) s t b _ _ _ _ _ _ eq_refl A B) as (E & T & R); [destruct c1; cbn in P1; congruence|destruct c2; cbn in P2; congruence|].
    split; [exact E|]. split; [exact T|]. destruct R as [->|(l1 & l2 & -> & -> & L)]; [left; reflexivity|]. right. exists l1, l2. auto.
  - apply rel_answering. apply sz_initiate; [apply S|reflexivity].
  - apply rel_answering. unfold end_session. apply rel_on_instance. intros i. apply sz_reset. apply S.
  - apply rel_answering. apply rel_refl.
  - apply rel_answering. unfold start_smp. apply rel_on_instance. intros i. apply sz_start. apply S.
  - apply rel_answering. unfold abort_smp. apply rel_on_instance. intros i. apply sz_abort. apply S.
  - apply rel_answering. unfold expire. pose proof (sz_expire_all C (se_details s) es1 es2 t (se_instances s) S) as H.
    destruct (expire_all C _ es1 _ _) as [[l1 p1] x1], (expire_all C _ es2 _ _) as [[l2 p2] x2]. cbn in H.
    destruct x1, x2; intros P1 P2; try congruence;
      (destruct (H ltac:(discriminate) ltac:(discriminate)) as (-> & T & E); split; [reflexivity|]; split; [exact T|exact E]).
Qed.
Lemma play_size C d l : forall s, sinv s -> se_details s = d ->
  (forall es1 es2 o, In (es1, es2, o) l -> forall t, same_but_size (es1 t) (es2 t)) -> crashless C (left_calls l) s -> crashless C (right_calls l) s ->
  snd (play C (left_calls l) s) = snd (play C (right_calls l) s) /\ alike d l (fst (play C (left_calls l) s)) (fst (play C (right_calls l) s)).
Proof.
  induction l as [|[[es1 es2] o] l IH]; intros s I D A N1 N2; [split; [reflexivity|exact Logic.I]|].
  cbn in N1, N2 |- *. destruct N1 as [P1 N1], N2 as [P2 N2].
  destruct (call C es1 s o) as [[s1 o1] r1] eqn:E1, (call C es2 s o) as [[s2 o2] r2] eqn:E2. cbn in P1, N1, P2, N2.
  destruct (call_size C es1 es2 s o _ _ _ _ _ _ (A es1 es2 o (or_introl eq_refl)) E1 E2 P1 P2) as (<- & T & R). rewrite D in T, R.
  destruct (sinv_call C es1 s o _ _ _ E1 P1 I) as [I1 D1].
  destruct (IH s1 I1 (eq_trans D1 D) (fun a b c H => A a b c (or_intror H)) N1 N2) as [E L].
  fold (left_calls l). fold (right_calls l). destruct (play C (left_calls l) s1) as [xs t1], (play C (right_calls l) s1) as [ys t2]. cbn in E, L |- *. split; [exact E|]. split; [exact T|]. split; [exact R|exact L].
Qed.
