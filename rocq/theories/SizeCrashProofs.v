From Verif Require Import Base BaseLemmas Types Crypto Encoding Messages Fragment KeyManager DataV3 Ratchet DataV4 AKE DAKE SMP SMP4 Protocol Session
  SpecSession SessionProofs SpecLongTerm SpecSize SizeProofs.
From Coq Require Import Lia.
Local Open Scope N_scope.

Lemma forall2_map_res {A B} (f : A -> res B) l ps : Forall2 (fun a p => f a = Ok p) l ps -> map_res f l = Ok ps.
Proof. induction 1 as [|a p l ps E _ IH]; cbn; [reflexivity|]. rewrite E, IH. reflexivity. Qed.
Lemma sent_payloads d e r v w ps : sent_as d e v r w ps -> payloads d e r v w = Ok ps.
Proof.
  unfold payloads. intros [[L ->]|(L & fs & F & P)].
  - apply Nat.leb_le in L. rewrite L. reflexivity.
  - apply Nat.leb_gt in L. rewrite L, F. cbn. exact (forall2_map_res _ _ _ P).
Qed.

Section WithCrypto.
Context (C : Crypto) (d : details) (es1 es2 : N -> env).

Definition relc {S A} (x y : effect S A) : Prop :=
  snd x = Panic -> snd y <> Panic -> exists a ps b, snd (fst y) = a ++ ps ++ b /\ too_long d es1 es2 ps.
Lemma relc_refl {S A} (x : effect S A) : relc x x.
Proof. intros P N. contradiction. Qed.

Section At.
Context (t0 : N) (SB : same_but_size (es1 t0) (es2 t0)).
Local Notation e1 := (es1 t0).
Local Notation e2 := (es2 t0).

Lemma szc_payloads t v w ps : payloads d e1 t v w = Panic -> payloads d e2 t v w = Ok ps -> too_long d es1 es2 ps.
Proof.
  intros A B. exists t0, v, t, w. split; [exact (payloads_sent _ _ _ _ _ _ B)|]. intros ps1 S. apply sent_payloads in S. congruence.
Qed.
Lemma szc_inject i v t m ps : inject d e1 i v t m = Panic -> inject d e2 i v t m = Ok ps -> too_long d es1 es2 ps.
Proof.
  unfold inject. destruct (negb _); [discriminate|]. destruct (encode_message _ _ _ _); cbn; try discriminate. apply szc_payloads.
Qed.
Lemma relc_inject {A} before after i v t m (a : A) : relc (injecting before after (inject d e1 i v t m) a) (injecting before after (inject d e2 i v t m) a).
Proof.
  pose proof (szc_inject i v t m) as X. unfold injecting, relc. destruct (inject d e1 i v t m) as [o1|x|]; cbn; intros P N; try discriminate P.
  pose proof (inject_no_err d e2 i v t m) as N2. destruct (inject d e2 i v t m) as [o2|x|]; cbn in N; [|exfalso; exact (N2 x eq_refl)|congruence].
  exists [], o2, []. split; [cbn; rewrite app_nil_r; reflexivity|]. exact (X o2 eq_refl eq_refl).
Qed.
Ltac fields := destruct SB as [? ? ? ? ? ? ? ? ? ? ? ? ? ? ?].

Lemma szc_prepare s t : prepare_tlv C e1 s t = prepare_tlv C e2 s t.
Proof. exact (sz_prepare C es1 es2 t0 SB s t). Qed.
Lemma szc_finish i0 i t r rep : relc (smp_finish C d e1 i0 i t r rep) (smp_finish C d e2 i0 i t r rep).
Proof.
  unfold smp_finish. destruct r as [[u|]| |]; try apply relc_refl. rewrite szc_prepare. destruct (prepare_tlv C e2 _ _) as [[s m]| |]; try apply relc_refl. cbv zeta.
  pose proof (szc_inject (set_state i s) (p_version s) t m) as X. pose proof (inject_no_err d e1 (set_state i s) (p_version s) t m) as N1.
  pose proof (inject_no_err d e2 (set_state i s) (p_version s) t m) as N2.
  destruct (inject d e1 _ _ _ _) as [o1|x|]; [|exfalso; exact (N1 x eq_refl)|]; (destruct (inject d e2 _ _ _ _) as [o2|x|]; [|exfalso; exact (N2 x eq_refl)|]);
    destruct rep; intros P N; cbn in P, N; try discriminate P; try congruence;
    (exists [], o2, []; split; [cbn; rewrite app_nil_r; reflexivity|]; exact (X o2 eq_refl eq_refl)).
Qed.
Lemma szc_initiate_inst i v : relc (inst_initiate C d e1 i v) (inst_initiate C d e2 i v).
Proof.
  pose proof (sz_dake_host es1 es2 t0 SB) as H. fields. unfold inst_initiate. destruct v; try apply relc_refl.
  - replace (ev_dh e1) with (ev_dh e2) by congruence. replace (ev_r e1) with (ev_r e2) by congruence.
    destruct (ake_initiate C _ _) as [[? ?]| |]; try apply relc_refl. apply relc_inject.
  - rewrite H. replace (ev_dake e1) with (ev_dake e2) by congruence. destruct (dake_initiate C _ _ _) as [st [m| |]]; try apply relc_refl. apply relc_inject.
Qed.
Lemma relc_on_entry {A} s t (f g : instance -> effect instance A) : relc (f (entry t (se_instances s))) (g (entry t (se_instances s))) -> relc (on_entry s t f) (on_entry s t g).
Proof.
  unfold on_entry, relc. destruct (f _) as [[i1 o1] r1], (g _) as [[i2 o2] r2]. cbn [fst snd]. intros H P N.
  destruct r1; cbn in P; try discriminate P. destruct r2; cbn in N |- *; try (apply H; [reflexivity|congruence]). congruence.
Qed.
Lemma relc_on_instance {A} s t (f g : instance -> effect instance A) : (forall i, relc (f i) (g i)) -> relc (on_instance s t f) (on_instance s t g).
Proof.
  unfold on_instance. intros R. destruct (get_inst t _) as [i|]; [|apply relc_refl]. specialize (R i). unfold relc in *.
  destruct (f i) as [[i1 o1] r1], (g i) as [[i2 o2] r2]. cbn [fst snd] in R. intros P N.
  destruct r1; cbn in P; try discriminate P. destruct r2; cbn in N |- *; try (apply R; [reflexivity|congruence]). congruence.
Qed.
Lemma szc_initiate s v t : se_details s = d -> relc (initiate C e1 s v t) (initiate C e2 s v t).
Proof. intros D. unfold initiate. rewrite D. apply relc_on_entry. apply szc_initiate_inst. Qed.
Lemma szc_reset i : relc (inst_reset C d e1 i) (inst_reset C d e2 i).
Proof.
  fields. unfold inst_reset. replace (ev_send e1) with (ev_send e2) by congruence. destruct (p_finish C _ _) as [m| |]; try apply relc_refl. cbv zeta.
  destruct (status_eqb _ _); [apply relc_refl|]. destruct m; [|apply relc_refl]. apply relc_inject.
Qed.
Lemma szc_expire i t : relc (inst_expire C d e1 i t) (inst_expire C d e2 i t).
Proof.
  fields. unfold inst_expire. replace (ev_send e1) with (ev_send e2) by congruence. destruct (p_expire C _ _ _) as [[m|]| |]; try apply relc_refl. apply relc_inject.
Qed.
(* `prepare` is unwrapped, but prepares the same for both *)
Lemma szc_abort i : relc (inst_abort_smp C d e1 i) (inst_abort_smp C d e2 i).
Proof.
  unfold inst_abort_smp. destruct (in_state i); try apply relc_refl.
  - destruct (smp_abort _) as [a b]. rewrite szc_prepare. destruct (prepare_tlv C e2 _ _) as [[? ?]| |]; try apply relc_refl. apply relc_inject.
  - destruct (smp4_abort _) as [a b]. rewrite szc_prepare. destruct (prepare_tlv C e2 _ _) as [[? ?]| |]; try apply relc_refl. apply relc_inject.
Qed.
Lemma szc_start i x q : relc (inst_start_smp C d e1 i x q) (inst_start_smp C d e2 i x q).
Proof.
  pose proof (sz_smp_host es1 es2 t0 SB) as H. pose proof szc_prepare as PP. fields. unfold inst_start_smp. destruct (in_state i); try apply relc_refl.
  - rewrite H. replace (ev_smp e1) with (ev_smp e2) by congruence. destruct (smp_initiate C _ _ _ _ _) as [a b]. destruct b; try apply relc_refl. rewrite PP.
    destruct (prepare_tlv C e2 _ _) as [[? ?]| |]; try apply relc_refl. apply relc_inject.
  - replace (ev_smp4 e1) with (ev_smp4 e2) by congruence. destruct (smp4_initiate C _ _ _ _) as [a b]. destruct b; try apply relc_refl. rewrite PP.
    destruct (prepare_tlv C e2 _ _) as [[? ?]| |]; try apply relc_refl. apply relc_inject.
Qed.
Lemma szc_data3 i a b m : relc (inst_data3 C d e1 i a b m) (inst_data3 C d e2 i a b m).
Proof.
  pose proof (sz_smp_host es1 es2 t0 SB) as H. fields. unfold inst_data3. replace (ev_ack e1) with (ev_ack e2) by congruence. destruct (p_handle3 C _ _ _ _) as [s r].
  destruct r as [c| |]; try apply relc_refl. destruct c; try apply relc_refl. destruct (existsb _ _); [|apply relc_refl]. destruct (single_smp _ _); try apply relc_refl.
  destruct s; try apply relc_refl. rewrite H. replace (ev_smp e1) with (ev_smp e2) by congruence. destruct (smp_handle C _ _ _ _) as [? ?]. apply szc_finish.
Qed.
Lemma szc_data4 i a b m : relc (inst_data4 C d e1 i a b m) (inst_data4 C d e2 i a b m).
Proof.
  fields. unfold inst_data4. destruct (data4_validate C m); try apply relc_refl. unfold ev_now. replace (ev_send e1) with (ev_send e2) by congruence.
  destruct (p_handle4 C _ _ _ _) as [s r]. destruct r as [c| |]; try apply relc_refl.
  destruct c; try apply relc_refl. destruct (existsb _ _); [|apply relc_refl]. destruct (single_smp _ _); try apply relc_refl.
  destruct s; try apply relc_refl. replace (ev_answer e1) with (ev_answer e2) by congruence. replace (ev_smp4 e1) with (ev_smp4 e2) by congruence.
  destruct (smp4_handle C _ _ _ _) as [? ?]. apply szc_finish.
Qed.
Lemma szc_handle i em : relc (inst_handle C d e1 i em) (inst_handle C d e2 i em).
Proof.
  pose proof (sz_dake_host es1 es2 t0 SB) as KH. pose proof (sz_secure C es1 es2 t0 SB) as SC. unfold inst_handle. cbv zeta.
  destruct (em_version em), (em_message em); try apply relc_refl; try apply szc_data3; try apply szc_data4; fields.
  - replace (ev_dh e1) with (ev_dh e2) by congruence. destruct (ake_handle_dhcommit C _ _ _) as [st [r| |]]; try apply relc_refl. apply relc_inject.
  - replace (ev_dsa e1) with (ev_dsa e2) by congruence. replace (ev_nonce e1) with (ev_nonce e2) by congruence.
    destruct (ake_handle_dhkey C _ _ _ _) as [st [r| |]]; try apply relc_refl. apply relc_inject.
  - replace (ev_dsa e1) with (ev_dsa e2) by congruence. replace (ev_nonce e1) with (ev_nonce e2) by congruence.
    destruct (ake_handle_reveal C _ _ _ _) as [st [[? ?]| |]]; try apply relc_refl. rewrite SC.
    destruct (secure C _ _ _ _ _); try apply relc_refl. apply relc_inject.
  - destruct (ake_handle_signature C _ _) as [st [r| |]]; try apply relc_refl. rewrite SC. apply relc_refl.
  - rewrite KH. replace (ev_dake e1) with (ev_dake e2) by congruence. replace (ev_ring e1) with (ev_ring e2) by congruence.
    destruct (dake_handle_identity C _ _ _ _ _ _ _) as [st [r| |]]; try apply relc_refl. apply relc_inject.
  - unfold ev_now. rewrite KH. replace (ev_ring e1) with (ev_ring e2) by congruence. replace (ev_send e1) with (ev_send e2) by congruence.
    destruct (dake_handle_auth_r C _ _ _ _ _ _ _ _ _) as [st [[mat r]| |]]; try apply relc_refl. rewrite SC.
    match goal with |- context [inject d e1 ?i ?v ?t ?m] =>
      pose proof (inject_no_err d e1 i v t m) as N1; pose proof (inject_no_err d e2 i v t m) as N2; pose proof (szc_inject i v t m) as X end.
    destruct (inject d e1 _ _ _ _) as [o1|x|]; [|exfalso; exact (N1 x eq_refl)|]; (destruct (inject d e2 _ _ _ _) as [o2|x|]; [|exfalso; exact (N2 x eq_refl)|]);
      try destruct (secure C d e2 _ _ _); intros P N; cbn in P, N; try discriminate P; try congruence;
      (exists [], o2, []; split; [cbn; rewrite app_nil_r; reflexivity|]; exact (X o2 eq_refl eq_refl)).
  - unfold ev_now. replace (ev_send e1) with (ev_send e2) by congruence.
    destruct (dake_handle_auth_i C _ _ _ _ _) as [st [r| |]]; apply relc_refl.
Qed.
Lemma szc_encoded s em : se_details s = d -> relc (receive_encoded C e1 s em) (receive_encoded C e2 s em).
Proof.
  intros D. unfold receive_encoded. cbv zeta. rewrite D. destruct (em_sender em =? 0); [apply relc_refl|]. destruct (verify_header _ _); try apply relc_refl.
  destruct (_ || _); [apply relc_refl|].
  destruct (em_version em), (em_message em); try (apply relc_on_entry; apply szc_handle).
  - destruct (get_inst 0 _); [|apply relc_refl]. destruct (transfer_ake_context _); try apply relc_refl; apply relc_on_entry; [|apply szc_handle].
    destruct (adopt_ake_context _ _); try apply relc_refl. apply szc_handle.
  - destruct (get_inst 0 _); [|apply relc_refl]. destruct (transfer_dake_context _); try apply relc_refl; apply relc_on_entry; [|apply szc_handle].
    destruct (adopt_dake_context _ _); try apply relc_refl. apply szc_handle.
Qed.
Lemma szc_message s b : se_details s = d -> relc (receive_message C e1 s b) (receive_message C e2 s b).
Proof.
  intros D. unfold receive_message. cbv zeta. destruct (parse C b) as [m| |] eqn:PA; try apply relc_refl. destruct m; try apply relc_refl.
  - destruct (whitespace_start_ake _); [|apply relc_refl]. destruct (select_version _ _) as [v|]; [|apply relc_refl].
    pose proof (szc_initiate s v 0 D) as H. pose proof (sz_initiate C d es1 es2 t0 SB s v 0 D) as H2.
    destruct (initiate C e1 s v 0) as [[i1 o1] r1], (initiate C e2 s v 0) as [[i2 o2] r2]. unfold relc in H. cbn [fst snd] in H. cbn in H2.
    intros P N. destruct r1 as [a1|x1|].
    + (* the text is delivered in the same session *)
      destruct r2 as [a2|x2|]; [|cbn in N|cbn in N; congruence].
      * destruct (H2 ltac:(discriminate) ltac:(discriminate)) as (-> & _ & _). unfold deliver_text in P, N |- *.
        destruct (has_sessions i2); cbn in P, N; try discriminate P. congruence.
      * destruct (H2 ltac:(discriminate) ltac:(discriminate)) as (_ & _ & E). discriminate E.
    + discriminate P.
    + destruct r2 as [a2|x2|]; [| |cbn in N; congruence].
      * destruct (H eq_refl ltac:(discriminate)) as (x & ps & y & E & T). exists x, ps, y. split; [|exact T]. rewrite <- E. unfold deliver_text in N |- *.
        destruct (has_sessions i2); cbn in N |- *; [reflexivity|reflexivity|congruence].
      * destruct (H eq_refl ltac:(discriminate)) as (x & ps & y & E & T). exists x, ps, y. split; [exact E|exact T].
  - destruct (select_version _ _) as [v|]; [|apply relc_refl].
    pose proof (szc_initiate s v 0 D) as H. destruct (initiate C e1 s v 0) as [[i1 o1] r1], (initiate C e2 s v 0) as [[i2 o2] r2]. unfold relc in H. cbn [fst snd] in H.
    intros P N. destruct r1 as [a1|x1|]; try discriminate P. destruct r2 as [a2|x2|]; [| |cbn in N; congruence]; exact (H eq_refl ltac:(discriminate)).
  - apply szc_encoded. exact D.
Qed.
Lemma szc_receive s p : se_details s = d -> relc (receive C e1 s p) (receive C e2 s p).
Proof.
  intros D. unfold receive. cbv zeta. destruct (otr_disabled _); [apply relc_refl|]. destruct (match_fragment p).
  - destruct (parse_fragment p) as [[f|]| |]; try apply relc_refl. destruct (negb (verify_fragment f)); [apply relc_refl|].
    destruct (negb (fr_receiver f =? 0) && _); [apply relc_refl|].
    destruct (assemble _ f) as [a r]. destruct r as [b|x|]; try apply relc_refl. destruct (match_fragment b); [apply relc_refl|].
    pose proof (szc_message (put s (fr_sender f) (set_assembler (entry (fr_sender f) (se_instances s)) a)) b D) as H.
    destruct (receive_message C e1 _ b) as [[i1 o1] r1], (receive_message C e2 _ b) as [[i2 o2] r2]. unfold relc in H. cbn [fst snd] in H.
    intros P N. destruct r1; try discriminate P. destruct r2; [| |cbn in N; congruence]; exact (H eq_refl ltac:(discriminate)).
  - apply szc_message. exact D.
Qed.
Lemma szc_send s t b : se_details s = d -> snd (send C e1 s t b) = Panic -> snd (send C e2 s t b) <> Panic ->
  exists ps, snd (send C e2 s t b) = Ok ps /\ too_long d es1 es2 ps.
Proof.
  intros D. unfold send. cbv zeta. rewrite D.
  destruct (otr_disabled _); [intros P N; contradiction|]. destruct (get_inst t _) as [i|]; [|intros P N; contradiction].
  destruct (_ && _); [intros P N; contradiction|].
  unfold inst_send. assert (ES : ev_send e1 = ev_send e2) by (fields; congruence). rewrite ES.
  destruct (p_prepare C _ _ _ _) as [[ps m]| |]; [|intros P N; contradiction..]. destruct m; try (intros P N; contradiction).
  - destruct (encode_message _ _ _ _) as [w| |]; cbn; [|intros P N; contradiction..].
    pose proof (payloads_no_err d e2 (in_receiver i) (p_version ps) w) as N2. pose proof (szc_payloads (in_receiver i) (p_version ps) w) as X.
    destruct (payloads d e1 _ _ _) as [a|x|]; cbn; intros P N; try discriminate P.
    destruct (payloads d e2 _ _ _) as [a2|x|]; cbn in N |- *; [|exfalso; exact (N2 x eq_refl)|congruence]. exists a2. split; [reflexivity|]. exact (X a2 eq_refl eq_refl).
  - destruct (encode_message _ _ _ _) as [w| |]; cbn; [|intros P N; contradiction..].
    pose proof (payloads_no_err d e2 (in_receiver i) (p_version ps) w) as N2. pose proof (szc_payloads (in_receiver i) (p_version ps) w) as X.
    destruct (payloads d e1 _ _ _) as [a|x|]; cbn; intros P N; try discriminate P.
    destruct (payloads d e2 _ _ _) as [a2|x|]; cbn in N |- *; [|exfalso; exact (N2 x eq_refl)|congruence]. exists a2. split; [reflexivity|]. exact (X a2 eq_refl eq_refl).
Qed.
End At.

Lemma szc_expire_all t l : (forall u, same_but_size (es1 u) (es2 u)) -> relc (expire_all C d es1 t l) (expire_all C d es2 t l).
Proof.
  intros S. induction l as [|[u i] r IH]; [apply relc_refl|]. cbn. pose proof (szc_expire u (S u) i t) as H. pose proof (sz_expire C d es1 es2 u (S u) i t) as H2.
  destruct (inst_expire C d (es1 u) i t) as [[i1 o1] r1], (inst_expire C d (es2 u) i t) as [[i2 o2] r2]. unfold relc in H. cbn [fst snd] in H. cbn in H2.
  destruct (expire_all C d es1 t r) as [[l1 p1] x1], (expire_all C d es2 t r) as [[l2 p2] x2]. unfold relc in IH. cbn [fst snd] in IH.
  intros P N. destruct r1 as [[]|y1|]; cbn in P; [|discriminate P|].
  - destruct r2 as [[]|y2|]; cbn in N |- *; [| |congruence].
    + destruct (IH P N) as (a & ps & b & E & T). exists (o2 ++ a), ps, b. split; [rewrite E, !app_assoc; reflexivity|exact T].
    + destruct (H2 ltac:(discriminate) ltac:(discriminate)) as (_ & _ & E). discriminate E.
  - destruct r2 as [[]|y2|]; cbn in N |- *; [| |congruence].
    + destruct (H eq_refl ltac:(discriminate)) as (a & ps & b & E & T). exists a, ps, (b ++ p2). split; [rewrite E, <- !app_assoc; reflexivity|exact T].
    + exact (H eq_refl ltac:(discriminate)).
Qed.
End WithCrypto.

Lemma relc_answering d es1 es2 {A} (f : A -> answer) (x y : effect session A) : relc d es1 es2 x y -> relc d es1 es2 (answering f x) (answering f y).
Proof.
  unfold relc. destruct x as [[i1 p1] q1], y as [[i2 p2] q2]. cbn. intros R P N. apply R; [destruct q1; cbn in P; congruence|destruct q2; cbn in N; congruence].
Qed.
Lemma call_size_crash C es1 es2 s o s1 o1 s2 o2 r2 : (forall t, same_but_size (es1 t) (es2 t)) ->
  call C es1 s o = (s1, o1, Panic) -> call C es2 s o = (s2, o2, r2) -> r2 <> Panic ->
  exists ps, too_long (se_details s) es1 es2 ps /\ (r2 = Ok (AnPayloads ps) \/ exists a b, o2 = a ++ ps ++ b).
Proof.
  intros S E1 E2 N.
  assert (G : relc (se_details s) es1 es2 (call C es1 s o) (call C es2 s o) ->
    exists ps, too_long (se_details s) es1 es2 ps /\ (r2 = Ok (AnPayloads ps) \/ exists a b, o2 = a ++ ps ++ b)).
  { rewrite E1, E2. intros R. destruct (R eq_refl N) as (a & ps & b & E & T). exists ps. split; [exact T|]. right. exists a, b. exact E. }
  destruct o as [p|t b|v t|t| |t x q|t|t]; cbn [call] in G, E1, E2.
  - apply G, relc_answering. apply szc_receive; [apply S|reflexivity].
  - pose proof (szc_send C _ es1 es2 t (S t) s t b eq_refl) as H.
    destruct (send C (es1 t) s t b) as [[a1 b1] c1], (send C (es2 t) s t b) as [[a2 b2] c2]. cbn in H, E1, E2.
    apply pair_equal_spec in E1. destruct E1 as [_ E1]. apply pair_equal_spec in E2. destruct E2 as [_ E2]. subst r2.
    destruct H as (ps & E & T); [destruct c1; cbn in E1; congruence|destruct c2; cbn in N; congruence|].
    exists ps. split; [exact T|]. left. rewrite E. reflexivity.
  - apply G, relc_answering. apply szc_initiate; [apply S|reflexivity].
  - apply G, relc_answering. unfold end_session. apply relc_on_instance. intros i. apply szc_reset. apply S.
  - apply G, relc_answering. apply relc_refl.
  - apply G, relc_answering. unfold start_smp. apply relc_on_instance. intros i. apply szc_start. apply S.
  - apply G, relc_answering. unfold abort_smp. apply relc_on_instance. intros i. apply szc_abort. apply S.
  - apply G, relc_answering. unfold expire. pose proof (szc_expire_all C (se_details s) es1 es2 t (se_instances s) S) as H. unfold relc in *.
    destruct (expire_all C _ es1 _ _) as [[l1 p1] x1], (expire_all C _ es2 _ _) as [[l2 p2] x2]. cbn [fst snd] in H.
    intros P M. destruct x1; try discriminate P. destruct x2; [| |cbn in M; congruence]; exact (H eq_refl ltac:(discriminate)).
Qed.
