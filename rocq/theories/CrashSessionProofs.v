(* How receiving a payload can crash. *)
From Verif Require Import Base BaseLemmas Types Crypto CryptoProofs Encoding EncodingProofs ClientProfile Messages MessagesProofs
  Base64 Fragment FragmentProofs AssemblerProofs KeyManager DataV3 DataV3Proofs Ratchet DataV4 DataV4Proofs AKE AKEProofs DAKE
  DAKEProofs SMP SMP4
  Protocol Session SpecWire SpecCurve SpecData3 SpecData4 SpecSMP SpecSMP4 SpecDAKE SpecSession RingProofs SMPSafeProofs WireLemmas
  History3Proofs SMP4HistProofs SessionProofs SessionInvProofs SessionRecvProofs SessionHistProofs SessionSendProofs SessionLemmas
  SpecCrash CrashProofs CrashDataProofs CrashSmpProofs CrashKexProofs CrashInstProofs CrashSafeProofs.
From Coq Require Import Lia ZifyN ZifyNat.
Local Open Scope N_scope.

Lemma parse_fragment_version p f : parse_fragment p = Ok (Some f) -> fr_version f = V3 \/ fr_version f = V4.
Proof.
  unfold parse_fragment, build_fragment. intros H.
  destruct (search match_v4 p) as [c|]; [|destruct (search match_v3 p) as [c|]; [|discriminate]];
    repeat bind_inv H; destruct (tag_opt (hex_num (ca_sender c))); try discriminate;
    destruct (tag_opt (hex_num (ca_receiver c))); try discriminate; injection H as <-; auto.
Qed.
Lemma assemble_panic a f a' : fr_version f = V3 \/ fr_version f = V4 -> assemble a f = (a', AsmPanic) -> assembler_full a f.
Proof.
  unfold assemble, assembler_full. intros [V|V]; rewrite V.
  - destruct (inorder_assemble (am_inorder a) f) as [st r] eqn:E. intros H. apply pair_equal_spec in H. destruct H as [_ ->].
    left. pose proof E as E'. apply inorder_panic in E'. destruct E' as (L & T & _). repeat split; auto.
    intros P. unfold inorder_assemble in E. rewrite P in E. destruct (negb _); [discriminate|]. cbn in E.
    match type of E with (if ?b then _ else _) = _ => destruct b end; discriminate.
  - destruct (unordered_assemble (am_unordered a) f) as [st r] eqn:E. intros H. apply pair_equal_spec in H. destruct H as [_ ->].
    right. split; [reflexivity|]. unfold unordered_assemble in E. destruct (negb _); [discriminate|].
    destruct (N.eqb_spec (un_tick (am_unordered a)) 4294967295); [assumption|].
    repeat match type of E with (if ?b then _ else _) = _ => destruct b end; discriminate.
Qed.

(* storing a fragment changes nothing but the assembler *)
Lemma stored_entry s p t : let i := entry t (se_instances (stored s p)) in let j := entry t (se_instances s) in
  in_state i = in_state j /\ in_ake i = in_ake j /\ in_dake i = in_dake j /\ in_receiver i = in_receiver j.
Proof.
  cbv zeta. unfold stored. destruct (match_fragment p); [|auto].
  destruct (parse_fragment p) as [[f|]|?|]; auto. cbv zeta.
  match goal with |- context [put s (fr_sender f) ?j] => set (x := j) end.
  assert (E : entry t (se_instances (put s (fr_sender f) x)) = if N.eq_dec (fr_sender f) t then x else entry t (se_instances s)).
  { unfold entry at 1. destruct (N.eq_dec (fr_sender f) t) as [<-|NE]; [now rewrite get_put_same|now rewrite get_put_other]. }
  rewrite E. destruct (N.eq_dec (fr_sender f) t) as [<-|NE]; cbn; auto.
Qed.

Section WithCrypto.
Context (C : Crypto) (GS : groups_sound C).
Let GO : smp4_group C := proj1 GS.

Lemma query_no_panic s : query s <> Panic.
Proof.
  unfold query, filter_versions. destruct (_ && _); [discriminate|]. destruct (_ && _); discriminate.
Qed.
Lemma header_no_panic d em : verify_header d em <> Panic.
Proof.
  unfold verify_header, tag_verify. destruct (em_version em); try discriminate;
    destruct ((0 <? em_sender em) && _); cbn [bind]; try discriminate; destruct (em_sender em =? 0); try discriminate;
    destruct ((0 <? em_receiver em) && _); cbn [bind]; try discriminate; destruct (_ && _); try discriminate;
    destruct (_ && _); discriminate.
Qed.
Lemma header_tag d em : verify_header d em = Ok tt -> tag_ok (em_sender em) = true.
Proof.
  unfold verify_header, tag_ok. destruct (em_version em); try discriminate; destruct (tag_verify (em_sender em)); cbn [bind]; congruence.
Qed.

Lemma on_entry_panic {A} s t (f : instance -> effect instance A) s' out : on_entry s t f = (s', out, Panic) ->
  exists i' o, f (entry t (se_instances s)) = (i', o, Panic).
Proof.
  unfold on_entry. destruct (f (entry t (se_instances s))) as [[i' o] [a|x|]]; try discriminate. eauto.
Qed.
Lemma on_entry_eq {A} s t (f : instance -> effect instance A) i' o r : f (entry t (se_instances s)) = (i', o, r) -> r <> Panic ->
  on_entry s t f = (put s t i', o, r).
Proof. unfold on_entry. intros -> NP. now destruct r. Qed.

Lemma encoded_panic e s em s' out : sinv s -> receive_encoded C e s em = (s', out, Panic) ->
  verify_header (se_details s) em = Ok tt /\ em_sender em <> 0 /\
  exists i0 i' o, adopted (get_inst 0 (se_instances s)) em (entry (em_sender em) (se_instances s)) i0 /\
    inst_handle C (se_details s) e i0 em = (i', o, Panic) /\
    forall e2 i2 o2 r2, inst_handle C (se_details s) e2 i0 em = (i2, o2, r2) -> r2 <> Panic ->
      receive_encoded C e2 s em = (put s (em_sender em) i2, o2, r2).
Proof.
  intros I. unfold receive_encoded. destruct (em_sender em =? 0) eqn:Z; [discriminate|]. apply N.eqb_neq in Z.
  destruct (verify_header (se_details s) em) as [[]|x|] eqn:V; [|discriminate|now apply header_no_panic in V].
  destruct (_ || _); [discriminate|].
  destruct (si_zero s I) as (z & GZ & _). rewrite GZ.
  assert (RZ : in_receiver z = 0) by exact (all_get _ _ _ _ (si_receivers s I) GZ).
  assert (RE : in_receiver (entry (em_sender em) (se_instances s)) = em_sender em) by (apply entry_receiver, I).
  assert (D : on_entry s (em_sender em) (fun i => inst_handle C (se_details s) e i em) = (s', out, Panic) ->
    exists i0 i' o, adopted (Some z) em (entry (em_sender em) (se_instances s)) i0 /\
      inst_handle C (se_details s) e i0 em = (i', o, Panic) /\
      forall e2 i2 o2 r2, inst_handle C (se_details s) e2 i0 em = (i2, o2, r2) -> r2 <> Panic ->
        on_entry s (em_sender em) (fun i => inst_handle C (se_details s) e2 i em) = (put s (em_sender em) i2, o2, r2)).
  { intros H. apply on_entry_panic in H. destruct H as (i' & o & H). exists (entry (em_sender em) (se_instances s)), i', o.
    split; [now left|]. split; [exact H|]. intros e2 i2 o2 r2 H2 NP. now apply on_entry_eq. }
  intros H. split; [reflexivity|]. split; [exact Z|].
  destruct (em_version em) eqn:EV; destruct (em_message em) as [|m|m|m|m|m|m|m|m|m] eqn:EM; try (now apply D).
  - unfold transfer_ake_context in *. rewrite RZ in *. cbn [N.eqb] in *. destruct (ake_transfer (in_ake z)) as [a|x|] eqn:T; [|now apply D|].
    + apply on_entry_panic in H. destruct H as (i' & o & H). unfold adopt_ake_context in H. rewrite RE in H.
      destruct (N.eqb_spec (em_sender em) 0); [contradiction|].
      eexists (set_ake (entry (em_sender em) (se_instances s)) a), i', o. split.
      { right. left. exists z, a. rewrite EM. repeat split; eauto. }
      split; [exact H|]. intros e2 i2 o2 r2 H2 NP. apply on_entry_eq; [|exact NP].
      unfold adopt_ake_context. rewrite RE. destruct (N.eqb_spec (em_sender em) 0); [contradiction|exact H2].
    + unfold ake_transfer in T. destruct (in_ake z); discriminate.
  - unfold transfer_dake_context in *. rewrite RZ in *. cbn [N.eqb] in *. destruct (dake_transfer (in_dake z)) as [a|x|] eqn:T; [|now apply D|].
    + apply on_entry_panic in H. destruct H as (i' & o & H). unfold adopt_dake_context in H. rewrite RE in H.
      destruct (N.eqb_spec (em_sender em) 0); [contradiction|].
      eexists (set_dake (entry (em_sender em) (se_instances s)) a), i', o. split.
      { right. right. exists z, a. rewrite EM. repeat split; eauto. }
      split; [exact H|]. intros e2 i2 o2 r2 H2 NP. apply on_entry_eq; [|exact NP].
      unfold adopt_dake_context. rewrite RE. destruct (N.eqb_spec (em_sender em) 0); [contradiction|exact H2].
    + unfold dake_transfer in T. destruct (in_dake z); discriminate.
Qed.

(* The same holds of two sessions that differ only in their assemblers. *)
Definition same_talk (s s' : session) : Prop :=
  se_details s' = se_details s /\
  forall t, let i := entry t (se_instances s') in let j := entry t (se_instances s) in
    in_state i = in_state j /\ in_ake i = in_ake j /\ in_dake i = in_dake j.
Lemma stored_same s p : same_talk s (stored s p).
Proof. split; [apply stored_details|]. intros t. destruct (stored_entry s p t) as (A & B & D & _). auto. Qed.

Definition host_message (e : env) (s : session) (b : bytes) : Prop :=
  exists x s' r, unsendable e x /\ receive_message C (with_size e (length x)) s b = (s', [x], r) /\ r <> Panic.

Lemma encoded_crash e s0 s em s' out : sinv s -> safe_ses C s -> same_talk s0 s -> wire_in C em ->
  tag_ok (de_tag (se_details s)) = true -> de_tag (se_details s) <> 0 -> pt_valid C (ed_public (ev_identity e)) ->
  receive_encoded C e s em = (s', out, Panic) ->
  message_peer C e s0 em \/ message_chance C e s0 em \/ no_key e em \/
  exists x s' r, unsendable e x /\ receive_encoded C (with_size e (length x)) s em = (s', [x], r) /\ r <> Panic.
Proof.
  intros I SF [DT ST] WI T T0 PV H. apply encoded_panic in H; [|exact I].
  destruct H as (V & NZ & i0 & i' & o & AD & H & K).
  apply (handle_panic C GS) in H; try assumption.
  - rewrite DT in *. pose proof (ST (em_sender em)) as (E1 & E2 & E3). cbv zeta in E1, E2, E3.
    assert (DK : forall w, (exists k, em_message em = MAuthR k) -> em_version em = V4 -> in_dake i0 = DakeAwaitingAuthR w ->
      awaits_auth_r s0 (em_sender em) w).
    { intros w _ _ HW. unfold awaits_auth_r. destruct AD as [->|[(zi & a & Z & _ & _ & A & ->)|(zi & a & Z & _ & _ & A & ->)]].
      - right. rewrite <- E3. exact HW.
      - right. rewrite <- E3. exact HW.
      - left. cbn [in_dake set_dake] in HW. subst a. unfold dake_transfer in A.
        destruct (in_dake zi) as [|w'|w'] eqn:DZ; try discriminate. injection A as ->.
        destruct (ST 0) as (_ & _ & Q). cbv zeta in Q. rewrite <- Q. unfold entry. now rewrite Z. }
    assert (SA : in_state i0 = in_state (entry (em_sender em) (se_instances s0)) /\
      ((forall k, em_message em <> MDHKey k) -> in_ake i0 = in_ake (entry (em_sender em) (se_instances s0))) /\
      ((forall k, em_message em <> MAuthR k) -> in_dake i0 = in_dake (entry (em_sender em) (se_instances s0)))).
    { destruct AD as [->|[(zi & a & Z & (k & EM) & _ & A & ->)|(zi & a & Z & (k & EM) & _ & A & ->)]];
        cbn [in_state in_ake in_dake set_ake set_dake]; rewrite ?E1, ?E2, ?E3; repeat split; auto; intros N; now elim (N k). }
    destruct SA as (S1 & S2 & S3).
    destruct H as [H|[H|[H|H]]].
    + left. unfold peer_i, peer_data3, peer_data4 in H. unfold message_peer. cbv zeta.
      destruct (em_version em) eqn:EV; try contradiction; destruct (em_message em) as [|m|m|m|m|m|m|m|m|m] eqn:EM; try contradiction;
        rewrite <- ?S1, <- ?S2, <- ?S3 by discriminate; try exact H.
      destruct H as (w & D & H). exists w. split; [now eauto|exact H].
    + right. left. unfold chance_i, chance_data3, chance_data4 in H. unfold message_chance. cbv zeta.
      destruct (em_version em) eqn:EV; try contradiction; destruct (em_message em) as [|m|m|m|m|m|m|m|m|m] eqn:EM; try contradiction;
        rewrite <- ?S1, <- ?S2, <- ?S3 by discriminate; try exact H.
      destruct H as (w & D & H). exists w. split; [now eauto|exact H].
    + right. right. right. destruct H as (b & i2 & r2 & U & H & NP). exists b, (put s (em_sender em) i2), r2.
      split; [exact U|]. split; [|exact NP]. apply K; [|exact NP]. exact H.
    + right. right. left. exact H.
  - eapply (adopted_safe C); eassumption.
  - eapply header_tag; eassumption.
  - apply adopted_same in AD. destruct AD as (_ & -> & _). apply entry_receiver, I.
Qed.

Lemma initiate_panic e s v s' out : sinv s -> v = V3 \/ v = V4 -> tag_ok (de_tag (se_details s)) = true -> de_tag (se_details s) <> 0 ->
  initiate C e s v 0 = (s', out, Panic) ->
  (v = V3 /\ ev_dh e = 0) \/ (v = V4 /\ (bad_seed C (dn_ecdh (ev_dake e)) \/ bad_seed C (dn_ecdh0 (ev_dake e)))) \/
  exists x i', unsendable e x /\ in_receiver i' = 0 /\ in_state i' = PPlain /\
    initiate C (with_size e (length x)) s v 0 = (put s 0 i', [x], Ok UMNone).
Proof.
  intros I V T T0 H. unfold initiate in H. apply on_entry_panic in H. destruct H as (i1 & o1 & H).
  destruct (si_zero s I) as (z & GZ & PZ).
  assert (RZ : in_receiver z = 0) by exact (all_get _ _ _ _ (si_receivers s I) GZ).
  assert (EZ : entry 0 (se_instances s) = z) by (unfold entry; now rewrite GZ).
  assert (FIN : forall m j, sendable m -> in_receiver j = 0 -> in_state j = PPlain ->
      (forall n, inst_initiate C (se_details s) (with_size e n) z v
        = injecting z j (inject (se_details s) (with_size e n) z v (in_receiver z) m) UMNone) ->
      injecting z j (inject (se_details s) e z v (in_receiver z) m) UMNone = (i1, o1, Panic) ->
      exists x i', unsendable e x /\ in_receiver i' = 0 /\ in_state i' = PPlain /\
        initiate C (with_size e (length x)) s v 0 = (put s 0 i', [x], Ok UMNone)).
  { intros m j SM RJ PJ EQ X. apply injecting_panic in X; try assumption; [|reflexivity|now rewrite RZ].
    destruct X as (b & U & X). exists b, j. split; [exact U|]. split; [exact RJ|]. split; [exact PJ|].
    unfold initiate. apply on_entry_eq; [|discriminate]. rewrite EZ, EQ. exact X. }
  rewrite EZ in H. unfold inst_initiate in H. destruct V as [-> | ->].
  - destruct (ake_initiate C (ev_dh e) (ev_r e)) as [[st m]|x|] eqn:A; [|discriminate|].
    + right. right. apply FIN in H; try assumption; try reflexivity.
      intros n. unfold inst_initiate. change (ev_dh (with_size e n)) with (ev_dh e). change (ev_r (with_size e n)) with (ev_r e). now rewrite A.
    + left. split; [reflexivity|]. unfold ake_initiate in A.
      destruct (dh_generate C (ev_dh e)) eqn:G; try discriminate. now apply generate_panic in G.
  - destruct (dake_initiate C (ev_dake_host e) (ev_dake e) (in_dake z)) as [st [m|x|]] eqn:A; [|discriminate|].
    + right. right. apply FIN in H; try assumption; try reflexivity.
      intros n. unfold inst_initiate. change (ev_dake_host (with_size e n)) with (ev_dake_host e).
      change (ev_dake (with_size e n)) with (ev_dake e). now rewrite A.
    + right. left. split; [reflexivity|]. now apply (dake_initiate_panic C) in A.
Qed.

Lemma deliver_eq s out content : sinv s -> exists m, deliver_text s out content = (s, out, Ok m).
Proof. intros I. unfold deliver_text. rewrite (has_sessions_ok s I). eauto. Qed.

Lemma select_in p vs v : select_version p vs = Some v -> (v = V3 \/ v = V4) /\ contains_version v vs = true.
Proof.
  unfold select_version. destruct (contains_version V4 vs && allow_v4 p) eqn:A.
  { intros H. injection H as <-. apply andb_true_iff in A. split; [auto|apply A]. }
  destruct (contains_version V3 vs && allow_v3 p) eqn:B; [|discriminate].
  intros H. injection H as <-. apply andb_true_iff in B. split; [auto|apply B].
Qed.

Lemma message_crash e s0 s b s' out : sinv s -> safe_ses C s -> same_talk s0 s ->
  tag_ok (de_tag (se_details s)) = true -> de_tag (se_details s) <> 0 -> pt_valid C (ed_public (ev_identity e)) ->
  receive_message C e s b = (s', out, Panic) ->
  malformed b \/
  (exists em, parse C b = Ok (MsgEncoded em) /\ (message_peer C e s0 em \/ message_chance C e s0 em \/ no_key e em)) \/
  (exists vs, (parse C b = Ok (MsgQuery vs) \/ exists t, parse C b = Ok (MsgTagged vs t)) /\
     ((contains_version V3 vs = true /\ ev_dh e = 0) \/
      (contains_version V4 vs = true /\ (bad_seed C (dn_ecdh (ev_dake e)) \/ bad_seed C (dn_ecdh0 (ev_dake e)))))) \/
  host_message e s b.
Proof.
  intros I SF ST T T0 PV H. unfold receive_message in H.
  destruct (parse C b) as [[error|content|vs content|vs|em]|x|] eqn:P; try discriminate H.
  - destruct (error_start_ake _); [|discriminate]. destruct (query s) eqn:Q; try discriminate. now apply query_no_panic in Q.
  - destruct (deliver_eq s [] content I) as (m & E). rewrite E in H. discriminate.
  - destruct (if whitespace_start_ake (de_policy (se_details s)) then _ else None) as [v|] eqn:SV.
    + assert (SEL : select_version (de_policy (se_details s)) vs = Some v).
      { destruct (whitespace_start_ake _); [exact SV|discriminate]. }
      apply select_in in SEL. destruct SEL as (VV & CV).
      destruct (initiate C e s v 0) as [[s1 o1] r1] eqn:N. destruct r1 as [a|x|].
      * apply sinv_initiate in N as I1; [|discriminate|exact I].
        destruct (deliver_eq _ o1 content I1) as (m & E). rewrite E in H. discriminate.
      * discriminate.
      * apply initiate_panic in N; try assumption. destruct N as [(-> & N)|[(-> & N)|(x & i' & U & R & PL & N)]].
        -- right. right. left. exists vs. split; eauto.
        -- right. right. left. exists vs. split; eauto.
        -- right. right. right. 
           assert (I1 : sinv (put s 0 i')).
           { apply sinv_put; auto. cbn. rewrite PL. exact Logic.I. }
           destruct (deliver_eq _ [x] content I1) as (m & E).
           exists x, (put s 0 i'), (Ok m). split; [exact U|]. split; [|discriminate].
           unfold receive_message. rewrite P, SV, N. exact E.
    + destruct (deliver_eq s [] content I) as (m & E). rewrite E in H. discriminate.
  - destruct (select_version (de_policy (se_details s)) vs) as [v|] eqn:SEL; [|discriminate].
    pose proof SEL as SEL'. apply select_in in SEL'. destruct SEL' as (VV & CV).
    destruct (initiate C e s v 0) as [[s1 o1] r1] eqn:N. destruct r1 as [a|x|]; try discriminate.
    apply initiate_panic in N; try assumption. destruct N as [(-> & N)|[(-> & N)|(x & i' & U & R & PL & N)]].
    + right. right. left. exists vs. split; eauto.
    + right. right. left. exists vs. split; eauto.
    + right. right. right. exists x, (put s 0 i'), (Ok UMNone). split; [exact U|]. split; [|discriminate].
      unfold receive_message. now rewrite P, SEL, N.
  - apply (parse_in C GO) in P as WI. apply (encoded_crash e s0) in H; try assumption.
    destruct H as [H|[H|[H|(x & s1 & r & U & H & NP)]]].
    + right. left. exists em. auto.
    + right. left. exists em. auto.
    + right. left. exists em. auto.
    + right. right. right. exists x, s1, r. split; [exact U|]. split; [|exact NP].
      unfold receive_message. now rewrite P.
  - apply parse_crash_shapes in P. left. destruct P as [(_ & P)|[P|P]]; unfold malformed; auto.
Qed.

Lemma receive_crash d h s e p : history C d h s -> 256 <= de_tag d -> pt_valid C (ed_public (ev_identity e)) ->
  snd (receive C e s p) = Panic -> peer_crashes C e s p \/ chance_crashes C e s p \/ host_crashes C e s p.
Proof.
  intros HI TG PV H. pose proof (history_safe C GS d h s HI) as SF. apply SessionSendProofs.history_inv in HI. destruct HI as [I DE].
  assert (T0 : de_tag d <> 0) by lia.
  assert (T : tag_ok (de_tag d) = true).
  { unfold tag_ok, tag_verify. replace (de_tag d <? INSTANCE_MIN_VALID) with false; [now rewrite andb_false_r|].
    symmetry. apply N.ltb_ge. exact TG. }
  rewrite <- DE in T, T0.
  unfold receive in H. cbv zeta in H. destruct (otr_disabled _) eqn:OD; [discriminate|].
  assert (M : forall b s1, completes s p b -> sinv s1 -> safe_ses C s1 -> same_talk s s1 ->
    (forall e2 s2 o2 r2, receive_message C e2 s1 b = (s2, o2, r2) -> r2 <> Panic -> receive C e2 s p = (s2, o2, r2)) ->
    snd (receive_message C e s1 b) = Panic ->
    peer_crashes C e s p \/ chance_crashes C e s p \/ host_crashes C e s p).
  { intros b s1 CO I1 S1 ST EQ X. destruct (receive_message C e s1 b) as [[s' out] r] eqn:R. cbn in X. subst r.
    destruct ST as [DT STT]. apply (message_crash e s) in R; try assumption; [|now split|now rewrite DT|now rewrite DT].
    destruct R as [R|[(em & P & R)|[(vs & P & R)|(x & s2 & r2 & U & R & NP)]]].
    - left. right. right. left. exists b. auto.
    - assert (CA : carries C s p em) by (exists b; auto). destruct R as [R|[R|(R1 & R2 & R3)]].
      + left. right. right. right. eauto.
      + right. left. left. eauto.
      + right. right. right. split; [exact R1|]. exists em. auto.
    - right. left. right. exists b, vs. auto.
    - right. right. left. exists x. split; [exact U|]. apply EQ in R; [|exact NP]. now rewrite R. }
  destruct (match_fragment p) eqn:MF.
  - destruct (parse_fragment p) as [[f|]|x|] eqn:PF; try discriminate.
    + destruct (verify_fragment f) eqn:VF; cbn [negb] in H; [|discriminate].
      destruct (negb (fr_receiver f =? 0) && negb (fr_receiver f =? de_tag (se_details s))) eqn:RC; [discriminate|].
      assert (RC' : fr_receiver f = 0 \/ fr_receiver f = de_tag (se_details s)).
      { apply andb_false_iff in RC. destruct RC as [RC|RC]; apply negb_false_iff, N.eqb_eq in RC; auto. }
      destruct (assemble (in_assembler (entry (fr_sender f) (se_instances s))) f) as [a r] eqn:A.
      destruct r as [b|[]|]; try discriminate.
      * destruct (match_fragment b) eqn:MB; [discriminate|].
        assert (ES : stored s p = put s (fr_sender f) (set_assembler (entry (fr_sender f) (se_instances s)) a)).
        { unfold stored. rewrite MF, PF. cbv zeta. now rewrite A. }
        apply (M b (stored s p)).
        -- right. exists f, a. auto 10.
        -- now apply sinv_stored.
        -- now apply (safe_stored C).
        -- apply stored_same.
        -- intros e2 s2 o2 r2 X NP. unfold receive. cbv zeta. rewrite OD, MF, PF, VF, RC, A, MB, <- ES, X. cbn [negb]. now destruct r2.
        -- rewrite ES. destruct (receive_message C e _ b) as [[s2 o2] [?|?|]]; try discriminate. reflexivity.
      * left. right. left. exists f. repeat split; try assumption. eapply assemble_panic; [|exact A]. eapply parse_fragment_version, PF.
    + left. left. split; [exact MF|]. split; [exact PF|]. now apply parse_panic_number.
  - apply (M p s); try assumption.
    + now left.
    + split; [reflexivity|]. auto.
    + intros e2 s2 o2 r2 X NP. unfold receive. cbv zeta. now rewrite OD, MF.
Qed.

End WithCrypto.
