(* How the calls of a host can crash. *)
From Verif Require Import Base BaseLemmas Types Crypto CryptoProofs Encoding EncodingProofs ClientProfile Messages MessagesProofs
  Base64 Fragment FragmentProofs AssemblerProofs KeyManager DataV3 DataV3Proofs Ratchet DataV4 DataV4Proofs AKE AKEProofs DAKE
  DAKEProofs SMP SMP4
  Protocol Session SpecWire SpecCurve SpecData3 SpecData4 SpecSMP SpecSMP4 SpecDAKE SpecSession RingProofs SMPSafeProofs WireLemmas
  History3Proofs SMP4HistProofs SessionProofs SessionInvProofs SessionRecvProofs SessionHistProofs SessionSendProofs SessionLemmas
  SpecCrash CrashProofs CrashDataProofs CrashSmpProofs CrashKexProofs CrashInstProofs CrashSafeProofs CrashSessionProofs SpecCallCrash.
From Coq Require Import Lia ZifyN ZifyNat.
Local Open Scope N_scope.

Lemma tag_ok_legal t : 256 <= t -> tag_ok t = true.
Proof.
  intros L. unfold tag_ok, tag_verify. replace (t <? INSTANCE_MIN_VALID) with false; [now rewrite andb_false_r|].
  symmetry. apply N.ltb_ge. exact L.
Qed.
Lemma tag_ok_zero : tag_ok 0 = true.
Proof. reflexivity. Qed.

Section WithCrypto.
Context (C : Crypto) (GS : groups_sound C).
Let GO : smp4_group C := proj1 GS.
Let G3 : smp_group C := proj1 (proj2 GS).
Let PB : c_dh_p C < 2 ^ 1536 := proj1 (proj2 (proj2 GS)).
Let G0 : 0 < c_dh3_g C := proj2 (proj2 (proj2 GS)).

(** ** Private conversations are with legal tags *)

Lemma receive_legal e s p s' out r t : receive C e s p = (s', out, r) -> r <> Panic -> sinv s ->
  status_of s' t = status_of s t \/ 256 <= t.
Proof.
  intros H NP I. apply receive_split in H; [|assumption].
  assert (SS : status_of (stored s p) t = status_of s t) by (unfold status_of; now rewrite stored_state).
  destruct H as [(_ & -> & _) | [(_ & b & _ & H) | (_ & _ & _ & [-> | (-> & _)] & _)]]; auto.
  apply sinv_stored with (p := p) in I. rewrite <- SS. clear SS. revert H I. generalize (stored s p). clear s.
  intros s H I.
  assert (INI : forall v s1 o1 r1, initiate C e s v 0 = (s1, o1, r1) -> r1 <> Panic -> status_of s1 t = status_of s t).
  { intros v s1 o1 r1 X NPX. apply initiate_inv in X; [|assumption]. destruct X as (i' & _ & -> & S & _).
    unfold status_of. destruct (N.eq_dec 0 t) as [<-|NE]; [now rewrite state_put_same, S|now rewrite state_put_other]. }
  apply message_split in H; [|assumption].
  destruct H as [(x & _ & -> & _) | [(c & _ & -> & _) | [(c & _ & H) | [(vs & c & _ & H) | [(vs & _ & H) | (em & _ & H)]]]]];
    auto.
  - apply deliver_inv in H; [|assumption]. destruct H as (-> & _). auto.
  - destruct H as [(_ & H) | (_ & v & s1 & r1 & _ & H1 & NP1 & H)].
    + apply deliver_inv in H; [|assumption]. destruct H as (-> & _). auto.
    + apply INI in H1; [|assumption]. destruct H as [(_ & H) | (-> & _)]; [|auto].
      apply deliver_inv in H; [|assumption]. destruct H as (-> & _). auto.
  - destruct H as [(_ & -> & _) | (v & r1 & _ & H1 & H)]; [auto|]. left.
    eapply INI; [exact H1|]. destruct H as [((m & ->) & _) | (_ & x & ->)]; congruence.
  - apply encoded_split in H; [|assumption].
    destruct H as [(-> & _) | [(-> & _) | (HD & NZ & _ & i0 & i' & A & H & ->)]]; auto.
    destruct (N.eq_dec (em_sender em) t) as [E|NE]; [|left; unfold status_of; now rewrite state_put_other].
    right. subst t. apply header_tag in HD. unfold tag_ok in HD. destruct (tag_verify (em_sender em)) as [x| |] eqn:TV; try discriminate HD.
    apply tag_verify_legal in TV. destruct TV as [_ [TV|TV]]; [contradiction|exact TV].
Qed.
Lemma encrypted_legal d h s t : history C d h s -> status_of s t = Encrypted -> 256 <= t.
Proof.
  unfold history. intros H. induction H as [|h s es o s' out r H IH HC NP].
  - unfold status_of, state_of. cbn [session_new se_instances get_inst]. destruct (0 =? t); discriminate.
  - intros E. assert (I : sinv s) by (apply (SessionSendProofs.history_inv C d h s) in H; apply H).
    destruct (call_status C _ _ _ _ _ _ t HC NP I) as [S|[(_ & (p & ->) & R)|[(_ & S & _)|(S & _)]]]; try congruence; [apply IH; congruence|].
    cbn [call] in HC. unfold answering in HC. destruct (receive C (es 0) s p) as [[s1 o1] r1] eqn:RC. fin3 HC.
    apply (receive_legal _ _ _ _ _ _ t) in RC; [|intros ->; now apply NP|exact I]. destruct RC as [S|L]; [apply IH; congruence|exact L].
Qed.

(** ** Sending *)

Lemma say_panic e st ig c : safe_state C st -> p_prepare C st ig c (ev_send e) = Panic ->
  seal_peer st \/ seal_chance C e st ig c \/ (c = [] /\ exists our their k smp, st = PEnc3 our their k smp).
Proof.
  destruct st as [|our their k smp|our their d smp|]; cbn [p_prepare safe_state seal_peer seal_chance]; intros S H; try discriminate.
  - destruct (encrypt3 C our their k ig c) as [[m' k']|x|] eqn:E; cbn [bind] in H; try discriminate.
    apply encrypt3_panic in E; [|apply S]. destruct E as [E|E]; [auto|]. destruct c; [right; right; split; eauto 6|].
    right. left. split; [discriminate|exact E].
  - destruct (encrypt4 C our their d ig c [] (ev_send e)) as [[m' k']|x|] eqn:E; cbn [bind] in H; try discriminate.
    apply (encrypt4_panic C GO G0) in E; [tauto|apply S|reflexivity].
Qed.
Lemma prepare_version st ig c rnd st' m : p_status st = Encrypted -> p_prepare C st ig c rnd = Ok (st', m) ->
  p_version st' = p_version st /\ (p_version st = V3 \/ p_version st = V4) /\
  ((exists x, m = MData x) \/ exists x, m = MData4 x).
Proof.
  destruct st as [|our their k smp|our their d smp|]; cbn [p_prepare p_status]; intros N P; try discriminate;
    apply bind_ok in P; destruct P as ([? ?] & _ & P); injection P as <- <-; eauto 6.
Qed.

Lemma inst_send_panic d e i tagged c i' tg : safe_inst C i -> tag_ok (de_tag d) = true -> de_tag d <> 0 ->
  (in_status i = Encrypted -> tag_ok (in_receiver i) = true) ->
  inst_send C d e i tagged c = (i', tg, Panic) ->
  let st := in_state i in let text := without_nul c in
  seal_peer st \/ seal_chance C e st false text \/ (text = [] /\ exists our their k smp, st = PEnc3 our their k smp) \/
  exists b i2 tg2, unsendable e b /\ inst_send C d (with_size e (length b)) i tagged c = (i2, tg2, Ok [b]).
Proof.
  cbv zeta. intros S T T0 R H. unfold inst_send in H. change (drop_by_value c x00) with (without_nul c) in H.
  destruct (p_prepare C (in_state i) false (without_nul c) (ev_send e)) as [[s m]|x|] eqn:P; [|discriminate H|].
  2: { apply say_panic in P; [|apply S]. tauto. }
  destruct (status_eqb (p_status (in_state i)) Encrypted) eqn:EN.
  - assert (N : p_status (in_state i) = Encrypted) by (destruct (p_status (in_state i)); congruence || discriminate EN).
    pose proof (prepare_sendable C _ _ _ _ _ _ (sf_state C i S) N P) as SE.
    destruct (prepare_version _ _ _ _ _ _ N P) as (V & V34 & MD). do 3 right.
    destruct (encode_message_safe (p_version s) (de_tag d) (in_receiver i) m ltac:(rewrite V; exact V34) SE) as (b & E).
    assert (PP : payloads d e (in_receiver i) (p_version s) b = Panic).
    { destruct MD as [[x ->]|[x ->]]; rewrite E in H; cbn [bind] in H; apply pair_equal_spec in H; apply H. }
    apply payloads_panic in PP; try assumption; [|rewrite V; exact V34|now apply R]. destruct PP as [U PP].
    exists b, (set_state i s), tagged. split; [exact U|]. unfold inst_send. change (drop_by_value c x00) with (without_nul c).
    change (ev_send (with_size e (length b))) with (ev_send e). rewrite P.
    destruct MD as [[x ->]|[x ->]]; rewrite E; cbn [bind]; now rewrite PP.
  - destruct (in_state i) as [|our their k smp|our their k smp|] eqn:ST; try discriminate EN; [|discriminate P].
    cbn [p_prepare] in P. injection P as <- <-. cbn [p_status status_eqb negb] in H. exfalso. revert H.
    unfold filter_versions, SUPPORTED_VERSIONS. destruct (allow_v4 (de_policy d)), (allow_v3 (de_policy d));
      destruct (send_whitespace_tag (de_policy d)), tagged; cbn; intros H; apply pair_equal_spec in H; destruct H as [_ H]; discriminate H.
Qed.

(** ** Ending *)

Lemma final_panic e st : safe_state C st -> p_finish C st (ev_send e) = Panic ->
  seal_peer st \/ seal_chance C e st true DISCONNECT.
Proof.
  change DISCONNECT with DISCONNECT_CONTENT.
  destruct st as [|our their k smp|our their d smp|]; cbn [p_finish safe_state seal_peer seal_chance]; intros S H; try discriminate.
  - destruct (encrypt3 C our their k true DISCONNECT_CONTENT) as [[m' k']|x|] eqn:E; cbn [bind] in H; try discriminate.
    apply encrypt3_panic in E; [|apply S]. destruct E as [E|E]; [auto|]. right. split; [discriminate|exact E].
  - destruct (final4 C our their d (ev_send e)) as [[m' k']|x|] eqn:E; cbn [bind] in H; try discriminate.
    apply (final4_panic C GO G0) in E; [exact E|apply S].
Qed.
Lemma final4_sendable our their d rnd m d' : final4 C our their d rnd = Ok (m, d') -> sendable (MData4 m).
Proof.
  unfold final4. destruct (dr_collect_reveals d) as [d1 rv0]. intros E. apply encrypt4_ok in E.
  destruct E as (d2 & rv & _ & _ & _ & _ & _ & _ & _ & _ & _ & _ & _ & _ & _ & _ & V). now apply (validated_sendable C).
Qed.
Lemma final_sendable e st m : p_finish C st (ev_send e) = Ok (Some m) -> sendable m /\ p_status st = Encrypted.
Proof.
  destruct st as [|our their k smp|our their d smp|]; cbn [p_finish]; intros H; try discriminate; apply bind_ok in H; destruct H as ([? ?] & E & H).
  - injection H as <-. split; [exact I|reflexivity].
  - injection H as <-. apply final4_sendable in E. auto.
Qed.
Lemma enc_version st : p_status st = Encrypted -> p_version st = V3 \/ p_version st = V4.
Proof. destruct st; cbn; auto; discriminate. Qed.

Definition too_large {A} (f : env -> effect instance A) (e : env) : Prop :=
  exists b i a, unsendable e b /\ f (with_size e (length b)) = (i, [b], Ok a).

Lemma inst_reset_panic d e i i' out : safe_inst C i -> tag_ok (de_tag d) = true -> de_tag d <> 0 ->
  (in_status i = Encrypted -> tag_ok (in_receiver i) = true) ->
  inst_reset C d e i = (i', out, Panic) ->
  seal_peer (in_state i) \/ seal_chance C e (in_state i) true DISCONNECT \/ too_large (fun e => inst_reset C d e i) e.
Proof.
  intros S T T0 R H. unfold inst_reset in H. destruct (p_finish C (in_state i) (ev_send e)) as [o|x|] eqn:F; [|discriminate H|].
  2: { apply final_panic in F; [tauto|apply S]. }
  destruct o as [m|].
  - destruct (final_sendable _ _ _ F) as [SE N]. unfold in_status in H, R. rewrite N in H. cbn [status_eqb] in H.
    apply injecting_panic in H; try assumption; [|reflexivity|now apply enc_version|now apply R]. destruct H as (b & U & H).
    right. right. exists b, (set_state i PPlain), (UMReset (in_receiver i)). split; [exact U|]. unfold inst_reset.
    change (ev_send (with_size e (length b))) with (ev_send e). rewrite F. unfold in_status. rewrite N. cbn [status_eqb]. exact H.
  - destruct (status_eqb (in_status i) Plaintext); discriminate H.
Qed.

Lemma inst_expire_panic d e i timeout i' out : safe_inst C i -> tag_ok (de_tag d) = true -> de_tag d <> 0 ->
  (in_status i = Encrypted -> tag_ok (in_receiver i) = true) ->
  inst_expire C d e i timeout = (i', out, Panic) ->
  exists our their r smp, in_state i = PEnc4 our their r smp /\ timeout <= ev_now e - dr_created r /\
  (seal_peer (in_state i) \/ seal_chance C e (in_state i) true DISCONNECT \/ too_large (fun e => inst_expire C d e i timeout) e).
Proof.
  intros S T T0 R H. unfold inst_expire in H. unfold in_status in R. pose proof (sf_state C i S) as SS.
  destruct (in_state i) as [|our their k smp|our their k smp|] eqn:ST; cbn [p_expire] in H; try discriminate H.
  exists our, their, k, smp. split; [reflexivity|]. unfold ev_now. destruct (N.ltb_spec (sr_now (ev_send e) - dr_created k) timeout) as [L|L]; [discriminate H|].
  split; [exact L|]. destruct (final4 C our their k (ev_send e)) as [[m k']|x|] eqn:F; cbn [bind] in H; [|discriminate H|].
  - apply injecting_panic in H; try assumption; [|reflexivity|right; reflexivity|now apply R|now apply final4_sendable in F].
    destruct H as (b & U & H). right. right. exists b, (set_state i PFin), tt. split; [exact U|]. unfold inst_expire. rewrite ST. cbn [p_expire].
    change (ev_send (with_size e (length b))) with (ev_send e). rewrite (proj2 (N.ltb_ge _ _) L), F. cbn [bind]. exact H.
  - apply (final4_panic C GO G0) in F; [|apply SS]. cbn [seal_peer seal_chance]. change DISCONNECT with DISCONNECT_CONTENT. tauto.
Qed.

(** ** Starting *)

Lemma inst_initiate_panic d e i v i' out : tag_ok (de_tag d) = true -> de_tag d <> 0 ->
  inst_initiate C d e i v = (i', out, Panic) ->
  (v <> V3 /\ v <> V4) \/ tag_ok (in_receiver i) = false \/
  (v = V3 /\ ev_dh e = 0) \/ (v = V4 /\ (bad_seed C (dn_ecdh (ev_dake e)) \/ bad_seed C (dn_ecdh0 (ev_dake e)))) \/
  too_large (fun e => inst_initiate C d e i v) e.
Proof.
  intros T T0 H. destruct (tag_ok (in_receiver i)) eqn:R; [|auto]. unfold inst_initiate in H.
  destruct v as [| | |]; try (left; split; discriminate).
  - destruct (ake_initiate C (ev_dh e) (ev_r e)) as [[st m]|x|] eqn:A; [|discriminate|].
    + apply injecting_panic in H; try assumption; try reflexivity; [|auto]. destruct H as (b & U & H). do 4 right.
      eexists b, _, _. split; [exact U|]. unfold inst_initiate.
      change (ev_dh (with_size e (length b))) with (ev_dh e). change (ev_r (with_size e (length b))) with (ev_r e). rewrite A. exact H.
    + right. right. left. split; [reflexivity|]. unfold ake_initiate in A.
      destruct (dh_generate C (ev_dh e)) eqn:G; try discriminate. now apply generate_panic in G.
  - destruct (dake_initiate C (ev_dake_host e) (ev_dake e) (in_dake i)) as [st [m|x|]] eqn:A; [|discriminate|].
    + apply injecting_panic in H; try assumption; try reflexivity; [|auto]. destruct H as (b & U & H). do 4 right.
      eexists b, _, _. split; [exact U|]. unfold inst_initiate.
      change (ev_dake_host (with_size e (length b))) with (ev_dake_host e). change (ev_dake (with_size e (length b))) with (ev_dake e). rewrite A. exact H.
    + do 3 right. left. split; [reflexivity|]. now apply dake_initiate_panic in A.
Qed.

(** ** The Socialist Millionaire Protocol *)

Lemma smp_initiate_len h rnd c secret question c' t : smp_initiate C h rnd c secret question = (c', Ok t) ->
  (length (tlv_value t) <= length question + 1181)%nat.
Proof.
  unfold smp_initiate. destruct (sm_state c); try discriminate. destruct (host_fp C h) as [fp|x|]; try discriminate.
  cbv zeta. match goal with |- context [write_mpi_sequence ?l] => set (ms := l) end. intros H.
  assert (L : (length (write_mpi_sequence ms) <= 1180)%nat).
  { eapply Nat.le_trans; [apply mpis_len|reflexivity]. unfold ms.
    repeat first [apply Forall_nil | apply Forall_cons;
      [first [apply (small_mm C G3 PB)|apply (small_pw C G3 PB)|apply small_hash|apply (small_d C G3 PB)]|]]. all: exact PB. }
  apply pair_equal_spec in H. destruct H as [_ H]. destruct question as [|q0 question].
  - injection H as <-. cbn [tlv_value]. lia.
  - match type of H with Ok ?u = _ => assert (E : t = u) by congruence; rewrite E end. cbn [tlv_value].
    unfold write_bytes_null_terminated. rewrite !app_length. cbn [length]. lia.
Qed.
Lemma smp4_initiate_len rnd c secret question c' t : smp4_initiate C rnd c secret question = (c', Ok t) ->
  (length (tlv_value t) <= length question + 346)%nat.
Proof.
  unfold smp4_initiate. cbv zeta. intros H.
  destruct (s4_status c); try discriminate H;
    (match type of H with match ?x with _ => _ end = _ => destruct x as [[st u]|x0|] eqn:M; try discriminate H end;
     assert (u = t) by congruence; subst u; clear H;
     bind_inv M; bind_inv M; destruct (negb _); [discriminate|]; destruct (negb _); [discriminate|]; bind_inv M;
     match type of M with Ok (_, ?u) = _ => assert (ET : t = u) by congruence; rewrite ET end;
     cbn [tlv_value]; unfold write_data, write_u32; rewrite !app_length, be_bytes_length, !wp_len, !ws_len; lia).
Qed.
Lemma smp4_initiate_panic rnd c secret question c' : smp4_initiate C rnd c secret question = (c', Panic) ->
  smp4_start_chance C rnd c secret.
Proof.
  intros H.
  assert (M : (let* c2 := hash_pt C x01 (pt_mul C (c_ed_g C) (s4_r2 rnd)) in
               let* c3 := hash_pt C x02 (pt_mul C (c_ed_g C) (s4_r3 rnd)) in
               if negb (pt_verify C (pt_mul C (c_ed_g C) (s4_2 rnd))) then Panic
               else if negb (pt_verify C (pt_mul C (c_ed_g C) (s4_3 rnd))) then Panic
               else let* x := smp4_secret C (s4_us c) (s4_them c) (s4_ssid c) secret in Ok tt) = Panic).
  { revert H. unfold smp4_initiate. cbv zeta.
    destruct (s4_status c); try discriminate;
    destruct (hash_pt C x01 _) as [c2|x|]; cbn [bind]; try discriminate; try reflexivity;
    destruct (hash_pt C x02 _) as [c3|x|]; cbn [bind]; try discriminate; try reflexivity;
    destruct (negb (pt_verify C (pt_mul C (c_ed_g C) (s4_2 rnd)))); try reflexivity;
    destruct (negb (pt_verify C (pt_mul C (c_ed_g C) (s4_3 rnd)))); try reflexivity;
    destruct (smp4_secret C _ _ _ _); cbn [bind]; try discriminate; reflexivity. }
  clear H. unfold smp4_start_chance. cbv zeta. unfold hash_pt in M.
  destruct (hash_to_scalar C x01 _) as [c2|x|] eqn:H2; cbn [bind] in M; [|discriminate|left; now apply (hash_panic C GO) in H2].
  destruct (hash_to_scalar C x02 _) as [c3|x|] eqn:H3; cbn [bind] in M; [|discriminate|right; left; now apply (hash_panic C GO) in H3].
  destruct (pt_verify C (pt_mul C (c_ed_g C) (s4_2 rnd))); cbn [negb] in M; [|auto].
  destruct (pt_verify C (pt_mul C (c_ed_g C) (s4_3 rnd))); cbn [negb] in M; [|auto 6].
  destruct (smp4_secret C _ _ _ _) as [x'|x'|] eqn:SE; cbn [bind] in M; [discriminate|discriminate|].
  apply (secret_panic C GO) in SE. auto.
Qed.

Lemma say_tlv_panic d e i st t i' out : safe_inst C i -> safe_state C st -> p_status st = Encrypted -> p_version st = p_version (in_state i) ->
  tag_ok (de_tag d) = true -> de_tag d <> 0 -> tag_ok (in_receiver i) = true -> write_tlv t = Ok (tlv_bytes t) ->
  match prepare_tlv C e st t with
  | Ok (s, m) => injecting i (set_state i s) (inject d e i (p_version st) (in_receiver i) m) tt
  | Err x => (set_state i st, [], Err x)
  | Panic => (i, [], Panic)
  end = (i', out, Panic) ->
  p_prepare C st true (x00 :: tlv_bytes t) (ev_send e) = Panic \/
  exists b s m, unsendable e b /\ prepare_tlv C e st t = Ok (s, m) /\ p_version s = p_version st /\
    injecting i (set_state i s) (inject d (with_size e (length b)) i (p_version st) (in_receiver i) m) tt = (set_state i s, [b], Ok tt).
Proof.
  intros S SS N V T T0 R W H. unfold prepare_tlv in *. rewrite W in *. cbn [bind] in *.
  destruct (p_prepare C st true (x00 :: tlv_bytes t) (ev_send e)) as [[s m]|x|] eqn:P; [|discriminate H|auto].
  right. destruct (prepare_version _ _ _ _ _ _ N P) as (VS & V34 & _).
  apply injecting_panic in H; try assumption; try reflexivity; [|eapply (prepare_sendable C); eassumption].
  destruct H as (b & U & H). exists b, s, m. auto.
Qed.

Lemma inst_abort_smp_panic d e i i' out : safe_inst C i -> tag_ok (de_tag d) = true -> de_tag d <> 0 ->
  (in_status i = Encrypted -> tag_ok (in_receiver i) = true) ->
  inst_abort_smp C d e i = (i', out, Panic) ->
  let text := x00 :: tlv_bytes (mkTlv 6 []) in
  seal_peer (in_state i) \/ seal_chance C e (in_state i) true text \/ too_large (fun e => inst_abort_smp C d e i) e.
Proof.
  cbv zeta. intros S T T0 R H. pose proof (sf_state C i S) as SS. unfold in_status in R.
  assert (GOP : forall st, safe_state C st -> p_status st = Encrypted -> p_version st = p_version (in_state i) ->
     p_status (in_state i) = Encrypted ->
     match prepare_tlv C e st abort_tlv with
     | Ok (s, m) => injecting i (set_state i s) (inject d e i (p_version s) (in_receiver i) m) tt
     | _ => (i, [], Panic)
     end = (i', out, Panic) ->
     p_prepare C st true (x00 :: tlv_bytes (mkTlv 6 [])) (ev_send e) = Panic \/
     exists b s m, unsendable e b /\ prepare_tlv C e st abort_tlv = Ok (s, m) /\
       injecting i (set_state i s) (inject d (with_size e (length b)) i (p_version s) (in_receiver i) m) tt = (set_state i s, [b], Ok tt)).
  { intros st S1 N V N0 X.
    assert (NE : forall x, prepare_tlv C e st abort_tlv <> Err x).
    { intros x. unfold prepare_tlv. cbn [write_tlv abort_tlv tlv_value length N.of_nat N.ltb N.compare bind].
      destruct st as [|our their k smp|our their k smp|]; try discriminate N; cbn [p_prepare];
        [pose proof (encrypt3_no_err C our their k true (x00 :: tlv_bytes abort_tlv)) as E | pose proof (encrypt4_no_err C our their k true (x00 :: tlv_bytes abort_tlv) [] (ev_send e)) as E];
        intros Y; match type of Y with bind ?z _ = _ => destruct z as [[? ?]|y|] eqn:Z; cbn [bind] in Y; try discriminate Y end;
        eapply E; exact Z. }
    assert (X2 : match prepare_tlv C e st abort_tlv with
       | Ok (s, m) => injecting i (set_state i s) (inject d e i (p_version st) (in_receiver i) m) tt
       | Err x => (set_state i st, [], Err x)
       | Panic => (i, [], Panic)
       end = (i', out, Panic)).
    { destruct (prepare_tlv C e st abort_tlv) as [[s m]|x|] eqn:P; [|now elim (NE x)|exact X].
      unfold prepare_tlv in P. bind_inv P. destruct (prepare_version _ _ _ _ _ _ N P) as (VS & _). rewrite <- VS. exact X. }
    apply say_tlv_panic in X2; try assumption; [|now apply R|reflexivity].
    destruct X2 as [X2|(b & s & m & U & P & VS & X2)]; [left; exact X2|right]. exists b, s, m. rewrite VS. auto. }
  unfold inst_abort_smp in H. destruct (in_state i) as [|our their k smp|our their k smp|] eqn:ST; try discriminate H.
  - cbn [smp_abort] in H. apply GOP in H; try reflexivity.
    2: { split; [apply SS|]. unfold clean, state_ok. cbn [sm_state sm_status]. split; [exact I|]. split; [discriminate|]. intros X. now elim X. }
    destruct H as [H|(b & s & m & U & P & H)].
    + cbn [p_prepare] in H. cbn [seal_peer seal_chance].
      destruct (encrypt3 C our their k true (x00 :: tlv_bytes (mkTlv 6 []))) as [[m' k']|x|] eqn:E; cbn [bind] in H; try discriminate H.
      apply encrypt3_panic in E; [|apply SS]. destruct E as [E|E]; [auto|]. right. left. split; [discriminate|exact E].
    + right. right. exists b, (set_state i s), tt. split; [exact U|]. unfold inst_abort_smp. rewrite ST. cbn [smp_abort].
      change (prepare_tlv C (with_size e (length b))) with (prepare_tlv C e). rewrite P. exact H.
  - cbn [smp4_abort] in H. apply GOP in H; try reflexivity; [|exact SS].
    destruct H as [H|(b & s & m & U & P & H)].
    + cbn [p_prepare] in H. cbn [seal_peer seal_chance].
      destruct (encrypt4 C our their k true (x00 :: tlv_bytes (mkTlv 6 [])) [] (ev_send e)) as [[m' k']|x|] eqn:E; cbn [bind] in H; try discriminate H.
      apply (encrypt4_panic C GO G0) in E; [tauto|exact SS|reflexivity].
    + right. right. exists b, (set_state i s), tt. split; [exact U|]. unfold inst_abort_smp. rewrite ST. cbn [smp4_abort].
      change (prepare_tlv C (with_size e (length b))) with (prepare_tlv C e). rewrite P. exact H.
Qed.

Lemma inst_start_smp_panic d e i secret question i' out : safe_inst C i -> tag_ok (de_tag d) = true -> de_tag d <> 0 ->
  (in_status i = Encrypted -> tag_ok (in_receiver i) = true) ->
  inst_start_smp C d e i secret question = (i', out, Panic) ->
  (exists record, first_record C e (in_state i) secret question record /\
     (seal_peer (in_state i) \/ seal_chance C e (in_state i) true (x00 :: tlv_bytes record))) \/
  (exists our their k c, in_state i = PEnc4 our their k c /\ smp4_start_chance C (ev_smp4 e) c secret) \/
  64000 < N.of_nat (length question) \/
  (ev_dsa e = None /\ exists our their k c, in_state i = PEnc3 our their k c) \/
  too_large (fun e => inst_start_smp C d e i secret question) e.
Proof.
  intros S T T0 R H. pose proof (sf_state C i S) as SS. unfold in_status in R.
  destruct (N.lt_ge_cases 64000 (N.of_nat (length question))) as [|LQ]; [auto|].
  unfold inst_start_smp in H. destruct (in_state i) as [|our their k smp|our their k smp|] eqn:ST; try discriminate H.
  - destruct (smp_initiate C (ev_smp_host e) (ev_smp e) smp secret question) as [smp' t] eqn:SI.
    destruct t as [t|x|]; [|discriminate H|].
    2: { do 3 right. left. split; [|eauto]. unfold smp_initiate in SI. destruct (sm_state smp); try discriminate SI.
         unfold host_fp, ev_smp_host in SI. cbn [sh_key] in SI. destruct (ev_dsa e); [discriminate SI|reflexivity]. }
    assert (W : write_tlv t = Ok (tlv_bytes t)).
    { apply write_tlv_ok. apply smp_initiate_len in SI. lia. }
    assert (S' : safe_state C (PEnc3 our their k smp')).
    { destruct SS as [WF CL]. split; [exact WF|]. pose proof SI as SI'. apply initiate_cases in SI'; [|discriminate].
      destruct SI' as [(_ & -> & _)|(_ & NI & ST' & SO & _)]; [exact CL|].
      split; [exact SO|]. rewrite ST'. split; auto. }
    change (p_version (PEnc3 our their k smp)) with (p_version (PEnc3 our their k smp')) in H.
    apply say_tlv_panic in H; try assumption; try reflexivity; [|now rewrite ST|now apply R].
    destruct H as [H|(b & s & m & U & P & VS & H)].
    + left. exists t. split; [exists smp'; exact SI|]. apply say_panic in H; [|exact S'].
      destruct H as [H|[H|(H & _)]]; [left; exact H|right; exact H|discriminate H].
    + do 4 right. exists b, (set_state i s), tt. split; [exact U|]. unfold inst_start_smp. rewrite ST.
      change (ev_smp_host (with_size e (length b))) with (ev_smp_host e). change (ev_smp (with_size e (length b))) with (ev_smp e). rewrite SI.
      change (prepare_tlv C (with_size e (length b))) with (prepare_tlv C e). rewrite P. exact H.
  - destruct (smp4_initiate C (ev_smp4 e) smp secret question) as [smp' t] eqn:SI.
    destruct t as [t|x|]; [|discriminate H|].
    2: { right. left. exists our, their, k, smp. split; [reflexivity|]. now apply smp4_initiate_panic in SI. }
    assert (W : write_tlv t = Ok (tlv_bytes t)).
    { apply write_tlv_ok. apply smp4_initiate_len in SI. lia. }
    change (p_version (PEnc4 our their k smp)) with (p_version (PEnc4 our their k smp')) in H.
    apply say_tlv_panic in H; try assumption; try reflexivity; [|now rewrite ST|now apply R].
    destruct H as [H|(b & s & m & U & P & VS & H)].
    + left. exists t. split; [exists smp'; exact SI|]. apply say_panic in H; [|exact SS].
      destruct H as [H|[H|(H & _)]]; [left; exact H|right; exact H|discriminate H].
    + do 4 right. exists b, (set_state i s), tt. split; [exact U|]. unfold inst_start_smp. rewrite ST.
      change (ev_smp4 (with_size e (length b))) with (ev_smp4 e). rewrite SI.
      change (prepare_tlv C (with_size e (length b))) with (prepare_tlv C e). rewrite P. exact H.
Qed.

(** ** Calls *)

Lemma expire_all_panic d es timeout l l' out : expire_all C d es timeout l = (l', out, Panic) ->
  exists t i i' o, In (t, i) l /\ inst_expire C d (es t) i timeout = (i', o, Panic).
Proof.
  revert l' out. induction l as [|[t i] l IH]; intros l' out H; cbn [expire_all] in H; [discriminate|].
  destruct (inst_expire C d (es t) i timeout) as [[i' o] [a|x|]] eqn:E; [|discriminate H|exists t, i, i', o; split; [left; reflexivity|exact E]].
  destruct (expire_all C d es timeout l) as [[r' o'] x] eqn:X. assert (x = Panic) by congruence. subst x.
  destruct (IH _ _ eq_refl) as (t1 & i1 & i2 & o2 & IN & E2). exists t1, i1, i2, o2. split; [right; exact IN|exact E2].
Qed.
Lemma get_only s t : get_inst t (se_instances (only s t)) = Some (entry t (se_instances s)).
Proof. cbn. now rewrite N.eqb_refl. Qed.
Lemma on_instance_panic {A} s t (f : instance -> effect instance A) s' out : on_instance s t f = (s', out, Panic) ->
  exists i i' o, get_inst t (se_instances s) = Some i /\ f i = (i', o, Panic).
Proof.
  unfold on_instance. destruct (get_inst t (se_instances s)) as [i|]; [|discriminate].
  destruct (f i) as [[i' o] [a|x|]] eqn:E; try discriminate. intros _. eauto 6.
Qed.
Lemma on_only {A} s t (f : instance -> effect instance A) i' o a : f (entry t (se_instances s)) = (i', o, Ok a) ->
  exists s', on_instance (only s t) t f = (s', o, Ok a).
Proof. intros E. unfold on_instance. rewrite get_only, E. eauto. Qed.

Lemma call_crash d h s es o : history C d h s -> 256 <= de_tag d -> (forall t, pt_valid C (ed_public (ev_identity (es t)))) ->
  snd (call C es s o) = Panic -> call_peer C es s o \/ call_chance C es s o \/ call_host C es s o.
Proof.
  intros HI TG PV H. pose proof (history_safe C GS d h s HI) as SF.
  pose proof (SessionSendProofs.history_inv C d h s HI) as [I DE].
  assert (T0 : de_tag d <> 0) by lia. pose proof (tag_ok_legal _ TG) as T.
  assert (EI : forall t i, get_inst t (se_instances s) = Some i -> i = entry t (se_instances s)) by (intros t i G; unfold entry; now rewrite G).
  assert (RE : forall t i, get_inst t (se_instances s) = Some i -> in_status i = Encrypted -> tag_ok (in_receiver i) = true).
  { intros t i G N. apply tag_ok_legal. pose proof (all_get _ _ _ _ (si_receivers s I) G) as RI. cbn in RI. rewrite RI.
    apply (encrypted_legal d h s t HI). unfold status_of. rewrite <- entry_state. rewrite <- (EI _ _ G). exact N. }
  assert (SI : forall t i, get_inst t (se_instances s) = Some i -> safe_inst C i) by (intros t i G; exact (all_get _ _ _ _ SF G)).
  assert (STI : forall t i, get_inst t (se_instances s) = Some i -> in_state i = state_of s t).
  { intros t i G. rewrite <- entry_state. now rewrite <- (EI _ _ G). }
  destruct o as [p|t c|v t|t| |t secret question|t|timeout]; cbn [call] in H.
  - unfold answering in H. destruct (receive C (es 0) s p) as [[s1 o1] r1] eqn:RC. cbn [snd] in H.
    cbn [call_peer call_chance call_host]. apply (receive_crash C GS d h s (es 0) p HI TG (PV 0)). rewrite RC. cbn [snd]. now destruct r1.
  - unfold send in H. rewrite DE in H. destruct (otr_disabled (de_policy d)) eqn:OD; [discriminate H|].
    destruct (get_inst t (se_instances s)) as [i|] eqn:G; [|discriminate H].
    destruct (require_encryption (de_policy d) && status_eqb (in_status i) Plaintext) eqn:RQ.
    { exfalso. assert (EN : enabled (se_details s)) by (rewrite DE; revert OD; unfold enabled, otr_disabled, allowed; destruct (allow_v3 (de_policy d)), (allow_v4 (de_policy d)); auto; discriminate).
      destruct (query_eq s EN) as (v & _ & Q). rewrite Q in H. discriminate H. }
    destruct (inst_send C d (es t) i (se_tagged s) c) as [[i' tg] [l|x|]] eqn:IS; try discriminate H.
    apply inst_send_panic in IS; try assumption; [|exact (SI t i G)|exact (RE t i G)]. cbv zeta in IS. rewrite (STI t i G) in IS.
    destruct IS as [A|[A|[A|(b & i2 & tg2 & U & A)]]].
    + left. exists t, false, (without_nul c). split; [cbn; auto|exact A].
    + right. left. left. exists t, false, (without_nul c). split; [cbn; auto|exact A].
    + right. right. left. exact A.
    + right. right. right. exists t, b. split; [exact U|]. cbn [call]. unfold send. cbn [only se_details se_instances se_tagged].
      rewrite DE, OD. cbn [get_inst]. rewrite N.eqb_refl, <- (EI t i G), RQ, A. right. reflexivity.
  - unfold answering in H. destruct (initiate C (es t) s v t) as [[s1 o1] r1] eqn:RC. assert (r1 = Panic) by now destruct r1. subst r1.
    unfold initiate in RC. apply on_entry_panic in RC. destruct RC as (i' & o & RC). rewrite DE in RC.
    apply inst_initiate_panic in RC; try assumption.
    destruct RC as [A|[A|[A|[A|(b & i2 & a & U & A)]]]].
    + right. right. left. left. exact A.
    + right. right. left. right. rewrite (sinv_entry _ _ I) in A. unfold tag_ok in A. unfold tag_verify in A.
      destruct (N.eq_dec t 0) as [->|]; [discriminate A|]. destruct (N.ltb_spec t INSTANCE_MIN_VALID) as [L|L].
      * unfold INSTANCE_MIN_VALID in L. lia.
      * rewrite andb_false_r in A. discriminate A.
    + right. left. right. left. exact A.
    + right. left. right. right. exact A.
    + right. right. right. exists t, b. split; [exact U|]. cbn [call]. unfold initiate, on_entry. change (se_details (only s t)) with (se_details s).
      assert (EO : entry t (se_instances (only s t)) = entry t (se_instances s)) by (unfold entry at 1; now rewrite get_only).
      rewrite EO, DE, A. left. reflexivity.
  - unfold answering in H. destruct (end_session C (es t) s t) as [[s1 o1] r1] eqn:RC. assert (r1 = Panic) by now destruct r1. subst r1.
    unfold end_session in RC. apply on_instance_panic in RC. destruct RC as (i & i' & o & G & RC). rewrite DE in RC.
    apply inst_reset_panic in RC; try assumption; [|exact (SI t i G)|exact (RE t i G)]. rewrite (STI t i G) in RC.
    destruct RC as [A|[A|(b & i2 & a & U & A)]].
    + left. exists t, true, DISCONNECT. split; [cbn; auto|exact A].
    + right. left. left. exists t, true, DISCONNECT. split; [cbn; auto|exact A].
    + right. right. right. exists t, b. split; [exact U|]. cbn [call]. unfold end_session. rewrite (EI t i G), <- DE in A.
      change (se_details (only s t)) with (se_details s).
      destruct (on_only s t (fun i => inst_reset C (se_details s) (with_size (es t) (length b)) i) _ _ _ A) as (s2 & ->). left. reflexivity.
  - exfalso. unfold ses_query in H. unfold query in H. rewrite DE in H. unfold filter_versions, SUPPORTED_VERSIONS in H.
    destruct (allow_v4 (de_policy d)), (allow_v3 (de_policy d)); discriminate H.
  - unfold answering in H. destruct (start_smp C (es t) s t secret question) as [[s1 o1] r1] eqn:RC. assert (r1 = Panic) by now destruct r1. subst r1.
    unfold start_smp in RC. apply on_instance_panic in RC. destruct RC as (i & i' & o & G & RC). rewrite DE in RC.
    apply inst_start_smp_panic in RC; try assumption; [|exact (SI t i G)|exact (RE t i G)]. rewrite (STI t i G) in RC.
    destruct RC as [(record & F & [A|A])|[A|[A|[A|(b & i2 & a & U & A)]]]].
    + left. exists t, true, (x00 :: tlv_bytes record). split; [cbn; eauto 6|exact A].
    + right. left. left. exists t, true, (x00 :: tlv_bytes record). split; [cbn; eauto 6|exact A].
    + right. left. right. exact A.
    + right. right. left. left. exact A.
    + right. right. left. right. exact A.
    + right. right. right. exists t, b. split; [exact U|]. cbn [call]. unfold start_smp. rewrite (EI t i G), <- DE in A.
      change (se_details (only s t)) with (se_details s).
      destruct (on_only s t (fun i => inst_start_smp C (se_details s) (with_size (es t) (length b)) i secret question) _ _ _ A) as (s2 & ->). left. reflexivity.
  - unfold answering in H. destruct (abort_smp C (es t) s t) as [[s1 o1] r1] eqn:RC. assert (r1 = Panic) by now destruct r1. subst r1.
    unfold abort_smp in RC. apply on_instance_panic in RC. destruct RC as (i & i' & o & G & RC). rewrite DE in RC.
    apply inst_abort_smp_panic in RC; try assumption; [|exact (SI t i G)|exact (RE t i G)]. cbv zeta in RC. rewrite (STI t i G) in RC.
    destruct RC as [A|[A|(b & i2 & a & U & A)]].
    + left. exists t, true, (x00 :: tlv_bytes (mkTlv 6 [])). split; [cbn; auto|exact A].
    + right. left. left. exists t, true, (x00 :: tlv_bytes (mkTlv 6 [])). split; [cbn; auto|exact A].
    + right. right. right. exists t, b. split; [exact U|]. cbn [call]. unfold abort_smp. rewrite (EI t i G), <- DE in A.
      change (se_details (only s t)) with (se_details s).
      destruct (on_only s t (fun i => inst_abort_smp C (se_details s) (with_size (es t) (length b)) i) _ _ _ A) as (s2 & ->). left. reflexivity.
  - unfold answering in H. destruct (expire C es s timeout) as [[s1 o1] r1] eqn:RC. assert (r1 = Panic) by now destruct r1. subst r1.
    unfold expire in RC. destruct (expire_all C (se_details s) es timeout (se_instances s)) as [[l o] [u|x|]] eqn:EA; try discriminate RC.
    apply expire_all_panic in EA. destruct EA as (t & i & i' & o2 & IN & EX).
    assert (G : get_inst t (se_instances s) = Some i) by (apply SessionProofs.in_get; [exact (si_nodup s I)|exact IN]).
    rewrite DE in EX. apply inst_expire_panic in EX; try assumption; [|exact (SI t i G)|exact (RE t i G)]. rewrite (STI t i G) in EX.
    destruct EX as (our & their & r & smp & ST & LT & EX). destruct EX as [A|[A|(b & i2 & a & U & A)]].
    + left. exists t, true, DISCONNECT. split; [cbn; eauto 12|exact A].
    + right. left. left. exists t, true, DISCONNECT. split; [cbn; eauto 12|exact A].
    + right. right. right. exists t, b. split; [exact U|]. cbn [call]. unfold expire. cbn [only se_details se_instances expire_all].
      rewrite DE, <- (EI t i G), A. rewrite app_nil_r. left. reflexivity.
Qed.

(** ** Mistakes of the host *)

Lemma known_state s t : state_of s t <> PPlain -> get_inst t (se_instances s) = Some (entry t (se_instances s)).
Proof. unfold entry, state_of. destruct (get_inst t (se_instances s)); [reflexivity|]. intros N. now elim N. Qed.

Lemma empty_text_crashes d h s es t content our their k smp : history C d h s -> enabled d ->
  state_of s t = PEnc3 our their k smp -> without_nul content = [] -> snd (call C es s (OpSend t content)) = Panic.
Proof.
  intros H EN ST E. apply SessionSendProofs.history_inv in H. destruct H as [_ DE]. cbn [call]. unfold send.
  rewrite DE, (enabled_not_disabled d EN), (known_state s t) by (rewrite ST; discriminate).
  unfold in_status. rewrite entry_state, ST. cbn [p_status status_eqb]. rewrite andb_false_r.
  unfold inst_send. change (drop_by_value content x00) with (without_nul content). rewrite E, entry_state, ST. cbn [p_prepare].
  assert (P : encrypt3 C our their k false [] = Panic).
  { destruct (encrypt3 C our their k false []) as [[m k']|x|] eqn:X; [|now apply encrypt3_no_err in X|reflexivity].
    unfold encrypt3 in X. apply bind_ok in X. destruct X as ([k0 ctr] & _ & X).
    destruct (pr_current (km_theirs k0)) as [a b]. destruct (kr_current (km_ours k0)) as [u w].
    apply bind_ok in X. destruct X as ([y z] & _ & X). apply bind_ok in X. destruct X as (ds & _ & X).
    destruct (aes_crypt C (ds_send ds) (nonce_of_ctr ctr) []) as [|z0 zs] eqn:AE; [discriminate X|].
    apply (f_equal (@length _)) in AE. rewrite aes_crypt_length in AE. discriminate AE. }
  rewrite P. reflexivity.
Qed.

Lemma version_crashes s es v t : v <> V3 -> v <> V4 -> snd (call C es s (OpInitiate v t)) = Panic.
Proof. intros N3 N4. cbn [call]. unfold initiate, on_entry, inst_initiate. destruct v; try congruence; reflexivity. Qed.

Lemma question_crashes d h s es t secret question : history C d h s -> status_of s t = Encrypted ->
  (forall our their k smp, state_of s t = PEnc3 our their k smp -> sm_state smp = Expect1) ->
  (forall our their k smp, state_of s t = PEnc4 our their k smp -> s4_status smp <> S4InProgress) ->
  65536 <= N.of_nat (length question) -> snd (call C es s (OpStartSmp t secret question)) = Panic.
Proof.
  intros H N I3 I4 L. unfold status_of in N. cbn [call]. unfold start_smp, on_instance.
  rewrite (known_state s t) by (intros E; rewrite E in N; discriminate N).
  assert (X : forall i, in_state i = state_of s t -> exists i' o, inst_start_smp C (se_details s) (es t) i secret question = (i', o, Panic)).
  2: { destruct (X (entry t (se_instances s)) (entry_state _ _)) as (i' & o & ->). reflexivity. }
  intros i E. unfold inst_start_smp. rewrite E. destruct (state_of s t) as [|our their k smp|our their k smp|]; try discriminate N.
  - destruct (smp_initiate C (ev_smp_host (es t)) (ev_smp (es t)) smp secret question) as [smp' r] eqn:SI.
    assert (R : match r with Ok u => 65536 <= N.of_nat (length (tlv_value u)) | Err _ => False | Panic => True end).
    { unfold smp_initiate in SI. rewrite (I3 our their k smp eq_refl) in SI. unfold host_fp in SI.
      destruct (sh_key (ev_smp_host (es t))); apply pair_equal_spec in SI; destruct SI as [_ <-]; [|exact Logic.I].
      destruct question as [|q0 question]; [cbn in L; lia|]. cbn [tlv_value]. unfold write_bytes_null_terminated. rewrite !app_length. lia. }
    destruct r as [u|x|]; [|contradiction|eauto]. unfold prepare_tlv, write_tlv. rewrite (proj2 (N.ltb_ge _ _) R). cbn [bind]. eauto.
  - destruct (smp4_initiate C (ev_smp4 (es t)) smp secret question) as [smp' r] eqn:SI.
    assert (R : match r with Ok u => 65536 <= N.of_nat (length (tlv_value u)) | Err _ => False | Panic => True end).
    { pose proof (I4 our their k smp eq_refl) as NI. unfold smp4_initiate in SI. cbv zeta in SI. unfold hash_pt, hash_to_scalar, decode_scalar in SI.
      destruct (s4_status smp); try congruence;
      (destruct (all_zero _); cbn [bind] in SI; [apply pair_equal_spec in SI; destruct SI as [_ <-]; exact Logic.I|]);
      (destruct (all_zero _); cbn [bind] in SI; [apply pair_equal_spec in SI; destruct SI as [_ <-]; exact Logic.I|]);
      (destruct (negb (pt_verify C (pt_mul C (c_ed_g C) (s4_2 (ev_smp4 (es t)))))); cbn [bind] in SI; [apply pair_equal_spec in SI; destruct SI as [_ <-]; exact Logic.I|]);
      (destruct (negb (pt_verify C (pt_mul C (c_ed_g C) (s4_3 (ev_smp4 (es t)))))); cbn [bind] in SI; [apply pair_equal_spec in SI; destruct SI as [_ <-]; exact Logic.I|]);
      (destruct (smp4_secret C _ _ _ secret) as [x|x|] eqn:SE; cbn [bind] in SI; apply pair_equal_spec in SI; destruct SI as [_ <-];
        [| |exact Logic.I]);
      try (cbn [tlv_value]; unfold write_data; rewrite !app_length; lia);
      try (unfold smp4_secret, prune in SE; repeat match type of SE with context [if ?b then _ else _] => destruct b end; discriminate SE). }
    destruct r as [u|x|]; [|contradiction|eauto]. unfold prepare_tlv, write_tlv. rewrite (proj2 (N.ltb_ge _ _) R). cbn [bind]. eauto.
Qed.

End WithCrypto.
