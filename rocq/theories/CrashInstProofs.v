(* When one client's state machine panics, and what it keeps true. *)
From Verif Require Import Base BaseLemmas Types Crypto CryptoProofs Encoding EncodingProofs ClientProfile Messages MessagesProofs
  Base64 Fragment FragmentProofs KeyManager DataV3 DataV3Proofs Ratchet DataV4 DataV4Proofs AKE AKEProofs DAKE DAKEProofs SMP SMP4
  Protocol Session SpecWire SpecCurve SpecData3 SpecData4 SpecSMP SpecSMP4 SpecDAKE SpecSession RingProofs SMPSafeProofs
  History3Proofs SMP4HistProofs SessionProofs SessionRecvProofs SessionLemmas SpecCrash CrashProofs CrashDataProofs CrashSmpProofs CrashKexProofs.
From Verif Require SpecFragment FragmentLemmas.
From Coq Require Import Lia ZifyN ZifyNat.
Local Open Scope N_scope.

Ltac fin3 H := apply pair3 in H; destruct H as (<- & <- & <-).

(** ** Injected messages *)

Definition sendable (m : encoded_type) : Prop :=
  match m with MUnencoded _ => False | MData4 m => Nat.modulo (length (d4_revealed m)) 64 = 0%nat | _ => True end.
Lemma encode_message_safe v s r m : v = V3 \/ v = V4 -> sendable m -> exists b, encode_message v s r m = Ok b.
Proof.
  intros V S. unfold encode_message, serialize_message, write_encoded_message. cbn [em_version em_message em_sender em_receiver].
  destruct V as [-> | ->]; cbn [encode_version bind]; destruct m; cbn [type_code write_content bind sendable] in *; try contradiction; eauto;
    rewrite S; cbn [Nat.eqb bind]; eauto.
Qed.
Lemma map_res_safe {A B} (f : A -> res B) l : (forall a, In a l -> f a <> Panic) -> map_res f l <> Panic.
Proof.
  intros F. induction l as [|a l IH]; cbn [map_res]; [discriminate|].
  destruct (f a) eqn:E; cbn [bind]; [|discriminate|now apply (F a (or_introl eq_refl)) in E].
  destruct (map_res f l) eqn:E2; cbn [bind]; try discriminate. exfalso. apply IH; [|reflexivity]. intros b I. apply F. now right.
Qed.
Lemma encode_fragment_safe f : SpecFragment.otr_version (fr_version f) -> tag_ok (fr_sender f) = true -> fr_sender f <> 0 ->
  tag_ok (fr_receiver f) = true -> 1 <= fr_part f <= fr_total f -> fr_payload f <> [] -> encode_fragment f <> Panic.
Proof.
  intros Hv Hs Hs0 Hr Hp Hpl. unfold encode_fragment. rewrite Hs, Hr, (proj2 (N.eqb_neq _ _) Hs0).
  destruct (N.eqb_spec (fr_part f) 0); [lia|]. destruct (N.eqb_spec (fr_total f) 0); [lia|].
  destruct (N.ltb_spec (fr_total f) (fr_part f)); [lia|].
  destruct (Nat.eqb_spec (length (fr_payload f)) 0) as [E|_]; [apply length_zero_iff_nil in E; contradiction|].
  cbn [negb orb]. destruct Hv as [-> | ->]; discriminate.
Qed.
Lemma payloads_panic d e r v b : v = V3 \/ v = V4 -> tag_ok (de_tag d) = true -> de_tag d <> 0 -> tag_ok r = true ->
  payloads d e r v b = Panic -> unsendable e b /\ payloads d (with_size e (length b)) r v b = Ok [b].
Proof.
  intros V T T0 R H. split.
  2: { unfold payloads. cbn [with_size ev_message_size]. now rewrite Nat.leb_refl. }
  unfold payloads in H. destruct (Nat.leb_spec (length b) (ev_message_size e)) as [|LT]; [discriminate|].
  split; [exact LT|]. exists (SpecFragment.header_size v).
  split; [unfold SpecFragment.header_size; destruct V as [-> | ->]; auto|].
  destruct (Nat.le_gt_cases (ev_message_size e) (SpecFragment.header_size v)) as [|HL]; [auto|]. right.
  destruct (N.lt_ge_cases (65535 * N.of_nat (ev_message_size e - SpecFragment.header_size v)) (N.of_nat (length b))) as [|LE]; [assumption|].
  exfalso. destruct (fragment_total (ev_message_size e) v (de_tag d) r (ev_fragment e) b V HL LT LE) as (fs & E). rewrite E in H.
  cbn [bind] in H. revert H. apply map_res_safe. intros f F. apply fragment_ok in E as (Hv & HP & _).
  destruct (FragmentLemmas.pieces_in _ _ _ _ _ _ _ HP F) as (E1 & E2 & E3 & E4 & E5 & E6 & E7).
  apply encode_fragment_safe; rewrite ?E1, ?E3, ?E4, ?E5; assumption.
Qed.
Lemma inject_panic d e i v m : v = V3 \/ v = V4 -> tag_ok (de_tag d) = true -> de_tag d <> 0 -> tag_ok (in_receiver i) = true ->
  sendable m -> inject d e i v (in_receiver i) m = Panic ->
  exists b, unsendable e b /\ inject d (with_size e (length b)) i v (in_receiver i) m = Ok [b].
Proof.
  intros V T T0 R S H. unfold inject in *. rewrite N.eqb_refl, Bool.orb_true_r in *. cbn [negb] in *.
  destruct (encode_message_safe v (de_tag d) (in_receiver i) m V S) as (b & E). rewrite E in *. cbn [bind] in *.
  exists b. now apply payloads_panic.
Qed.

Lemma validated_sendable C m : data4_validate C m = Ok tt -> sendable (MData4 m).
Proof.
  unfold data4_validate. destruct (negb (Bool.eqb _ _)); [discriminate|]. intros H. bind_inv H. bind_inv H. cbn [sendable].
  destruct (Nat.eqb_spec (Nat.modulo (length (d4_revealed m)) 64) 0); [assumption|discriminate].
Qed.

Lemma res_panic_dec {A} (r : res A) : r = Panic \/ r <> Panic.
Proof. destruct r; (left; reflexivity) || (right; discriminate). Qed.
Lemma single_existsb {A} (f : A -> bool) l t : filter f l = [t] -> f t = true -> existsb f l = true.
Proof.
  intros F T. apply existsb_exists. exists t. split; [|exact T].
  assert (I : In t (filter f l)) by (rewrite F; left; reflexivity). apply filter_In in I. apply I.
Qed.

Section WithCrypto.
Context (C : Crypto) (GS : groups_sound C).
Let GO : smp4_group C := proj1 GS.
Let G3 : smp_group C := proj1 (proj2 GS).
Let PB : c_dh_p C < 2 ^ 1536 := proj1 (proj2 (proj2 GS)).
Let G0 : 0 < c_dh3_g C := proj2 (proj2 (proj2 GS)).

Lemma g_pos : 0 < c_dh_g C.
Proof. destruct G3 as (_ & _ & [L _] & _). lia. Qed.

(** ** What holds of every client *)

Definition safe_state (st : pstate) : Prop :=
  match st with
  | PEnc3 _ _ k smp => wf3 k /\ clean C smp
  | PEnc4 _ _ d _ => ok4 C d
  | _ => True
  end.
Record safe_inst (i : instance) : Prop := mkSafe {
  sf_state : safe_state (in_state i); sf_ake : ake_in C (in_ake i); sf_dake : dake_in C (in_dake i) }.

Lemma safe_new t : safe_inst (instance_new t).
Proof. repeat constructor. Qed.

Lemma prepare_safe st ig c rnd st' m : safe_state st -> p_prepare C st ig c rnd = Ok (st', m) -> safe_state st'.
Proof.
  destruct st as [|our their k smp|our their d smp|]; cbn [p_prepare safe_state]; intros S H.
  - now injection H as <- <-.
  - apply bind_ok in H. destruct H as ([m' k'] & E & H). injection H as <- <-. split; [|apply S]. eapply encrypt3_wf; [apply S|exact E].
  - apply bind_ok in H. destruct H as ([m' d'] & E & H). injection H as <- <-. cbn. eapply encrypt4_ok4; eassumption.
  - discriminate.
Qed.
Lemma prepare_sendable st ig c rnd st' m : safe_state st -> p_status st = Encrypted -> p_prepare C st ig c rnd = Ok (st', m) -> sendable m.
Proof.
  destruct st as [|our their k smp|our their d smp|]; cbn [p_prepare safe_state p_status]; intros S N H; try discriminate.
  - apply bind_ok in H. destruct H as ([m' k'] & E & H). now injection H as <- <-.
  - apply bind_ok in H. destruct H as ([m' d'] & E & H). injection H as <- <-. cbn [sendable].
    apply encrypt4_ok in E. destruct E as (d1 & rv & _ & _ & _ & _ & _ & _ & _ & _ & _ & _ & _ & _ & _ & _ & V). now apply (validated_sendable C).
Qed.

Lemma prepare_panic st c rnd : p_prepare C st true c rnd = Panic -> safe_state st ->
  match st with
  | PEnc3 our their k _ => seal3_peer k \/ seal3_chance C our their k true c
  | PEnc4 our their d _ => seal4_peer d \/ seal4_chance C our their d true c rnd
  | _ => False
  end.
Proof.
  destruct st as [|our their k smp|our their d smp|]; cbn [p_prepare safe_state]; intros H S; try discriminate.
  - destruct (encrypt3 C our their k true c) as [[m' k']|x|] eqn:E; cbn [bind] in H; try discriminate.
    apply encrypt3_panic in E; [exact E|apply S].
  - destruct (encrypt4 C our their d true c [] rnd) as [[m' k']|x|] eqn:E; cbn [bind] in H; try discriminate.
    apply (encrypt4_panic C GO G0) in E; [exact E|apply S|reflexivity].
Qed.

Definition pieces_host (f : env -> effect instance user_message) (e : env) : Prop :=
  exists b i r, unsendable e b /\ f (with_size e (length b)) = (i, [b], r) /\ r <> Panic.

(* the reply to an SMP record *)
Lemma finish_panic d e i0 i t reply report i' out : safe_state (in_state i) -> p_status (in_state i) = Encrypted ->
  tag_ok (de_tag d) = true -> de_tag d <> 0 -> tag_ok (in_receiver i) = true -> t = in_receiver i ->
  (forall r, reply = Ok (Some r) -> (length (tlv_value r) <= 2160)%nat) -> report <> Panic -> reply <> Panic ->
  smp_finish C d e i0 i t reply report = (i', out, Panic) ->
  exists r, reply = Ok (Some r) /\
    (p_prepare C (in_state i) true (x00 :: tlv_bytes r) (ev_send e) = Panic \/
     pieces_host (fun e => smp_finish C d e i0 i t reply report) e).
Proof.
  intros S N T T0 R -> L NR NP H. unfold smp_finish in H.
  destruct reply as [[r|]|x|]; [|destruct report; congruence|discriminate H|congruence].
  exists r. split; [reflexivity|]. unfold prepare_tlv in H. rewrite (write_tlv_fits r (L r eq_refl)) in H. cbn [bind] in H.
  destruct (p_prepare C (in_state i) true (x00 :: tlv_bytes r) (ev_send e)) as [[s m]|x|] eqn:P; [|discriminate H|left; reflexivity].
  right. destruct (inject d e (set_state i s) (p_version s) (in_receiver i) m) as [o|x|] eqn:J;
    [destruct report; try discriminate H; congruence|discriminate H|].
  assert (V : p_version s = V3 \/ p_version s = V4).
  { destruct (in_state i) as [|our their k smp|our their k smp|]; try discriminate N; cbn [p_prepare] in P;
      apply bind_ok in P; destruct P as ([? ?] & _ & P); injection P as <- _; auto. }
  apply (inject_panic d e (set_state i s) (p_version s) m) in J; try assumption; [|eapply prepare_sendable; eassumption].
  destruct J as (b & U & J). exists b, (set_state i s), report. split; [exact U|]. split; [|exact NR].
  unfold smp_finish, prepare_tlv. rewrite (write_tlv_fits r (L r eq_refl)). cbn [bind]. change (ev_send (with_size e (length b))) with (ev_send e). rewrite P.
  change (in_receiver (set_state i s)) with (in_receiver i) in J. rewrite J.
  destruct report; congruence.
Qed.
Lemma finish_safe d e i0 i t reply report i' out r : safe_state (in_state i) ->
  smp_finish C d e i0 i t reply report = (i', out, r) -> r <> Panic ->
  safe_state (in_state i') /\ in_ake i' = in_ake i /\ in_dake i' = in_dake i.
Proof.
  intros S H NP. unfold smp_finish in H.
  destruct reply as [[u|]|x|]; [|destruct report; fin3 H; try congruence; auto|fin3 H; auto|fin3 H; congruence].
  destruct (prepare_tlv C e (in_state i) u) as [[s m]|x|] eqn:P; [|fin3 H; auto|fin3 H; congruence].
  unfold prepare_tlv in P. bind_inv P. apply prepare_safe in P; [|assumption].
  destruct (inject _ _ _ _ _ _); [destruct report|..]; fin3 H; try congruence; auto.
Qed.

Lemma after_panic st their x s : after_decrypt st their x = (s, Panic) -> x = Panic.
Proof.
  unfold after_decrypt. destruct x as [b|?|]; [|discriminate|reflexivity].
  destruct (parse_message b) as [[]|?|] eqn:P; try discriminate.
  destruct (says_or_not b) as [(c & rs & S)|[_ E]]; [|congruence].
  apply says_parse in S. intros _. exfalso. revert S. rewrite P. destruct (existsb _ rs); discriminate.
Qed.

Lemma report3_ok t st : st <> SmpInitial -> smp_report t st <> Panic.
Proof. destruct st; cbn; congruence. Qed.
Lemma report4_ok t st : st <> S4Initial -> smp4_report t st <> Panic.
Proof. destruct st; cbn; congruence. Qed.
Lemma data_error_ok i ig x i' out : data_error i ig x <> (i', out, Panic).
Proof. unfold data_error. destruct x; try discriminate. destruct ig; discriminate. Qed.
Lemma single_in is_smp tlvs t : single_smp is_smp tlvs = Ok t -> filter is_smp tlvs = [t] /\ is_smp t = true.
Proof.
  unfold single_smp. destruct (filter is_smp tlvs) as [|a [|b l]] eqn:F; try discriminate. intros H. injection H as ->.
  split; [reflexivity|]. assert (I : In t (filter is_smp tlvs)) by (rewrite F; left; reflexivity). apply filter_In in I. apply I.
Qed.
Lemma single_not_panic is_smp tlvs : single_smp is_smp tlvs <> Panic.
Proof. unfold single_smp. destruct (filter is_smp tlvs) as [|a [|b l]]; discriminate. Qed.
Lemma handled4_status ans rnd c t c' r : smp4_handle C ans rnd c t = (c', r) -> r <> Panic -> s4_status c' <> S4Initial.
Proof.
  intros H NP. apply handle4_cases in H; [|exact NP]. destruct H as (_ & _ & _ & [(_ & -> & _)|[(_ & _ & [-> | ->])|(_ & A & _)]]); try discriminate.
  destruct A as [w A]. rewrite A. discriminate.
Qed.

Definition peer_data3 (e : env) (i : instance) (t receiver : N) (m : data3) : Prop :=
  exists our their k smp, in_state i = PEnc3 our their k smp /\
    let auth := encode_authenticator_data t receiver m in
    (read3_peer C k m auth \/
     exists k' text record smp' reply, decrypt3 C k m auth (ev_ack e) = (k', Ok text) /\ smp_in_text V3 text record /\
       smp_handle C (ev_smp_host e) (ev_smp e) smp record = (smp', Ok (Some reply)) /\ seal3_peer k').
Definition chance_data3 (e : env) (i : instance) (t receiver : N) (m : data3) : Prop :=
  exists our their k smp, in_state i = PEnc3 our their k smp /\
    let auth := encode_authenticator_data t receiver m in
    (read3_chance C k m auth (ev_ack e) \/
     exists k' text record smp' reply, decrypt3 C k m auth (ev_ack e) = (k', Ok text) /\ smp_in_text V3 text record /\
       smp_handle C (ev_smp_host e) (ev_smp e) smp record = (smp', Ok (Some reply)) /\
       seal3_chance C our their k' true (x00 :: tlv_bytes reply)).

Lemma data3_panic d e i t receiver m i' out : safe_state (in_state i) -> tag_ok (de_tag d) = true -> de_tag d <> 0 ->
  tag_ok (in_receiver i) = true -> t = in_receiver i ->
  d3_sender_keyid m <> 0 -> d3_receiver_keyid m <> 0 -> length (d3_ctr m) = 8%nat ->
  inst_data3 C d e i t receiver m = (i', out, Panic) ->
  peer_data3 e i t receiver m \/ chance_data3 e i t receiver m \/
  pieces_host (fun e => inst_data3 C d e i t receiver m) e \/ ev_dsa e = None.
Proof.
  intros S T T0 R EQ K1 K2 K3 H. unfold inst_data3 in H.
  destruct (p_handle3 C (in_state i) m (encode_authenticator_data t receiver m) (ev_ack e)) as [st r] eqn:P.
  destruct (in_state i) as [|our their k smp|our their k smp|] eqn:ST; cbn [p_handle3] in P;
    try (injection P as <- <-; now apply data_error_ok in H).
  destruct (decrypt3 C k m _ (ev_ack e)) as [k' x] eqn:D. destruct S as [W CL].
  destruct x as [text|x|].
  2: { cbn [after_decrypt] in P. injection P as <- <-. now apply data_error_ok in H. }
  2: { apply decrypt3_panic in D; try assumption. destruct D as [D|D]; [left|right; left]; exists our, their, k, smp; auto. }
  cbn [after_decrypt] in P.
  assert (W' : wf3 k') by (eapply recv_wf; [exact W|apply decrypt3_cases; [exact D|discriminate]]).
  destruct (parse_message text) as [[content tlvs|content]|x|] eqn:PM; injection P as <- <-.
  2: { discriminate H. }
  2: { now apply data_error_ok in H. }
  2: { exfalso. pose proof (after_panic (PEnc3 our their k' smp) their (Ok text)) as AP. cbn [after_decrypt] in AP. rewrite PM in AP.
       discriminate (AP _ eq_refl). }
  destruct (existsb is_smp3_tlv tlvs); [|discriminate H].
  destruct (single_smp is_smp3_tlv tlvs) as [u|x|] eqn:SS; [|discriminate H|now apply single_not_panic in SS].
  apply single_in in SS as [SF SI].
  destruct (smp_handle C (ev_smp_host e) (ev_smp e) smp u) as [smp' reply] eqn:SH.
  assert (IT : smp_in_text V3 text u).
  { exists content, tlvs. split; [now apply parse_shows|]. rewrite <- SF. apply filter_ext. intros a. symmetry. apply smp_record3. }
  destruct (res_panic_dec reply) as [->|NP].
  { right. right. right. apply (smp_handle_panic C G3) in SH; [|apply CL|exact SI]. unfold ev_smp_host in SH. cbn in SH. now destruct (ev_dsa e). }
  pose proof (smp_handle_clean C G3 _ _ _ _ _ _ CL SH NP) as [CL' NI].
  apply (finish_panic d e i (set_state (set_state i (PEnc3 our their k' smp)) (PEnc3 our their k' smp'))) in H; try assumption; try reflexivity.
  - destruct H as (rp & -> & [PP|(b & i1 & r1 & U & F & NR)]).
    + cbn [set_state in_state] in PP. apply prepare_panic in PP; [|split; assumption].
      destruct PP as [PP|PP]; [left|right; left]; exists our, their, k, smp; (split; [exact ST|]); right; exists k', text, u, smp', rp; auto.
    + right. right. left. exists b, i1, r1. split; [exact U|]. split; [|exact NR]. unfold inst_data3. cbn [ev_ack with_size]. rewrite ST.
      cbn [p_handle3]. rewrite D. cbn [after_decrypt]. rewrite PM. cbn [set_state]. rewrite (single_existsb _ _ _ SF SI).
      unfold single_smp. rewrite SF. change (ev_smp_host (with_size e (length b))) with (ev_smp_host e).
      cbn [ev_smp with_size]. rewrite SH. exact F.
  - cbn. auto.
  - intros r0 ->. eapply smp_reply_len; eassumption.
  - now apply report3_ok.
Qed.

Definition peer_data4 (e : env) (i : instance) (t receiver : N) (m : data4) : Prop :=
  all_zero (d4_authenticator m) = true \/
  exists our their d smp, in_state i = PEnc4 our their d smp /\
    let auth := encode_authenticator_data4 t receiver m in
    (read4_peer C d m auth \/
     exists d' text record, decrypt4 C d m auth (ev_now e) = (d', Ok text) /\ smp_in_text V4 text record /\
       (smp4_peer C record \/
        exists smp' reply, smp4_handle C (ev_answer e) (ev_smp4 e) smp record = (smp', Ok (Some reply)) /\ seal4_peer d')).
Definition chance_data4 (e : env) (i : instance) (t receiver : N) (m : data4) : Prop :=
  exists our their d smp, in_state i = PEnc4 our their d smp /\
    let auth := encode_authenticator_data4 t receiver m in
    (read4_chance C d m \/
     exists d' text record, decrypt4 C d m auth (ev_now e) = (d', Ok text) /\ smp_in_text V4 text record /\
       (smp4_chance C (ev_answer e) (ev_smp4 e) smp record \/
        exists smp' reply, smp4_handle C (ev_answer e) (ev_smp4 e) smp record = (smp', Ok (Some reply)) /\
          seal4_chance C our their d' true (x00 :: tlv_bytes reply) (ev_send e))).

Lemma data4_panic d e i t receiver m i' out : safe_state (in_state i) -> tag_ok (de_tag d) = true -> de_tag d <> 0 ->
  tag_ok (in_receiver i) = true -> t = in_receiver i -> pt_valid C (d4_ecdh m) -> d4_j m <= LAST32 ->
  inst_data4 C d e i t receiver m = (i', out, Panic) ->
  peer_data4 e i t receiver m \/ chance_data4 e i t receiver m \/
  pieces_host (fun e => inst_data4 C d e i t receiver m) e.
Proof.
  intros S T T0 R EQ PV J H. unfold inst_data4 in H.
  destruct (data4_validate C m) as [[]|x|] eqn:V; [|discriminate H|left; left; now apply (validate4_panic C)].
  destruct (p_handle4 C (in_state i) m (encode_authenticator_data4 t receiver m) (ev_now e)) as [st r] eqn:P.
  destruct (in_state i) as [|our their k smp|our their k smp|] eqn:ST; cbn [p_handle4] in P;
    try (injection P as <- <-; now apply data_error_ok in H).
  destruct (decrypt4 C k m _ (ev_now e)) as [k' x] eqn:D. cbn [safe_state] in S.
  destruct x as [text|x|].
  2: { cbn [after_decrypt] in P. injection P as <- <-. now apply data_error_ok in H. }
  2: { apply (decrypt4_panic C GO G0) in D; try assumption. destruct D as [D|D]; [left; right|right; left]; exists our, their, k, smp; auto. }
  cbn [after_decrypt] in P.
  pose proof (decrypt4_ok4 C G0 _ _ _ _ _ _ S PV D) as W'.
  destruct (parse_message text) as [[content tlvs|content]|x|] eqn:PM; injection P as <- <-.
  2: { discriminate H. }
  2: { now apply data_error_ok in H. }
  2: { exfalso. pose proof (after_panic (PEnc4 our their k' smp) their (Ok text)) as AP. cbn [after_decrypt] in AP. rewrite PM in AP.
       discriminate (AP _ eq_refl). }
  destruct (existsb is_smp4_tlv tlvs); [|discriminate H].
  destruct (single_smp is_smp4_tlv tlvs) as [u|x|] eqn:SS; [|discriminate H|now apply single_not_panic in SS].
  apply single_in in SS as [SF SI].
  destruct (smp4_handle C (ev_answer e) (ev_smp4 e) smp u) as [smp' reply] eqn:SH.
  assert (IT : smp_in_text V4 text u).
  { exists content, tlvs. split; [now apply parse_shows|]. rewrite <- SF. apply filter_ext. intros a. symmetry. apply smp_record4. }
  destruct (res_panic_dec reply) as [->|NP].
  { apply (smp4_handle_panic C GO) in SH; [|exact SI].
    destruct SH as [SH|SH]; [left; right|right; left]; exists our, their, k, smp; (split; [exact ST|]); right; exists k', text, u; auto. }
  pose proof (handled4_status _ _ _ _ _ _ SH NP) as NI.
  apply (finish_panic d e i (set_state (set_state i (PEnc4 our their k' smp)) (PEnc4 our their k' smp'))) in H; try assumption; try reflexivity.
  - destruct H as (rp & -> & [PP|(b & i1 & r1 & U & F & NR)]).
    + cbn [set_state in_state] in PP. apply prepare_panic in PP; [|exact W'].
      destruct PP as [PP|PP]; [left; right|right; left]; exists our, their, k, smp; (split; [exact ST|]); right; exists k', text, u;
        (split; [exact D|]); (split; [exact IT|]); right; exists smp', rp; auto.
    + right. right. exists b, i1, r1. split; [exact U|]. split; [|exact NR]. unfold inst_data4.
      change (ev_now (with_size e (length b))) with (ev_now e). rewrite V, ST.
      cbn [p_handle4]. rewrite D. cbn [after_decrypt]. rewrite PM. cbn [set_state]. rewrite (single_existsb _ _ _ SF SI).
      unfold single_smp. rewrite SF. change (ev_answer (with_size e (length b))) with (ev_answer e).
      change (ev_smp4 (with_size e (length b))) with (ev_smp4 e). rewrite SH. exact F.
  - intros r0 ->. apply (smp4_reply_len C) in SH. lia.
  - now apply report4_ok.
Qed.

(** ** Handling a message *)

Definition peer_i (e : env) (d : details) (i : instance) (em : encoded_message) : Prop :=
  match em_version em, em_message em with
  | V3, MRevealSig m =>
      start3_peer (in_state i) /\
      exists our enc hash mat reply, in_ake i = AkeAwaitingRevealSig our enc hash /\
        reveal_result C (ev_dsa e) (ev_nonce e) our enc hash m = Ok (mat, reply)
  | V3, MSignature m =>
      start3_peer (in_state i) /\
      exists our gy sh previous mat, in_ake i = AkeAwaitingSig our gy sh previous /\
        signature_result C our gy sh m = Ok mat
  | V3, MData m => peer_data3 e i (em_sender em) (em_receiver em) m
  | V4, MIdentity m => identity_peer C e (in_dake i) m
  | V4, MAuthR m => exists w, in_dake i = DakeAwaitingAuthR w /\ authr_peer C e d w m
  | V4, MAuthI m => exists w, in_dake i = DakeAwaitingAuthI w /\ ring_peer C (ai_sigma m)
  | V4, MData4 m => peer_data4 e i (em_sender em) (em_receiver em) m
  | _, _ => False
  end.
Definition chance_i (e : env) (d : details) (i : instance) (em : encoded_message) : Prop :=
  match em_version em, em_message em with
  | V3, MDHCommit _ => ev_dh e = 0
  | V3, MRevealSig m =>
      exists our enc hash, in_ake i = AkeAwaitingRevealSig our enc hash /\ start3_chance C e our
  | V3, MSignature m =>
      exists our gy sh previous, in_ake i = AkeAwaitingSig our gy sh previous /\ start3_chance C e our
  | V3, MData m => chance_data3 e i (em_sender em) (em_receiver em) m
  | V4, MIdentity m => identity_chance C e d (in_dake i) m
  | V4, MAuthR m => exists w, in_dake i = DakeAwaitingAuthR w /\ authr_chance C e d w m
  | V4, MAuthI m => exists w, in_dake i = DakeAwaitingAuthI w /\ authi_chance C d w m
  | V4, MData4 m => chance_data4 e i (em_sender em) (em_receiver em) m
  | _, _ => False
  end.
Definition no_key (e : env) (em : encoded_message) : Prop :=
  ev_dsa e = None /\ em_version em = V3 /\
  match em_message em with MDHKey _ | MRevealSig _ | MData _ => True | _ => False end.

Lemma injecting_panic {A} d e (i j : instance) v t m (a : A) i' out : t = in_receiver i ->
  v = V3 \/ v = V4 -> tag_ok (de_tag d) = true -> de_tag d <> 0 -> tag_ok (in_receiver i) = true -> sendable m ->
  injecting i j (inject d e i v t m) a = (i', out, Panic) ->
  exists b, unsendable e b /\ injecting i j (inject d (with_size e (length b)) i v t m) a = (j, [b], Ok a).
Proof.
  intros -> V T T0 R S H. destruct (inject d e i v (in_receiver i) m) as [o|x|] eqn:J; try discriminate H.
  apply inject_panic in J; try assumption. destruct J as (b & U & J). exists b. split; [exact U|]. now rewrite J.
Qed.

Lemma handle_panic d e i0 em i' out : safe_inst i0 -> wire_in C em -> tag_ok (de_tag d) = true -> de_tag d <> 0 ->
  tag_ok (em_sender em) = true -> in_receiver i0 = em_sender em -> pt_valid C (ed_public (ev_identity e)) ->
  inst_handle C d e i0 em = (i', out, Panic) ->
  peer_i e d i0 em \/ chance_i e d i0 em \/ pieces_host (fun e => inst_handle C d e i0 em) e \/ no_key e em.
Proof.
  intros [SS SA SD] WI T T0 R EQ PV H. unfold inst_handle in H. unfold wire_in in WI. unfold peer_i, chance_i, no_key.
  destruct (em_version em) eqn:EV.
  - destruct (em_message em); try discriminate H; contradiction.
  - destruct (em_message em) as [|m|m|m|m|m|m|m|m|m] eqn:EM; try discriminate H; try contradiction; cbv beta iota zeta in H; cbn [in_ake set_assembler] in H.
    + (* DH-Commit *)
      destruct (ake_handle_dhcommit C (in_ake i0) m (ev_dh e)) as [st [r|x|]] eqn:A; [|discriminate H|right; left; now apply dhcommit_panic in A].
      apply injecting_panic in H; [|now symmetry|solve [auto]|assumption|assumption|cbn; now rewrite EQ|now destruct r]. destruct H as (b & U & H).
      right. right. left. exists b. eexists _, _. split; [exact U|]. split; [|shelve]. unfold inst_handle. rewrite EV, EM. cbv beta iota zeta.
      cbn [in_ake set_assembler]. change (ev_dh (with_size e (length b))) with (ev_dh e). rewrite A. exact H.
      Unshelve. discriminate.
    + destruct (ake_handle_dhkey C (ev_dsa e) (ev_nonce e) (in_ake i0) m) as [st [r|x|]] eqn:A;
        [|discriminate H|right; right; right; apply dhkey_panic in A; auto].
      apply injecting_panic in H; [|now symmetry|solve [auto]|assumption|assumption|cbn; now rewrite EQ|exact I]. destruct H as (b & U & H).
      right. right. left. exists b. eexists _, _. split; [exact U|]. split; [|shelve]. unfold inst_handle. rewrite EV, EM. cbv beta iota zeta.
      cbn [in_ake set_assembler]. change (ev_dsa (with_size e (length b))) with (ev_dsa e).
      change (ev_nonce (with_size e (length b))) with (ev_nonce e). rewrite A. exact H.
      Unshelve. discriminate.
    + destruct (ake_handle_reveal C (ev_dsa e) (ev_nonce e) (in_ake i0) m) as [st [[mat r]|x|]] eqn:A;
        [|discriminate H|right; right; right; apply reveal_panic in A; auto].
      assert (K : exists our enc hash, in_ake i0 = AkeAwaitingRevealSig our enc hash /\
          reveal_result C (ev_dsa e) (ev_nonce e) our enc hash m = Ok (mat, r)).
      { unfold ake_handle_reveal in A. destruct (in_ake i0) as [| |our enc hash|]; try discriminate A.
        exists our, enc, hash. split; [reflexivity|]. destruct (reveal_result C _ _ _ _ _ _) as [[? ?]|?|]; congruence. }
      destruct K as (our & enc & hash & K1 & K2). pose proof (reveal_mat C _ _ _ _ _ _ _ _ K2) as [M1 M2].
      destruct (secure C d e _ (em_sender em) (MatAKE mat)) as [j|x|] eqn:SE; [|discriminate H|].
      2: { apply secure3_panic in SE; [|apply (verified_nonzero C); [exact g_pos|exact M2]].
           destruct SE as [SE|SE]; [left; split; [exact SE|eauto 8]|right; left]. rewrite M1 in SE. eauto 8. }
      apply injecting_panic in H; [|now symmetry|solve [auto]|assumption|assumption|cbn; now rewrite EQ|exact I]. destruct H as (b & U & H).
      right. right. left. exists b. eexists _, _. split; [exact U|]. split; [|shelve]. unfold inst_handle. rewrite EV, EM. cbv beta iota zeta.
      cbn [in_ake set_assembler]. change (ev_dsa (with_size e (length b))) with (ev_dsa e).
      change (ev_nonce (with_size e (length b))) with (ev_nonce e). rewrite A.
      match goal with |- context [secure C d (with_size e (length b)) ?a ?t ?mm] => change (secure C d (with_size e (length b)) a t mm) with (secure C d e a t mm) end.
      cbn [in_receiver set_assembler] in *. rewrite SE. exact H.
      Unshelve. discriminate.
    + destruct (ake_handle_signature C (in_ake i0) m) as [st [mat|x|]] eqn:A;
        [|discriminate H|now apply signature_panic in A].
      assert (K : exists our gy sh prev, in_ake i0 = AkeAwaitingSig our gy sh prev /\ signature_result C our gy sh m = Ok mat).
      { unfold ake_handle_signature in A. destruct (in_ake i0) as [| | |our gy sh prev]; try discriminate A.
        exists our, gy, sh, prev. split; [reflexivity|]. destruct (signature_result C _ _ _ _) as [?|?|]; congruence. }
      destruct K as (our & gy & sh & prev & K1 & K2). pose proof (signature_mat C _ _ _ _ _ K2) as [M1 M2].
      rewrite K1 in SA. cbn [ake_in] in SA.
      destruct (secure C d e _ (em_sender em) (MatAKE mat)) as [j|x|] eqn:SE; [discriminate H|discriminate H|].
      apply secure3_panic in SE; [|rewrite M2; apply (verified_nonzero C); [exact g_pos|exact SA]].
      destruct SE as [SE|SE]; [left; split; [exact SE|eauto 10]|right; left]. rewrite M1 in SE. eauto 8.
    + destruct WI as (K1 & K2 & K3).
      apply data3_panic in H; auto; [|cbn; now rewrite EQ].
      destruct H as [H|[H|[(b & i1 & r1 & U & F & NR)|H]]]; [left; exact H|right; left; exact H|right; right; left|right; right; right; auto].
      exists b, i1, r1. split; [exact U|]. split; [|exact NR]. unfold inst_handle. rewrite EV, EM. exact F.
  - destruct (em_message em) as [|m|m|m|m|m|m|m|m|m] eqn:EM; try discriminate H; try contradiction; cbv beta iota zeta in H.
    + destruct WI as (W1 & W2 & W3).
      destruct (dake_handle_identity C _ _ _ _ _ _ _) as [st [r|x|]] eqn:A; [|discriminate H|].
      2: { apply (identity_panic C GO) in A; auto. destruct A as [A|A]; auto. }
      apply injecting_panic in H; [|now symmetry|solve [auto]|assumption|assumption|cbn; now rewrite EQ|now destruct r]. destruct H as (b & U & H).
      right. right. left. exists b. eexists _, _. split; [exact U|]. split; [|shelve]. unfold inst_handle. rewrite EV, EM. cbv beta iota zeta.
      match goal with |- context [dake_handle_identity C ?a ?b ?c ?st ?m ?x ?y] =>
        change (dake_handle_identity C a b c st m x y) with (dake_handle_identity C (ev_dake_host e) (ev_dake e) (ev_ring e) st m x y) end.
      rewrite A. exact H.
      Unshelve. discriminate.
    + destruct WI as (W1 & W2 & W3).
      destruct (dake_handle_auth_r C _ _ _ _ _ _ _ _ _) as [st [[mat r]|x|]] eqn:A; [|discriminate H|].
      2: { apply (auth_r_panic C GO) in A; auto. destruct A as (w & A1 & [A|A]); eauto 6. }
      destruct (inject d e i0 V4 (em_sender em) (MAuthI r)) as [o|x|] eqn:J.
      { rewrite secure4_ok in H. discriminate H. }
      { discriminate H. }
      rewrite <- EQ in J. apply inject_panic in J; [|solve [auto]|assumption|assumption|now rewrite EQ|exact I]. destruct J as (b & U & J).
      right. right. left. exists b. eexists _, _. split; [exact U|]. split; [|shelve]. unfold inst_handle. rewrite EV, EM. cbv beta iota zeta.
      match goal with |- context [dake_handle_auth_r C ?a ?b ?c ?dd ?n ?st ?m ?x ?y] =>
        change (dake_handle_auth_r C a b c dd n st m x y) with
          (dake_handle_auth_r C (ev_dake_host e) (ev_ring e) (sr_ecdh (ev_send e)) (sr_dh (ev_send e)) (ev_now e) st m x y) end.
      rewrite A, <- EQ, J, secure4_ok. reflexivity.
      Unshelve. discriminate.
    + destruct (dake_handle_auth_i C _ _ _ _ _) as [st [mat|x|]] eqn:A; [rewrite secure4_ok in H; discriminate H|discriminate H|].
      apply (auth_i_panic C GO) in A; [|exact SD]. destruct A as (w & A1 & [A|A]); eauto 6.
    + destruct WI as (K1 & K2).
      apply data4_panic in H; auto; [|now rewrite EQ].
      destruct H as [H|[H|(b & i1 & r1 & U & F & NR)]]; [left; exact H|right; left; exact H|right; right; left].
      exists b, i1, r1. split; [exact U|]. split; [|exact NR]. unfold inst_handle. rewrite EV, EM. exact F.
  - destruct (em_message em); try discriminate H; contradiction.
Qed.

End WithCrypto.
