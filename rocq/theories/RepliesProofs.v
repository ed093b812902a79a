(* Every message that a session sends because it received one is the next step of a protocol. *)
From Verif Require Import Base BaseLemmas Types Crypto CryptoProofs Encoding EncodingProofs Messages Fragment KeyManager
  DataV3 Ratchet DataV4 AKE DAKE SMP SMP4 Protocol Session SpecWire SpecData3 SpecData4 SpecSession
  DataV3Proofs DataV4Proofs History3Proofs History4Proofs SessionProofs SessionInvProofs SessionSendProofs SessionRecvProofs SessionLemmas
  NetAKEProofs NetDAKEProofs StartProofs SpecFollow SMPTypeProofs FollowProofs SpecReplies.
From Coq Require Import Lia ZifyN ZifyNat.
Import SpecSession.
Local Open Scope N_scope.

Section WithCrypto.
Context (C : Crypto).

Lemma bstr_error : OTR_ERROR_PREFIX ++ UNREADABLE_TEXT = UNREADABLE_REPLY. Proof. reflexivity. Qed.

(** ** The records of the Socialist Millionaire Protocol *)

Ltac nr := unfold next_record; cbn [tlv_type]; lia.
Ltac unop E := repeat (let x := fresh in let e := fresh in apply bind_ok in E; destruct E as (x & e & E); try clear e).
Ltac unum E ms := repeat (destruct ms as [|? ms]; try discriminate E); unop E.
Ltac unop4 X := repeat (apply bind_ok in X; let v := fresh in destruct X as (v & _ & X); try (match type of v with (_ * _)%type => destruct v end)).

Definition next_outcome (a : N) (o : smp_outcome) : Prop :=
  match o with
  | SmpReply _ r | SmpSuccess (Some r) | SmpFailed (Some r) => next_record a (tlv_type r)
  | SmpAborted true => a <> 6
  | _ => True
  end.
Lemma smp_dispatch_next h rnd c t o : smp_dispatch C h rnd c t = Ok o -> next_outcome (tlv_type t) o.
Proof.
  unfold smp_dispatch. cbv zeta. unfold TLV_SMP_1, TLV_SMP_1Q, TLV_SMP_2, TLV_SMP_3, TLV_SMP_4, TLV_SMP_ABORT. intros E.
  destruct (_ || _) eqn:T1 in E.
  { assert (TT : tlv_type t = 2 \/ tlv_type t = 7) by (apply Bool.orb_true_iff in T1; destruct T1 as [T1|T1]; apply N.eqb_eq in T1; auto).
    unfold smp_message_1 in E. destruct (sm_state c); try discriminate. destruct (smp1_question t) as [q buf].
    apply bind_ok in E. destruct E as ([ms rs] & _ & E). unum E ms. destruct (sh_answer h q); unop E; injection E as <-.
    - cbn [next_outcome]. left. split; [assumption|reflexivity].
    - cbn [next_outcome]. intros X. lia. }
  destruct (_ =? _) eqn:T2 in E.
  { apply N.eqb_eq in T2. unfold smp_message_2 in E. destruct (sm_state c); try discriminate. cbv zeta in E.
    apply bind_ok in E. destruct E as ([ms rs] & _ & E). unum E ms. injection E as <-. cbn [next_outcome]. right. left. split; [assumption|reflexivity]. }
  destruct (_ =? _) eqn:T3 in E.
  { apply N.eqb_eq in T3. unfold smp_message_3 in E. destruct (sm_state c); try discriminate. cbv zeta in E.
    apply bind_ok in E. destruct E as ([ms rs] & _ & E). unum E ms. injection E as <-. match goal with |- next_outcome _ (if ?b then _ else _) => destruct b end; right; right; left; (split; [assumption|reflexivity]). }
  destruct (_ =? _) in E.
  { unfold smp_message_4 in E. destruct (sm_state c); try discriminate. cbv zeta in E.
    apply bind_ok in E. destruct E as ([ms rs] & _ & E). unum E ms. injection E as <-. match goal with |- next_outcome _ (if ?b then _ else _) => destruct b end; exact I. }
  destruct (_ =? _) in E; [injection E as <-; exact I|discriminate].
Qed.
Lemma smp_handle_next h rnd c t c' r : smp_handle C h rnd c t = (c', Ok (Some r)) -> next_record (tlv_type t) (tlv_type r).
Proof.
  unfold smp_handle. intros H. destruct (smp_dispatch C h rnd c t) as [o|y|] eqn:E.
  - apply smp_dispatch_next in E. destruct o as [st y|y|y|[|]]; injection H as _ H; subst; cbn [next_outcome] in E; try assumption; try discriminate.
    right. right. right. auto.
  - assert (N6 : tlv_type t <> 6).
    { intros T. unfold smp_dispatch in E. cbv zeta in E. rewrite T in E. discriminate E. }
    destruct y; try discriminate H; injection H as _ <-; right; right; right; auto.
  - discriminate.
Qed.
Lemma smp4_handle_next a rnd c t c' r : smp4_handle C a rnd c t = (c', Ok (Some r)) ->
  (next_record (tlv_type t) (tlv_type r) /\ tlv_type r <> 6) \/ (tlv_type t = 6 /\ tlv_type r = 6).
Proof.
  unfold smp4_handle. intros H. destruct (smp4_dispatch C a rnd c t) as [[c1 x]|x|] eqn:E; try discriminate.
  injection H as _ ->. unfold smp4_dispatch in E. cbv zeta in E. unfold TLV_SMP_1, TLV_SMP_2, TLV_SMP_3, TLV_SMP_4, TLV_SMP_ABORT in E.
  destruct (_ =? _) eqn:T0 in E; [apply N.eqb_eq in T0; injection E as _ <-; right; split; [assumption|reflexivity]|].
  left. destruct (_ =? _) eqn:T1 in E.
  { apply N.eqb_eq in T1. apply bind_ok in E. destruct E as ([st y] & X & E). injection E as _ ->. unfold smp4_message_1 in X. cbv zeta in X.
    destruct (s4_state c); try discriminate. unop4 X. destruct (a _); [|discriminate]. unop4 X. injection X as _ <-. split; [|discriminate]. left. split; [auto|reflexivity]. }
  destruct (_ =? _) eqn:T2 in E.
  { apply N.eqb_eq in T2. apply bind_ok in E. destruct E as ([st y] & X & E). injection E as _ ->. unfold smp4_message_2 in X. cbv zeta in X.
    destruct (s4_state c); try discriminate. unop4 X. injection X as _ <-. split; [|discriminate]. right. left. split; [auto|reflexivity]. }
  destruct (_ =? _) eqn:T3 in E.
  { apply N.eqb_eq in T3. apply bind_ok in E. destruct E as ([st y] & X & E). injection E as _ ->. unfold smp4_message_3 in X. cbv zeta in X.
    destruct (s4_state c); try discriminate. unop4 X. injection X as _ <-. split; [|discriminate]. right. right. left. split; [auto|reflexivity]. }
  destruct (_ =? _) in E; [|discriminate]. apply bind_ok in E. destruct E as (? & _ & E). discriminate E.
Qed.

(** ** Data messages *)

Lemma prepare_tlv_just e st x st' m : prepare_tlv C e st x = Ok (st', m) -> p_status st = Encrypted -> smp_record (p_version st) x = true ->
  just x (x00 :: tlv_bytes x) /\ steps C st [SpecFollow.Sends m (x00 :: tlv_bytes x)] st' /\ p_version st' = p_version st /\ data_version m = p_version st.
Proof.
  unfold prepare_tlv. intros H SE SR. apply bind_ok in H. destruct H as (w & W & H).
  unfold write_tlv in W. destruct (N.ltb_spec (N.of_nat (length (tlv_value x))) 65536) as [L|L]; [|discriminate]. injection W as <-.
  pose proof (prepare_version _ _ _ _ _ _ _ H SE) as V. apply prepare_steps in H; [|assumption]. destruct H as (H & PV & _).
  split; [|split; [exact H|auto]]. split; [|reflexivity]. split; [|assumption].
  unfold smp_record in SR. apply Bool.andb_true_iff in SR. destruct SR as [_ SR]. apply N.leb_le in SR. destruct (p_version st); lia.
Qed.
Lemma finish_just d e i0 i sd reply report i' out r : p_status (in_state i) = Encrypted ->
  smp_finish C d e i0 i sd reply report = (i', out, r) ->
  (forall t, reply = Ok (Some t) -> smp_record (p_version (in_state i)) t = true) ->
  out = [] \/ exists t m, reply = Ok (Some t) /\ just t (x00 :: tlv_bytes t) /\ steps C (in_state i) [SpecFollow.Sends m (x00 :: tlv_bytes t)] (in_state i') /\
    data_version m = p_version (in_state i) /\ transported d e (in_receiver i) (p_version (in_state i)) m out.
Proof.
  unfold smp_finish. intros SE H TY. destruct reply as [[t|]|x|]; try (fin3 H; auto; fail).
  - destruct (prepare_tlv C e (in_state i) t) as [[s m]|x|] eqn:P; try (fin3 H; auto; fail).
    apply prepare_tlv_just in P; [|assumption|now apply TY]. destruct P as (J & ST & PV & DV).
    destruct (inject _ _ _ _ _ _) as [o|x|] eqn:I; try (fin3 H; auto; fail).
    apply inject_transported in I. cbn [in_receiver set_state] in I. rewrite PV in I.
    destruct report; fin3 H; auto; right; exists t, m; auto.
  - destruct report; fin3 H; auto.
Qed.

Lemma sends3 our their k c m w st : steps C (PEnc3 our their k c) [SpecFollow.Sends m w] st -> exists b, m = MData b.
Proof.
  destruct st; try (intros []; fail). intros (_ & _ & l & F & _). inversion F as [|? z ? ? Z]; subst. unfold is3 in Z.
  destruct m; try contradiction. eauto.
Qed.
Lemma sends4 our their k c m w st : steps C (PEnc4 our their k c) [SpecFollow.Sends m w] st -> exists b, m = MData4 b.
Proof.
  destruct st; try (intros []; fail). intros (_ & _ & l & F & _). inversion F as [|? z ? ? Z]; subst. unfold is4 in Z.
  destruct m; try contradiction. eauto.
Qed.

(* what the answer to a data message is *)
Definition same_kind (em : encoded_message) (m : encoded_type) : Prop :=
  em_version em = V3 /\ (exists a, em_message em = MData a) /\ (exists b, m = MData b) \/
  em_version em = V4 /\ (exists a, em_message em = MData4 a) /\ (exists b, m = MData4 b).
Definition data_answer (d : details) (st : pstate) (t : N) (em : encoded_message) (st' : pstate) (out : list bytes) : Prop :=
  out = [] \/ out = [UNREADABLE_REPLY] \/
  exists text a b m e, opens C st em text /\ steps C st [Reads em text; SpecFollow.Sends m (x00 :: tlv_bytes b)] st' /\
    one_record (em_version em) text a /\ just b (x00 :: tlv_bytes b) /\ same_kind em m /\
    transported d e t (em_version em) m out /\
    (next_record (tlv_type a) (tlv_type b) /\ (em_version em = V4 -> tlv_type b <> 6) \/ (em_version em = V4 /\ tlv_type a = 6 /\ tlv_type b = 6)).

Lemma data_error_out i ig x i' out r : data_error i ig x = (i', out, r) -> out = [] \/ out = [UNREADABLE_REPLY].
Proof. unfold data_error. intros H. destruct x; try (fin3 H; auto; fail). Qed.

Lemma data3_answer d e i em m i' out r : em_message em = MData m -> em_version em = V3 ->
  inst_data3 C d e i (em_sender em) (em_receiver em) m = (i', out, r) ->
  data_answer d (in_state i) (in_receiver i) em (in_state i') out.
Proof.
  unfold inst_data3. intros M VE H.
  assert (DE : forall j ig x, data_error j ig x = (i', out, r) -> data_answer d (in_state i) (in_receiver i) em (in_state i') out).
  { intros j ig x X. apply data_error_out in X. destruct X as [X|X]; [left|right; left]; exact X. }
  destruct (in_state i) as [|our their k smp|our their k smp|] eqn:S; cbn [p_handle3] in H; try (eapply DE; exact H).
  destruct (decrypt3 C k m _ (ev_ack e)) as [k' [text|x|]] eqn:D; cbn [after_decrypt] in H; [|eapply DE; exact H|fin3 H; left; reflexivity].
  destruct (parse_message text) as [[c tlvs|c]|x|] eqn:PM; cbn beta iota zeta in H; [|fin3 H; left; reflexivity|eapply DE; exact H|fin3 H; left; reflexivity].
  destruct (existsb is_smp3_tlv tlvs) eqn:EX; [|fin3 H; left; reflexivity].
  destruct (single_smp is_smp3_tlv tlvs) as [t|x|] eqn:SS; [|fin3 H; left; reflexivity..].
  destruct (smp_handle C _ _ smp t) as [smp' reply] eqn:SH.
  apply finish_just in H; [|reflexivity|intros w ->; eapply smp_handle_type; exact SH].
  destruct H as [H|(b & m' & -> & J & ST & DV & T)]; [left; exact H|]. right. right.
  cbn [in_state set_state in_receiver p_version] in ST, DV, T.
  exists text, t, b, m', e. rewrite VE.
  split; [apply (decrypts_opens C e _ _ (PEnc3 our their k' smp)); unfold decrypts; rewrite M; eauto|].
  split.
  { apply (steps_trans C _ [Reads em text] (PEnc3 our their k' smp') [_]); [|exact ST].
    split; [reflexivity|]. split; [reflexivity|].
    exists [Got3 m (encode_authenticator_data (em_sender em) (em_receiver em) m) (Some text)]. split.
    - repeat constructor. assumption.
    - eapply (r3_accept C our their k [] k); [constructor|exact D]. }
  split.
  { exists c, tlvs. split; [now apply parse_shows|]. exact (single_inv V3 _ _ _ smp_record3 SS). }
  split; [exact J|]. split; [left; apply sends3 in ST; eauto|]. split; [exact T|]. left. split; [eapply smp_handle_next; exact SH|discriminate].
Qed.
Lemma data4_answer d e i em m i' out r : em_message em = MData4 m -> em_version em = V4 ->
  inst_data4 C d e i (em_sender em) (em_receiver em) m = (i', out, r) ->
  data_answer d (in_state i) (in_receiver i) em (in_state i') out.
Proof.
  unfold inst_data4. intros M VE H.
  assert (DE : forall j ig x, data_error j ig x = (i', out, r) -> data_answer d (in_state i) (in_receiver i) em (in_state i') out).
  { intros j ig x X. apply data_error_out in X. destruct X as [X|X]; [left|right; left]; exact X. }
  destruct (data4_validate C m) as [[]|x|] eqn:VA; [|fin3 H; left; reflexivity..].
  destruct (in_state i) as [|our their k smp|our their k smp|] eqn:S; cbn [p_handle4] in H; try (eapply DE; exact H).
  destruct (decrypt4 C k m _ (ev_now e)) as [k' [text|x|]] eqn:D; cbn [after_decrypt] in H; [|eapply DE; exact H|fin3 H; left; reflexivity].
  assert (exists mk, authentic4 C k m (encode_authenticator_data4 (em_sender em) (em_receiver em) m) mk) as (mk & AM).
  { eapply decrypt4_authentic. exact D. }
  destruct (parse_message text) as [[c tlvs|c]|x|] eqn:PM; cbn beta iota zeta in H; [|fin3 H; left; reflexivity|eapply DE; exact H|fin3 H; left; reflexivity].
  destruct (existsb is_smp4_tlv tlvs) eqn:EX; [|fin3 H; left; reflexivity].
  destruct (single_smp is_smp4_tlv tlvs) as [t|x|] eqn:SS; [|fin3 H; left; reflexivity..].
  destruct (smp4_handle C _ _ smp t) as [smp' reply] eqn:SH.
  apply finish_just in H; [|reflexivity|intros w ->; eapply smp4_handle_type; exact SH].
  destruct H as [H|(b & m' & -> & J & ST & DV & T)]; [left; exact H|]. right. right.
  cbn [in_state set_state in_receiver p_version] in ST, DV, T.
  exists text, t, b, m', e. rewrite VE.
  split; [apply (decrypts_opens C e _ _ (PEnc4 our their k' smp)); unfold decrypts; rewrite M; eauto 6|].
  split.
  { apply (steps_trans C _ [Reads em text] (PEnc4 our their k' smp') [_]); [|exact ST].
    split; [reflexivity|]. split; [reflexivity|].
    exists [Took4 m (encode_authenticator_data4 (em_sender em) (em_receiver em) m) text mk]. split.
    - repeat constructor. assumption.
    - eapply (r4_accept C our their k [] k); [constructor|exact D|exact AM]. }
  split.
  { exists c, tlvs. split; [now apply parse_shows|]. exact (single_inv V4 _ _ _ smp_record4 SS). }
  split; [exact J|]. split; [right; apply sends4 in ST; eauto|]. split; [exact T|].
  apply smp4_handle_next in SH. tauto.
Qed.


(** ** Every message *)

Definition kx_next (m m' : encoded_type) : Prop :=
  match m, m' with
  | MDHCommit m, MDHCommit m' => be_val (dc_gx_hashed m) < be_val (dc_gx_hashed m') /\ exists g, dc_gx_hashed m' = sha256 C g
  | MDHCommit _, MDHKey _ | MDHKey _, MRevealSig _ | MRevealSig _, MSignature _ => True
  | MIdentity m, MIdentity m' => hashed_b C (id_b m) < hashed_b C (id_b m')
  | MIdentity _, MAuthR _ | MAuthR _, MAuthI _ => True
  | _, _ => False
  end.

Lemma dhcommit_next st m rnd st' r : ake_handle_dhcommit C st m rnd = (st', Ok r) ->
  kx_next (MDHCommit m) (match r with ReplyCommit c => MDHCommit c | ReplyKey k => MDHKey k end).
Proof.
  assert (FI : dhcommit_from_initial C st m rnd = (st', Ok r) -> exists k, r = ReplyKey k).
  { unfold dhcommit_from_initial. destruct (dh_generate C rnd); intros X; try discriminate. injection X as _ <-. eauto. }
  unfold ake_handle_dhcommit. intros H. destruct st as [|our r0|our ge gh|].
  - destruct (FI H) as (k & ->). exact I.
  - destruct (N.ltb_spec (be_val (dc_gx_hashed m)) (be_val (sha256 C (write_mpi (dh_public our))))) as [L|L].
    + injection H as _ <-. cbn [kx_next dhcommit_message dc_gx_hashed]. split; [exact L|eexists; reflexivity].
    + destruct (FI H) as (k & ->). exact I.
  - injection H as _ <-. exact I.
  - destruct (FI H) as (k & ->). exact I.
Qed.
Lemma identity_next h rnd ring st m acc con st' r : dake_handle_identity C h rnd ring st m acc con = (st', Ok r) ->
  kx_next (MIdentity m) (match r with ReplyIdentity m => MIdentity m | ReplyAuthR m => MAuthR m end).
Proof.
  unfold dake_handle_identity. intros H. destruct (identity_validate C m) as [bob|x|]; try discriminate. cbv zeta in H.
  assert (FI : (match answer_identity C h rnd ring m bob acc con with
        | Ok (w, r) => (DakeAwaitingAuthI w, Ok (ReplyAuthR r)) | Err e => (st, Err e) | Panic => (st, Panic) end) = (st', Ok r) ->
      kx_next (MIdentity m) (match r with ReplyIdentity m => MIdentity m | ReplyAuthR m => MAuthR m end)).
  { clear H. destruct (answer_identity _ _ _ _ _ _ _ _) as [[w a]|x|]; intros X; try discriminate. injection X as _ <-. exact I. }
  destruct st as [|w|w]; try exact (FI H).
  destruct (N.ltb_spec (hashed_b C (id_b m)) (hashed_b C (id_b (wr_identity w)))) as [L|L]; [|exact (FI H)].
  injection H as _ <-. exact L.
Qed.

Lemma handle_answer d e i em i' out r : inst_handle C d e i em = (i', out, r) -> r <> Panic ->
  (is_data_type (em_message em) /\ data_answer d (in_state i) (in_receiver i) em (in_state i') out) \/
  out = [] \/
  exists m', kx_next (em_message em) m' /\ transported d e (in_receiver i) (em_version em) m' out.
Proof.
  unfold inst_handle. intros H NP.
  assert (KX : forall b a o m x, injecting b a (inject d e b (em_version em) (em_sender em) m) x = (i', o, r) ->
    in_receiver b = in_receiver i -> transported d e (in_receiver i) (em_version em) m o).
  { intros b a o m x X R. apply injecting_inv in X.
    destruct X as [(X & -> & ->) | [(? & E0 & _) | (_ & ->)]]; [|now apply inject_no_err in E0|congruence].
    apply inject_transported in X. rewrite R in X. auto. }
  destruct (em_version em) eqn:V; destruct (em_message em) eqn:M;
    try (fin3 H; congruence); try (fin3 H; auto; fail).
  - right. destruct (ake_handle_dhcommit C _ _ _) as [st [a|x|]] eqn:A; [|fin3 H; auto|fin3 H; congruence].
    apply dhcommit_next in A. apply KX in H; [|reflexivity]. eauto.
  - right. destruct (ake_handle_dhkey C _ _ _ _) as [st [a|x|]] eqn:A; [|fin3 H; auto|fin3 H; congruence].
    apply KX in H; [|reflexivity]. right. eexists. split; [|exact H]. exact I.
  - right. destruct (ake_handle_reveal C _ _ _ _) as [st [[mat a]|x|]] eqn:A; [|fin3 H; auto|fin3 H; congruence].
    destruct (secure C _ _ _ _ _) as [i1|x|]; [|fin3 H; auto|fin3 H; congruence].
    apply KX in H; [|reflexivity]. right. eexists. split; [|exact H]. exact I.
  - right. left. destruct (ake_handle_signature C _ _) as [st [mat|x|]] eqn:A; [|fin3 H; auto|fin3 H; congruence].
    destruct (secure C _ _ _ _ _) as [i1|x|]; fin3 H; auto.
  - left. split; [exact I|]. eapply data3_answer in H; [|exact M|exact V]. exact H.
  - right. destruct (dake_handle_identity C _ _ _ _ _ _ _) as [st [a|x|]] eqn:A; [|fin3 H; auto|fin3 H; congruence].
    apply identity_next in A. apply KX in H; [|reflexivity]. eauto.
  - right. destruct (dake_handle_auth_r C _ _ _ _ _ _ _ _ _) as [st [[mat a]|x|]] eqn:A; [|fin3 H; auto|fin3 H; congruence].
    destruct (inject _ _ _ _ _ _) as [o|x|] eqn:J; [|fin3 H; auto|fin3 H; congruence]. apply inject_transported in J.
    right. exists (MAuthI a). split; [exact I|].
    destruct (secure C _ _ _ _ _) as [i1|x|]; fin3 H; try congruence; exact J.
  - right. left. destruct (dake_handle_auth_i C _ _ _ _ _) as [st [mat|x|]] eqn:A; [|fin3 H; auto|fin3 H; congruence].
    destruct (secure C _ _ _ _ _) as [i1|x|]; fin3 H; auto.
  - left. split; [exact I|]. eapply data4_answer in H; [|exact M|exact V]. exact H.
Qed.


(** ** Sessions *)

Definition echo4 (x y : utterance) : Prop := abort4 x /\ abort4 y.

Lemma just_one v r w : smp_record v r = true -> just r w -> one_record v w r.
Proof.
  intros SR (TR & ->). exists [], [r]. split.
  - exists [r]. split; [split; [intros []|]; split; [auto|]; right; cbn [app map concat]; now rewrite app_nil_r|].
    unfold smp_record in SR. apply Bool.andb_true_iff in SR. destruct SR as [SR _]. apply N.leb_le in SR. split; [repeat constructor; lia|].
    cbn [filter]. destruct (N.eqb_spec (tlv_type r) 0); [lia|reflexivity].
  - cbn [filter]. now rewrite SR.
Qed.

Lemma query_shape s out : query s = Ok out -> otr_disabled (de_policy (se_details s)) = false ->
  exists v, preferred (se_details s) v /\ out = [query_message v].
Proof.
  intros Q OD. assert (EN : enabled (se_details s)).
  { unfold enabled, allowed. unfold otr_disabled in OD. destruct (allow_v3 _), (allow_v4 _); cbn in OD; auto; discriminate. }
  destruct (query_eq _ EN) as (v & P & Q'). exists v. split; [exact P|congruence].
Qed.

Lemma initiate_answer e s v s' out r : initiate C e s v 0 = (s', out, r) -> r <> Panic -> sinv s ->
  out = [] \/ exists m, (match m with MDHCommit _ | MIdentity _ => True | _ => False end) /\ transported (se_details s) e 0 v m out.
Proof.
  intros H NP SI. assert (RI : in_receiver (entry 0 (se_instances s)) = 0) by (apply sinv_entry; assumption).
  apply initiate_inv in H; [|assumption]. destruct H as (i' & H & _). unfold inst_initiate in H.
  assert (KX : forall a o m x, injecting (entry 0 (se_instances s)) a (inject (se_details s) e (entry 0 (se_instances s)) v (in_receiver (entry 0 (se_instances s))) m) x = (i', o, r) ->
    transported (se_details s) e 0 v m o).
  { intros a o m x X. apply injecting_inv in X.
    destruct X as [(X & -> & ->) | [(? & E0 & _) | (_ & ->)]]; [|now apply inject_no_err in E0|congruence].
    apply inject_transported in X. now rewrite RI in X. }
  destruct v; try (fin3 H; auto; fail).
  - destruct (ake_initiate C _ _) as [[st m]|x|]; [|fin3 H; auto..]. apply KX in H. right. exists (MDHCommit m). auto.
  - destruct (dake_initiate C _ _ _) as [st [m|x|]]; [|fin3 H; auto..]. apply KX in H. right. exists (MIdentity m). auto.
Qed.

Lemma encoded_answer e s em s' out r x : receive_encoded C e s em = (s', out, r) -> r <> Panic -> sinv s ->
  ut_message x = MsgEncoded em -> (forall text, opens C (state_of s (em_sender em)) em text -> ut_inside x = text) ->
  out = [] \/ exists y, answers_with C s x s' out y /\ (next C x y \/ echo4 x y).
Proof.
  intros H NP SI X IN. apply encoded_split in H; [|assumption].
  destruct H as [(_ & -> & _)|[(_ & -> & _)|(VH & NZ & AL & i0 & i' & AD & H & ->)]]; auto.
  destruct (adopted_same _ _ _ _ AD) as (ES & ER & _). rewrite entry_state in ES.
  rewrite (sinv_entry _ _ SI) in ER.
  apply handle_answer in H; [|assumption]. rewrite ES, ER in H.
  destruct H as [(DT & [->|[->|(text & a & b & m & e' & O & ST & OR & J & DV & T & N)]])|[->|(m & N & T)]]; auto.
  - right. exists (mkUtterance (MsgError UNREADABLE_TEXT) []). split; [reflexivity|]. left. unfold next. rewrite X. exact DT.
  - right. exists (mkUtterance (MsgEncoded (mkEncoded (em_version em) (de_tag (se_details s)) (em_sender em) m)) (x00 :: tlv_bytes b)).
    pose proof (IN _ O) as EI.
    split.
    + unfold answers_with. cbn [ut_message em_sender em_receiver em_version em_message ut_inside]. split; [reflexivity|].
      split; [eauto|]. intros _. exists em. split; [exact X|]. split; [reflexivity|]. rewrite EI, state_put_same. exact ST.
    + destruct DV as [(V & (a0 & EM) & (b0 & ->))|(V & (a0 & EM) & (b0 & ->))]; rewrite V in *.
      * left. unfold next. rewrite X, EM. cbn [ut_message em_message ut_inside]. exists a, b. rewrite EI.
        split; [exact OR|]. split; [exact J|]. destruct N as [(N & _)|(N & _)]; [exact N|discriminate].
      * destruct N as [(N & N6)|(_ & NA & NB)].
        -- left. unfold next. rewrite X, EM. cbn [ut_message em_message ut_inside]. exists a, b. rewrite EI.
           split; [exact OR|]. split; [exact J|]. split; [exact N|auto].
        -- right. split.
           ++ exists em, a0, a. rewrite EI. auto.
           ++ eexists _, b0, b. split; [reflexivity|]. split; [reflexivity|]. split; [|exact NB].
              apply just_one; [|exact J]. unfold smp_record. now rewrite NB.
  - right. exists (mkUtterance (MsgEncoded (mkEncoded (em_version em) (de_tag (se_details s)) (em_sender em) m)) []).
    split.
    + unfold answers_with. cbn [ut_message em_sender em_receiver em_version em_message ut_inside]. split; [reflexivity|].
      split; [eauto|]. intros D. exfalso. destruct (em_message em), m; try contradiction N; contradiction D.
    + left. unfold next. rewrite X. cbn [ut_message em_message]. destruct (em_message em), m; try contradiction N; exact N.
Qed.

Theorem receive_answer e s p s' out r x : receive C e s p = (s', out, r) -> r <> Panic -> sinv s -> hears C s p x ->
  out = [] \/ exists y, answers_with C s x s' out y /\ (next C x y \/ echo4 x y).
Proof.
  intros H NP SI (b & CO & PB & IN). apply receive_split in H; [|assumption].
  destruct H as [(_ & _ & -> & _)|[(OD & b' & CO' & H)|(_ & _ & -> & _)]]; auto.
  assert (b' = b) as -> by (eapply completes_fun; eassumption). clear CO'.
  assert (SD : se_details (stored s p) = se_details s) by apply stored_details.
  assert (AE : forall y, answers_with C (stored s p) x s' out y -> answers_with C s x s' out y).
  { intros y. unfold answers_with. rewrite SD. destruct (ut_message y); auto.
    intros (A & B & D). split; [exact A|]. split; [exact B|]. intros DT. destruct (D DT) as (em & E1 & E2 & E3).
    exists em. split; [exact E1|]. split; [exact E2|]. now rewrite stored_state in E3. }
  assert (SI' := sinv_stored _ p SI).
  apply message_split in H; [|assumption]. rewrite PB in H.
  assert (INI : forall v s1 r1, initiate C e (stored s p) v 0 = (s1, out, r1) -> r1 <> Panic ->
    (match ut_message x with MsgQuery _ | MsgTagged _ _ => True | _ => False end) ->
    out = [] \/ exists y, answers_with C s x s' out y /\ (next C x y \/ echo4 x y)).
  { intros v s1 r1 I1 NP1 XX. apply initiate_answer in I1; [|assumption|assumption]. rewrite SD in I1.
    destruct I1 as [->|(m & MM & T)]; [auto|]. right.
    exists (mkUtterance (MsgEncoded (mkEncoded v (de_tag (se_details s)) 0 m)) []). split.
    - unfold answers_with. cbn [ut_message em_sender em_receiver em_version em_message ut_inside]. split; [reflexivity|].
      split; [eauto|]. intros D. exfalso. destruct m; try contradiction MM; contradiction D.
    - left. unfold next. cbn [ut_message em_message]. destruct (ut_message x); try contradiction XX; exact MM. }
  destruct H as [(y & E & _ & -> & _)|[(t & E & _ & D)|[(t & E & D)|[(vs & t & E & D)|[(vs & E & D)|(em & E & D)]]]]]; auto.
  - destruct D as [(_ & [(_ & Q)|(_ & ->)])|(y & _ & -> & _)]; auto. injection E as E.
    apply query_shape in Q; [|now rewrite SD]. rewrite SD in Q. destruct Q as (v & P & ->). right.
    exists (mkUtterance (MsgQuery [v]) []). split; [exists v; auto|]. left. unfold next. now rewrite E.
  - apply deliver_inv in D; [|assumption]. destruct D as (_ & -> & _). auto.
  - injection E as E. destruct D as [(_ & D)|(_ & v & s1 & r1 & _ & I1 & NP1 & _)].
    + apply deliver_inv in D; [|assumption]. destruct D as (_ & -> & _). auto.
    + eapply INI; [exact I1|exact NP1|now rewrite E].
  - injection E as E. destruct D as [(_ & _ & -> & _)|(v & r1 & _ & I1 & R)]; [auto|].
    eapply INI; [exact I1|destruct R as [((m & ->) & _)|(_ & m & ->)]; discriminate|now rewrite E].
  - injection E as E. apply (encoded_answer _ _ _ _ _ _ x) in D; try assumption.
    + destruct D as [D|(y & D & N)]; [auto|]. right. exists y. auto.
    + intros text. rewrite stored_state. apply IN. exact E.
Qed.

(* nothing is sent unless a complete message arrives *)
Theorem receive_silent e s p s' out r : receive C e s p = (s', out, r) -> r <> Panic -> sinv s -> out <> [] ->
  exists b m, completes s p b /\ parse C b = Ok m.
Proof.
  intros H NP SI NO. apply receive_split in H; [|assumption].
  destruct H as [(_ & _ & -> & _)|[(OD & b' & CO' & H)|(_ & _ & -> & _)]]; try congruence.
  apply message_split in H; [|assumption]. exists b'.
  destruct H as [(y & E & _ & -> & _)|[(t & E & D)|[(t & E & D)|[(vs & t & E & D)|[(vs & E & D)|(em & E & D)]]]]]; eauto. congruence.
Qed.


(** ** Chains of answers end *)

Lemma dies_by x : (forall y, next C x y \/ echo4 x y -> dies_out C y) -> dies_out C x.
Proof.
  intros F. constructor. intros d h s e p s' out r HI HE H NP.
  destruct (receive_answer _ _ _ _ _ _ _ H NP (proj1 (history_inv _ _ _ _ HI)) HE) as [->|(y & A & N)]; [auto|].
  right. exists y. auto.
Qed.
Definition carries_type (x : utterance) (q : encoded_type -> Prop) : Prop := exists em, ut_message x = MsgEncoded em /\ q (em_message em).

Lemma not_abort x em : ut_message x = MsgEncoded em -> (forall m, em_message em <> MData4 m) -> ~ abort4 x.
Proof. intros X N (em' & m & a & E & M & _). rewrite X in E. injection E as <-. now apply N in M. Qed.

Ltac answers X EM :=
  apply dies_by; let y := fresh "y" in let N := fresh "N" in let A := fresh "A" in
  intros y [N|(A & _)]; [|exfalso; eapply not_abort in A; [exact A|exact X|intros ? ?; congruence]];
  unfold next in N; rewrite X, EM in N; let em' := fresh "em'" in let Y := fresh "Y" in let EY := fresh "EY" in
  destruct (ut_message y) as [?|?|? ?|?|em'] eqn:Y; try contradiction N; destruct (em_message em') eqn:EY; try contradiction N; eauto.

Lemma signature_dies x em m : ut_message x = MsgEncoded em -> em_message em = MSignature m -> dies_out C x.
Proof. intros X EM. answers X EM. Qed.
Lemma reveal_dies x em m : ut_message x = MsgEncoded em -> em_message em = MRevealSig m -> dies_out C x.
Proof. intros X EM. answers X EM. eapply signature_dies; eassumption. Qed.
Lemma key_dies x em m : ut_message x = MsgEncoded em -> em_message em = MDHKey m -> dies_out C x.
Proof. intros X EM. answers X EM. eapply reveal_dies; eassumption. Qed.
Lemma authi_dies x em m : ut_message x = MsgEncoded em -> em_message em = MAuthI m -> dies_out C x.
Proof. intros X EM. answers X EM. Qed.
Lemma authr_dies x em m : ut_message x = MsgEncoded em -> em_message em = MAuthR m -> dies_out C x.
Proof. intros X EM. answers X EM. eapply authi_dies; eassumption. Qed.

Lemma one_record_fun v w a b : one_record v w a -> one_record v w b -> a = b.
Proof.
  intros (c & l & S & F) (c' & l' & S' & F'). apply parse_shows in S. apply parse_shows in S'. rewrite S in S'. injection S' as <- <-. congruence.
Qed.

Lemma be_val_short b n : (length b <= n)%nat -> be_val b < 256 ^ N.of_nat n.
Proof.
  intros L. eapply N.lt_le_trans; [apply be_val_bound|]. apply N.pow_le_mono_r; [discriminate|]. lia.
Qed.

Lemma commit_dies k : forall x em m, ut_message x = MsgEncoded em -> em_message em = MDHCommit m ->
  256 ^ N.of_nat 32 - be_val (dc_gx_hashed m) = k -> dies_out C x.
Proof.
  induction k as [k IH] using (well_founded_induction N.lt_wf_0). intros x em m X EM K. answers X EM.
  - destruct N as (L & g & G).
    pose proof (be_val_short (sha256 C g) 32 (eq_ind_r (fun n => n <= 32)%nat (le_n 32) (sha256_length C g))) as B. rewrite <- G in B.
    eapply (IH _); [|eassumption|eassumption|reflexivity].
    revert K B L. generalize (256 ^ N.of_nat 32), (be_val (dc_gx_hashed m)), (be_val (dc_gx_hashed m0)). clear. intros. lia.
  - eapply key_dies; eassumption.
Qed.
Lemma identity_dies k : forall x em m, ut_message x = MsgEncoded em -> em_message em = MIdentity m ->
  256 ^ N.of_nat 32 - hashed_b C (id_b m) = k -> dies_out C x.
Proof.
  induction k as [k IH] using (well_founded_induction N.lt_wf_0). intros x em m X EM K. answers X EM.
  - pose proof (be_val_short _ 32 (eq_ind_r (fun n => n <= 32)%nat (le_n 32) (shake256_length C 32 (write_mpi (id_b m0))))) as B. fold (hashed_b C (id_b m0)) in B.
    eapply (IH _); [|eassumption|eassumption|reflexivity].
    revert K B N. generalize (256 ^ N.of_nat 32), (hashed_b C (id_b m)), (hashed_b C (id_b m0)). clear. intros. lia.
  - eapply authr_dies; eassumption.
Qed.
Lemma offer_dies x : (match ut_message x with MsgQuery _ | MsgTagged _ _ => True | _ => False end) -> dies_out C x.
Proof.
  intros X. apply dies_by. intros y [N|((em & m & a & E & _) & _)]; [|rewrite E in X; contradiction].
  unfold next in N. destruct (ut_message x); try contradiction; destruct (ut_message y) as [?|?|? ?|?|em'] eqn:Y; try contradiction;
    destruct (em_message em') eqn:EY; try contradiction;
    first [eapply commit_dies; [eassumption|eassumption|reflexivity] | eapply identity_dies; [eassumption|eassumption|reflexivity]].
Qed.
Lemma error_dies x t : ut_message x = MsgError t -> dies_out C x.
Proof.
  intros X. apply dies_by. intros y [N|((em & m & a & E & _) & _)]; [|rewrite E in X; discriminate].
  unfold next in N. rewrite X in N. apply offer_dies. destruct (ut_message y); try contradiction; exact I.
Qed.

(* how many messages of the Socialist Millionaire Protocol may follow *)
Definition rank (a : N) : nat := if a =? 6 then 0 else if a =? 5 then 1 else if a =? 4 then 2 else if a =? 3 then 3 else 4.
Lemma rank_next a b : next_record a b -> (rank b < rank a)%nat.
Proof.
  unfold next_record. intros [([-> | ->] & ->)|[(-> & ->)|[(-> & ->)|(N & ->)]]]; try (cbn; lia).
  unfold rank at 1. cbn [N.eqb Pos.eqb]. unfold rank. destruct (N.eqb_spec a 6); [contradiction|].
  destruct (a =? 5), (a =? 4), (a =? 3); lia.
Qed.
Lemma data3_dies n : forall x em m, ut_message x = MsgEncoded em -> em_message em = MData m ->
  (forall a, one_record V3 (ut_inside x) a -> (rank (tlv_type a) < n)%nat) -> dies_out C x.
Proof.
  induction n as [n IH] using (well_founded_induction lt_wf). intros x em m X EM K.
  apply dies_by. intros y [N|(A & _)]; [|exfalso; eapply not_abort in A; [exact A|exact X|intros ? ?; congruence]].
  unfold next in N. rewrite X, EM in N. destruct (ut_message y) as [?|?|? ?|?|em'] eqn:Y; try contradiction.
  - eapply error_dies. exact Y.
  - destruct (em_message em') eqn:EY; try contradiction. destruct N as (a & b & OA & J & N).
    eapply (IH (rank (tlv_type a))); [apply K; exact OA|exact Y|exact EY|].
    intros b' OB. pose proof (rank_next _ _ N) as R.
    destruct (N.eq_dec (tlv_type b) (tlv_type b')) as [E|NE]; [rewrite <- E; exact R|].
    exfalso. apply NE. f_equal. eapply one_record_fun; [|exact OB]. apply just_one; [|exact J].
    unfold smp_record. destruct N as [(_ & ->)|[(_ & ->)|[(_ & ->)|(_ & ->)]]]; reflexivity.
Qed.
Lemma data4_dies n : forall x em m, ut_message x = MsgEncoded em -> em_message em = MData4 m -> ~ abort4 x ->
  (forall a, one_record V4 (ut_inside x) a -> (rank (tlv_type a) < n)%nat) -> dies_out C x.
Proof.
  induction n as [n IH] using (well_founded_induction lt_wf). intros x em m X EM NA K.
  apply dies_by. intros y [N|(A & _)]; [|contradiction].
  unfold next in N. rewrite X, EM in N. destruct (ut_message y) as [?|?|? ?|?|em'] eqn:Y; try contradiction.
  - eapply error_dies. exact Y.
  - destruct (em_message em') eqn:EY; try contradiction. destruct N as (a & b & OA & J & N & N6).
    assert (OB : one_record V4 (ut_inside y) b).
    { apply just_one; [|exact J]. unfold smp_record. destruct N as [(_ & ->)|[(_ & ->)|[(_ & ->)|(_ & ->)]]]; reflexivity. }
    eapply (IH (rank (tlv_type a))); [apply K; exact OA|exact Y|exact EY| |].
    + intros (em2 & m2 & b' & _ & _ & OB' & B6). apply N6. rewrite <- B6. f_equal. eapply one_record_fun; eassumption.
    + intros b' OB'. rewrite <- (one_record_fun _ _ _ _ OB OB'). now apply rank_next.
Qed.

Theorem all_die x : ~ abort4 x -> dies_out C x.
Proof.
  intros NA. assert (RK : forall a, (rank a < 5)%nat).
  { intros a. unfold rank. destruct (a =? 6), (a =? 5), (a =? 4), (a =? 3); lia. }
  destruct (ut_message x) as [t|t|vs t|vs|em] eqn:X.
  - eapply error_dies. exact X.
  - apply dies_by. intros y [N|(A & _)]; [|contradiction]. unfold next in N. rewrite X in N. destruct (ut_message y); contradiction.
  - apply offer_dies. now rewrite X.
  - apply offer_dies. now rewrite X.
  - destruct (em_message em) eqn:EM;
      first [eapply commit_dies; [eassumption|eassumption|reflexivity] | eapply identity_dies; [eassumption|eassumption|reflexivity]
        | eapply key_dies; eassumption | eapply reveal_dies; eassumption | eapply signature_dies; eassumption
        | eapply authr_dies; eassumption | eapply authi_dies; eassumption
        | eapply data3_dies; [eassumption|eassumption|intros; apply RK]
        | eapply data4_dies; [eassumption|eassumption|assumption|intros; apply RK]
        | idtac ].
    all: answers X EM.
Qed.

End WithCrypto.
