(* Following the keys of one conversation through the calls of a session. *)
From Verif Require Import Base BaseLemmas Types Crypto CryptoProofs Encoding EncodingProofs Messages Fragment KeyManager
  DataV3 Ratchet DataV4 AKE DAKE SMP SMP4 Protocol Session SpecData3 SpecData4 SpecSession
  DataV3Proofs DataV4Proofs History3Proofs History4Proofs SessionProofs SessionInvProofs SessionSendProofs SessionRecvProofs SessionLemmas
  NetAKEProofs NetDAKEProofs StartProofs SpecSMP SpecSMP4 SMPHistProofs SMP4HistProofs SpecFollow SpecSmpFollow SMPTypeProofs.
From Coq Require Import Lia ZifyN ZifyNat.
Local Open Scope N_scope.

Section WithCrypto.
Context (C : Crypto).

(** ** Joining runs *)

Lemma run3_join our their k0 h1 k1 h2 k2 :
  run3 C our their k0 h1 k1 -> run3 C our their k1 h2 k2 -> run3 C our their k0 (h1 ++ h2) k2.
Proof.
  intros A B. induction B; rewrite ?app_nil_r, ?app_assoc; [assumption|..]; econstructor; eassumption.
Qed.
Lemma run4_join our their k0 h1 k1 h2 k2 :
  run4 C our their k0 h1 k1 -> run4 C our their k1 h2 k2 -> run4 C our their k0 (h1 ++ h2) k2.
Proof.
  intros A B. induction B; rewrite ?app_nil_r, ?app_assoc; [assumption|..]; econstructor; eassumption.
Qed.
Lemma begun3_history our their h k : begun3 C our their h k -> history3 C our their h k.
Proof. intros (key & tkey & r0 & r1 & k0 & N0 & R). exists 1, key, 1, tkey, r0, r1, k0. auto. Qed.
Lemma begun3_join our their h1 k1 h2 k2 :
  begun3 C our their h1 k1 -> run3 C our their k1 h2 k2 -> begun3 C our their (h1 ++ h2) k2.
Proof.
  intros (key & tkey & r0 & r1 & k0 & N0 & R) B. exists key, tkey, r0, r1, k0. split; [exact N0|].
  eapply run3_join; eassumption.
Qed.
Lemma history4_join our their h1 k1 h2 k2 :
  history4 C our their h1 k1 -> run4 C our their k1 h2 k2 -> history4 C our their (h1 ++ h2) k2.
Proof. intros (d0 & N0 & R) B. exists d0. split; [exact N0|]. eapply run4_join; eassumption. Qed.

(** ** Steps of the keys *)

Notation steps := (SpecFollow.steps C).
Lemma steps_trans a g1 b g2 c : steps a g1 b -> steps b g2 c -> steps a (g1 ++ g2) c.
Proof.
  destruct a as [|our their k smp|our their k smp|]; try easy;
    destruct b as [|our1 their1 k1 smp1|our1 their1 k1 smp1|]; try easy;
    destruct c as [|our2 their2 k2 smp2|our2 their2 k2 smp2|]; try easy;
    intros (-> & -> & l1 & F1 & R1) (-> & -> & l2 & F2 & R2);
    (split; [reflexivity|]); (split; [reflexivity|]); exists (l1 ++ l2); (split; [now apply Forall2_app|]);
    [eapply run3_join|eapply run4_join]; eassumption.
Qed.
Lemma steps_refl st : p_status st = Encrypted -> steps st [] st.
Proof.
  destruct st as [|our their k smp|our their k smp|]; try discriminate; intros _;
    (split; [reflexivity|]); (split; [reflexivity|]); exists []; split; constructor.
Qed.
Lemma steps_same3 our their k smp smp' : steps (PEnc3 our their k smp) [] (PEnc3 our their k smp').
Proof. split; [reflexivity|]. split; [reflexivity|]. exists []. split; constructor. Qed.
Lemma steps_same4 our their k smp smp' : steps (PEnc4 our their k smp) [] (PEnc4 our their k smp').
Proof. split; [reflexivity|]. split; [reflexivity|]. exists []. split; constructor. Qed.
Lemma steps_followed d t g1 st g2 st' : keys_followed C d t g1 st -> steps st g2 st' -> keys_followed C d t (g1 ++ g2) st'.
Proof.
  destruct st as [|our their k smp|our their k smp|]; try easy; destruct st' as [|our' their' k' smp'|our' their' k' smp'|]; try easy;
    intros (-> & -> & l1 & F1 & R1) (-> & -> & l2 & F2 & R2);
    (split; [reflexivity|]); (split; [reflexivity|]); exists (l1 ++ l2); (split; [now apply Forall2_app|]);
    [eapply begun3_join|eapply history4_join]; eassumption.
Qed.
Lemma steps_status st g st' : steps st g st' -> p_status st = Encrypted /\ p_status st' = Encrypted.
Proof. destruct st, st'; cbn; try easy. Qed.

(** ** Steps of the Socialist Millionaire Protocol *)

Definition smp_steps (st : pstate) (x : list smp_did) (st' : pstate) : Prop :=
  match st, st' with
  | PEnc3 _ _ _ c, PEnc3 _ _ _ c' =>
      sm_ssid c' = sm_ssid c /\ sm_their_fp c' = sm_their_fp c /\
      exists ys, Forall2 smp_is3 x ys /\ forall evs, smp_hist C (sm_ssid c) (sm_their_fp c) evs c ->
        smp_hist C (sm_ssid c) (sm_their_fp c) (rev ys ++ evs) c'
  | PEnc4 _ _ _ c, PEnc4 _ _ _ c' =>
      s4_us c' = s4_us c /\ s4_them c' = s4_them c /\ s4_ssid c' = s4_ssid c /\
      exists ys, Forall2 smp_is4 x ys /\ forall evs, smp4_hist C (s4_us c) (s4_them c) (s4_ssid c) evs c ->
        smp4_hist C (s4_us c) (s4_them c) (s4_ssid c) (rev ys ++ evs) c'
  | _, _ => False
  end.
Lemma smp_steps_trans a g1 b g2 c : smp_steps a g1 b -> smp_steps b g2 c -> smp_steps a (g1 ++ g2) c.
Proof.
  destruct a as [|our their k smp|our their k smp|]; try easy;
    destruct b as [|our1 their1 k1 smp1|our1 their1 k1 smp1|]; try easy;
    destruct c as [|our2 their2 k2 smp2|our2 their2 k2 smp2|]; try easy; cbn [smp_steps].
  - intros (E1 & E2 & l1 & F1 & R1) (E3 & E4 & l2 & F2 & R2). rewrite E1, E2 in *.
    split; [congruence|]. split; [congruence|]. exists (l1 ++ l2). split; [now apply Forall2_app|].
    intros evs H. rewrite rev_app_distr, <- app_assoc. auto.
  - intros (E1 & E2 & E0 & l1 & F1 & R1) (E3 & E4 & E5 & l2 & F2 & R2). rewrite E1, E2, E0 in *.
    split; [congruence|]. split; [congruence|]. split; [congruence|]. exists (l1 ++ l2). split; [now apply Forall2_app|].
    intros evs H. rewrite rev_app_distr, <- app_assoc. auto.
Qed.
Lemma smp_same3 our their k our' their' k' smp : smp_steps (PEnc3 our their k smp) [] (PEnc3 our' their' k' smp).
Proof. repeat split. exists []. split; [constructor|auto]. Qed.
Lemma smp_same4 our their k our' their' k' smp : smp_steps (PEnc4 our their k smp) [] (PEnc4 our' their' k' smp).
Proof. repeat split. exists []. split; [constructor|auto]. Qed.
Lemma smp_steps_refl st : p_status st = Encrypted -> smp_steps st [] st.
Proof. destruct st; try discriminate; intros _; [apply smp_same3|apply smp_same4]. Qed.
Definition smp_kept (st st' : pstate) : Prop :=
  match st, st' with
  | PEnc3 _ _ _ c, PEnc3 _ _ _ c' => c' = c
  | PEnc4 _ _ _ c, PEnc4 _ _ _ c' => c' = c
  | _, _ => False
  end.
Lemma smp_kept_steps st st' : smp_kept st st' -> smp_steps st [] st'.
Proof. destruct st, st'; cbn [smp_kept]; try contradiction; intros ->; [apply smp_same3|apply smp_same4]. Qed.
Lemma smp_kept_refl st : p_status st = Encrypted -> smp_kept st st.
Proof. destruct st; try discriminate; reflexivity. Qed.
Lemma smp_steps_followed xs st x st' : smp_followed C xs st -> smp_steps st x st' -> smp_followed C (xs ++ x) st'.
Proof.
  destruct st as [|our their k smp|our their k smp|]; try easy; destruct st' as [|our' their' k' smp'|our' their' k' smp'|]; try easy;
    cbn [smp_followed smp_steps].
  - intros (l1 & F1 & R1) (E1 & E2 & l2 & F2 & R2). rewrite E1, E2. exists (l1 ++ l2). split; [now apply Forall2_app|].
    rewrite rev_app_distr. auto.
  - intros (l1 & F1 & R1) (E1 & E2 & E0 & l2 & F2 & R2). rewrite E1, E2, E0. exists (l1 ++ l2). split; [now apply Forall2_app|].
    rewrite rev_app_distr. auto.
Qed.

Lemma smp_handle_ids h rnd c t c' r : smp_handle C h rnd c t = (c', r) -> sm_ssid c' = sm_ssid c /\ sm_their_fp c' = sm_their_fp c.
Proof.
  unfold smp_handle. intros H.
  destruct (smp_dispatch _ _ _ _ _) as [[st x|x|x|[|]]|x|]; try destruct x;
    (assert (E := f_equal fst H); cbn [fst] in E; rewrite <- E; split; reflexivity).
Qed.
Lemma smp_handle_no_err h rnd c t c' x : smp_handle C h rnd c t = (c', Err x) -> False.
Proof.
  unfold smp_handle. intros H.
  destruct (smp_dispatch _ _ _ _ _) as [[st y|y|y|[|]]|y|]; try destruct y; discriminate H.
Qed.
Lemma smp_initiate_ids h rnd c sec q c' r : smp_initiate C h rnd c sec q = (c', r) -> sm_ssid c' = sm_ssid c /\ sm_their_fp c' = sm_their_fp c.
Proof.
  unfold smp_initiate. intros H. cbv zeta in H. destruct (sm_state c); [destruct (host_fp C h)|..];
    repeat match type of H with context [if ?b then _ else _] => destruct b | context [match ?b with _ => _ end] => destruct b end;
    assert (E := f_equal fst H); cbn [fst] in E; rewrite <- E; split; reflexivity.
Qed.
Lemma smp4_handle_ids a rnd c t c' r : smp4_handle C a rnd c t = (c', r) ->
  s4_us c' = s4_us c /\ s4_them c' = s4_them c /\ s4_ssid c' = s4_ssid c.
Proof.
  unfold smp4_handle. intros H. destruct (smp4_dispatch _ _ _ _ _) as [[c1 x]|x|] eqn:E.
  - injection H as <- <-. unfold smp4_dispatch in E. cbv zeta in E.
    destruct (_ =? _) in E; [injection E as <- _; auto|].
    destruct (_ =? _) in E; [apply bind_ok in E; destruct E as ([st y] & _ & E); injection E as <- _; auto|].
    destruct (_ =? _) in E; [apply bind_ok in E; destruct E as ([st y] & _ & E); injection E as <- _; auto|].
    destruct (_ =? _) in E; [apply bind_ok in E; destruct E as ([st y] & _ & E); injection E as <- _; auto|].
    destruct (_ =? _) in E; [|discriminate]. apply bind_ok in E. destruct E as (st & _ & E). injection E as <- _. auto.
  - injection H as <- <-. auto.
  - injection H as <- <-. auto.
Qed.
Lemma smp4_handle_no_err a rnd c t c' x : smp4_handle C a rnd c t = (c', Err x) -> False.
Proof. unfold smp4_handle. destruct (smp4_dispatch _ _ _ _ _) as [[c1 y]|y|]; discriminate. Qed.
Lemma smp4_initiate_ids rnd c sec q c' r : smp4_initiate C rnd c sec q = (c', r) ->
  s4_us c' = s4_us c /\ s4_them c' = s4_them c /\ s4_ssid c' = s4_ssid c.
Proof.
  unfold smp4_initiate. intros H. cbv zeta in H. destruct (s4_status c);
    repeat match type of H with context [match ?b with _ => _ end] => destruct b end;
    assert (E := f_equal fst H); cbn [fst] in E; rewrite <- E; auto.
Qed.

Lemma smp_handle_steps our their k our' their' k' smp h rnd t smp' reply : smp_handle C h rnd smp t = (smp', Ok reply) ->
  smp_steps (PEnc3 our their k smp) [SmpHandles (sh_answer h) t reply] (PEnc3 our' their' k' smp').
Proof.
  intros H. destruct (smp_handle_ids _ _ _ _ _ _ H) as [E1 E2]. split; [assumption|]. split; [assumption|].
  exists [Received h t reply]. split; [repeat constructor|]. intros evs Hh. cbn [rev app]. eapply hist_handle; eassumption.
Qed.
Lemma smp4_handle_steps our their k our' their' k' smp a rnd t smp' reply : smp4_handle C a rnd smp t = (smp', Ok reply) ->
  smp_steps (PEnc4 our their k smp) [SmpHandles a t reply] (PEnc4 our' their' k' smp').
Proof.
  intros H. destruct (smp4_handle_ids _ _ _ _ _ _ H) as (E1 & E2 & E3). split; [assumption|]. split; [assumption|]. split; [assumption|].
  exists [Received4 a t reply]. split; [repeat constructor|]. intros evs Hh. cbn [rev app]. eapply hist4_handle; eassumption.
Qed.

Lemma prepare_steps st ig c rnd st' m : p_prepare C st ig c rnd = Ok (st', m) -> p_status st = Encrypted ->
  steps st [Sends m c] st' /\ p_version st' = p_version st /\ smp_kept st st'.
Proof.
  destruct st as [|our their k smp|our their k smp|]; try discriminate; cbn [p_prepare]; intros H _;
    apply bind_ok in H; destruct H as ([y k'] & E & H); injection H as <- <-; (split; [|split; [reflexivity|reflexivity]]);
    (split; [reflexivity|]); (split; [reflexivity|]).
  - exists [Sent3 y c]. split; [repeat constructor|]. apply (r3_send C our their k [] k ig c y k'); [constructor|exact E].
  - exists [Sent4 y c]. split; [repeat constructor|]. apply (r4_send C our their k [] k ig c rnd y k'); [constructor|exact E].
Qed.
Lemma prepare_version st ig c rnd st' m : p_prepare C st ig c rnd = Ok (st', m) -> p_status st = Encrypted -> data_version m = p_version st.
Proof.
  destruct st; try discriminate; cbn [p_prepare]; intros H _; apply bind_ok in H; destruct H as ([y k'] & _ & H); now injection H as _ <-.
Qed.
Lemma prepare_tlv_steps e st x st' m : prepare_tlv C e st x = Ok (st', m) -> p_status st = Encrypted -> smp_record (p_version st) x = true ->
  exists r, only_smp (data_version m) r /\ steps st [Sends m r] st' /\ p_version st' = p_version st /\ smp_kept st st'.
Proof.
  unfold prepare_tlv. intros H SE SR. apply bind_ok in H. destruct H as (w & W & H).
  unfold write_tlv in W. destruct (N.ltb_spec (N.of_nat (length (tlv_value x))) 65536) as [L|L]; [|discriminate]. injection W as <-.
  rewrite <- (prepare_version _ _ _ _ _ _ H SE) in SR. apply prepare_steps in H; [|assumption]. eexists. split; [|exact H]. exists x. split; [exact SR|]. split; [|reflexivity]. split; [|assumption].
  unfold smp_record in SR. apply Bool.andb_true_iff in SR. destruct SR as [_ SR]. apply N.leb_le in SR. destruct (data_version m); lia.
Qed.

Lemma smp_finish_steps d e i0 i sd reply report i' out r : p_status (in_state i) = Encrypted ->
  smp_finish C d e i0 i sd reply report = (i', out, r) -> r <> Panic ->
  (forall t, reply = Ok (Some t) -> smp_record (p_version (in_state i)) t = true) ->
  (r = report \/ exists x, r = Err x) /\ reply <> Panic /\ smp_kept (in_state i) (in_state i') /\
  (steps (in_state i) [] (in_state i') \/
   (reply <> Ok None /\ exists m w v, only_smp (data_version m) w /\ steps (in_state i) [Sends m w] (in_state i') /\
      transported d e (in_receiver i) v m out)).
Proof.
  unfold smp_finish. intros SE H NP TY. destruct reply as [[t|]|x|].
  - destruct (prepare_tlv C e (in_state i) t) as [[s m]|x|] eqn:P; [| |fin3 H; congruence].
    + apply prepare_tlv_steps in P; [|assumption|now apply TY]. destruct P as (w & OS & P & PV & PS).
      destruct (inject _ _ _ _ _ _) as [o|x|] eqn:I; [|now apply inject_no_err in I|fin3 H; congruence].
      apply inject_transported in I. destruct report; fin3 H; try congruence; (split; [eauto|]);
        (split; [discriminate|]); (split; [exact PS|]); right; (split; [discriminate|]);
        exists m, w, (p_version s); (split; [exact OS|split; [exact P|exact I]]).
    + fin3 H. split; [eauto|]. split; [discriminate|]. split; [now apply smp_kept_refl|]. left. now apply steps_refl.
  - destruct report; fin3 H; try congruence; (split; [eauto|]); (split; [discriminate|]); (split; [now apply smp_kept_refl|]);
      left; now apply steps_refl.
  - fin3 H. split; [eauto|]. split; [discriminate|]. split; [now apply smp_kept_refl|]. left. now apply steps_refl.
  - fin3 H. congruence.
Qed.

(* what reading em did, judging by the injected messages and the answer *)
Definition reading (d : details) (t : N) (em : encoded_message) (out : list bytes) (r : res user_message) (g : list did) : Prop :=
  (g = [] \/ g = [Refuses em] \/ exists text, g = [Reads em text] \/
     exists m w v e, g = [Reads em text; Sends m w] /\ only_smp (data_version m) w /\ transported d e t v m out) /\
  (forall c x, r = Ok (UMConfidential t c x) -> exists text, g = [Reads em text] /\
     parse_message text = Ok (Confidential c x) /\ existsb (smp_record (data_version (em_message em))) x = false).

Lemma reading_nothing d t em out r : (forall c x, r <> Ok (UMConfidential t c x)) -> reading d t em out r [].
Proof. intros N. split; [auto|]. intros c x E. now apply N in E. Qed.

(* and the same for the Socialist Millionaire Protocol *)
Definition completed (st : pstate) : Prop :=
  match st with
  | PEnc3 _ _ _ c => sm_status c = SmpCompleted
  | PEnc4 _ _ _ c => s4_status c = S4Completed
  | _ => False
  end.
Definition handling (t : N) (em : encoded_message) (r : res user_message) (g : list did) (x : list smp_did) (st' : pstate) : Prop :=
  (x = [] \/ exists text content tlvs rest answer record reply,
     g = Reads em text :: rest /\ parse_message text = Ok (Confidential content tlvs) /\
     filter (smp_record (em_version em)) tlvs = [record] /\
     x = [SmpHandles answer record reply] /\ (reply = None -> rest = [])) /\
  (r = Ok (UMSmpSucceeded t) -> x <> [] /\ completed st') /\
  (r = Ok (UMSmpFailed t) -> x <> []).
Definition no_verdict (t : N) (r : res user_message) : Prop := r <> Ok (UMSmpSucceeded t) /\ r <> Ok (UMSmpFailed t).
Lemma handling_nothing t em r g st' : no_verdict t r -> handling t em r g [] st'.
Proof. intros [N1 N2]. split; [auto|]. split; intros E; contradiction. Qed.

Lemma smp_report_not r st t c x : smp_report r st <> Ok (UMConfidential t c x).
Proof. destruct st; discriminate. Qed.
Lemma smp4_report_not r st t c x : smp4_report r st <> Ok (UMConfidential t c x).
Proof. destruct st; discriminate. Qed.

Lemma data_error_not i ig x i' out r t c y : data_error i ig x = (i', out, r) -> r <> Ok (UMConfidential t c y).
Proof.
  unfold data_error. intros H. destruct x; try (fin3 H; discriminate).
  destruct (serialize_message _); fin3 H; try discriminate. destruct ig; discriminate.
Qed.

Lemma data_error_verdict i ig x i' out r t : data_error i ig x = (i', out, r) -> no_verdict t r.
Proof.
  unfold data_error, no_verdict. intros H. destruct x; try (fin3 H; split; discriminate).
  destruct (serialize_message _); fin3 H; try (split; discriminate). destruct ig; split; discriminate.
Qed.
Lemma single_inv v p tlvs t : (forall t, p t = smp_record v t) -> single_smp p tlvs = Ok t -> filter (smp_record v) tlvs = [t].
Proof.
  intros E. unfold single_smp. rewrite (filter_ext _ _ E). destruct (filter _ tlvs) as [|a [|b l]]; try discriminate. congruence.
Qed.

Lemma existsb_smp v p l : (forall t, p t = smp_record v t) -> existsb p l = existsb (smp_record v) l.
Proof. intros E. induction l as [|t l IH]; [reflexivity|]. cbn [existsb]. now rewrite E, IH. Qed.

Lemma data3_steps d e i em m i' out r : em_message em = MData m -> em_version em = V3 -> p_status (in_state i) = Encrypted ->
  inst_data3 C d e i (em_sender em) (em_receiver em) m = (i', out, r) -> r <> Panic ->
  p_status (in_state i') <> Encrypted \/
  exists g x, steps (in_state i) g (in_state i') /\ smp_steps (in_state i) x (in_state i') /\
    reading d (in_receiver i) em out r g /\ handling (in_receiver i) em r g x (in_state i').
Proof.
  unfold inst_data3. intros M VE SE H NP.
  destruct (in_state i) as [|our their k smp|our their k smp|] eqn:S; try discriminate; cbn [p_handle3] in H.
  2:{ right. exists [], []. pose proof (fun c y => data_error_not _ _ _ _ _ _ (in_receiver i) c y H) as DN.
      pose proof (data_error_verdict _ _ _ _ _ _ (in_receiver i) H) as DV.
      apply data_error_inst in H. subst i'. split; [cbn [in_state set_state]; apply steps_same4|].
      split; [apply smp_same4|]. split; [now apply reading_nothing|now apply handling_nothing]. }
  destruct (decrypt3 C k m _ (ev_ack e)) as [k' [text|x|]] eqn:D.
  - assert (RD : forall smp', steps (PEnc3 our their k smp) [Reads em text] (PEnc3 our their k' smp')).
    { intros smp'. split; [reflexivity|]. split; [reflexivity|].
      exists [Got3 m (encode_authenticator_data (em_sender em) (em_receiver em) m) (Some text)]. split.
      - repeat constructor. assumption.
      - eapply (r3_accept C our their k [] k); [constructor|exact D]. }
    cbn [after_decrypt] in H.
    destruct (parse_message text) as [[c tlvs|c]|x|] eqn:PM; cbn beta iota zeta in H.
    + destruct (existsb is_smp3_tlv tlvs) eqn:EX.
      * right. destruct (single_smp is_smp3_tlv tlvs) as [t|x|] eqn:SS; [| |fin3 H; congruence].
        -- destruct (smp_handle C _ _ smp t) as [smp' reply] eqn:SH.
           apply smp_finish_steps in H; [|reflexivity|assumption|intros w ->; eapply smp_handle_type; exact SH]. destruct H as (R & RP & PS & O).
           destruct reply as [reply|y|]; [|now apply smp_handle_no_err in SH|congruence].
           assert (NC : forall c x, r <> Ok (UMConfidential (in_receiver i) c x)).
           { intros c' x'. destruct R as [->|(y & ->)]; [apply smp_report_not|discriminate]. }
           cbn [in_state set_state in_receiver] in O, PS, R.
           assert (HS := smp_steps_trans _ _ _ _ _ (smp_handle_steps our their k our their k' _ _ _ _ _ _ SH) (smp_kept_steps _ _ PS)). rewrite app_nil_r in HS.
           apply (single_inv V3 _ _ _ smp_record3) in SS. rewrite <- VE in SS.
           assert (CM : r = Ok (UMSmpSucceeded (in_receiver i)) -> completed (in_state i')).
           { intros ->. destruct R as [R|(y & R)]; [|discriminate].
             assert (E : sm_status smp' = SmpCompleted) by (destruct (sm_status smp'); discriminate || reflexivity).
             destruct (in_state i'); try contradiction. cbn [smp_kept] in PS. cbn [completed]. congruence. }
           destruct O as [O|(RN & m' & w & v & OS & O & T)].
           ++ exists [Reads em text]. eexists. split; [exact (steps_trans _ [Reads em text] _ [] _ (RD smp') O)|].
              split; [exact HS|]. split; [split; [eauto|]; intros c' x' E; now apply NC in E|].
              split; [right; do 7 eexists; eauto 6|]. split; [intros E; split; [discriminate|auto]|discriminate].
           ++ exists [Reads em text; Sends m' w]. eexists. split; [exact (steps_trans _ [Reads em text] _ [_] _ (RD smp') O)|].
              split; [exact HS|]. split; [split; [eauto 12|]; intros c' x' E; now apply NC in E|].
              split; [right; do 7 eexists; do 4 (split; [eassumption || reflexivity|]); congruence|].
              split; [intros E; split; [discriminate|auto]|discriminate].
        -- fin3 H. exists [Reads em text], []. split; [apply RD|]. split; [apply smp_same3|]. split; [split; [eauto|discriminate]|].
           apply handling_nothing. split; discriminate.
      * right. fin3 H. exists [Reads em text], []. split; [apply RD|]. split; [apply smp_same3|]. split.
        -- split; [eauto|]. intros c' x' E. injection E as <- <-. exists text. repeat (split; [reflexivity || assumption|]). rewrite M. cbn [data_version]. now rewrite <- (existsb_smp V3 _ _ smp_record3).
        -- apply handling_nothing. split; discriminate.
    + left. fin3 H. discriminate.
    + right. exists [Reads em text], []. pose proof (data_error_verdict _ _ _ _ _ _ (in_receiver i) H) as DV. pose proof (fun c y => data_error_not _ _ _ _ _ _ (in_receiver i) c y H) as DN.
      apply data_error_inst in H. subst i'. split; [apply RD|]. split; [apply smp_same3|].
      split; [split; [eauto|]; intros c' x' E; now apply DN in E|now apply handling_nothing].
    + fin3 H. congruence.
  - right. exists [Refuses em], []. cbn [after_decrypt] in H.
    pose proof (fun c y => data_error_not _ _ _ _ _ _ (in_receiver i) c y H) as DN.
    pose proof (data_error_verdict _ _ _ _ _ _ (in_receiver i) H) as DV.
    apply data_error_inst in H. subst i'. split.
    + split; [reflexivity|]. split; [reflexivity|].
      exists [Got3 m (encode_authenticator_data (em_sender em) (em_receiver em) m) None]. split.
      * repeat constructor. assumption.
      * eapply (r3_refuse C our their k [] k); [constructor|exact D].
    + split; [apply smp_same3|]. split; [split; [eauto|]; intros c' x' E; now apply DN in E|now apply handling_nothing].
  - cbn [after_decrypt] in H. fin3 H. congruence.
Qed.

Lemma data4_steps d e i em m i' out r : em_message em = MData4 m -> em_version em = V4 -> p_status (in_state i) = Encrypted ->
  inst_data4 C d e i (em_sender em) (em_receiver em) m = (i', out, r) -> r <> Panic ->
  p_status (in_state i') <> Encrypted \/
  exists g x, steps (in_state i) g (in_state i') /\ smp_steps (in_state i) x (in_state i') /\
    reading d (in_receiver i) em out r g /\ handling (in_receiver i) em r g x (in_state i').
Proof.
  unfold inst_data4. intros M VE SE H NP.
  destruct (data4_validate C m) as [[]|x|]; [|fin3 H|fin3 H; congruence].
  2:{ right. exists [], []. split; [now apply steps_refl|]. split; [now apply smp_steps_refl|].
      split; [apply reading_nothing; discriminate|apply handling_nothing; split; discriminate]. }
  destruct (in_state i) as [|our their k smp|our their k smp|] eqn:S; try discriminate; cbn [p_handle4] in H.
  1:{ right. exists [], []. pose proof (fun c y => data_error_not _ _ _ _ _ _ (in_receiver i) c y H) as DN.
      pose proof (data_error_verdict _ _ _ _ _ _ (in_receiver i) H) as DV.
      apply data_error_inst in H. subst i'. split; [cbn [in_state set_state]; apply steps_same3|].
      split; [apply smp_same3|]. split; [now apply reading_nothing|now apply handling_nothing]. }
  destruct (decrypt4 C k m _ (ev_now e)) as [k' [text|x|]] eqn:D.
  - assert (exists mk, authentic4 C k m (encode_authenticator_data4 (em_sender em) (em_receiver em) m) mk) as (mk & AM).
    { eapply decrypt4_authentic. exact D. }
    assert (RD : forall smp', steps (PEnc4 our their k smp) [Reads em text] (PEnc4 our their k' smp')).
    { intros smp'. split; [reflexivity|]. split; [reflexivity|].
      exists [Took4 m (encode_authenticator_data4 (em_sender em) (em_receiver em) m) text mk]. split.
      - repeat constructor. assumption.
      - eapply (r4_accept C our their k [] k); [constructor|exact D|exact AM]. }
    cbn [after_decrypt] in H.
    destruct (parse_message text) as [[c tlvs|c]|x|] eqn:PM; cbn beta iota zeta in H.
    + destruct (existsb is_smp4_tlv tlvs) eqn:EX.
      * right. destruct (single_smp is_smp4_tlv tlvs) as [t|x|] eqn:SS; [| |fin3 H; congruence].
        -- destruct (smp4_handle C _ _ smp t) as [smp' reply] eqn:SH.
           apply smp_finish_steps in H; [|reflexivity|assumption|intros w ->; eapply smp4_handle_type; exact SH]. destruct H as (R & RP & PS & O).
           destruct reply as [reply|y|]; [|now apply smp4_handle_no_err in SH|congruence].
           assert (NC : forall c x, r <> Ok (UMConfidential (in_receiver i) c x)).
           { intros c' x'. destruct R as [->|(y & ->)]; [apply smp4_report_not|discriminate]. }
           cbn [in_state set_state in_receiver] in O, PS, R.
           assert (HS := smp_steps_trans _ _ _ _ _ (smp4_handle_steps our their k our their k' _ _ _ _ _ _ SH) (smp_kept_steps _ _ PS)). rewrite app_nil_r in HS.
           apply (single_inv V4 _ _ _ smp_record4) in SS. rewrite <- VE in SS.
           assert (CM : r = Ok (UMSmpSucceeded (in_receiver i)) -> completed (in_state i')).
           { intros ->. destruct R as [R|(y & R)]; [|discriminate].
             assert (E : s4_status smp' = S4Completed) by (destruct (s4_status smp'); discriminate || reflexivity).
             destruct (in_state i'); try contradiction. cbn [smp_kept] in PS. cbn [completed]. congruence. }
           destruct O as [O|(RN & m' & w & v & OS & O & T)].
           ++ exists [Reads em text]. eexists. split; [exact (steps_trans _ [Reads em text] _ [] _ (RD smp') O)|].
              split; [exact HS|]. split; [split; [eauto|]; intros c' x' E; now apply NC in E|].
              split; [right; do 7 eexists; eauto 6|]. split; [intros E; split; [discriminate|auto]|discriminate].
           ++ exists [Reads em text; Sends m' w]. eexists. split; [exact (steps_trans _ [Reads em text] _ [_] _ (RD smp') O)|].
              split; [exact HS|]. split; [split; [eauto 12|]; intros c' x' E; now apply NC in E|].
              split; [right; do 7 eexists; do 4 (split; [eassumption || reflexivity|]); congruence|].
              split; [intros E; split; [discriminate|auto]|discriminate].
        -- fin3 H. exists [Reads em text], []. split; [apply RD|]. split; [apply smp_same4|]. split; [split; [eauto|discriminate]|].
           apply handling_nothing. split; discriminate.
      * right. fin3 H. exists [Reads em text], []. split; [apply RD|]. split; [apply smp_same4|]. split.
        -- split; [eauto|]. intros c' x' E. injection E as <- <-. exists text. repeat (split; [reflexivity || assumption|]). rewrite M. cbn [data_version]. now rewrite <- (existsb_smp V4 _ _ smp_record4).
        -- apply handling_nothing. split; discriminate.
    + left. fin3 H. discriminate.
    + right. exists [Reads em text], []. pose proof (data_error_verdict _ _ _ _ _ _ (in_receiver i) H) as DV. pose proof (fun c y => data_error_not _ _ _ _ _ _ (in_receiver i) c y H) as DN.
      apply data_error_inst in H. subst i'. split; [apply RD|]. split; [apply smp_same4|].
      split; [split; [eauto|]; intros c' x' E; now apply DN in E|now apply handling_nothing].
    + fin3 H. congruence.
  - right. exists [Refuses em], []. cbn [after_decrypt] in H.
    pose proof (fun c y => data_error_not _ _ _ _ _ _ (in_receiver i) c y H) as DN.
    pose proof (data_error_verdict _ _ _ _ _ _ (in_receiver i) H) as DV.
    apply data_error_inst in H. subst i'. split.
    + split; [reflexivity|]. split; [reflexivity|].
      exists [Refused4 m (encode_authenticator_data4 (em_sender em) (em_receiver em) m)]. split.
      * repeat constructor. assumption.
      * eapply (r4_refuse C our their k [] k); [constructor|exact D].
    + split; [apply smp_same4|]. split; [split; [eauto|]; intros c' x' E; now apply DN in E|now apply handling_nothing].
  - cbn [after_decrypt] in H. fin3 H. congruence.
Qed.

(** ** Starting *)

Lemma auth_r_ratchet h ring er dr now st m account contact st' mat r :
  dake_handle_auth_r C h ring er dr now st m account contact = (st', Ok (mat, r)) -> starts_receiver4 C (dm_ratchet mat).
Proof.
  unfold dake_handle_auth_r. intros H. destruct st as [|w|w]; try discriminate.
  destruct (let* _ := _ in _) as [x|x|] eqn:E; try discriminate. injection H as _ ->.
  apply bind_ok in E. destruct E as (alice & _ & E). cbn zeta in E.
  apply bind_ok in E. destruct E as (bob & _ & E).
  apply bind_ok in E. destruct E as (z & _ & E). apply bind_ok in E. destruct E as (sigma & _ & E).
  apply bind_ok in E. destruct E as (s1 & _ & E). apply bind_ok in E. destruct E as (s2 & M & E).
  apply bind_ok in E. destruct E as (ra & R & E). injection E as <- _. cbn [dm_ratchet].
  do 10 eexists. split; [exact M|exact R].
Qed.
Lemma auth_i_ratchet now st m account contact st' mat :
  dake_handle_auth_i C now st m account contact = (st', Ok mat) -> starts_sender4 C (dm_ratchet mat).
Proof.
  unfold dake_handle_auth_i. intros H. destruct st as [|w|w]; try discriminate. injection H as _ E.
  apply bind_ok in E. destruct E as (alice & _ & E). cbn zeta in E.
  apply bind_ok in E. destruct E as (bob & _ & E). apply bind_ok in E. destruct E as (z & _ & E).
  apply bind_ok in E. destruct E as (sh & M & E). apply bind_ok in E. destruct E as (bob' & _ & E).
  injection E as <-. cbn [dm_ratchet]. do 7 eexists. split; [exact M|reflexivity].
Qed.
Lemma reported_not_start v t text r u : reported v t text r -> r <> Ok (UMSessionStarted u).
Proof.
  unfold reported. destruct (parse_message text) as [[c x|c]|x|]; [|intros ->; discriminate..|intros []].
  destruct (existsb _ _); [|intros ->; discriminate]. intros [->|[->|[->|(y & ->)]]]; discriminate.
Qed.
Lemma refuses_not_start i i' ig out r u : refuses i i' ig out r -> r <> Ok (UMSessionStarted u).
Proof. intros (_ & -> & _). destruct ig; discriminate. Qed.

Lemma handle_follow d e i em i' out r : inst_handle C d e i em = (i', out, r) -> r <> Panic -> in_receiver i = em_sender em ->
  (r = Ok (UMSessionStarted (in_receiver i)) /\ keys_followed C d (in_receiver i) [] (in_state i') /\
    smp_followed C [] (in_state i')) \/
  (r <> Ok (UMSessionStarted (in_receiver i)) /\
   (p_status (in_state i') <> Encrypted \/
    exists g x, steps (in_state i) g (in_state i') /\ smp_steps (in_state i) x (in_state i') /\
      reading d (in_receiver i) em out r g /\ handling (in_receiver i) em r g x (in_state i'))).
Proof.
  intros H NP RE.
  assert (SAME : forall st, st = in_state i -> (forall c x, r <> Ok (UMConfidential (in_receiver i) c x)) -> no_verdict (in_receiver i) r ->
    p_status st <> Encrypted \/ exists g x, steps (in_state i) g st /\ smp_steps (in_state i) x st /\
      reading d (in_receiver i) em out r g /\ handling (in_receiver i) em r g x st).
  { intros st -> NC NV. destruct (p_status (in_state i)) eqn:SE; [left; congruence| |left; congruence].
    right. exists [], []. split; [now apply steps_refl|]. split; [now apply smp_steps_refl|].
    split; [now apply reading_nothing|now apply handling_nothing]. }
  assert (QUIET : in_state i' = in_state i -> (r = Ok UMNone \/ exists x, r = Err x) ->
    r <> Ok (UMSessionStarted (in_receiver i)) /\
   (p_status (in_state i') <> Encrypted \/
    exists g x, steps (in_state i) g (in_state i') /\ smp_steps (in_state i) x (in_state i') /\
      reading d (in_receiver i) em out r g /\ handling (in_receiver i) em r g x (in_state i'))).
  { intros S [->|(x & ->)]; (split; [discriminate|]); apply SAME; try assumption; try split; discriminate. }
  assert (KX : forall b a o m x, injecting b a (inject d e b (em_version em) (em_sender em) m) x = (i', o, r) ->
    in_receiver b = in_receiver i -> r <> Panic -> i' = a /\ r = Ok x /\ transported d e (in_receiver i) (em_version em) m o).
  { intros b a o m x X R NX. apply injecting_inv in X.
    destruct X as [(X & -> & ->) | [(? & E0 & _) | (_ & ->)]]; [|now apply inject_no_err in E0|congruence].
    apply inject_transported in X. rewrite R in X. auto. }
  unfold inst_handle in H.
  destruct (em_version em) eqn:V; destruct (em_message em) eqn:M;
    try (fin3 H; congruence); try (right; fin3 H; apply QUIET; [reflexivity|eauto]).
  - right. destruct (ake_handle_dhcommit C _ _ _) as [st [a|x|]]; [|fin3 H; apply QUIET; [reflexivity|eauto]|fin3 H; congruence].
    apply KX in H; [|reflexivity|assumption]. destruct H as (-> & -> & T). apply QUIET; [reflexivity|auto].
  - right. destruct (ake_handle_dhkey C _ _ _ _) as [st [a|x|]]; [|fin3 H; apply QUIET; [reflexivity|eauto]|fin3 H; congruence].
    apply KX in H; [|reflexivity|assumption]. destruct H as (-> & -> & T). apply QUIET; [reflexivity|auto].
  - destruct (ake_handle_reveal C _ _ _ _) as [st [[mat a]|x|]];
      [|right; fin3 H; apply QUIET; [reflexivity|eauto]|fin3 H; congruence].
    destruct (secure C _ _ _ _ _) as [j|x|] eqn:S; [|right; fin3 H; apply QUIET; [reflexivity|eauto]|fin3 H; congruence].
    apply secure3 in S. destruct S as (k & K & ->). apply KX in H; [|reflexivity|assumption].
    destruct H as (-> & -> & T). left. split; [reflexivity|].
    split; [|exists []; split; constructor]. cbn [in_state set_state keys_followed].
    split; [reflexivity|]. split; [congruence|]. exists []. split; [constructor|].
    do 5 eexists. split; [exact K|constructor].
  - destruct (ake_handle_signature C _ _) as [st [mat|x|]];
      [|right; fin3 H; apply QUIET; [reflexivity|eauto]|fin3 H; congruence].
    destruct (secure C _ _ _ _ _) as [j|x|] eqn:S; [|right; fin3 H; apply QUIET; [reflexivity|eauto]|fin3 H; congruence].
    apply secure3 in S. destruct S as (k & K & ->). fin3 H.
    left. split; [reflexivity|].
    split; [|exists []; split; constructor]. cbn [in_state set_state keys_followed].
    split; [reflexivity|]. split; [congruence|]. exists []. split; [constructor|].
    do 5 eexists. split; [exact K|constructor].
  - right. pose proof H as H0. apply data3_split in H0; [|assumption].
    destruct H0 as [(RF & _)|(our & their & k & smp & k' & text & S & _ & RP & _)].
    + split; [eapply refuses_not_start; exact RF|]. destruct RF as (_ & _ & S). cbn [in_state set_assembler] in S.
      destruct (p_status (in_state i)) eqn:SE; try (left; congruence).
      apply (data3_steps _ _ _ _ _ _ _ _ M V) in H; [exact H|exact SE|exact NP].
    + split; [eapply reported_not_start; exact RP|].
      apply (data3_steps _ _ _ _ _ _ _ _ M V) in H; [exact H|rewrite S; reflexivity|exact NP].
  - right. destruct (dake_handle_identity C _ _ _ _ _ _ _) as [st [a|x|]]; [|fin3 H; apply QUIET; [reflexivity|eauto]|fin3 H; congruence].
    apply KX in H; [|reflexivity|assumption]. destruct H as (-> & -> & T). apply QUIET; [reflexivity|auto].
  - destruct (dake_handle_auth_r C _ _ _ _ _ _ _ _ _) as [st [[mat a]|x|]] eqn:A;
      [|right; fin3 H; apply QUIET; [reflexivity|eauto]|fin3 H; congruence].
    destruct (inject _ _ _ _ _ _) as [o|x|] eqn:I; [|now apply inject_no_err in I|fin3 H; congruence].
    rewrite secure4 in H. fin3 H. left. split; [reflexivity|].
    split; [|exists []; split; constructor]. cbn [in_state set_state keys_followed].
    split; [reflexivity|]. split; [reflexivity|]. exists []. split; [constructor|].
    apply auth_r_ratchet in A. eexists. split; [right; exact A|constructor].
  - destruct (dake_handle_auth_i C _ _ _ _ _) as [st [mat|x|]] eqn:A;
      [|right; fin3 H; apply QUIET; [reflexivity|eauto]|fin3 H; congruence].
    rewrite secure4 in H. fin3 H. left. split; [reflexivity|].
    split; [|exists []; split; constructor]. cbn [in_state set_state keys_followed].
    split; [reflexivity|]. split; [reflexivity|]. exists []. split; [constructor|].
    apply auth_i_ratchet in A. eexists. split; [left; exact A|constructor].
  - right. destruct (data4_validate C m) as [[]|x|] eqn:VA.
    2:{ unfold inst_data4 in H. rewrite VA in H. fin3 H. apply QUIET; [reflexivity|eauto]. }
    2:{ unfold inst_data4 in H. rewrite VA in H. fin3 H. congruence. }
    pose proof H as H0. apply data4_split in H0; [|assumption|assumption].
    destruct H0 as [(RF & _)|(our & their & k & smp & k' & text & S & _ & RP & _)].
    + split; [eapply refuses_not_start; exact RF|]. destruct RF as (_ & _ & S).
      destruct (p_status (in_state i)) eqn:SE; try (left; congruence).
      apply (data4_steps _ _ _ _ _ _ _ _ M V) in H; [exact H|exact SE|exact NP].
    + split; [eapply reported_not_start; exact RP|].
      apply (data4_steps _ _ _ _ _ _ _ _ M V) in H; [exact H|rewrite S; reflexivity|exact NP].
Qed.

(** ** One call *)

Lemma completes_fun s p b b' : completes s p b -> completes s p b' -> b' = b.
Proof.
  intros [(M & ->)|(f & a & M & P & _ & _ & A & _)] [(M' & ->)|(f' & a' & M' & P' & _ & _ & A' & _)]; try congruence.
Qed.
Lemma carries_fun s p em em' : carries C s p em -> carries C s p em' -> em' = em.
Proof.
  intros (b & B & P) (b' & B' & P'). rewrite (completes_fun _ _ _ _ B B') in P'. congruence.
Qed.

Definition received (s : session) (p : bytes) (t : N) (out : list bytes) (r : res user_message) (g : list did) : Prop :=
  (g = [] /\ forall c x, r <> Ok (UMConfidential t c x)) \/
  exists em, carries C s p em /\ em_sender em = t /\ reading (se_details s) t em out r g.

Definition handled (t : N) (r : res user_message) (g : list did) (x : list smp_did) (st' : pstate) : Prop :=
  (x = [] /\ no_verdict t r) \/ exists em, handling t em r g x st'.

Lemma receive_talk e s p s' out r t : receive C e s p = (s', out, r) -> r <> Panic -> sinv s ->
  (r = Ok (UMSessionStarted t) /\ enabled (se_details s) /\ keys_followed C (se_details s) t [] (state_of s' t) /\
    smp_followed C [] (state_of s' t)) \/
  (r <> Ok (UMSessionStarted t) /\
   (status_of s' t <> Encrypted \/ exists g x, steps (state_of s t) g (state_of s' t) /\ smp_steps (state_of s t) x (state_of s' t) /\
      received s p t out r g /\ handled t r g x (state_of s' t))).
Proof.
  intros H NP SI.
  assert (SAME : state_of s' t = state_of s t -> (forall c x, r <> Ok (UMConfidential t c x)) -> no_verdict t r -> r <> Ok (UMSessionStarted t) ->
    r <> Ok (UMSessionStarted t) /\
    (status_of s' t <> Encrypted \/ exists g x, steps (state_of s t) g (state_of s' t) /\ smp_steps (state_of s t) x (state_of s' t) /\
      received s p t out r g /\ handled t r g x (state_of s' t))).
  { intros S NC NV NS. split; [assumption|]. unfold status_of. rewrite S.
    destruct (p_status (state_of s t)) eqn:SE; [left; congruence| |left; congruence].
    right. exists [], []. split; [now apply steps_refl|]. split; [now apply smp_steps_refl|].
    split; [left; auto|]. left. auto. }
  apply receive_split in H; [|assumption].
  destruct H as [(_ & -> & -> & ->) | [(EN & b & CO & H) | (_ & _ & _ & D & R)]].
  - right. apply SAME; [reflexivity|discriminate|split; discriminate|discriminate].
  - assert (SD : se_details (stored s p) = se_details s) by apply stored_details.
    assert (INI : forall v s1 o1 r1, initiate C e (stored s p) v 0 = (s1, o1, r1) -> r1 <> Panic ->
      state_of s1 t = state_of s t /\ (r1 = Ok UMNone \/ exists x, r1 = Err x)).
    { intros v s1 o1 r1 X NPX. split.
      - apply initiate_inv in X; [|assumption]. destruct X as (i' & _ & -> & S & _).
        destruct (N.eq_dec 0 t) as [<-|NE]; [rewrite state_put_same, S|rewrite state_put_other by assumption]; apply stored_state.
      - apply initiate_kx in X; [|assumption|now apply sinv_stored].
        destruct X as [(_ & X)|[(_ & -> & _)|(_ & _ & _ & -> & _)]]; auto. }
    apply message_split in H; [|assumption].
    destruct H as [(x & _ & -> & _ & ->) | [(c & _ & -> & H) | [(c & _ & H) | [(vs & c & _ & H) | [(vs & _ & H) | (em & PA & H)]]]]].
    + right. apply SAME; [apply stored_state|discriminate|split; discriminate|discriminate].
    + right. destruct H as [(-> & _)|(x & _ & _ & ->)]; (apply SAME; [apply stored_state|discriminate|split; discriminate|discriminate]).
    + right. apply deliver_inv in H; [|assumption]. destruct H as (-> & _ & q & _ & ->).
      apply SAME; [apply stored_state|destruct (_ || _); try split; discriminate..].
    + right. destruct H as [(_ & H) | (_ & v & s1 & r1 & _ & H1 & NP1 & H)].
      * apply deliver_inv in H; [|assumption]. destruct H as (-> & _ & q & _ & ->).
        apply SAME; [apply stored_state|destruct (_ || _); try split; discriminate..].
      * apply INI in H1; [|assumption]. destruct H1 as [H1 R1]. destruct H as [(_ & H) | (-> & -> & x & ->)].
        -- apply deliver_inv in H; [|assumption]. destruct H as (-> & _ & q & _ & ->).
           apply SAME; [assumption|destruct (_ || _); try split; discriminate..].
        -- apply SAME; [assumption|try split; discriminate..].
    + right. destruct H as [(_ & -> & _ & ->) | (v & r1 & _ & H1 & H)]; [apply SAME; [apply stored_state|try split; discriminate..]|].
      apply INI in H1; [|destruct H as [((m & ->) & _) | (_ & x & ->)]; congruence]. destruct H1 as [H1 R1].
      apply SAME; [assumption|destruct H as [(_ & ->)|(-> & x & ->)]; try split; discriminate..].
    + apply encoded_split in H; [|assumption].
      destruct H as [(-> & _ & _ & ->) | [(-> & _ & _ & x & -> & _) | (VH & NZ & AL & i0 & i' & A & H & ->)]];
        [right; apply SAME; [apply stored_state|try split; discriminate..]..|].
      rewrite SD in H, AL. apply (sinv_stored _ p) in SI as SI'.
      apply adopted_same in A. destruct A as (A1 & A2 & _). rewrite (sinv_entry _ _ SI') in A2. rewrite entry_state, stored_state in A1.
      pose proof (handle_follow _ _ _ _ _ _ _ H NP A2) as HF. rewrite A2 in HF.
      assert (NC : forall u, u <> em_sender em -> forall c x, r <> Ok (UMConfidential u c x)).
      { intros u NE c x ->. apply handle_split in H; [|discriminate]. rewrite A2 in H.
        destruct H as [(_ & H & _)|[(ig & _ & (_ & H & _) & _)|(st' & text & _ & RP & _)]].
        - destruct H as [H|[(H & _)|(y & H)]]; discriminate.
        - destruct ig; discriminate.
        - unfold reported in RP. destruct (parse_message text) as [[c' x'|c']|x'|]; [|discriminate..|contradiction].
          destruct (existsb _ _); [destruct RP as [RP|[RP|[RP|(y & RP)]]]; discriminate|]. injection RP as E _ _. congruence. }
      assert (NV : forall u, u <> em_sender em -> no_verdict u r).
      { intros u NE. split; intros ->; (apply handle_split in H; [|discriminate]; rewrite A2 in H;
          destruct H as [(_ & H & _)|[(ig & _ & (_ & H & _) & _)|(st' & text & _ & RP & _)]];
          [destruct H as [H|[(H & _)|(y & H)]]; discriminate|destruct ig; discriminate|]);
          (unfold reported in RP; destruct (parse_message text) as [[c' x'|c']|x'|]; [|discriminate..|contradiction];
           destruct (existsb _ _); [destruct RP as [RP|[RP|[RP|(y & RP)]]]; congruence|discriminate]). }
      assert (NS : forall u, u <> em_sender em -> r <> Ok (UMSessionStarted u)).
      { intros u NE ->. apply handle_split in H; [|discriminate]. rewrite A2 in H.
        destruct H as [(_ & H & _)|[(ig & _ & (_ & H & _) & _)|(st' & text & _ & RP & _)]].
        - destruct H as [H|[(H & _)|(y & H)]]; congruence.
        - destruct ig; discriminate.
        - now apply reported_not_start with (u := u) in RP. }
      destruct (N.eq_dec (em_sender em) t) as [<-|NE].
      2:{ right. apply SAME; [rewrite state_put_other by assumption; apply stored_state|apply NC; congruence|apply NV; congruence|apply NS; congruence]. }
      unfold status_of. rewrite state_put_same. rewrite A1 in HF.
      destruct HF as [(-> & K)|(N1 & HF)].
      * left. split; [reflexivity|]. split; [|exact K]. destruct (em_version em); cbn [allowed] in AL; try contradiction; [left|right]; exact AL.
      * right. split; [assumption|]. destruct HF as [HF|(g & x & ST & SM & RD & HA)]; [now left|]. right. exists g, x. split; [exact ST|]. split; [exact SM|].
        split; [|right; eauto]. right. exists em. split; [|auto]. exists b. auto.
  - right. assert (S : state_of s' t = state_of s t) by (destruct D as [->|(-> & _)]; [reflexivity|apply stored_state]).
    apply SAME; [assumption|destruct R as [->|(x & ->)]; try split; discriminate..].
Qed.
Lemma receive_follow e s p s' out r t : receive C e s p = (s', out, r) -> r <> Panic -> sinv s ->
  (r = Ok (UMSessionStarted t) /\ enabled (se_details s) /\ keys_followed C (se_details s) t [] (state_of s' t)) \/
  (r <> Ok (UMSessionStarted t) /\
   (status_of s' t <> Encrypted \/ exists g, steps (state_of s t) g (state_of s' t) /\ received s p t out r g)).
Proof.
  intros H NP SI. destruct (receive_talk _ _ _ _ _ _ t H NP SI) as [(R & EN & K & _)|(R & [N|(g & x & ST & _ & RC & _)])]; eauto 8.
Qed.

Lemma reset_leaves d e i i' out r : inst_reset C d e i = (i', out, r) -> r <> Panic ->
  p_status (in_state i') <> Encrypted.
Proof.
  intros H NP. destruct r as [a|x|]; [|now apply reset_no_err in H|congruence].
  apply reset_effect in H; [|assumption]. destruct H as [->|(_ & x & E)]; [|discriminate]. discriminate.
Qed.

Lemma reset_not_start d e i i' out t : inst_reset C d e i = (i', out, Ok (UMSessionStarted t)) -> False.
Proof.
  unfold inst_reset. intros X. destruct (p_finish C _ _) as [b|x|]; [|discriminate X|discriminate X].
  destruct (status_eqb _ _); destruct b; try discriminate X.
  apply injecting_inv in X. destruct X as [(_ & _ & X)|[(? & _ & _ & _ & X)|(_ & X)]]; discriminate.
Qed.

Lemma start_smp_steps d e i sec q i' out r : inst_start_smp C d e i sec q = (i', out, r) -> r <> Panic ->
  p_status (in_state i) = Encrypted ->
  (steps (in_state i) [] (in_state i') \/
   exists m w v, only_smp (data_version m) w /\ steps (in_state i) [Sends m w] (in_state i') /\ transported d e (in_receiver i) v m out) /\
  exists x, smp_steps (in_state i) x (in_state i') /\ (x = [] \/ exists sent, x = [SmpStarts sec q sent]) /\ (r = Ok tt -> x <> []).
Proof.
  unfold inst_start_smp. intros H NP SE.
  destruct (in_state i) as [|our their k smp|our their k smp|] eqn:S; try discriminate.
  - destruct (smp_initiate _ _ _ _ _ _) as [smp' [t|x|]] eqn:SI; [| |fin3 H; congruence].
    2:{ fin3 H. split; [left; apply steps_same3|]. exists []. split; [|split; [auto|discriminate]].
        destruct (smp_initiate_ids _ _ _ _ _ _ _ SI) as [E1 E2]. split; [assumption|]. split; [assumption|]. exists []. split; [constructor|].
        intros evs HH. eapply hist_refused; eassumption. }
    assert (ST : forall our' their' k', smp_steps (PEnc3 our their k smp) [SmpStarts sec q t] (PEnc3 our' their' k' smp')).
    { intros ? ? ?. destruct (smp_initiate_ids _ _ _ _ _ _ _ SI) as [E1 E2]. split; [assumption|]. split; [assumption|].
      eexists [Started _ sec q t]. split; [repeat constructor|]. intros evs HH. eapply hist_start; eassumption. }
    destruct (prepare_tlv C e _ t) as [[s m]|x|] eqn:P; [| |fin3 H; congruence].
    2:{ fin3 H. split; [left; apply steps_same3|]. exists [SmpStarts sec q t]. split; [apply ST|]. split; [eauto|discriminate]. }
    apply prepare_tlv_steps in P; [|reflexivity|eapply smp_initiate_type; exact SI]. destruct P as (w & OS & P & _ & PS). apply injecting_inv in H.
    destruct H as [(I & -> & ->)|[(x & I & _)|(_ & ->)]]; [|now apply inject_no_err in I|congruence].
    apply inject_transported in I. split.
    + right. exists m, w. eexists. split; [exact OS|]. split; [|exact I]. exact (steps_trans _ [] _ [_] _ (steps_same3 our their k smp smp') P).
    + exists [SmpStarts sec q t]. split; [|split; [eauto|discriminate]].
      exact (smp_steps_trans _ [_] _ [] _ (ST our their k) (smp_kept_steps _ _ PS)).
  - destruct (smp4_initiate _ _ _ _ _) as [smp' [t|x|]] eqn:SI; [| |fin3 H; congruence].
    2:{ fin3 H. split; [left; apply steps_same4|]. exists []. split; [|split; [auto|discriminate]].
        destruct (smp4_initiate_ids _ _ _ _ _ _ SI) as (E1 & E2 & E3). do 3 (split; [assumption|]). exists []. split; [constructor|].
        intros evs HH. eapply hist4_refused; eassumption. }
    assert (ST : forall our' their' k', smp_steps (PEnc4 our their k smp) [SmpStarts sec q t] (PEnc4 our' their' k' smp')).
    { intros ? ? ?. destruct (smp4_initiate_ids _ _ _ _ _ _ SI) as (E1 & E2 & E3). do 3 (split; [assumption|]).
      eexists [Started4 sec q t]. split; [repeat constructor|]. intros evs HH. eapply hist4_start; eassumption. }
    destruct (prepare_tlv C e _ t) as [[s m]|x|] eqn:P; [| |fin3 H; congruence].
    2:{ fin3 H. split; [left; apply steps_same4|]. exists [SmpStarts sec q t]. split; [apply ST|]. split; [eauto|discriminate]. }
    apply prepare_tlv_steps in P; [|reflexivity|eapply smp4_initiate_type; exact SI]. destruct P as (w & OS & P & _ & PS). apply injecting_inv in H.
    destruct H as [(I & -> & ->)|[(x & I & _)|(_ & ->)]]; [|now apply inject_no_err in I|congruence].
    apply inject_transported in I. split.
    + right. exists m, w. eexists. split; [exact OS|]. split; [|exact I]. exact (steps_trans _ [] _ [_] _ (steps_same4 our their k smp smp') P).
    + exists [SmpStarts sec q t]. split; [|split; [eauto|discriminate]].
      exact (smp_steps_trans _ [_] _ [] _ (ST our their k) (smp_kept_steps _ _ PS)).
Qed.
Lemma abort_smp_steps d e i i' out r : inst_abort_smp C d e i = (i', out, r) -> r <> Panic ->
  p_status (in_state i) = Encrypted ->
  exists m w v, only_smp (data_version m) w /\ steps (in_state i) [Sends m w] (in_state i') /\ transported d e (in_receiver i) v m out /\
    smp_steps (in_state i) [SmpStops] (in_state i').
Proof.
  unfold inst_abort_smp. intros H NP SE.
  destruct (in_state i) as [|our their k smp|our their k smp|] eqn:S; try discriminate.
  - destruct (smp_abort smp) as [smp' t] eqn:SA. destruct (prepare_tlv C e _ t) as [[s m]|x|] eqn:P; try (fin3 H; congruence).
    apply prepare_tlv_steps in P; [|reflexivity|injection SA as _ <-; reflexivity]. destruct P as (w & OS & P & PV & PS). apply injecting_inv in H.
    destruct H as [(I & -> & ->)|[(x & I & _)|(_ & ->)]]; [|now apply inject_no_err in I|congruence].
    apply inject_transported in I. exists m, w. eexists. split; [exact OS|]. split; [|split; [exact I|]].
    + exact (steps_trans _ [] _ [_] _ (steps_same3 our their k smp smp') P).
    + refine (smp_steps_trans _ [_] _ [] _ _ (smp_kept_steps _ _ PS)). pose proof SA as SA'. injection SA' as <- _.
      split; [reflexivity|]. split; [reflexivity|]. exists [Stopped]. split; [repeat constructor|].
      intros evs HH. eapply hist_abort; eassumption.
  - destruct (smp4_abort smp) as [smp' t] eqn:SA. destruct (prepare_tlv C e _ t) as [[s m]|x|] eqn:P; try (fin3 H; congruence).
    apply prepare_tlv_steps in P; [|reflexivity|injection SA as _ <-; reflexivity]. destruct P as (w & OS & P & PV & PS). apply injecting_inv in H.
    destruct H as [(I & -> & ->)|[(x & I & _)|(_ & ->)]]; [|now apply inject_no_err in I|congruence].
    apply inject_transported in I. exists m, w. eexists. split; [exact OS|]. split; [|split; [exact I|]].
    + exact (steps_trans _ [] _ [_] _ (steps_same4 our their k smp smp') P).
    + refine (smp_steps_trans _ [_] _ [] _ _ (smp_kept_steps _ _ PS)). pose proof SA as SA'. injection SA' as <- _.
      do 3 (split; [reflexivity|]). exists [Stopped4]. split; [repeat constructor|].
      intros evs HH. eapply hist4_abort; eassumption.
Qed.
Lemma send_steps_smp d e i tg c i' tg' r : inst_send C d e i tg c = (i', tg', r) -> r <> Panic ->
  p_status (in_state i) = Encrypted ->
  exists ps m, r = Ok ps /\ steps (in_state i) [Sends m (without_nul c)] (in_state i') /\
    transported d e (in_receiver i) (p_version (in_state i)) m ps /\ smp_steps (in_state i) [] (in_state i').
Proof.
  unfold inst_send. intros H NP SE.
  destruct (p_prepare C _ _ _ _) as [[st m]|x|] eqn:P; [| |fin3 H; congruence].
  - pose proof P as P0. apply prepare_steps in P; [|assumption]. destruct P as (P & PV & PS).
    assert (DM : (exists m3, m = MData m3) \/ exists m4, m = MData4 m4).
    { destruct (in_state i); try discriminate; cbn [p_prepare] in P0; apply bind_ok in P0; destruct P0 as ([y k'] & _ & P0);
        injection P0 as <- <-; eauto. }
    assert (exists ps, r = Ok ps /\ i' = set_state i st /\ transported d e (in_receiver i) (p_version st) m ps) as (ps & -> & -> & T).
    { destruct DM as [(y & ->)|(y & ->)]; fin3 H;
        (destruct (encode_message _ _ _ _) as [b|x|] eqn:EM; cbn [bind] in *; [|now apply encode_message_no_err in EM|congruence]);
        (destruct (payloads _ _ _ _ _) as [ps|x|] eqn:PP; [|now apply payloads_no_err in PP|congruence]);
        exists ps; (split; [reflexivity|]); (split; [reflexivity|]); eapply payloads_transported; eassumption. }
    exists ps, m. rewrite PV in T. split; [reflexivity|]. split; [assumption|]. split; [assumption|]. now apply smp_kept_steps.
  - exfalso. destruct (in_state i); try discriminate; cbn [p_prepare] in P.
    + destruct (encrypt3 C _ _ _ _ _) as [[m k']|y|] eqn:E; cbn [bind] in P; try discriminate. now apply encrypt3_no_err in E.
    + destruct (encrypt4 C _ _ _ _ _ _ _) as [[m k']|y|] eqn:E; cbn [bind] in P; try discriminate. now apply encrypt4_no_err in E.
Qed.
Lemma send_steps d e i tg c i' tg' r : inst_send C d e i tg c = (i', tg', r) -> r <> Panic ->
  p_status (in_state i) = Encrypted ->
  exists ps m, r = Ok ps /\ steps (in_state i) [Sends m (without_nul c)] (in_state i') /\
    transported d e (in_receiver i) (p_version (in_state i)) m ps.
Proof. intros H NP SE. destruct (send_steps_smp _ _ _ _ _ _ _ _ H NP SE) as (ps & m & R & ST & T & _). eauto. Qed.

(* what a call means for the conversation with t; the conversation is under way after it *)
Lemma call_follow es s o s' out r t : call C es s o = (s', out, r) -> r <> Panic -> sinv s ->
  (started_with t (mkEvent o out r) /\ enabled (se_details s) /\ keys_followed C (se_details s) t [] (state_of s' t) /\
    smp_followed C [] (state_of s' t)) \/
  (~ started_with t (mkEvent o out r) /\
   (status_of s' t <> Encrypted \/
    (enabled (se_details s) ->
     exists gx, steps (state_of s t) (fst gx) (state_of s' t) /\ smp_steps (state_of s t) (snd gx) (state_of s' t) /\
       talk_in C (se_details s) t (mkEvent o out r) gx))).
Proof.
  intros H NP SI.
  assert (SAME : state_of s' t = state_of s t -> (enabled (se_details s) -> talk_in C (se_details s) t (mkEvent o out r) ([], [])) ->
    status_of s' t <> Encrypted \/
    (enabled (se_details s) ->
     exists gx, steps (state_of s t) (fst gx) (state_of s' t) /\ smp_steps (state_of s t) (snd gx) (state_of s' t) /\
       talk_in C (se_details s) t (mkEvent o out r) gx)).
  { intros S DI. unfold status_of. rewrite S. destruct (p_status (state_of s t)) eqn:SE; [left; congruence| |left; congruence].
    right. intros EN. exists ([], []). split; [now apply steps_refl|]. split; [now apply smp_steps_refl|auto]. }
  unfold call in H. destruct o; apply answering_inv in H; try assumption; destruct H as (r0 & H & -> & NP0).
  - destruct (receive_talk _ _ _ _ _ _ t H NP0 SI) as [(-> & EN & K)|(NS & F)].
    { left. split; [reflexivity|auto]. }
    right. split.
    { unfold started_with. cbn [ev_result]. destruct r0; cbn [res_map]; congruence. }
    destruct F as [F|(g & x0 & ST & SM & RC & HA)]; [now left|]. right. intros _. exists (g, x0). split; [exact ST|]. split; [exact SM|].
    unfold talk_in, did_in, smp_in; cbn [fst snd]; cbn [ev_op ev_result ev_injected].
    assert (CF : forall c x, res_map AnMessage r0 = Ok (AnMessage (UMConfidential t c x)) -> r0 = Ok (UMConfidential t c x)).
    { intros c x E. destruct r0; cbn [res_map] in E; congruence. }
    split.
    2:{ assert (VD : forall m, res_map AnMessage r0 = Ok (AnMessage m) -> r0 = Ok m) by (intros m E; destruct r0; cbn [res_map] in E; congruence).
        destruct HA as [(-> & NV1 & NV2)|(em & HA & HS & HF)].
        - split; [auto|]. intros [E|E]; apply VD in E; contradiction.
        - split.
          + destruct HA as [HA|(text & c & ts & rest & a & rc & rep & HG & HP & HA)]; [auto|]. right. exists em, text, c, ts, rest, a, rc, rep.
            apply parse_shows in HP. auto.
          + intros [E|E]; apply VD in E; [now apply HS|now apply HF]. }
    destruct RC as [(-> & N)|(em & CA & SE & G & RC)].
    + split; [auto|]. intros c x E. apply CF in E. now apply N in E.
    + split.
      * destruct G as [->|G]; [auto|]. right. exists em. split; [assumption|]. split; [|exact G].
        destruct CA as (b & CP & PA). exists b. split; [assumption|]. intros MF. destruct CP as [(_ & ->)|(f & a & MF' & _)]; [reflexivity|congruence].
      * intros c x E. apply CF in E. apply RC in E. destruct E as (text & -> & E & NX). apply parse_shows in E. eauto.
  - right. split; [unfold started_with; cbn [ev_result]; destruct r0; discriminate|].
    apply send_inv in H; [|assumption].
    destruct H as [(DI & -> & _) | (_ & [(_ & -> & -> & ->) | (i & G & [(_ & _ & -> & R) | (_ & -> & i' & tg & S & ->)])])].
    + apply SAME; [reflexivity|]. intros EN. apply disabled_not_enabled in DI. contradiction.
    + apply SAME; [reflexivity|]. intros _; split; reflexivity.
    + apply SAME; [reflexivity|]. intros _. destruct R as [(_ & ->)|(x & _ & _ & ->)]; split; reflexivity.
    + unfold status_of, state_of. cbn [se_instances]. destruct (N.eq_dec tag t) as [<-|NE].
      * rewrite get_set_same, G. pose proof (send_moves _ _ _ _ _ _ _ _ _ S NP0) as (MV & _).
        unfold in_status in MV. destruct (p_status (in_state i)) eqn:SE; [left; congruence| |left; congruence].
        right. intros _. apply send_steps_smp in S; [|assumption..]. destruct S as (ps & m & -> & ST & T & SM).
        exists ([Sends m (without_nul content)], []). split; [exact ST|]. split; [exact SM|]. split; [|reflexivity].
        unfold did_in; cbn [fst ev_op ev_result res_map]. right. split; [reflexivity|].
        rewrite (sinv_get _ _ _ SI G) in T. eauto.
      * rewrite get_set_other by assumption. fold (state_of s t). fold (status_of s t).
        destruct (p_status (state_of s t)) eqn:SE; [left; unfold status_of; congruence| |left; unfold status_of; congruence].
        right. intros _. exists ([], []). split; [now apply steps_refl|]. split; [now apply smp_steps_refl|]. split; [|reflexivity].
        unfold did_in; cbn [fst ev_op ev_result].
        destruct r0; cbn [res_map]; auto.
  - right. assert (RR : r0 = Ok UMNone \/ exists x, r0 = Err x).
    { apply initiate_kx in H; [|assumption|assumption].
      destruct H as [(_ & X)|[(_ & -> & _)|(_ & _ & _ & -> & _)]]; auto. }
    split; [unfold started_with; cbn [ev_result]; destruct RR as [->|(x & ->)]; discriminate|].
    apply initiate_inv in H; [|assumption]. destruct H as (i' & _ & -> & S & _).
    apply SAME; [|intros _; split; reflexivity].
    destruct (N.eq_dec tag t) as [<-|NE]; [now rewrite state_put_same, S|now rewrite state_put_other].
  - right. unfold end_session in H. apply on_instance_inv in H; [|assumption].
    destruct H as [(_ & -> & -> & ->) | (i & i' & G & X & ->)].
    + split; [discriminate|]. apply SAME; [reflexivity|intros _; split; reflexivity].
    + split.
      { unfold started_with. cbn [ev_result]. intros E. assert (r0 = Ok (UMSessionStarted t)) by (destruct r0; cbn [res_map] in E; congruence).
        subst r0. now apply reset_not_start in X. }
      unfold status_of. destruct (N.eq_dec tag t) as [<-|NE]; [left; rewrite state_put_same; eapply reset_leaves; eassumption|].
      apply SAME; [now rewrite state_put_other|intros _; split; reflexivity].
  - right. split; [unfold started_with; cbn [ev_result]; destruct r0; discriminate|].
    unfold ses_query in H. destruct (query s); fin3 H; (apply SAME; [reflexivity|intros _; split; reflexivity]).
  - right. split; [unfold started_with; cbn [ev_result]; destruct r0; discriminate|].
    unfold start_smp in H. apply on_instance_inv in H; [|assumption].
    destruct H as [(_ & -> & -> & ->) | (i & i' & G & X & ->)]; [apply SAME; [reflexivity|intros _; split; [left; reflexivity|split; [left; reflexivity|discriminate]]]|].
    destruct (N.eq_dec tag t) as [<-|NE].
    + unfold status_of. rewrite state_put_same. rewrite (state_get _ _ _ G).
      pose proof (start_smp_moves _ _ _ _ _ _ _ _ _ X NP0) as (MV & _). unfold in_status in MV.
      destruct (p_status (in_state i)) eqn:SE; [left; congruence| |left; congruence].
      right. intros _. apply start_smp_steps in X; [|assumption..]. rewrite (sinv_get _ _ _ SI G) in X.
      destruct X as (X & x & SM & XS & XN).
      assert (SMI : forall g, smp_in tag (mkEvent (OpStartSmp tag secret question) out (res_map (fun _ => AnDone) r0)) g x).
      { intros g. split; [destruct XS as [XS|XS]; auto|]. intros _ E. apply XN. destruct r0 as [[]|y|]; [reflexivity|discriminate E|congruence]. }
      destruct X as [X|(m & w & v & OS & X & T)]; [exists ([], x); split; [exact X|]; split; [exact SM|]; split; [left; reflexivity|apply SMI]|].
      exists ([Sends m w], x). split; [exact X|]. split; [exact SM|]. split; [right; cbn [fst ev_injected]; eauto 8|apply SMI].
    + apply SAME; [now rewrite state_put_other|intros _; split; [left; reflexivity|split; [left; reflexivity|intros E; congruence]]].
  - right. split; [unfold started_with; cbn [ev_result]; destruct r0; discriminate|].
    unfold abort_smp in H. apply on_instance_inv in H; [|assumption].
    destruct H as [(_ & -> & -> & ->) | (i & i' & G & X & ->)]; [apply SAME; [reflexivity|intros _; split; [left; reflexivity|split; [left; reflexivity|discriminate]]]|].
    destruct (N.eq_dec tag t) as [<-|NE].
    + unfold status_of. rewrite state_put_same. rewrite (state_get _ _ _ G).
      pose proof (abort_smp_moves _ _ _ _ _ _ _ X NP0) as (MV & _). unfold in_status in MV.
      destruct (p_status (in_state i)) eqn:SE; [left; congruence| |left; congruence].
      right. intros _. apply abort_smp_steps in X; [|assumption..]. rewrite (sinv_get _ _ _ SI G) in X.
      destruct X as (m & w & v & OS & X & T & SM). exists ([Sends m w], [SmpStops]). split; [exact X|]. split; [exact SM|].
      split; [right; cbn [fst ev_injected]; eauto 8|]. split; [auto|discriminate].
    + apply SAME; [now rewrite state_put_other|intros _; split; [left; reflexivity|split; [left; reflexivity|intros E; congruence]]].
  - right. split; [unfold started_with; cbn [ev_result]; destruct r0; discriminate|].
    destruct (expire_any _ _ _ _ _ _ _ t SI H NP0) as [S|(_ & S)]; [apply SAME; [assumption|intros _; split; reflexivity]|].
    left. unfold status_of. rewrite S. discriminate.
Qed.

(** ** Histories *)

Lemma latest_snoc t h ev h1 x : latest_start t h ev h1 -> ~ started_with t x -> latest_start t (h ++ [x]) ev (h1 ++ [x]).
Proof.
  intros ((h0 & ->) & S & F) N. split; [exists h0; now rewrite <- app_assoc|]. split; [assumption|].
  apply Forall_app. auto.
Qed.

Lemma history_talk d h s t : history C d h s -> status_of s t = Encrypted ->
  enabled d /\ exists ev h1 gxs, latest_start t h ev h1 /\ Forall2 (talk_in C d t) h1 gxs /\
    keys_followed C d t (concat (map fst gxs)) (state_of s t) /\ smp_followed C (concat (map snd gxs)) (state_of s t).
Proof.
  intros H. induction H as [|h s es o s' out r H IH Hc NP]; intros SE.
  - exfalso. unfold status_of, state_of, session_new in SE. cbn [se_instances get_inst] in SE.
    destruct (0 =? t); discriminate SE.
  - assert (I : sinv s /\ se_details s = d) by (now apply history_inv in H). destruct I as [SI SD].
    pose proof (call_follow _ _ _ _ _ _ t Hc NP SI) as F. rewrite SD in F.
    destruct F as [(S & EN & K & KS)|(NS & [F|F])]; [|contradiction|].
    + split; [assumption|]. exists (mkEvent o out r), [], []. split; [|split; [constructor|split; [exact K|exact KS]]].
      split; [exists h; reflexivity|]. split; [assumption|constructor].
    + destruct (p_status (state_of s t)) eqn:SS.
      2:{ specialize (IH SS). destruct IH as (EN & ev & h1 & gs & L & G & K & KS). split; [assumption|].
          destruct (F EN) as (g & ST & SM & DI). exists ev, (h1 ++ [mkEvent o out r]), (gs ++ [g]).
          split; [now apply latest_snoc|]. split; [apply Forall2_app; auto|].
          rewrite !map_app, !concat_app. cbn [map concat]. rewrite !app_nil_r.
          split; [eapply steps_followed; eassumption|eapply smp_steps_followed; eassumption]. }
      all: exfalso; pose proof (call_status C _ _ _ _ _ _ t Hc NP SI) as ST; unfold status_step, status_of in ST, SE;
        rewrite SS, SE in ST; destruct ST as [ST|[(_ & (p & ->) & ->)|[(ST & _)|(ST & _)]]]; try discriminate;
        now apply NS.
Qed.
Lemma talk_did d t h gxs : Forall2 (talk_in C d t) h gxs -> Forall2 (did_in C d t) h (map fst gxs).
Proof. intros F. induction F as [|ev gx h gxs [X _] F IH]; constructor; assumption. Qed.
Lemma history_followed d h s t : history C d h s -> status_of s t = Encrypted ->
  enabled d /\ exists ev h1 gs, latest_start t h ev h1 /\ Forall2 (did_in C d t) h1 gs /\ keys_followed C d t (concat gs) (state_of s t).
Proof.
  intros H SE. destruct (history_talk d h s t H SE) as (EN & ev & h1 & gxs & L & F & K & _). split; [assumption|].
  exists ev, h1, (map fst gxs). apply talk_did in F. auto.
Qed.

(* from a point inside the conversation on *)
Lemma run_talk s h s' t : run C s h s' -> sinv s -> enabled (se_details s) -> status_of s' t = Encrypted ->
  Forall (fun ev => ~ started_with t ev) h ->
  exists gxs, Forall2 (talk_in C (se_details s) t) h gxs /\ steps (state_of s t) (concat (map fst gxs)) (state_of s' t) /\
    smp_steps (state_of s t) (concat (map snd gxs)) (state_of s' t).
Proof.
  intros H SI EN. induction H as [|h s1 es o s2 out r H IH Hc NP]; intros SE NS.
  - exists []. split; [constructor|]. split; [now apply steps_refl|now apply smp_steps_refl].
  - pose proof (run_inv C _ _ _ H SI) as [SI1 SD]. apply Forall_app in NS. destruct NS as [NS N1]. inversion N1; subst.
    pose proof (call_follow _ _ _ _ _ _ t Hc NP SI1) as F. rewrite SD in F.
    destruct F as [(S & _)|(_ & [F|F])]; [contradiction|contradiction|].
    destruct (F EN) as (g & ST & SM & DI). apply steps_status in ST as SS. destruct (IH (proj1 SS) NS) as (gs & G & K & KS).
    exists (gs ++ [g]). split; [apply Forall2_app; auto|]. rewrite !map_app, !concat_app. cbn [map concat]. rewrite !app_nil_r.
    split; [eapply steps_trans; eassumption|eapply smp_steps_trans; eassumption].
Qed.
Lemma run_steps s h s' t : run C s h s' -> sinv s -> enabled (se_details s) -> status_of s' t = Encrypted ->
  Forall (fun ev => ~ started_with t ev) h ->
  exists gs, Forall2 (did_in C (se_details s) t) h gs /\ steps (state_of s t) (concat gs) (state_of s' t).
Proof.
  intros H SI EN SE NS. destruct (run_talk s h s' t H SI EN SE NS) as (gxs & F & ST & _). exists (map fst gxs).
  apply talk_did in F. auto.
Qed.

End WithCrypto.
