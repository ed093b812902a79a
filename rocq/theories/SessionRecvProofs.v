(* What a session does with received messages. *)
From Coq Require Import Lia ZifyN ZifyNat.
From Verif Require Import Base BaseLemmas Types Crypto Encoding EncodingProofs Messages Fragment KeyManager DataV3 DataV3Proofs
  Ratchet DataV4 DataV4Proofs AKE DAKE SMP SMP4 Protocol Session SpecData3 SpecData4 SpecSession SessionProofs
  SessionPartyProofs SessionInvProofs SessionSendProofs SessionHistProofs.
Local Open Scope N_scope.

Lemma smp_record3 t : is_smp3_tlv t = smp_record V3 t.
Proof.
  unfold is_smp3_tlv, smp_record. cbn [existsb].
  apply Bool.eq_iff_eq_true. rewrite !Bool.orb_true_iff, Bool.andb_true_iff, !N.eqb_eq, !N.leb_le.
  unfold TLV_SMP_1, TLV_SMP_1Q, TLV_SMP_2, TLV_SMP_3, TLV_SMP_4, TLV_SMP_ABORT.
  split; [intros [?|[?|[?|[?|[?|[?|?]]]]]]; lia || easy|]. intros [L1 L2].
  assert (X : tlv_type t = 2 \/ tlv_type t = 3 \/ tlv_type t = 4 \/ tlv_type t = 5 \/ tlv_type t = 6 \/ tlv_type t = 7) by lia.
  tauto.
Qed.
Lemma smp_record4 t : is_smp4_tlv t = smp_record V4 t.
Proof.
  unfold is_smp4_tlv, smp_record. cbn [existsb].
  apply Bool.eq_iff_eq_true. rewrite !Bool.orb_true_iff, Bool.andb_true_iff, !N.eqb_eq, !N.leb_le.
  unfold TLV_SMP_1, TLV_SMP_2, TLV_SMP_3, TLV_SMP_4, TLV_SMP_ABORT.
  split; [intros [?|[?|[?|[?|[?|?]]]]]; lia || easy|]. intros [L1 L2].
  assert (X : tlv_type t = 2 \/ tlv_type t = 3 \/ tlv_type t = 4 \/ tlv_type t = 5 \/ tlv_type t = 6) by lia.
  tauto.
Qed.
Lemma existsb_ext {A} (f g : A -> bool) l : (forall a, f a = g a) -> existsb f l = existsb g l.
Proof. intros E. induction l; cbn [existsb]; congruence. Qed.

(* the same as [told], in terms of parse_message; see [reported_told] in SessionLemmas *)
Definition reported (v : version) (t : N) (text : bytes) (r : res user_message) : Prop :=
  match parse_message text with
  | Ok (Confidential content tlvs) =>
      if existsb (smp_record v) tlvs
      then r = Ok UMNone \/ r = Ok (UMSmpSucceeded t) \/ r = Ok (UMSmpFailed t) \/ exists x, r = Err x
      else r = Ok (UMConfidential t content tlvs)
  | Ok (ConfidentialFinished content) => r = Ok (UMSessionFinished t content)
  | Err x => r = Err x
  | Panic => False
  end.

Lemma read_tlvs_loop_err fuel b x : read_tlvs_loop fuel b = Err x -> x = IncompleteMessage.
Proof.
  revert b. induction fuel as [|f IH]; intros b; destruct b as [|b0 b1]; cbn [read_tlvs_loop]; try congruence.
  unfold read_tlv, read_u16. intros H.
  repeat match type of H with
  | context [match ?l with [] => _ | _ :: _ => _ end] => destruct l; cbn [bind] in H; try congruence
  end.
  unfold take_bytes in H.
  match type of H with context [if ?c then _ else _] => destruct c; cbn [bind] in H; try congruence end.
  match type of H with context [read_tlvs_loop f ?l] => destruct (read_tlvs_loop f l) as [ts|y|] eqn:R;
    cbn [bind] in H; try congruence; injection H as ->; now apply IH in R end.
Qed.
Lemma parse_message_err b x : parse_message b = Err x -> x = IncompleteMessage.
Proof.
  unfold parse_message. destruct (read_bytes_null_terminated b) as [c rest].
  destruct (read_tlvs rest) as [ts|y|] eqn:R; cbn [bind]; [destruct (existsb _ _); congruence| |congruence].
  intros [= ->]. now apply read_tlvs_loop_err in R.
Qed.

Section WithCrypto.
Context (C : Crypto).

(** ** One data message *)

Lemma smp_finish_result d e i0 i sd reply report i' out r :
  smp_finish C d e i0 i sd reply report = (i', out, r) -> r <> Panic ->
  (r = report \/ exists x, r = Err x) /\
  (out = [] \/ exists m, transported d e (in_receiver i) (p_version (in_state i)) m out).
Proof.
  unfold smp_finish. intros H NP. destruct reply as [[t|]|x|].
  - destruct (prepare_tlv C e (in_state i) t) as [[s m]|x|] eqn:P;
      [|fin3 H; split; [eauto|auto]|fin3 H; congruence].
    destruct (inject _ _ _ _ _ _) as [o|x|] eqn:I; [| |fin3 H; congruence].
    + assert (PV : p_version s = p_version (in_state i)).
      { unfold prepare_tlv in P. apply bind_ok in P. destruct P as (w & _ & P).
        destruct (in_state i); cbn [p_prepare] in P; try discriminate.
        - now injection P as <- <-.
        - apply bind_ok in P. destruct P as ([y k'] & _ & P). now injection P as <- <-.
        - apply bind_ok in P. destruct P as ([y k'] & _ & P). now injection P as <- <-. }
      apply inject_transported in I. cbn [in_receiver set_state] in I. rewrite PV in I.
      destruct report; fin3 H; try congruence; split; eauto.
    + destruct report; fin3 H; split; eauto.
  - destruct report; fin3 H; try congruence; split; eauto.
  - fin3 H. split; eauto.
  - fin3 H. congruence.
Qed.
Lemma smp_report_cases r st u : smp_report r st = u -> u <> Panic ->
  u = Ok UMNone \/ u = Ok (UMSmpSucceeded r) \/ u = Ok (UMSmpFailed r).
Proof. destruct st; cbn [smp_report]; intros <- NP; auto; congruence. Qed.
Lemma smp4_report_cases r st u : smp4_report r st = u -> u <> Panic ->
  u = Ok UMNone \/ u = Ok (UMSmpSucceeded r) \/ u = Ok (UMSmpFailed r).
Proof. destruct st; cbn [smp4_report]; intros <- NP; auto; congruence. Qed.

(* the reply to an unreadable message *)
Definition refuses (i i' : instance) (ignore : bool) (out : list bytes) (r : res user_message) : Prop :=
  out = [UNREADABLE_REPLY] /\ r = (if ignore then Ok UMNone else Err (UnreadableMessage (in_receiver i))) /\
  p_status (in_state i') = p_status (in_state i).

Lemma data_error_unreadable i ig t :
  data_error i ig (UnreadableMessage t) = (i, [UNREADABLE_REPLY], if ig then Ok UMNone else Err (UnreadableMessage (in_receiver i))).
Proof. reflexivity. Qed.

Lemma data3_split d e i sd rc m i' out r :
  inst_data3 C d e i sd rc m = (i', out, r) -> r <> Panic ->
  (refuses i i' (d3_ignore_unreadable m) out r /\
     ((forall our their k smp, in_state i = PEnc3 our their k smp ->
         forall mk, ~ authentic3 C k m (encode_authenticator_data sd rc m) mk) -> i' = i))
  \/ (exists our their k smp k' text, in_state i = PEnc3 our their k smp /\
        decrypt3 C k m (encode_authenticator_data sd rc m) (ev_ack e) = (k', Ok text) /\
        reported V3 (in_receiver i) text r /\
        (out = [] \/ exists m', transported d e (in_receiver i) V3 m' out) /\
        (forall c, parse_message text = Ok (ConfidentialFinished c) -> i' = set_state i PFin /\ out = []) /\
        (forall c tlvs, parse_message text = Ok (Confidential c tlvs) -> existsb (smp_record V3) tlvs = false ->
           i' = set_state i (PEnc3 our their k' smp) /\ out = [])).
Proof.
  unfold inst_data3. intros H NP.
  assert (SS : set_state i (in_state i) = i) by (now destruct i).
  destruct (in_state i) as [|our their k smp|our their k smp|] eqn:S; cbn [p_handle3] in H.
  - left. rewrite data_error_unreadable in H. rewrite SS in H. fin3 H. split; [|reflexivity].
    split; [reflexivity|]. split; [reflexivity|]. now rewrite S.
  - destruct (decrypt3 C k m _ (ev_ack e)) as [k' [text|x|]] eqn:D.
    + right. exists our, their, k, smp, k', text. split; [reflexivity|]. split; [exact D|].
      cbn [after_decrypt] in H. unfold reported.
      destruct (parse_message text) as [[c tlvs|c]|x|] eqn:PM; cbn beta iota zeta in H.
      * rewrite (existsb_ext _ _ tlvs smp_record3) in H. destruct (existsb (smp_record V3) tlvs) eqn:EX.
        -- destruct (single_smp is_smp3_tlv tlvs) as [t|x|]; [| |fin3 H; congruence].
           ++ destruct (smp_handle C _ _ smp t) as [smp' reply].
              apply smp_finish_result in H; [|assumption]. destruct H as [R O].
              split; [|split; [exact O|split; [discriminate|]]].
              ** destruct R as [R|R]; [|auto]. apply eq_sym, smp_report_cases in R; [tauto|assumption].
              ** intros c' tlvs' [= <- <-] EX'. congruence.
           ++ fin3 H. split; [eauto|]. split; [auto|]. split; [discriminate|].
              intros c' tlvs' [= <- <-] EX'. congruence.
        -- fin3 H. split; [reflexivity|]. split; [auto|]. split; [discriminate|]. auto.
      * fin3 H. split; [reflexivity|]. split; [auto|]. split; [auto|]. discriminate.
      * apply parse_message_err in PM as ->. cbn [data_error] in H. fin3 H.
        split; [reflexivity|]. split; [auto|]. split; discriminate.
      * fin3 H. congruence.
    + left. cbn [after_decrypt] in H. rewrite data_error_unreadable in H. fin3 H. split.
      * split; [reflexivity|]. split; [reflexivity|]. cbn [in_state set_state]. now rewrite S.
      * intros NA. apply decrypt3_cases in D; [|congruence]. specialize (NA _ _ _ _ eq_refl).
        inversion D; subst; try (now exfalso; eapply NA; eassumption).
        exact SS.
    + cbn [after_decrypt] in H. fin3 H. congruence.
  - left. rewrite data_error_unreadable in H. rewrite SS in H. fin3 H. split; [|reflexivity].
    split; [reflexivity|]. split; [reflexivity|]. now rewrite S.
  - left. rewrite data_error_unreadable in H. rewrite SS in H. fin3 H. split; [|reflexivity].
    split; [reflexivity|]. split; [reflexivity|]. now rewrite S.
Qed.

Lemma data4_split d e i sd rc m i' out r : data4_validate C m = Ok tt ->
  inst_data4 C d e i sd rc m = (i', out, r) -> r <> Panic ->
  (refuses i i' (d4_ignore_unreadable m) out r /\ i' = i)
  \/ (exists our their k smp k' text, in_state i = PEnc4 our their k smp /\
        decrypt4 C k m (encode_authenticator_data4 sd rc m) (ev_now e) = (k', Ok text) /\
        reported V4 (in_receiver i) text r /\
        (out = [] \/ exists m', transported d e (in_receiver i) V4 m' out) /\
        (forall c, parse_message text = Ok (ConfidentialFinished c) -> i' = set_state i PFin /\ out = []) /\
        (forall c tlvs, parse_message text = Ok (Confidential c tlvs) -> existsb (smp_record V4) tlvs = false ->
           i' = set_state i (PEnc4 our their k' smp) /\ out = [])).
Proof.
  unfold inst_data4. intros VA H NP. rewrite VA in H.
  assert (SS : set_state i (in_state i) = i) by (now destruct i).
  destruct (in_state i) as [|our their k smp|our their k smp|] eqn:S; cbn [p_handle4] in H.
  - left. rewrite data_error_unreadable in H. rewrite SS in H. fin3 H. split; [|reflexivity].
    split; [reflexivity|]. split; [reflexivity|]. now rewrite S.
  - left. rewrite data_error_unreadable in H. rewrite SS in H. fin3 H. split; [|reflexivity].
    split; [reflexivity|]. split; [reflexivity|]. now rewrite S.
  - destruct (decrypt4 C k m _ (ev_now e)) as [k' [text|x|]] eqn:D.
    + right. exists our, their, k, smp, k', text. split; [reflexivity|]. split; [exact D|].
      cbn [after_decrypt] in H. unfold reported.
      destruct (parse_message text) as [[c tlvs|c]|x|] eqn:PM; cbn beta iota zeta in H.
      * rewrite (existsb_ext _ _ tlvs smp_record4) in H. destruct (existsb (smp_record V4) tlvs) eqn:EX.
        -- destruct (single_smp is_smp4_tlv tlvs) as [t|x|]; [| |fin3 H; congruence].
           ++ destruct (smp4_handle C _ _ smp t) as [smp' reply].
              apply smp_finish_result in H; [|assumption]. destruct H as [R O].
              split; [|split; [exact O|split; [discriminate|]]].
              ** destruct R as [R|R]; [|auto]. apply eq_sym, smp4_report_cases in R; [tauto|assumption].
              ** intros c' tlvs' [= <- <-] EX'. congruence.
           ++ fin3 H. split; [eauto|]. split; [auto|]. split; [discriminate|].
              intros c' tlvs' [= <- <-] EX'. congruence.
        -- fin3 H. split; [reflexivity|]. split; [auto|]. split; [discriminate|]. auto.
      * fin3 H. split; [reflexivity|]. split; [auto|]. split; [auto|]. discriminate.
      * apply parse_message_err in PM as ->. cbn [data_error] in H. fin3 H.
        split; [reflexivity|]. split; [auto|]. split; discriminate.
      * fin3 H. congruence.
    + left. cbn [after_decrypt] in H. rewrite data_error_unreadable in H. fin3 H.
      apply decrypt4_err in D. subst k'. rewrite <- S. split; [|now destruct i].
      split; [reflexivity|]. split; [reflexivity|]. cbn [in_state set_state]. now rewrite S.
    + cbn [after_decrypt] in H. fin3 H. congruence.
  - left. rewrite data_error_unreadable in H. rewrite SS in H. fin3 H. split; [|reflexivity].
    split; [reflexivity|]. split; [reflexivity|]. now rewrite S.
Qed.

(* an instance's decryption, for both versions *)
Definition decrypts (e : env) (st : pstate) (em : encoded_message) (st' : pstate) (text : bytes) : Prop :=
  match st, em_message em with
  | PEnc3 our their k smp, MData m =>
      em_version em = V3 /\ exists k', st' = PEnc3 our their k' smp /\
      decrypt3 C k m (encode_authenticator_data (em_sender em) (em_receiver em) m) (ev_ack e) = (k', Ok text)
  | PEnc4 our their k smp, MData4 m =>
      em_version em = V4 /\ data4_validate C m = Ok tt /\ exists k', st' = PEnc4 our their k' smp /\
      decrypt4 C k m (encode_authenticator_data4 (em_sender em) (em_receiver em) m) (ev_now e) = (k', Ok text)
  | _, _ => False
  end.
Lemma decrypts_opens e st em st' text : decrypts e st em st' text -> opens C st em text.
Proof.
  unfold decrypts, opens. destruct st as [|our their k smp|our their k smp|], (em_message em); try easy.
  - intros (V & k' & -> & D). split; [assumption|]. apply decrypt3_cases in D; [|discriminate].
    inversion D; subst. do 4 eexists. repeat (split; [eassumption|]). reflexivity.
  - intros (V & _ & k' & -> & D). split; [assumption|]. apply decrypt4_ok in D.
    destruct D as (ck & A & _ & AU & NZ & ->). exists ck. apply accepted4_reads in A. auto.
Qed.

(* a data message, in either version *)
Definition is_data (em : encoded_message) : Prop :=
  (exists m, em_version em = V3 /\ em_message em = MData m) \/ (exists m, em_version em = V4 /\ em_message em = MData4 m).

(* a message handled by an instance *)
Lemma handle_split d e i em i' out r : inst_handle C d e i em = (i', out, r) -> r <> Panic ->
  (* no text in the message *)
  ((~ is_data em \/ exists m, em_message em = MData4 m /\ data4_validate C m <> Ok tt) /\
   (r = Ok UMNone \/ (r = Ok (UMSessionStarted (in_receiver i)) /\ p_status (in_state i') = Encrypted)
    \/ exists x, r = Err x) /\
   (out = [] \/ exists m, transported d e (in_receiver i) (em_version em) m out) /\
   (r <> Ok (UMSessionStarted (in_receiver i)) -> in_state i' = in_state i))
  (* unreadable *)
  \/ (exists ignore, data_message C em ignore /\ refuses i i' ignore out r /\
        ((forall text, ~ opens C (in_state i) em text) -> in_state i' = in_state i))
  (* read *)
  \/ (exists st' text, decrypts e (in_state i) em st' text /\ reported (em_version em) (in_receiver i) text r /\
        (out = [] \/ exists m, transported d e (in_receiver i) (em_version em) m out) /\
        (forall c, parse_message text = Ok (ConfidentialFinished c) -> in_state i' = PFin /\ out = []) /\
        (forall c tlvs, parse_message text = Ok (Confidential c tlvs) -> existsb (smp_record (em_version em)) tlvs = false ->
           in_state i' = st' /\ out = [])).
Proof.
  unfold inst_handle. intros H NP.
  assert (KX : forall b a o m x, injecting b a (inject d e b (em_version em) (em_sender em) m) x = (i', o, r) ->
    in_receiver b = in_receiver i -> r <> Panic -> i' = a /\ r = Ok x /\ transported d e (in_receiver i) (em_version em) m o).
  { intros b a o m x X R NX. apply injecting_inv in X.
    destruct X as [(X & -> & ->) | [(? & E0 & _) | (_ & ->)]]; [|now apply inject_no_err in E0|congruence].
    apply inject_transported in X. rewrite R in X. auto. }
  assert (ND : (forall m, em_message em <> MData m) -> (forall m, em_message em <> MData4 m) -> ~ is_data em).
  { intros A B [(m & _ & X) | (m & _ & X)]; [now apply A in X|now apply B in X]. }
  destruct (em_version em) eqn:V; destruct (em_message em) eqn:M;
    try (fin3 H; congruence);
    try (left; fin3 H; split; [left; unfold is_data; rewrite V, M; intros [(? & ? & ?)|(? & ? & ?)]; discriminate|];
         split; [right; right; eauto|]; split; [auto|]; intros _; reflexivity).
  - left. split; [left; apply ND; discriminate|].
    destruct (ake_handle_dhcommit C _ _ _) as [st [a|x|]]; [|fin3 H|fin3 H; congruence].
    + apply KX in H; [|reflexivity|assumption]. destruct H as (-> & -> & T). cbn [in_state set_ake set_assembler]. split; eauto.
    + split; [eauto|]. split; auto.
  - left. split; [left; apply ND; discriminate|].
    destruct (ake_handle_dhkey C _ _ _ _) as [st [a|x|]]; [|fin3 H|fin3 H; congruence].
    + apply KX in H; [|reflexivity|assumption]. destruct H as (-> & -> & T). cbn [in_state set_ake set_assembler]. split; eauto.
    + split; [eauto|]. split; auto.
  - left. split; [left; apply ND; discriminate|].
    destruct (ake_handle_reveal C _ _ _ _) as [st [[mat a]|x|]]; [|fin3 H; split; [eauto|split; auto]|fin3 H; congruence].
    destruct (secure C _ _ _ _ _) as [j|x|] eqn:S; [|fin3 H; split; [eauto|split; auto]|fin3 H; congruence].
    apply secure_status in S. destruct S as [S1 S2]. apply KX in H; [|reflexivity|assumption].
    destruct H as (-> & -> & T). cbn [in_receiver set_assembler]. split; [auto|]. split; [eauto|congruence].
  - left. split; [left; apply ND; discriminate|].
    destruct (ake_handle_signature C _ _) as [st [mat|x|]]; [|fin3 H; split; [eauto|split; auto]|fin3 H; congruence].
    destruct (secure C _ _ _ _ _) as [j|x|] eqn:S; [|fin3 H; split; [eauto|split; auto]|fin3 H; congruence].
    apply secure_status in S. destruct S as [S1 S2]. fin3 H. cbn [in_receiver set_assembler]. split; [auto|]. split; [auto|congruence].
  - apply data3_split in H; [|assumption]. cbn [in_state set_assembler in_receiver] in H.
    destruct H as [[R U] | (our & their & k & smp & k' & text & S & D & RE & O & FI & CO)].
    + right. left. exists (d3_ignore_unreadable m). split; [left; exists m; auto|]. split; [exact R|].
      intros NO. rewrite U; [reflexivity|]. intros our their k smp S mk A.
      unfold opens in NO. rewrite S, M, V in NO. destruct A as (x & y & ek & A1 & A2 & A3 & A4 & A5).
      eapply NO. split; [reflexivity|]. exists x, y, ek, mk. repeat (split; [eassumption|]). reflexivity.
    + right. right. exists (PEnc3 our their k' smp), text. split; [|split; [exact RE|split; [exact O|]]].
      * unfold decrypts. rewrite S, M, V. split; [reflexivity|]. eauto.
      * split.
        -- intros c PM. apply FI in PM. destruct PM as [-> ->]. auto.
        -- intros c tlvs PM EX. destruct (CO _ _ PM EX) as [-> ->]. auto.
  - left. split; [left; apply ND; discriminate|].
    destruct (dake_handle_identity C _ _ _ _ _ _ _) as [st [a|x|]]; [|fin3 H|fin3 H; congruence].
    + apply KX in H; [|reflexivity|assumption]. destruct H as (-> & -> & T). cbn [in_state set_dake]. split; eauto.
    + split; [eauto|]. split; auto.
  - left. split; [left; apply ND; discriminate|].
    destruct (dake_handle_auth_r C _ _ _ _ _ _ _ _ _) as [st [[mat a]|x|]]; [|fin3 H; split; [eauto|split; auto]|fin3 H; congruence].
    destruct (inject _ _ _ _ _ _) as [o|x|] eqn:I; [|now apply inject_no_err in I|fin3 H; congruence].
    apply inject_transported in I.
    destruct (secure C _ _ _ _ _) as [j|x|] eqn:S; [|fin3 H; split; [eauto|split; [eauto|auto]]|fin3 H; congruence].
    apply secure_status in S. destruct S as [S1 S2]. fin3 H. split; [auto|]. split; [eauto|congruence].
  - left. split; [left; apply ND; discriminate|].
    destruct (dake_handle_auth_i C _ _ _ _ _) as [st [mat|x|]]; [|fin3 H; split; [eauto|split; auto]|fin3 H; congruence].
    destruct (secure C _ _ _ _ _) as [j|x|] eqn:S; [|fin3 H; split; [eauto|split; auto]|fin3 H; congruence].
    apply secure_status in S. destruct S as [S1 S2]. fin3 H. split; [auto|]. split; [auto|congruence].
  - destruct (data4_validate C m) as [[]|x|] eqn:VA.
    2:{ left. unfold inst_data4 in H. rewrite VA in H. fin3 H. split; [right; exists m; split; [reflexivity|congruence]|].
        split; [eauto|]. split; auto. }
    2:{ unfold inst_data4 in H. rewrite VA in H. fin3 H. congruence. }
    apply data4_split in H; [|assumption|assumption].
    destruct H as [[R U] | (our & their & k & smp & k' & text & S & D & RE & O & FI & CO)].
    + right. left. exists (d4_ignore_unreadable m). split; [right; exists m; auto|]. split; [exact R|].
      intros _. now rewrite U.
    + right. right. exists (PEnc4 our their k' smp), text. split; [|split; [exact RE|split; [exact O|]]].
      * unfold decrypts. rewrite S, M, V. split; [reflexivity|]. eauto.
      * split.
        -- intros c PM. apply FI in PM. destruct PM as [-> ->]. auto.
        -- intros c tlvs PM EX. destruct (CO _ _ PM EX) as [-> ->]. auto.
Qed.

(** ** The session *)

Lemma contains_in v vs : contains_version v vs = true <-> In v vs.
Proof.
  unfold contains_version. rewrite existsb_exists. split.
  - intros (x & I & E). destruct v, x; cbn [version_eqb] in E; try discriminate; try assumption.
    apply N.eqb_eq in E. now subst.
  - intros I. exists v. split; [assumption|]. destruct v; cbn [version_eqb]; auto. apply N.eqb_refl.
Qed.
Lemma select_chosen d vs v : select_version (de_policy d) vs = Some v <-> chosen d vs v.
Proof.
  unfold select_version, chosen, allowed.
  destruct (contains_version V4 vs) eqn:C4; destruct (contains_version V3 vs) eqn:C3;
    destruct (allow_v4 (de_policy d)) eqn:A4; destruct (allow_v3 (de_policy d)) eqn:A3; cbn [andb];
    repeat match goal with
    | H : contains_version _ _ = true |- _ => apply contains_in in H
    | H : contains_version ?v _ = false |- _ =>
        assert (~ In v vs) by (rewrite <- contains_in; congruence); clear H
    end; split; intros X; intuition congruence.
Qed.

(* what a handled message does to the state of its sender *)
Definition handled (e : env) (d : details) (em : encoded_message) (st st' : pstate) (out : list bytes)
    (r : res user_message) : Prop :=
  ((~ is_data em \/ exists m, em_message em = MData4 m /\ data4_validate C m <> Ok tt) /\
   (r = Ok UMNone \/ (r = Ok (UMSessionStarted (em_sender em)) /\ p_status st' = Encrypted) \/ exists x, r = Err x) /\
   (out = [] \/ exists m, transported d e (em_sender em) (em_version em) m out) /\
   (r <> Ok (UMSessionStarted (em_sender em)) -> st' = st))
  \/ (exists ignore, data_message C em ignore /\ out = [UNREADABLE_REPLY] /\
        r = (if ignore then Ok UMNone else Err (UnreadableMessage (em_sender em))) /\
        p_status st' = p_status st /\ ((forall text, ~ opens C st em text) -> st' = st))
  \/ (exists st1 text, decrypts e st em st1 text /\ reported (em_version em) (em_sender em) text r /\
        (out = [] \/ exists m, transported d e (em_sender em) (em_version em) m out) /\
        (forall c, parse_message text = Ok (ConfidentialFinished c) -> st' = PFin /\ out = []) /\
        (forall c tlvs, parse_message text = Ok (Confidential c tlvs) -> existsb (smp_record (em_version em)) tlvs = false ->
           st' = st1 /\ out = [])).

Inductive arrives (e : env) (s : session) (p : bytes) (s' : session) : list bytes -> res user_message -> Prop :=
| ar_quiet r : same_states s s' -> (r = Ok UMNone \/ exists x, r = Err x) -> arrives e s p s' [] r
| ar_error b t out : completes s p b -> parse C b = Ok (MsgError t) -> same_states s s' ->
    (error_start_ake (de_policy (se_details s)) = true /\ (exists v, preferred (se_details s) v /\ out = [query_message v])
     \/ error_start_ake (de_policy (se_details s)) = false /\ out = []) ->
    arrives e s p s' out (Ok (UMError t))
| ar_text b t q out : completes s p b ->
    (parse C b = Ok (MsgPlaintext t) \/ exists vs, parse C b = Ok (MsgTagged vs t)) ->
    same_states s s' ->
    (q = true <-> exists u, status_of s u <> Plaintext) ->
    (out = [] \/ exists vs v m, offers C s p vs /\ chosen (se_details s) vs v /\ transported (se_details s) e 0 v m out) ->
    arrives e s p s' out
      (Ok (if q || require_encryption (de_policy (se_details s)) then UMWarningUnencrypted t else UMPlaintext t))
| ar_start vs v out r : offers C s p vs -> chosen (se_details s) vs v -> same_states s s' ->
    (out = [] \/ exists m, transported (se_details s) e 0 v m out) ->
    (r = Ok UMNone \/ exists x, r = Err x /\ out = []) -> arrives e s p s' out r
| ar_message em out r : carries C s p em -> verify_header (se_details s) em = Ok tt ->
    allowed (se_details s) (em_version em) ->
    (forall u, u <> em_sender em -> state_of s' u = state_of s u) ->
    handled e (se_details s) em (state_of s (em_sender em)) (state_of s' (em_sender em)) out r ->
    arrives e s p s' out r.

Lemma initiate_out d e i v i' out r : inst_initiate C d e i v = (i', out, r) -> r <> Panic ->
  (r = Ok UMNone /\ exists m, transported d e (in_receiver i) v m out) \/ ((exists x, r = Err x) /\ out = []).
Proof.
  unfold inst_initiate. intros H NP. destruct v; try (fin3 H; congruence).
  - destruct (ake_initiate C _ _) as [[st m]|x|]; [|fin3 H; eauto|fin3 H; congruence].
    apply injecting_inv in H. destruct H as [(X & _ & ->) | [(? & E0 & _) | (_ & ->)]]; [|now apply inject_no_err in E0|congruence].
    apply inject_transported in X. eauto.
  - destruct (dake_initiate C _ _ _) as [st [m|x|]]; [|fin3 H; eauto|fin3 H; congruence].
    apply injecting_inv in H. destruct H as [(X & _ & ->) | [(? & E0 & _) | (_ & ->)]]; [|now apply inject_no_err in E0|congruence].
    apply inject_transported in X. eauto.
Qed.

Lemma receive_arrives e s p s' out r : sinv s -> enabled (se_details s) ->
  receive C e s p = (s', out, r) -> r <> Panic -> arrives e s p s' out r.
Proof.
  intros SI EN H NP. apply receive_split in H; [|assumption].
  assert (ST : same_states s (stored s p)) by (intros u; apply stored_state).
  apply enabled_not_disabled in EN as DI.
  destruct H as [(X & _) | [(_ & b & CO & H) | (_ & _ & -> & SS & R)]]; [congruence| |].
  2:{ apply ar_quiet; [|tauto]. destruct SS as [-> | [-> _]]; [now intros u|assumption]. }
  apply (sinv_stored s p) in SI as SI'.
  assert (SD : se_details (stored s p) = se_details s) by apply stored_details.
  assert (TXT : forall s1 o t, sinv s1 -> se_details s1 = se_details s -> same_states s s1 ->
     deliver_text s1 o t = (s', out, r) ->
     s' = s1 /\ o = out /\ exists q, (q = true <-> exists u, status_of s u <> Plaintext) /\
       r = Ok (if q || require_encryption (de_policy (se_details s)) then UMWarningUnencrypted t else UMPlaintext t)).
  { intros s1 o t I1 D1 S1 X. apply deliver_inv in X; [|assumption]. destruct X as (-> & -> & q & HS & ->).
    split; [reflexivity|]. split; [reflexivity|]. exists q. rewrite D1. split; [|reflexivity].
    apply has_sessions_iff in I1. destruct I1 as (q' & HS' & I). assert (q' = q) as -> by congruence.
    rewrite I. unfold status_of. split; intros (u & U); exists u; [rewrite <- S1|rewrite S1]; assumption. }
  assert (INI : forall v s1 o1 r1, initiate C e (stored s p) v 0 = (s1, o1, r1) -> r1 <> Panic ->
     sinv s1 /\ se_details s1 = se_details s /\ same_states s s1 /\
     ((r1 = Ok UMNone /\ exists m, transported (se_details s) e 0 v m o1) \/ ((exists x, r1 = Err x) /\ o1 = []))).
  { intros v s1 o1 r1 X N1. apply sinv_initiate in X as I1; [|assumption|assumption].
    apply initiate_inv in X; [|assumption]. destruct X as (i' & X & -> & S & _).
    apply initiate_out in X; [|assumption]. rewrite SD, (sinv_entry _ 0 SI') in X.
    split; [assumption|]. split; [exact SD|]. split; [|exact X].
    intros u. destruct (N.eq_dec 0 u) as [<-|NE].
    - rewrite state_put_same, S. apply ST.
    - rewrite state_put_other by assumption. apply ST. }
  apply message_split in H; [|assumption]. rewrite SD in H.
  destruct H as [(x & _ & -> & -> & ->) | [(c & PA & -> & H) | [(c & PA & H) | [(vs & c & PA & H) | [(vs & PA & H) | (em & PA & H)]]]]].
  - apply ar_quiet; eauto.
  - destruct (query_eq (stored s p)) as (v & PR & Q); [now rewrite SD|]. rewrite SD in PR.
    destruct H as [(-> & H) | (x & Q' & _)]; [|congruence].
    eapply ar_error; [eassumption|eassumption|assumption|].
    destruct H as [(A & Q') | H]; [left|auto]. split; [assumption|]. exists v. split; [assumption|congruence].
  - apply TXT in H; [|assumption..]. destruct H as (-> & <- & q & Q & ->). eapply ar_text; eauto.
  - destruct H as [(_ & H) | (W & v & s1 & r1 & SV & H1 & NP1 & H)].
    + apply TXT in H; [|assumption..]. destruct H as (-> & <- & q & Q & ->). eapply ar_text; eauto.
    + apply INI in H1; [|assumption]. destruct H1 as (I1 & D1 & S1 & O1). apply select_chosen in SV.
      destruct H as [((m & ->) & H) | (-> & -> & x & ->)].
      * apply TXT in H; [|assumption..]. destruct H as (-> & _ & q & Q & ->).
        eapply ar_text; [eassumption|eauto|assumption|assumption|].
        destruct O1 as [(_ & m' & O1) | ((x & ?) & _)]; [|discriminate].
        right. exists vs, v, m'. split; [|auto]. exists b. eauto.
      * destruct O1 as [(? & _) | (_ & ->)]; [discriminate|].
        eapply ar_start with (vs := vs) (v := v); try assumption; [|auto|eauto]. exists b. eauto.
  - destruct H as [(_ & -> & -> & ->) | (v & r1 & SV & H1 & H)]; [apply ar_quiet; auto|].
    apply INI in H1; [|destruct H as [((m & ->) & _) | (_ & x & ->)]; congruence].
    destruct H1 as (I1 & D1 & S1 & O1). apply select_chosen in SV.
    eapply ar_start with (vs := vs) (v := v); try assumption; [exists b; eauto| |].
    + destruct O1 as [(_ & O1) | (_ & O1)]; auto.
    + destruct H as [(_ & ->) | (-> & x & ->)]; [auto|]. right.
      destruct O1 as [(? & _) | (_ & O1)]; [discriminate|eauto].
  - apply encoded_split in H; [|assumption]. rewrite SD in H.
    destruct H as [(-> & -> & _ & ->) | [(-> & -> & _ & x & -> & _) | (V & NZ & AL & i0 & i' & A & H & ->)]];
      [apply ar_quiet; eauto..|].
    apply adopted_same in A. destruct A as (A1 & A2 & _).
    rewrite entry_state, ST in A1. rewrite (sinv_entry _ _ SI') in A2.
    eapply ar_message with (em := em); [exists b; auto|assumption|assumption| |].
    + intros u NE. rewrite state_put_other by congruence. apply ST.
    + rewrite state_put_same. apply handle_split in H; [|assumption]. unfold refuses in H. rewrite A1, A2 in H.
      unfold handled. destruct H as [H | [(ig & DM & (R1 & R2 & R3) & R4) | H]]; [left; exact H| |right; right; exact H].
      right. left. exists ig. auto.
Qed.
End WithCrypto.
