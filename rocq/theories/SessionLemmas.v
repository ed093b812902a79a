(* The properties of sessions, from the proofs about sending and receiving. *)
From Coq Require Import Lia ZifyN ZifyNat.
From Verif Require Import Base BaseLemmas Types Crypto Encoding Base64 Base64Proofs EncodingProofs Messages MessagesProofs
  Fragment SpecFragment FragmentProofs KeyManager DataV3
  Ratchet DataV4 AKE DAKE SMP SMP4 Protocol Session SpecData3 SpecData4 SpecSession SessionProofs
  SessionPartyProofs SessionInvProofs SessionSendProofs SessionHistProofs SessionRecvProofs.
Local Open Scope N_scope.

(** ** Text and records *)

Lemma without_nul_not_in c : ~ In x00 (without_nul c).
Proof. unfold without_nul. rewrite filter_In. intros (_ & H). discriminate. Qed.
Lemma read_null_none c : ~ In x00 c -> read_bytes_null_terminated c = (c, []).
Proof.
  induction c as [|b c IH]; intros NI; cbn [read_bytes_null_terminated]; [reflexivity|].
  destruct (byte_eqb b x00) eqn:E.
  - apply byte_eqb_eq in E. subst. exfalso. apply NI. now left.
  - rewrite IH; [reflexivity|]. intros I. apply NI. now right.
Qed.
Lemma parse_text_only c : parse_message (without_nul c) = Ok (Confidential (without_nul c) []).
Proof. unfold parse_message. rewrite read_null_none by apply without_nul_not_in. reflexivity. Qed.

(* what the records of a message mean: padding is dropped, a disconnect record ends the session *)
Lemma parse_text_records c ts : Forall SpecWire.tlv_range ts ->
  parse_message (without_nul c ++ x00 :: concat (map SpecWire.tlv_bytes ts)) =
  Ok (if existsb (fun t => tlv_type t =? 1) ts then ConfidentialFinished (without_nul c)
      else Confidential (without_nul c) (filter (fun t => negb (tlv_type t =? 0)) ts)).
Proof.
  intros TR. unfold parse_message. 
  change (without_nul c ++ x00 :: concat (map SpecWire.tlv_bytes ts))
    with (without_nul c ++ [x00] ++ concat (map SpecWire.tlv_bytes ts)). rewrite app_assoc.
  change (without_nul c ++ [x00]) with (write_bytes_null_terminated (without_nul c)).
  rewrite (read_null_terminated_write (without_nul c)) by apply without_nul_not_in.
  rewrite read_tlvs_write by assumption. cbn [bind].
  replace (existsb (fun t => tlv_type t =? TLV_TYPE_1_DISCONNECT) (filter (fun t => negb (tlv_type t =? TLV_TYPE_0_PADDING)) ts))
    with (existsb (fun t => tlv_type t =? 1) ts).
  - now destruct (existsb _ ts).
  - clear TR. induction ts as [|t ts IH]; [reflexivity|]. cbn [existsb filter].
    unfold TLV_TYPE_0_PADDING, TLV_TYPE_1_DISCONNECT in *.
    destruct (tlv_type t =? 0) eqn:E0; cbn [negb existsb]; rewrite <- IH; [|reflexivity].
    apply N.eqb_eq in E0. now rewrite E0.
Qed.
Lemma reported_text v t c r : reported v t (without_nul c) r <-> r = Ok (UMConfidential t (without_nul c) []).
Proof. unfold reported. rewrite parse_text_only. reflexivity. Qed.
Lemma parse_disconnect : parse_message DISCONNECT = Ok (ConfidentialFinished []).
Proof. reflexivity. Qed.

(* parse_message against its specification *)
Lemma says_parse b c rs : says b c rs ->
  parse_message b = Ok (if existsb (fun t => tlv_type t =? 1) rs then ConfidentialFinished c
    else Confidential c (filter (fun t => negb (tlv_type t =? 0)) rs)).
Proof.
  intros (NI & TR & E). assert (W : without_nul c = c).
  { clear - NI. unfold without_nul. induction c as [|x c IH]; [reflexivity|]. cbn [filter].
    destruct (byte_eqb x x00) eqn:X; [apply byte_eqb_eq in X; subst; now contradiction NI; left|].
    cbn [negb]. rewrite IH; [reflexivity|]. intros I. apply NI. now right. }
  destruct E as [[-> ->] | ->].
  - rewrite <- W. apply parse_text_only.
  - rewrite <- W. now apply parse_text_records.
Qed.
Lemma parse_says b m : parse_message b = Ok m -> exists c rs, says b c rs.
Proof.
  unfold parse_message. destruct (read_bytes_null_terminated b) as [c rest] eqn:R. intros H.
  apply bind_ok in H. destruct H as (rs & T & _). apply read_tlvs_loop_exact in T. destruct T as [TR ->].
  exists c, rs. apply read_null_terminated_exact in R. destruct R as (NI & [R|[R RE]]); (split; [assumption|]); (split; [assumption|]);
    [now right|left]. split; [assumption|]. destruct rs as [|x rs]; [reflexivity|discriminate].
Qed.
Lemma says_or_not b : (exists c rs, says b c rs) \/ (forall c rs, ~ says b c rs) /\ parse_message b = Err IncompleteMessage.
Proof.
  destruct (parse_message b) as [m|x|] eqn:P.
  - left. now apply parse_says in P.
  - right. apply parse_message_err in P as PE. subst x. split; [|reflexivity]. intros c rs S. apply says_parse in S. congruence.
  - exfalso. unfold parse_message in P. destruct (read_bytes_null_terminated b) as [c rest].
    destruct (read_tlvs rest) as [ts|y|] eqn:R; cbn [bind] in P; [destruct (existsb _ _); discriminate|discriminate|].
    now apply read_tlvs_loop_safe in R.
Qed.
Lemma parse_shows b c tlvs : parse_message b = Ok (Confidential c tlvs) <-> shows b c tlvs.
Proof.
  split.
  - intros P. destruct (parse_says _ _ P) as (c' & rs & S). apply says_parse in S as P'. rewrite P in P'.
    destruct (existsb (fun t => tlv_type t =? 1) rs) eqn:E; [discriminate|]. injection P' as -> ->.
    exists rs. split; [assumption|]. split; [|reflexivity]. apply Forall_forall. intros t I X.
    assert (existsb (fun t => tlv_type t =? 1) rs = true) by (apply existsb_exists; exists t; split; [assumption|now apply N.eqb_eq]).
    congruence.
  - intros (rs & S & F & ->). apply says_parse in S. rewrite S. destruct (existsb (fun t => tlv_type t =? 1) rs) eqn:E; [|reflexivity].
    apply existsb_exists in E. destruct E as (t & I & X). apply N.eqb_eq in X. rewrite Forall_forall in F. now apply F in I.
Qed.
Lemma parse_farewell b c : parse_message b = Ok (ConfidentialFinished c) <-> farewell b c.
Proof.
  split.
  - intros P. destruct (parse_says _ _ P) as (c' & rs & S). apply says_parse in S as P'. rewrite P in P'.
    destruct (existsb (fun t => tlv_type t =? 1) rs) eqn:E; [|discriminate]. injection P' as ->.
    exists rs. split; [assumption|]. apply existsb_exists in E. destruct E as (t & I & X). apply N.eqb_eq in X.
    apply Exists_exists. eauto.
  - intros (rs & S & F). apply says_parse in S. rewrite S. apply Exists_exists in F. destruct F as (t & I & X).
    replace (existsb (fun t => tlv_type t =? 1) rs) with true; [reflexivity|]. symmetry. apply existsb_exists. exists t.
    split; [assumption|now apply N.eqb_eq].
Qed.
Lemma reported_told v t b r : reported v t b r <-> told v t b r.
Proof.
  unfold reported, told. split.
  - destruct (parse_message b) as [[c ts|c]|x|] eqn:P; [| | |intros []].
    + intros R. left. exists c, ts. split; [now apply parse_shows|exact R].
    + intros ->. right. left. exists c. split; [now apply parse_farewell|reflexivity].
    + intros ->. right. right. destruct (says_or_not b) as [(c & rs & S)|[N E]]; [apply says_parse in S; congruence|].
      split; [assumption|congruence].
  - intros [(c & ts & S & R)|[(c & S & ->)|(N & ->)]].
    + apply parse_shows in S. now rewrite S.
    + apply parse_farewell in S. now rewrite S.
    + destruct (says_or_not b) as [(c & rs & S)|[_ ->]]; [now apply N in S|reflexivity].
Qed.

(** ** Headers *)

Lemma header_parse C v k sd rc rest m : (v = V3 \/ v = V4) -> sd < 4294967296 -> rc < 4294967296 ->
  parse C (with_header v k sd rc rest) = Ok m ->
  exists em, m = MsgEncoded em /\ em_sender em = sd /\ em_receiver em = rc /\ em_version em = v /\
    legal_tag sd /\ legal_tag rc.
Proof.
  intros V SD RC H. unfold with_header in H. rewrite parse_encoded_body in H.
  unfold parse_encoded_message in H. rewrite b64_round_trip in H.
  apply bind_ok in H. destruct H as ([em buf] & R & H). injection H as <-. exists em. split; [reflexivity|].
  unfold read_encoded_message in R. rewrite read_u16_write in R by (destruct V as [-> | ->]; lia).
  cbn [bind] in R.
  assert (VV : version_of_u16 (match v with V3 => 3 | _ => 4 end) = Ok v) by (destruct V as [-> | ->]; reflexivity).
  rewrite VV in R. cbn [bind app read_u8] in R.
  unfold read_instance_tag in R. rewrite read_u32_write in R by assumption. cbn [bind] in R.
  destruct (tag_verify sd) as [sd'|x|] eqn:T1; cbn [bind] in R; try discriminate.
  apply tag_verify_legal in T1. destruct T1 as [-> L1].
  rewrite read_u32_write in R by assumption. cbn [bind] in R.
  destruct (tag_verify rc) as [rc'|x|] eqn:T2; cbn [bind] in R; try discriminate.
  apply tag_verify_legal in T2. destruct T2 as [-> L2].
  destruct (read_content C v k rest) as [[ct b2]|x|]; cbn [bind] in R; try discriminate.
  injection R as <- <-. cbn [em_sender em_receiver em_version]. auto.
Qed.
Lemma header_not_fragment v k sd rc rest : match_fragment (with_header v k sd rc rest) = false.
Proof. unfold with_header, match_fragment. reflexivity. Qed.

Lemma misaddressed_text f : (fr_version f = V3 \/ fr_version f = V4) -> frag_typed f -> fr_payload f <> [] ->
  Forall fragment_char (fr_payload f) ->
  (illegal (fr_sender f) \/ illegal (fr_receiver f)) ->
  match_fragment (fragment_text f) = true /\ parse_fragment (fragment_text f) = Ok None.
Proof.
  intros Hv Ht Hne Hpl Hi. change (fragment_text f) with (frag_text f). split; [apply text_is_fragment|].
  destruct Ht as (Hi4 & Hs & Hr & Hp & Htot). apply payload_chars in Hpl.
  assert (Hlen : (1 <= length (fr_payload f))%nat) by (destruct (fr_payload f); cbn; [congruence|lia]).
  assert (B : forall v i, build_fragment v (mkCaptures i (hex_digits 8 (fr_sender f)) (hex_digits 8 (fr_receiver f))
                      (dec_digits 5 (fr_part f)) (dec_digits 5 (fr_total f)) (fr_payload f)) = Ok None).
  { intros v i. unfold build_fragment.
    cbn [ca_part ca_total ca_sender ca_receiver ca_id ca_payload].
    rewrite !parse_u16_dec by assumption. cbn [bind].
    rewrite !hex_digits_num by (cbn; lia).
    assert (IL : forall t, illegal t -> tag_opt t = None).
    { intros t [L1 L2]. unfold tag_opt, tag_verify. apply N.ltb_lt in L1. rewrite L1.
      change INSTANCE_MIN_VALID with 256. apply N.ltb_lt in L2. now rewrite L2. }
    destruct Hi as [I|I]; rewrite (IL _ I); [reflexivity|]. now destruct (tag_opt (fr_sender f)). }
  unfold parse_fragment. destruct Hv as [E|E].
  - destruct (search match_v4 (frag_text f)) eqn:E4.
    + apply search_v4_bars in E4. unfold frag_text in E4. rewrite E in E4.
      rewrite !count_occ_app in E4.
      rewrite !(count_bar_class is_hex _ eq_refl (hex_digits_class _ _)) in E4.
      rewrite !(count_bar_class is_dec _ eq_refl (dec_digits_class _ _)) in E4.
      rewrite (count_bar_class is_payload _ eq_refl Hpl) in E4.
      cbn in E4. lia.
    + erewrite search_here.
      2:{ unfold match_v3, frag_text. rewrite starts_with_app, E, skip_prefix.
          change OTR_FRAGMENT_SUFFIX with (COMMA :: []). cbn [app].
          rewrite match_tail_run; [reflexivity|..];
            rewrite ?hex_digits_length, ?dec_digits_length;
            auto using hex_digits_class, dec_digits_class; lia. }
      apply B.
  - erewrite search_here.
    2:{ unfold match_v4, frag_text. rewrite starts_with_app, E, skip_prefix.
        change OTR_FRAGMENT_SUFFIX with (COMMA :: []).
        rewrite <- app_assoc. cbn [app].
        rewrite match_field_run; [|auto using hex_digits_class|reflexivity|rewrite hex_digits_length; lia
          |rewrite hex_digits_length; lia]. cbn [obind].
        rewrite match_tail_run; [reflexivity|..];
          rewrite ?hex_digits_length, ?dec_digits_length;
          auto using hex_digits_class, dec_digits_class; lia. }
    apply B.
Qed.

Section WithCrypto.
Context (C : Crypto).

(** ** C42 *)

Lemma other_message d h s e v k sd rc rest s' out r : history C d h s -> enabled d ->
  (v = V3 \/ v = V4) -> sd < 4294967296 -> rc < 4294967296 ->
  (sd = 0 \/ misaddressed (de_tag d) sd rc) ->
  receive C e s (with_header v k sd rc rest) = (s', out, r) -> r <> Panic ->
  s' = s /\ out = [] /\ (r = Ok UMNone \/ exists x, r = Err x).
Proof.
  intros HI EN V SD RC MA H NP. apply history_inv in HI. destruct HI as [SI D]. subst d.
  apply enabled_not_disabled in EN.
  apply receive_split in H; [|assumption].
  destruct H as [(X & _) | [(_ & b & CO & H) | (_ & X & _)]]; [congruence| |now rewrite header_not_fragment in X].
  assert (stored s (with_header v k sd rc rest) = s) as ST.
  { unfold stored. now rewrite header_not_fragment. }
  rewrite ST in H. destruct CO as [(_ & ->) | (f & a & X & _)]; [|now rewrite header_not_fragment in X].
  assert (PH : forall m, parse C (with_header v k sd rc rest) = Ok m -> exists em, m = MsgEncoded em /\
    em_sender em = sd /\ em_receiver em = rc /\ em_version em = v /\ legal_tag sd /\ legal_tag rc).
  { intros m. now apply header_parse. }
  apply message_split in H; [|assumption].
  destruct H as [(x & _ & -> & -> & ->) | [(c & PA & _) | [(c & PA & _) | [(vs & c & PA & _) | [(vs & PA & _) | (em & PA & H)]]]]];
    try (apply PH in PA; destruct PA as (em & ? & _); discriminate); eauto.
  apply PH in PA. destruct PA as (em' & [= <-] & <- & <- & <- & L1 & L2).
  apply encoded_split in H; [|assumption].
  destruct H as [(-> & -> & _ & ->) | [(-> & -> & _ & x & -> & _) | (VH & NZ & _)]]; eauto.
  exfalso. apply header_legal in VH. destruct VH as (_ & _ & _ & R & _).
  unfold misaddressed, illegal, legal_tag in *. destruct MA as [MA|[MA|[MA|[MA1 MA2]]]]; try lia.
Qed.
Lemma other_fragment d h s e f s' out r : history C d h s -> enabled d ->
  (fr_version f = V3 \/ fr_version f = V4) -> frag_typed f -> fr_payload f <> [] ->
  (fr_version f = V3 -> fr_identifier f = [x00; x00; x00; x00]) ->
  Forall fragment_char (fr_payload f) -> 1 <= fr_part f <= fr_total f -> fr_sender f <> 0 ->
  misaddressed (de_tag d) (fr_sender f) (fr_receiver f) ->
  receive C e s (fragment_text f) = (s', out, r) ->
  s' = s /\ out = [] /\ (r = Ok UMNone \/ exists x, r = Err x).
Proof.
  intros HI EN V FT PN ID PC PT NZ MA H. apply history_inv in HI. destruct HI as [SI D]. subst d.
  apply enabled_not_disabled in EN. unfold receive in H. rewrite EN in H.
  destruct (N.lt_ge_cases (fr_sender f) 256) as [LS|GS];
    [destruct (misaddressed_text f V FT PN PC) as [M P]; [left; unfold illegal; lia|];
     rewrite M, P in H; fin3 H; auto|].
  destruct (N.lt_ge_cases (fr_receiver f) 256) as [LR|GR].
  - destruct (N.eq_dec (fr_receiver f) 0) as [Z|Z].
    + exfalso. unfold misaddressed, illegal in MA. lia.
    + destruct (misaddressed_text f V FT PN PC) as [M P]; [right; unfold illegal; lia|].
      rewrite M, P in H. fin3 H. auto.
  - assert (P : parse_fragment (frag_text f) = Ok (Some f)).
    { destruct FT as (F1 & F2 & F3 & F4 & F5). apply parse_text; [|repeat split; assumption|assumption|assumption].
      unfold encodable, SpecWire.legal_tag, otr_version. change (2 ^ 32) with 4294967296 in *.
      repeat split; try assumption; try lia. }
    change (fragment_text f) with (frag_text f) in H. rewrite text_is_fragment, P in H.
    destruct (negb (verify_fragment f)); [fin3 H; eauto|].
    assert (X : negb (fr_receiver f =? 0) && negb (fr_receiver f =? de_tag (se_details s)) = true).
    { rewrite Bool.andb_true_iff, !Bool.negb_true_iff, !N.eqb_neq.
      unfold misaddressed, illegal in MA. split; [lia|]. destruct MA as [MA|[MA|[_ MA]]]; lia. }
    rewrite X in H. fin3 H. eauto.
Qed.

Lemma receive_completes e s p b s' out r : enabled (se_details s) -> completes s p b ->
  receive C e s p = (s', out, r) -> r <> Panic -> receive_message C e (stored s p) b = (s', out, r).
Proof.
  intros EN CO H NP. apply enabled_not_disabled in EN. unfold receive in H. unfold stored. rewrite EN in H.
  destruct CO as [(M & ->) | (f & a & M & P & VF & RV & A & NF)]; rewrite M in H |- *.
  - exact H.
  - rewrite P, VF in H. cbn [negb] in H. rewrite P.
    assert (X : negb (fr_receiver f =? 0) && negb (fr_receiver f =? de_tag (se_details s)) = false).
    { destruct RV as [-> | ->]; rewrite N.eqb_refl; [reflexivity|apply Bool.andb_false_r]. }
    rewrite X, A, NF in H. rewrite A. cbn [fst].
    destruct (receive_message C e _ b) as [[s1 o1] [x|x|]]; [exact H|exact H|fin3 H; congruence].
Qed.

(** ** C44, C45, C46, C48, C49 *)

Lemma flagged d h s e p s' out r : history C d h s -> enabled d ->
  receive C e s p = (s', out, r) -> r <> Panic ->
  (forall t, r = Ok (UMPlaintext t) -> require_encryption (de_policy d) = false /\ forall u, status_of s u = Plaintext) /\
  (forall t b, completes s p b -> parse C b = Ok (MsgPlaintext t) ->
     s' = stored s p /\ out = [] /\
     ((require_encryption (de_policy d) = true \/ exists u, status_of s u <> Plaintext) -> r = Ok (UMWarningUnencrypted t)) /\
     (require_encryption (de_policy d) = false -> (forall u, status_of s u = Plaintext) -> r = Ok (UMPlaintext t))).
Proof.
  intros HI EN H NP. apply history_inv in HI. destruct HI as [SI D]. subst d. split.
  - intros t RE. apply receive_arrives in H; try assumption.
    destruct H as [r S R |b0 t0 out CO PA S O|b0 t0 q out CO PA S Q O|vs v out r OF CH S O R
      |em out r CA VH AL SO HA].
    + destruct R as [R|(x & R)]; congruence.
    + congruence.
    + destruct q; cbn [orb] in RE; [discriminate|]. destruct (require_encryption _); [discriminate|].
      split; [reflexivity|]. intros u. destruct (status_of s u) eqn:SU; try reflexivity;
        exfalso; assert (false = true) by (apply Q; exists u; congruence); discriminate.
    + destruct R as [R|(x & R & _)]; congruence.
    + exfalso. destruct HA as [(_ & R & _) | [(ig & _ & _ & R & _) | (st1 & text & _ & R & _)]].
      * destruct R as [R|[(R & _)|(x & R)]]; congruence.
      * destruct ig; congruence.
      * unfold reported in R. destruct (parse_message text) as [[c ts|c]|x|]; try congruence.
        destruct (existsb _ ts); [|congruence]. destruct R as [R|[R|[R|(x & R)]]]; congruence.
  - intros t b CO PA. apply (receive_completes e s p b _ _ _ EN CO) in H; [|assumption].
    unfold receive_message in H. rewrite PA in H.
    unfold deliver_text in H. destruct (has_sessions_iff _ (sinv_stored s p SI)) as (q & HS & I).
    rewrite HS, stored_details in H. fin3 H. split; [reflexivity|]. split; [reflexivity|]. split.
    + intros [R|(u & U)]; [rewrite R; now rewrite Bool.orb_true_r|].
      assert (q = true) as ->; [|reflexivity]. apply I. exists u. unfold status_of. now rewrite stored_state.
    + intros R U. rewrite R. destruct q; [|reflexivity]. exfalso.
      destruct (proj1 I eq_refl) as (u & X). apply X. unfold status_of. rewrite stored_state. apply U.
Qed.

(* a header that passes, for a data message *)
Lemma header_receiver d em ig : verify_header d em = Ok tt -> data_message C em ig -> em_receiver em = de_tag d.
Proof.
  intros VH DM. apply header_legal in VH. destruct VH as (_ & _ & _ & [Z|R] & M); [|assumption].
  apply M in Z. exfalso.
  destruct DM as [(m & _ & E & _) | (m & _ & E & _)], Z as (c & [Z|(c' & Z)]); congruence.
Qed.
Lemma decrypts_data e st em st' text : decrypts C e st em st' text -> exists ig, data_message C em ig.
Proof.
  unfold decrypts. destruct st as [|our their k smp|our their k smp|], (em_message em) eqn:M; try easy.
  - intros (V & _). exists (d3_ignore_unreadable m). left. eauto.
  - intros (V & VA & _). exists (d4_ignore_unreadable m). right. exists m. auto.
Qed.

Lemma confidential d h s e p s' out r t : history C d h s -> enabled d ->
  receive C e s p = (s', out, r) ->
  (exists c tlvs, r = Ok (UMConfidential t c tlvs)) \/ (exists c, r = Ok (UMSessionFinished t c))
  \/ r = Ok (UMSmpSucceeded t) \/ r = Ok (UMSmpFailed t) ->
  exists em text, carries C s p em /\ em_sender em = t /\ em_receiver em = de_tag d /\
    allowed d (em_version em) /\ opens C (state_of s t) em text /\ reported (em_version em) t text r.
Proof.
  intros HI EN H RR. apply history_inv in HI. destruct HI as [SI D]. subst d.
  assert (NP : r <> Panic) by (destruct RR as [(c & ts & ->)|[(c & ->)|[->| ->]]]; discriminate).
  apply receive_arrives in H; try assumption.
  destruct H as [r S R |b0 t0 out CO PA S O|b0 t0 q out CO PA S Q O|vs v out r OF CH S O R
      |em out r CA VH AL SO HA].
  - exfalso. destruct RR as [(c & ts & ->)|[(c & ->)|[->| ->]]], R as [R|(x & R)]; discriminate.
  - exfalso. destruct RR as [(c & ts & X)|[(c & X)|[X|X]]]; discriminate.
  - exfalso. destruct RR as [(c & ts & X)|[(c & X)|[X|X]]]; destruct (q || _); discriminate.
  - exfalso. destruct RR as [(c & ts & ->)|[(c & ->)|[->| ->]]], R as [R|(x & R & _)]; discriminate.
  - destruct HA as [(_ & R & _) | [(ig & _ & _ & R & _) | (st1 & text & DE & R & _)]].
    + exfalso. destruct RR as [(c & ts & ->)|[(c & ->)|[->| ->]]], R as [R|[(R & _)|(x & R)]]; discriminate.
    + exfalso. destruct RR as [(c & ts & ->)|[(c & ->)|[->| ->]]]; destruct ig; discriminate.
    + exists em, text. assert (ST : em_sender em = t).
      { unfold reported in R. destruct (parse_message text) as [[c ts|c]|x|]; [| | |contradiction].
        - destruct (existsb _ ts).
          + destruct RR as [(c' & ts' & ->)|[(c' & ->)|[->| ->]]], R as [R|[R|[R|(x & R)]]]; congruence.
          + destruct RR as [(c' & ts' & ->)|[(c' & ->)|[->| ->]]]; congruence.
        - destruct RR as [(c' & ts' & ->)|[(c' & ->)|[->| ->]]]; congruence.
        - destruct RR as [(c' & ts' & ->)|[(c' & ->)|[->| ->]]]; congruence. }
      subst t. split; [assumption|]. split; [reflexivity|].
      destruct (decrypts_data _ _ _ _ _ DE) as (ig & DM).
      split; [eapply header_receiver; eassumption|]. split; [assumption|].
      split; [eapply decrypts_opens; eassumption|assumption].
Qed.

Lemma confidential_text d h s e p s' out t c tlvs : history C d h s -> enabled d ->
  receive C e s p = (s', out, Ok (UMConfidential t c tlvs)) ->
  status_of s t = Encrypted /\
  exists em text, carries C s p em /\ em_sender em = t /\ em_receiver em = de_tag d /\
    allowed d (em_version em) /\ opens C (state_of s t) em text /\ parse_message text = Ok (Confidential c tlvs).
Proof.
  intros HI EN H. eapply confidential with (t := t) in H; [|eassumption|assumption|left; eauto].
  destruct H as (em & text & CA & SE & RE & AL & OP & R). split.
  - unfold status_of. unfold opens in OP. now destruct (state_of s t), (em_message em).
  - exists em, text. repeat (split; [assumption|]). unfold reported in R.
    destruct (parse_message text) as [[c' ts|c']|x|]; try discriminate; [|contradiction].
    destruct (existsb _ ts); [|congruence]. destruct R as [R|[R|[R|(x & R)]]]; discriminate.
Qed.

(* a data message meant for this client is read, or refused with the error reply *)
Lemma data_arrives d h s e p s' out r em ignore : history C d h s -> enabled d ->
  carries C s p em -> allowed d (em_version em) -> addressed d em -> data_message C em ignore ->
  receive C e s p = (s', out, r) -> r <> Panic ->
  (forall u, u <> em_sender em -> state_of s' u = state_of s u) /\
  ((out = [UNREADABLE_REPLY] /\ r = (if ignore then Ok UMNone else Err (UnreadableMessage (em_sender em))) /\
    status_of s' (em_sender em) = status_of s (em_sender em) /\
    ((forall text, ~ opens C (state_of s (em_sender em)) em text) -> state_of s' (em_sender em) = state_of s (em_sender em)))
   \/ exists st1 text, decrypts C e (state_of s (em_sender em)) em st1 text /\
        reported (em_version em) (em_sender em) text r /\
        (forall c, parse_message text = Ok (ConfidentialFinished c) -> state_of s' (em_sender em) = PFin /\ out = []) /\
        (forall c tlvs, parse_message text = Ok (Confidential c tlvs) -> existsb (smp_record (em_version em)) tlvs = false ->
           state_of s' (em_sender em) = st1 /\ out = [])).
Proof.
  intros HI EN CA AL (AD1 & AD2 & AD3) DM H NP. apply history_inv in HI. destruct HI as [SI D]. subst d.
  destruct CA as (b & CO & PA). apply (receive_completes e s p b _ _ _ EN CO) in H; [|assumption].
  unfold receive_message in H. rewrite PA in H.
  assert (VE : is_data em).
  { destruct DM as [(m & ? & ? & _)|(m & ? & ? & _)]; [left|right]; eauto. }
  apply encoded_split in H; [|assumption]. rewrite stored_details in H.
  destruct H as [(_ & _ & [Z|NA] & _) | [(_ & _ & _ & x & _ & VH) | (VH & NZ & _ & i0 & i' & A & H & ->)]].
  - lia.
  - contradiction.
  - exfalso. unfold verify_header in VH.
    assert (TV : forall t, 256 <= t -> tag_verify t = Ok t).
    { intros t L. unfold tag_verify. change INSTANCE_MIN_VALID with 256.
      replace (t <? 256) with false by (symmetry; apply N.ltb_ge; lia). now rewrite Bool.andb_false_r. }
    rewrite AD2, !TV in VH by assumption. cbn [bind] in VH.
    rewrite (proj2 (N.eqb_neq (em_sender em) 0)), (proj2 (N.eqb_neq (de_tag (se_details s)) 0)), N.eqb_refl in VH by lia.
    destruct VE as [(m & V & _)|(m & V & _)]; rewrite V in VH; discriminate.
  - apply adopted_same in A. destruct A as (A1 & A2 & _).
    rewrite entry_state, stored_state in A1. rewrite (sinv_entry _ _ (sinv_stored s p SI)) in A2.
    split; [intros u NE; rewrite state_put_other by congruence; apply stored_state|].
    unfold status_of. rewrite state_put_same.
    apply handle_split in H; [|assumption]. unfold refuses in H. rewrite A1, A2 in H.
    destruct H as [([ND | (m & M & NV)] & _) | [(ig & DM' & (R1 & R2 & R3) & R4) | (st1 & text & DE & R & _ & F & T)]].
    + contradiction.
    + exfalso. destruct DM as [(m' & _ & M' & _) | (m' & _ & M' & _ & V')]; [congruence|].
      assert (m' = m) by congruence. congruence.
    + left. assert (ig = ignore) as ->.
      { destruct DM as [(m1 & V1 & M1 & I1) | (m1 & V1 & M1 & I1 & _)], DM' as [(m2 & V2 & M2 & I2) | (m2 & V2 & M2 & I2 & _)];
          congruence. }
      auto.
    + right. exists st1, text. auto.
Qed.
Lemma data_read d h s e p s' out r em ignore : history C d h s -> enabled d ->
  carries C s p em -> allowed d (em_version em) -> addressed d em -> data_message C em ignore ->
  receive C e s p = (s', out, r) -> r <> Panic ->
  (exists text, opens C (state_of s (em_sender em)) em text /\ reported (em_version em) (em_sender em) text r)
  \/ (out = [UNREADABLE_REPLY] /\ r = (if ignore then Ok UMNone else Err (UnreadableMessage (em_sender em))) /\
      forall u, status_of s' u = status_of s u).
Proof.
  intros HI EN CA AL AD DM H NP. eapply data_arrives in H; try eassumption.
  destruct H as [O [(R1 & R2 & R3 & _) | (st1 & text & DE & R & _)]].
  - right. split; [assumption|]. split; [assumption|]. intros u.
    destruct (N.eq_dec u (em_sender em)) as [->|NE]; [assumption|]. unfold status_of. now rewrite O.
  - left. exists text. split; [eapply decrypts_opens; eassumption|assumption].
Qed.
Lemma unreadable d h s e p s' out r em ignore : history C d h s -> enabled d ->
  carries C s p em -> allowed d (em_version em) -> addressed d em -> data_message C em ignore ->
  receive C e s p = (s', out, r) -> r <> Panic ->
  (forall text, ~ opens C (state_of s (em_sender em)) em text) ->
  out = [UNREADABLE_REPLY] /\ r = (if ignore then Ok UMNone else Err (UnreadableMessage (em_sender em))) /\ same_states s s'.
Proof.
  intros HI EN CA AL AD DM H NP NO. eapply data_arrives in H; try eassumption.
  destruct H as [O [(R1 & R2 & R3 & R4) | (st1 & text & DE & R & _)]].
  - split; [assumption|]. split; [assumption|]. intros u.
    destruct (N.eq_dec u (em_sender em)) as [->|NE]; auto.
  - exfalso. apply decrypts_opens in DE. now apply NO in DE.
Qed.

Lemma transported_no_error d e t v m ps : transported d e t v m ps -> ~ In UNREADABLE_REPLY ps.
Proof.
  intros (b & EB & [(_ & ->) | (_ & fs & _ & F)]) IN.
  - destruct IN as [->|[]]. unfold encode_message, serialize_message in EB.
    apply bind_ok in EB. destruct EB as (x & _ & EB). discriminate EB.
  - apply (In_nth_error) in IN. destruct IN as (n & IN). revert n IN.
    induction F as [|f q fs ps E F IH]; intros [|n] IN; cbn [nth_error] in IN; try discriminate; [|now apply IH in IN].
    injection IN as ->. unfold encode_fragment in E.
    destruct (fr_version f); try discriminate; (destruct (_ || _); [discriminate|]); discriminate E.
Qed.
Lemma opens_det st em a b : opens C st em a -> opens C st em b -> a = b.
Proof.
  unfold opens. destruct st as [|our their k smp|our their k smp|], (em_message em); try easy.
  - intros (_ & x & y & ek & mk & (_ & _ & ->) & (_ & _ & ->) & (_ & -> & _) & _ & _ & ->)
      (_ & x' & y' & ek' & mk' & (_ & _ & ->) & (_ & _ & ->) & (_ & -> & _) & _ & _ & ->). reflexivity.
  - intros (_ & ck & R & _ & _ & ->) (_ & ck' & R' & _ & _ & ->). do 3 f_equal.
    destruct R as [(I & _ & ->) | (I & _ & dh & sh & -> & M & ->)], R' as [(I' & _ & ->) | (I' & _ & dh' & sh' & -> & M' & ->)];
      try lia; [reflexivity|]. congruence.
Qed.

(* a message is answered with the error reply only if it is an unreadable data message *)
Lemma error_reply d h s e p s' out r : history C d h s -> enabled d ->
  receive C e s p = (s', out, r) -> r <> Panic -> In UNREADABLE_REPLY out ->
  exists em ignore, carries C s p em /\ data_message C em ignore /\ em_receiver em = de_tag d /\
    out = [UNREADABLE_REPLY] /\ r = (if ignore then Ok UMNone else Err (UnreadableMessage (em_sender em))).
Proof.
  intros HI EN H NP IN. apply history_inv in HI. destruct HI as [SI D]. subst d.
  assert (TR : forall t v m, ~ transported (se_details s) e t v m out).
  { intros t v m T. apply transported_no_error in T. contradiction. }
  apply receive_arrives in H; try assumption.
  destruct H as [r S R |b0 t0 out CO PA S O|b0 t0 q out CO PA S Q O|vs v out r OF CH S O R
      |em out r CA VH AL SO HA].
  - contradiction.
  - exfalso. destruct O as [(_ & v & PR & ->) | (_ & ->)]; [|contradiction].
    destruct IN as [IN|[]]. unfold query_message, UNREADABLE_REPLY in IN. destruct v; discriminate.
  - exfalso. destruct O as [->|(vs & v & m & _ & _ & T)]; [contradiction|]. now apply TR in T.
  - exfalso. destruct O as [->|(m & T)]; [contradiction|]. now apply TR in T.
  - destruct HA as [(_ & _ & O & _) | [(ig & DM & O & R & _) | (st1 & text & DE & _ & O & _)]].
    + exfalso. destruct O as [->|(m & T)]; [contradiction|]. now apply TR in T.
    + exists em, ig. split; [assumption|]. split; [assumption|]. split; [eapply header_receiver; eassumption|auto].
    + exfalso. destruct O as [->|(m & T)]; [contradiction|]. now apply TR in T.
Qed.

(* C46: the peer ends the session *)
Lemma peer_ends d h s e p s' out c t : history C d h s -> enabled d ->
  receive C e s p = (s', out, Ok (UMSessionFinished t c)) ->
  (exists em text, carries C s p em /\ em_sender em = t /\ em_receiver em = de_tag d /\
     opens C (state_of s t) em text /\ parse_message text = Ok (ConfidentialFinished c)) /\
  out = [] /\ status_of s t = Encrypted /\ status_of s' t = Finished /\
  (forall u, u <> t -> state_of s' u = state_of s u).
Proof.
  intros HI EN H. apply history_inv in HI as I. destruct I as [SI D]. 
  eapply confidential with (t := t) in H as CF; [|eassumption|assumption|right; left; eauto].
  destruct CF as (em & text & CA & SE & RE & AL & OP & R).
  assert (PM : parse_message text = Ok (ConfidentialFinished c)).
  { unfold reported in R. destruct (parse_message text) as [[c0 ts|c0]|x|]; try congruence; try contradiction.
    destruct (existsb _ ts); [|congruence]. destruct R as [R|[R|[R|(x & R)]]]; discriminate. }
  split; [exists em, text; auto|]. subst d.
  assert (EQ : exists r, r = Ok (UMSessionFinished t c)) by eauto. destruct EQ as (r & RR). rewrite <- RR in H.
  apply receive_arrives in H; try assumption; [|congruence].
  destruct H as [r S X |b0 t0 out CO PA S O|b0 t0 q out CO PA S Q O|vs v out r OF CH S O X
      |em' out r CA' VH AL' SO HA].
  - exfalso. destruct X as [X|(x & X)]; congruence.
  - discriminate.
  - destruct (q || _); discriminate.
  - exfalso. destruct X as [X|(x & X & _)]; congruence.
  - destruct HA as [(_ & X & _) | [(ig & _ & _ & X & _) | (st1 & text' & DE & X & _ & F & _)]].
    + exfalso. destruct X as [X|[(X & _)|(x & X)]]; congruence.
    + exfalso. destruct ig; congruence.
    + unfold reported in X. destruct (parse_message text') as [[c' ts|c']|x|] eqn:PM'; try congruence; try contradiction.
      * exfalso. destruct (existsb _ ts); [|congruence]. destruct X as [X|[X|[X|(x & X)]]]; congruence.
      * destruct (F _ eq_refl) as [F1 ->]. assert (em_sender em' = t) as E by congruence. rewrite E in *.
        split; [reflexivity|]. split; [|split; [|assumption]].
        -- apply decrypts_opens in DE. unfold status_of. unfold opens in DE.
           now destruct (state_of s t), (em_message em').
        -- unfold status_of. now rewrite F1.
Qed.
(* ... and the message that ends it does end it *)
Lemma disconnect_received d h s e p s' out r em ignore text c : history C d h s -> enabled d ->
  carries C s p em -> allowed d (em_version em) -> addressed d em -> data_message C em ignore ->
  receive C e s p = (s', out, r) -> r <> Panic -> out <> [UNREADABLE_REPLY] ->
  opens C (state_of s (em_sender em)) em text -> parse_message text = Ok (ConfidentialFinished c) ->
  out = [] /\ r = Ok (UMSessionFinished (em_sender em) c) /\ status_of s' (em_sender em) = Finished.
Proof.
  intros HI EN CA AL AD DM H NP NU OP PM. eapply data_arrives in H; try eassumption.
  destruct H as [O [(R1 & _) | (st1 & text' & DE & R & F & _)]]; [contradiction|].
  apply decrypts_opens in DE. assert (text' = text) as -> by (eapply opens_det; eassumption).
  unfold reported in R. rewrite PM in R. destruct (F _ PM) as [F1 ->].
  split; [reflexivity|]. split; [assumption|]. unfold status_of. now rewrite F1.
Qed.

(** ** C41, C43, C49 *)

Lemma negotiates d h s e p s' out r : history C d h s -> enabled d ->
  receive C e s p = (s', out, r) -> r <> Panic ->
  out = [] \/ out = [UNREADABLE_REPLY] \/
  (exists v, error_start_ake (de_policy d) = true /\ preferred d v /\ out = [query_message v]) \/
  (exists vs v m, offers C s p vs /\ chosen d vs v /\ transported d e 0 v m out) \/
  (exists em m, carries C s p em /\ allowed d (em_version em) /\ transported d e (em_sender em) (em_version em) m out).
Proof.
  intros HI EN H NP. apply history_inv in HI. destruct HI as [SI D]. subst d.
  apply receive_arrives in H; try assumption.
  destruct H as [r S R |b0 t0 out CO PA S O|b0 t0 q out CO PA S Q O|vs v out r OF CH S O R
      |em out r CA VH AL SO HA].
  - auto.
  - destruct O as [(A & v & PR & ->) | (_ & ->)]; eauto 8.
  - destruct O as [->|(vs & v & m & O & CH & T)]; [auto|]. do 3 right. left. exists vs, v, m. auto.
  - destruct O as [->|(m & T)]; [auto|]. do 3 right. left. exists vs, v, m. auto.
  - destruct HA as [(_ & _ & O & _) | [(ig & DM & O & R & _) | (st1 & text & DE & _ & O & _)]].
    + destruct O as [->|(m & T)]; [auto|]. do 4 right. exists em, m. auto.
    + auto.
    + destruct O as [->|(m & T)]; [auto|]. do 4 right. exists em, m. auto.
Qed.
(* an offer with an acceptable version starts a key exchange for the chosen one, or leads to an error *)
Lemma query_answered d h s e p b vs v s' out r : history C d h s -> enabled d ->
  completes s p b -> parse C b = Ok (MsgQuery vs) -> receive C e s p = (s', out, r) -> r <> Panic ->
  (chosen d vs v -> (r = Ok UMNone /\ exists m, transported d e 0 v m out) \/ (out = [] /\ exists x, r = Err x)) /\
  ((forall w, ~ chosen d vs w) -> out = [] /\ r = Ok UMNone /\ same_states s s').
Proof.
  intros HI EN CO PA H NP. apply history_inv in HI. destruct HI as [SI D]. subst d.
  apply (receive_completes e s p b _ _ _ EN CO) in H; [|assumption].
  apply (sinv_stored s p) in SI as SI'.
  apply message_split in H; [|assumption]. rewrite stored_details in H.
  destruct H as [(x & P & _) | [(c & P & _) | [(c & P & _) | [(ws & c & P & _) | [(ws & P & H) | (em & P & H)]]]]];
    try congruence.
  assert (ws = vs) as -> by congruence. destruct H as [(N0 & -> & -> & ->) | (w & r1 & SV & H1 & H)].
  - split; [|intros _; split; [reflexivity|split; [reflexivity|intros u; apply stored_state]]].
    intros CH. apply select_chosen in CH. congruence.
  - assert (NP1 : r1 <> Panic) by (destruct H as [((m & ->) & _) | (_ & x & ->)]; congruence).
    apply initiate_inv in H1; [|assumption]. destruct H1 as (i' & X & -> & S & _).
    apply initiate_out in X; [|assumption]. rewrite stored_details, (sinv_entry _ 0 SI') in X.
    split.
    + intros CH. apply select_chosen in CH. assert (w = v) as -> by congruence.
      destruct X as [(-> & m & T) | ((x & ->) & ->)].
      * left. destruct H as [(_ & ->) | (_ & x & ?)]; [eauto|congruence].
      * right. destruct H as [((m & ?) & _) | (-> & y & E)]; [congruence|]. eauto.
    + intros NC. apply select_chosen in SV. now apply NC in SV.
Qed.
(* a message of a version that is not allowed changes nothing *)
Lemma version_refused d h s e p b em s' out r : history C d h s -> enabled d ->
  completes s p b -> parse C b = Ok (MsgEncoded em) -> ~ allowed d (em_version em) ->
  receive C e s p = (s', out, r) -> r <> Panic ->
  out = [] /\ same_states s s' /\ (r = Ok UMNone \/ exists x, r = Err x).
Proof.
  intros HI EN CO PA NA H NP. apply history_inv in HI. destruct HI as [SI D]. subst d.
  apply (receive_completes e s p b _ _ _ EN CO) in H; [|assumption].
  unfold receive_message in H. rewrite PA in H.
  apply encoded_split in H; [|assumption]. rewrite stored_details in H.
  assert (ST : same_states s (stored s p)) by (intros u; apply stored_state).
  destruct H as [(-> & -> & _ & ->) | [(-> & -> & _ & x & -> & _) | (_ & _ & AL & _)]]; eauto.
  contradiction.
Qed.

(* C49: whose data a payload can touch *)
Lemma isolated d h s e p s' out r u : history C d h s -> receive C e s p = (s', out, r) -> r <> Panic ->
  (forall em, carries C s p em -> em_sender em <> u) -> state_of s' u = state_of s u.
Proof.
  intros HI H NP NC. apply history_inv in HI. destruct HI as [SI D]. subst d.
  destruct (otr_disabled (de_policy (se_details s))) eqn:DI.
  { unfold receive in H. rewrite DI in H. fin3 H. reflexivity. }
  assert (EN : enabled (se_details s)).
  { unfold otr_disabled in DI. unfold enabled, allowed. destruct (allow_v3 _); [auto|]. destruct (allow_v4 _); [auto|discriminate]. }
  apply receive_arrives in H; try assumption.
  destruct H as [r S R |b0 t0 out CO PA S O|b0 t0 q out CO PA S Q O|vs v out r OF CH S O R
      |em out r CA VH AL SO HA]; try apply S.
  apply SO. intros ->. now apply NC in CA.
Qed.
Lemma isolated_all d h s e p s' out r u : history C d h s -> receive C e s p = (s', out, r) -> r <> Panic ->
  u <> 0 -> (forall em, carries C s p em -> em_sender em <> u) ->
  (forall f, parse_fragment p = Ok (Some f) -> fr_sender f <> u) ->
  get_inst u (se_instances s') = get_inst u (se_instances s).
Proof.
  intros HI H NP NZ NC NF. apply receive_touch in H; [|assumption]. destruct H as [_ H].
  destruct (H u) as [H0 | [(_ & f & P & F) | [(em & CA & E & _) | Z]]]; try assumption; exfalso.
  - now apply NF in P.
  - now apply NC in CA.
  - contradiction.
Qed.

Lemma bookkeeping d h s : history C d h s ->
  (forall ev v u, In ev h -> ev_op ev = OpInitiate v u -> legal_tag u) ->
  NoDup (ses_instances s) /\
  status_of s 0 = Plaintext /\ ses_status s 0 = Some Plaintext /\
  (exists b, has_sessions s = Ok b /\ (b = true <-> exists t, In t (ses_instances s) /\ status_of s t <> Plaintext)) /\
  forall t, In t (ses_instances s) -> 256 <= t /\ ses_status s t = Some (status_of s t) /\
    (status_of s t = Encrypted -> exists b, ses_ssid s t = Ok b) /\
    (status_of s t <> Encrypted -> ses_ssid s t = Err IncorrectState).
Proof.
  intros HI LI. apply history_inv in HI as I. destruct I as [SI D].
  assert (LEG : forall u, get_inst u (se_instances s) <> None -> legal_tag u).
  { eapply run_legal; [exact HI| |exact LI]. intros u. cbn [session_new se_instances get_inst].
    destruct (0 =? u) eqn:E; [|easy]. apply N.eqb_eq in E. subst. now left. }
  split; [apply NoDup_filter, (si_nodup _ SI)|].
  destruct (si_zero _ SI) as (z & Z1 & Z2).
  assert (S0 : status_of s 0 = Plaintext) by (unfold status_of, state_of; now rewrite Z1, Z2).
  split; [assumption|]. split; [unfold ses_status, in_status; now rewrite Z1, Z2|]. split.
  - destruct (has_sessions_iff s SI) as (b & HS & I). exists b. split; [assumption|]. rewrite I.
    split; intros (t & T); [|exists t; apply T]. exists t. split; [|assumption].
    unfold ses_instances. apply filter_In. split.
    + apply in_keys. intros X. apply T. unfold status_of, state_of. now rewrite X.
    + apply Bool.negb_true_iff, N.eqb_neq. intros ->. contradiction.
  - intros t IN. unfold ses_instances in IN. apply filter_In in IN. destruct IN as [IN NZ].
    apply Bool.negb_true_iff, N.eqb_neq in NZ. apply in_keys in IN.
    destruct (LEG _ IN) as [?|L]; [contradiction|]. split; [assumption|].
    unfold ses_status, ses_ssid, status_of, state_of, inst_ssid, in_status.
    destruct (get_inst t (se_instances s)) as [i|]; [|congruence]. split; [reflexivity|].
    destruct (in_state i); cbn [p_status]; split; intros; try congruence; eauto.
Qed.
Lemma disabled d h s e t c p : history C d h s -> ~ enabled d ->
  send C e s t c = (s, [], Ok [c]) /\ receive C e s p = (s, [], Ok (UMPlaintext p)).
Proof.
  intros HI EN. apply history_inv in HI. destruct HI as [SI D]. subst d.
  apply disabled_not_enabled in EN. unfold send, receive. now rewrite EN.
Qed.

(** ** C38, C40 *)

Lemma required_lemma d h s e t c : history C d h s -> enabled d ->
  require_encryption (de_policy d) = true -> status_of s t = Plaintext ->
  exists out x, send C e s t c = (s, out, Err x) /\
    (out = [] \/ exists v, preferred d v /\ out = [query_message v]).
Proof.
  intros HI EN RQ S. apply history_inv in HI. destruct HI as [SI D]. subst d.
  destruct (get_inst t (se_instances s)) eqn:G.
  - destruct (send_required C e s t c EN RQ) as (v & PV & H); [congruence|assumption|]. eauto 8.
  - apply enabled_not_disabled in EN. exists [], (UnknownInstance t). split; [|auto]. unfold send. now rewrite EN, G.
Qed.
Lemma plain_lemma d h s e t c s' out r : history C d h s -> enabled d -> require_encryption (de_policy d) = false ->
  get_inst t (se_instances s) <> None -> status_of s t = Plaintext -> send C e s t c = (s', out, r) ->
  out = [] /\
  ((exists v, send_whitespace_tag (de_policy d) = true /\ preferred d v /\
      r = Ok [whitespace_tag v ++ without_nul c])
   \/ r = Ok [without_nul c]).
Proof.
  intros HI EN RQ G S H. apply history_inv in HI. destruct HI as [SI D]. subst d.
  apply send_plain in H; try assumption. destruct H as [-> [(v & A & _ & B & E & _)|(_ & E & _)]]; eauto 8.
Qed.
End WithCrypto.
