(* The keys of the data messages of a session follow from the exchange. *)
From Coq Require Import Lia.
From Verif Require Import Base BaseLemmas Types Crypto CryptoProofs Encoding EncodingProofs Base64 ClientProfile Messages
  KeyManager DataV3 Ratchet DataV4 SpecCurve AKE SpecAKE DAKE SpecDAKE SMP SMP4 Protocol Session SpecData3 SpecData4
  SpecSession SessionProofs SessionSendProofs SpecFollow SpecTexts TextsLemmas SpecDeny SpecOrigin OriginProofs StartLemmas SpecSchedule ReportProofs RingProofs MessagesProofs ScheduleProofs.
Import SpecSession.
Local Open Scope N_scope.

Section WithCrypto.
Context (C : Crypto).


Lemma key_is e d (u : turn) : e = pt_mul C (tu_their_ecdh u) (tu_ecdh u) -> d = modpow (tu_their_dh u) (tu_dh u) (c_dh3_p C) ->
  mixed_key C e d = exchange_key C u.
Proof.
  intros -> ->. unfold mixed_key, exchange_key, H4, kdf, kdf2, KDF_PREFIX, ecdh_secret, dh_secret. cbn [concat]. rewrite !app_nil_r. reflexivity.
Qed.
Lemma ssid4_is K : kdf C 8 x04 K = H4 C 8 x04 [K].
Proof. unfold H4, kdf, KDF_PREFIX. cbn [concat]. now rewrite app_nil_r. Qed.

(** ** Points in messages are on the curve *)

Definition points_in (m : encoded_type) : Prop :=
  match m with
  | MIdentity m => pt_valid C (id_y m) /\ pt_valid C (id_ecdh0 m)
  | MAuthR m => pt_valid C (ar_x m) /\ pt_valid C (ar_ecdh0 m)
  | MData4 m => pt_valid C (d4_ecdh m)
  | _ => True
  end.
Lemma read_point_on buf p rest : curve_ok C -> read_ed448_point C buf = Ok (p, rest) -> pt_valid C p.
Proof.
  intros CO. unfold read_ed448_point. intros H. bind_inv H. destruct (pt_decode C l) as [p'|] eqn:D; [|discriminate].
  apply decoded_valid in D; [|apply CO]. congruence.
Qed.
Lemma content_points v t buf m rest : curve_ok C -> read_content C v t buf = Ok (m, rest) -> points_in m.
Proof.
  intros CO H. unfold read_content in H.
  destruct v; try discriminate;
    repeat match type of H with
    | (if ?c then _ else _) = _ => destruct c
    end; try discriminate; apply map_fst_ok in H as (x & H & ->); try exact I; cbn [points_in].
  - unfold read_identity in H. repeat bind_inv H. injection H as <- <-. cbn. apply read_point_on in E0, E2; auto.
  - unfold read_authr in H. repeat bind_inv H. injection H as <- <-. cbn. apply read_point_on in E0, E3; auto.
  - unfold read_data4 in H. repeat bind_inv H. injection H as <- <-. cbn. apply read_point_on in E3; auto.
Qed.
Lemma parse_points b em : curve_ok C -> parse C b = Ok (MsgEncoded em) -> points_in (em_message em).
Proof.
  intros CO H. unfold parse in H. destruct (_ && _).
  - unfold parse_encoded_message in H. destruct (b64_decode _); [|discriminate].
    bind_inv H. injection H as <-. unfold read_encoded_message in E. repeat bind_inv E. injection E as <- <-.
    eapply content_points; eassumption.
  - exfalso. unfold parse_plain_message in H.
    destruct (starts_with _ _); [discriminate|]. destruct (find_query b) as [[g|]|]; try discriminate.
    destruct (find_tag b) as [[[? gs] ?]|]; [|discriminate]. destruct (rev gs); discriminate.
Qed.
Lemma carried_points s p em : curve_ok C -> carries C s p em -> points_in (em_message em).
Proof. intros CO (b & _ & P). eapply parse_points; eassumption. Qed.
Lemma got_points d h t v m : curve_ok C -> has_got C d h t v m -> points_in m.
Proof. intros CO (h1 & s1 & ev & h2 & p & em & _ & _ & _ & CA & _ & _ & <-). eapply carried_points; eassumption. Qed.
Lemma read_points d t h gs : curve_ok C -> Forall2 (did_in C d t) h gs -> points_read C (concat gs).
Proof.
  intros CO F em text m I M. apply in_concat in I. destruct I as (g & J & I).
  destruct (forall2_r _ _ _ _ F J) as (ev & _ & D). unfold did_in in D.
  destruct (ev_op ev); try (subst g; contradiction).
  - destruct D as [[->|(em' & _ & (b & PA & _) & D)] _]; [contradiction|].
    assert (em = em') as ->.
    { destruct D as [->|(tx & [->|(m1 & r & v & e & -> & _)])]; cbn [In] in I; intuition congruence. }
    apply parse_points in PA; [|assumption]. now rewrite M in PA.
  - destruct (ev_result ev) as [[?|ps|]| |]; try (subst g; contradiction).
    destruct D as [(_ & ->)|(_ & m1 & v & e & -> & _)]; cbn [In] in I; intuition discriminate.
  - destruct D as [->|(_ & m1 & r & v & e & -> & _)]; cbn [In] in I; intuition discriminate.
  - destruct D as [->|(_ & m1 & r & v & e & -> & _)]; cbn [In] in I; intuition discriminate.
Qed.

(* nothing, or the message that ends the conversation *)
Definition closing (st : pstate) (b : list did) : Prop :=
  b = [] \/ exists rnd v m, goodbye C rnd st v m /\ b = [Sends m DISCONNECT].
Lemma closing_points st b g : closing st b -> points_read C g -> points_read C (g ++ b).
Proof.
  intros CL P em text m I M. apply in_app_or in I. destruct I as [I|I]; [now apply (P em text)|].
  destruct CL as [->|(rnd & v & x & _ & ->)]; [contradiction|]. destruct I as [I|[]]. discriminate I.
Qed.
Lemma closing3 our their k0 l k smp g b : Forall2 is3 g l -> run3 C our their k0 l k -> closing (PEnc3 our their k smp) b ->
  exists l' k', Forall2 is3 (g ++ b) l' /\ run3 C our their k0 l' k'.
Proof.
  intros F R [->|(rnd & v & m & (_ & m3 & k' & -> & E) & ->)]; [exists l, k; now rewrite app_nil_r|].
  exists (l ++ [Sent3 m3 DISCONNECT]), k'. split; [|econstructor; eassumption]. apply Forall2_app; [assumption|]. repeat constructor.
Qed.
Lemma closing4 our their k0 l k smp g b : Forall2 is4 g l -> run4 C our their k0 l k -> closing (PEnc4 our their k smp) b ->
  exists l', Forall2 is4 (g ++ b) l' /\ closes4 C our their k0 l'.
Proof.
  intros F R [->|(rnd & v & m & (_ & m4 & k' & -> & E) & ->)]; [exists l; rewrite app_nil_r; split; [assumption|left; eauto]|].
  exists (l ++ [Sent4 m4 DISCONNECT]). split; [apply Forall2_app; [assumption|]; repeat constructor|]. right. eauto 12.
Qed.

Lemma scheduled_with d h s t v bye : curve_ok C -> 0 < c_dh_g C -> history C d h s -> enabled d -> conversation_version s t = Some v -> closing (state_of s t) bye ->
  exists h1 s1 p out h2 em gs ssid, h = h1 ++ mkEvent (OpReceive p) out (Ok (AnMessage (UMSessionStarted t))) :: h2 /\
    Forall (fun ev => ~ started_with t ev) h2 /\ history C d h1 s1 /\ carries C s1 p em /\ em_sender em = t /\ em_version em = v /\
    ses_ssid s t = Ok ssid /\ Forall2 (did_in C d t) h2 gs /\
    match v with V3 => schedule3 C (first_key (proper3 C)) d h1 t em ssid (concat gs ++ bye) | _ => schedule4 C (proper4 C) d h1 t em ssid (concat gs ++ bye) end.
Proof.
  intros CO GP HI EN CV CL. assert (SE : status_of s t = Encrypted).
  { unfold conversation_version in CV. unfold status_of. destruct (state_of s t); reflexivity || discriminate. }
  destruct (conversation_begun C d CO GP h s t HI SE) as (h1 & s1 & p & out & s2 & h2 & em & -> & H1 & CA & ES & ER & AL & PR & H2 & R2 & NS).
  destruct (account_exists C d _ _ _ _ t H2 EN R2 SE NS) as (gs & _ & F & ST).
  assert (DT : se_details s2 = d) by apply (SessionSendProofs.history_inv C d _ _ H2). rewrite DT in F.
  assert (SS : forall x, ses_ssid s2 t = Ok x -> ses_ssid s t = Ok x).
  { intros x X. assert (S2 : status_of s2 t = Encrypted).
    { unfold status_of. unfold steps in ST. destruct (state_of s2 t); try contradiction; reflexivity. }
    destruct (ssid_constant C d _ s2 h2 s t H2 S2 R2 NS SE) as (y & Y & ->). congruence. }
  exists h1, s1, p, out, h2, em, gs.
  pose proof (closing_points _ _ _ CL (read_points _ _ _ _ CO F)) as PT. pose proof (carried_points _ _ _ CO CA) as PE.
  cut (em_version em = v /\ exists ssid, ses_ssid s2 t = Ok ssid /\
    match v with V3 => schedule3 C (first_key (proper3 C)) d h1 t em ssid (concat gs ++ bye) | _ => schedule4 C (proper4 C) d h1 t em ssid (concat gs ++ bye) end).
  { intros (EV & ssid & S2 & SC). exists ssid. repeat (split; [solve [reflexivity|auto]|]). exact SC. }
  unfold conversation_version in CV. destruct PR as [(EV & [A|A])|(EV & [A|A])].
  - destruct A as (c & y & m & gx & more & rest & pk & EM & GC & GS & _ & RM & OK & _ & (k & r0 & r1 & KN & X)).
    rewrite X in ST. destruct (state_of s t) eqn:X'; cbn [steps] in ST; try contradiction.
    assert (v = V3) as -> by congruence. split; [assumption|].
    destruct ST as (-> & -> & l & FL & R3). destruct (closing3 _ _ _ _ _ _ _ _ FL R3 CL) as (l' & k' & FL' & R3'). exists (firstn 8 (derived3 C x00 (modpow gx y (c_dh_p C)))).
    split; [rewrite (ssid_enc3 _ _ _ _ _ _ X); reflexivity|].
    destruct (follows3_from C _ _ _ _ _ _ _ _ _ _ KN FL' R3') as (XX & YY & X1 & Y1 & FO). exists XX, YY. rewrite X1, Y1.
    split; [reflexivity|]. split; [assumption|]. split; [intros b _ ->; rewrite Y1; destruct OK; unfold proper3; lia|]. left. exists m, c, more. auto.
  - destruct A as (x & r & gy & rv & m & pk & EM & GC & GS & _ & _ & OK & _ & (k & r0 & r1 & KN & X)).
    rewrite X in ST. destruct (state_of s t) eqn:X'; cbn [steps] in ST; try contradiction.
    assert (v = V3) as -> by congruence. split; [assumption|].
    destruct ST as (-> & -> & l & FL & R3). destruct (closing3 _ _ _ _ _ _ _ _ FL R3 CL) as (l' & k' & FL' & R3'). exists (firstn 8 (derived3 C x00 (modpow gy x (c_dh_p C)))).
    split; [rewrite (ssid_enc3 _ _ _ _ _ _ X); reflexivity|].
    destruct (follows3_from C _ _ _ _ _ _ _ _ _ _ KN FL' R3') as (XX & YY & X1 & Y1 & FO). exists XX, YY. rewrite X1, Y1.
    split; [reflexivity|]. split; [assumption|]. split; [intros b _ ->; rewrite Y1; destruct OK; unfold proper3; lia|]. right. exists m, r. auto.
  - destruct A as (i & m & bob & alice & y & b & e0 & d0 & now & r0 & er & dr & r & EM & GI & I1 & I2 & I3 & I4 & _ & (_ & V1 & V2 & _) & _ & SF & RS & X).
    rewrite X in ST. destruct (state_of s t) eqn:X'; cbn [steps] in ST; try contradiction.
    assert (v = V4) as -> by congruence. split; [assumption|].
    destruct ST as (-> & -> & l & FL & R4). destruct (closing4 _ _ _ _ _ _ _ _ FL R4 CL) as (l' & FL' & R4'). set (u := mkTurn y b (ar_x m) (ar_a m)).
    rewrite (key_is _ _ u) in SF, X by reflexivity. rewrite ssid4_is in X. exists (H4 C 8 x04 [exchange_key C u]).
    split; [rewrite (ssid_enc4 _ _ _ _ _ _ X); reflexivity|].
    destruct SF as (_ & sh & MN & ->).
    rewrite EM in PE. destruct PE as [P1 P2].
    destruct (follows4_second C _ _ _ _ _ _ _ _ _ _ _ _ _ _ _ MN RS P2 PT FL' R4') as (T & n & T0 & PK & FO).
    exists u, T, n. split; [reflexivity|]. split; [now apply proper_keys|]. split; [assumption|]. left. exists i, m. rewrite T0. auto 15.
  - destruct A as (i & m & a & bob & alice & x & av & e0 & d0 & now & r & EM & GI & GS & I1 & I2 & I3 & I4 & _ & (_ & V1 & V2 & _) & _ & SF & X).
    rewrite X in ST. destruct (state_of s t) eqn:X'; cbn [steps] in ST; try contradiction.
    assert (v = V4) as -> by congruence. split; [assumption|].
    destruct ST as (-> & -> & l & FL & R4). destruct (closing4 _ _ _ _ _ _ _ _ FL R4 CL) as (l' & FL' & R4'). set (u := mkTurn x av (id_y i) (id_b i)).
    rewrite (key_is _ _ u) in SF, X by reflexivity. rewrite ssid4_is in X. exists (H4 C 8 x04 [exchange_key C u]).
    split; [rewrite (ssid_enc4 _ _ _ _ _ _ X); reflexivity|].
    destruct SF as (_ & sh & MN & ->).
    destruct (got_points _ _ _ _ _ CO GI) as [P1 P2].
    destruct (follows4_first C _ _ _ _ _ _ _ _ _ _ _ MN P2 PT FL' R4') as (T & n & T0 & PK & FO).
    exists u, T, n. split; [reflexivity|]. split; [now apply proper_keys|]. split; [assumption|]. right. exists i, m, a. rewrite T0. auto 15.
Qed.
Theorem scheduled d h s t v : curve_ok C -> 0 < c_dh_g C -> history C d h s -> enabled d -> conversation_version s t = Some v ->
  exists h1 s1 p out h2 em gs ssid, h = h1 ++ mkEvent (OpReceive p) out (Ok (AnMessage (UMSessionStarted t))) :: h2 /\
    Forall (fun ev => ~ started_with t ev) h2 /\ history C d h1 s1 /\ carries C s1 p em /\ em_sender em = t /\ em_version em = v /\
    ses_ssid s t = Ok ssid /\ Forall2 (did_in C d t) h2 gs /\
    match v with V3 => schedule3 C (first_key (proper3 C)) d h1 t em ssid (concat gs) | _ => schedule4 C (proper4 C) d h1 t em ssid (concat gs) end.
Proof.
  intros CO GP HI EN CV. destruct (scheduled_with d h s t v [] CO GP HI EN CV (or_introl eq_refl)) as (h1 & s1 & p & out & h2 & em & gs & ssid & X).
  rewrite app_nil_r in X. eauto 10.
Qed.
Theorem scheduled_end d h s t v e s' out' r : curve_ok C -> 0 < c_dh_g C -> history C d h s -> enabled d -> conversation_version s t = Some v ->
  end_session C e s t = (s', out', r) -> r <> Panic ->
  exists m h1 s1 p out h2 em gs ssid, transported d e t v m out' /\
    h = h1 ++ mkEvent (OpReceive p) out (Ok (AnMessage (UMSessionStarted t))) :: h2 /\
    Forall (fun ev => ~ started_with t ev) h2 /\ history C d h1 s1 /\ carries C s1 p em /\ em_sender em = t /\ em_version em = v /\
    ses_ssid s t = Ok ssid /\ Forall2 (did_in C d t) h2 gs /\
    match v with V3 => schedule3 C (first_key (proper3 C)) d h1 t em ssid (concat gs ++ [Sends m DISCONNECT])
               | _ => schedule4 C (proper4 C) d h1 t em ssid (concat gs ++ [Sends m DISCONNECT]) end.
Proof.
  intros CO GP HI EN CV H NP. assert (SE : status_of s t = Encrypted).
  { unfold conversation_version in CV. unfold status_of. destruct (state_of s t); reflexivity || discriminate. }
  destruct (SessionSendProofs.history_inv C d _ _ HI) as [SI DT].
  destruct (end_sends C e s t s' out' r SI SE H NP) as (v' & m & A & B & _). rewrite DT in B.
  assert (v' = v) as -> by (unfold conversation_version in CV; unfold goodbye in A; destruct (state_of s t); try discriminate; destruct A as [-> _]; congruence).
  assert (CL : closing (state_of s t) [Sends m DISCONNECT]) by (right; eauto).
  destruct (scheduled_with d h s t v _ CO GP HI EN CV CL) as (h1 & s1 & p & out & h2 & em & gs & ssid & X).
  exists m, h1, s1, p, out, h2, em, gs, ssid. auto.
Qed.
End WithCrypto.
