(* Two sessions in an encrypted OTRv4 conversation: every run of the sessions is a conversation of their
   ratchets. *)
From Verif Require Import Base BaseLemmas Types Crypto CryptoProofs Encoding EncodingProofs ClientProfile Messages MessagesProofs Fragment
  KeyManager DataV3 Ratchet DataV4 SpecCurve EdGroup SpecData4 DataV4Proofs History4Proofs Conv4Proofs AKE DAKE SMP SMP4
  Protocol Session SpecWire SpecSession SessionProofs SessionPartyProofs SessionInvProofs SessionSendProofs SessionRecvProofs SessionLemmas
  SpecNet NetProofs NetAKEProofs NetDAKEProofs Net3Proofs.
From Coq Require Import Lia ZifyN ZifyNat.
Local Open Scope N_scope.

Section WithCrypto.
Context (C : Crypto) (G : groups_ok4 C) (EC : encodable C).

(** ** Data messages fit their format *)

Lemma encrypt4_shaped {extra} our their d ig text rnd m d' :
  Conv4Proofs.small d -> dr_pn d < 4294967296 -> own_keys C d' -> encrypt4 C our their d ig text extra rnd = Ok (m, d') ->
  shaped C V4 (MData4 m) /\ data4_validate C m = Ok tt /\ dr_pn d' < 4294967296 /\ d4_ignore_unreadable m = ig.
Proof.
  intros [S1 S2] PN [(s & OK) _] E. apply encrypt4_ok in E.
  destruct E as (d1 & rv & R & NX & AZ & NE & -> & IG & E1 & E2 & E3 & E4 & E5 & E6 & E7 & E8 & V).
  cbn [dr_shared dr_with_sender dr_pn] in *.
  assert (PI : dr_pn d1 < 4294967296 /\ dr_i d1 <= 4294967295 /\ ra_message_id (dr_sender d1) <= 4294967295).
  { destruct R as [NX0|d1 NX0 RS]; [auto|]. apply rotate_sender_ok in RS.
    cbn [dr_next dr_shared dr_i dr_root_key dr_receiver dr_sender dr_reveals] in RS.
    destruct RS as (ecdh & sh & _ & _ & _ & -> & NI). cbn [fst dr_collect_reveals dr_pn dr_i dr_sender ra_message_id] in *. lia. }
  destruct PI as (P1 & P2 & P3).
  split; [|split; [assumption|split; [assumption|assumption]]].
  assert (V' := V). unfold data4_validate in V'.
  destruct (negb (Bool.eqb _ _)); [discriminate|].
  destruct (match d4_dh m with Some v => of_bool (dh3_verify C v) | None => Ok tt end) as [u| |] eqn:VD; cbn [bind] in V'; try discriminate.
  destruct (of_bool _); cbn [bind] in V'; try discriminate.
  destruct (Nat.eqb_spec (length (d4_revealed m) mod 64) 0) as [RL|]; [|discriminate].
  unfold shaped. rewrite E1, E2, E3, E4. split; [assumption|]. split; [lia|]. split; [lia|].
  split; [rewrite OK; now apply generated_wire|]. split.
  - intros D. rewrite D in VD. unfold dh3_verify in VD. destruct G as (_ & _ & G0).
    destruct (N.ltb_spec 0 (c_dh3_g C)); [discriminate|lia].
  - split; [|assumption]. rewrite E7. apply kdf2_length.
Qed.

(** ** One side *)

Lemma decrypt4_pn d m auth now d' r : decrypt4 C d m auth now = (d', r) -> dr_pn d' = dr_pn d.
Proof.
  intros H. destruct r as [t|x|].
  - apply decrypt4_ok in H. destruct H as (ck & A & _). destruct A; reflexivity.
  - unfold decrypt4 in H. destruct (let* s := _ in _) as [[]| |]; congruence.
  - unfold decrypt4 in H. destruct (let* s := _ in _) as [[]| |]; congruence.
Qed.

(* session s of account d is encrypted with client t under k, and verifies identities as in smp *)
Definition holds4 (d : details) (t : N) (s : session) (k : double_ratchet) (smp : smp4_context) : Prop :=
  sinv s /\ se_details s = d /\ dr_pn k < 4294967296 /\
  exists i, get_inst t (se_instances s) = Some i /\ ready (in_assembler i) /\ in_state i = PEnc4 (de_tag d) t k smp.
(* the payloads are the data message, which carries the text *)
Definition flight4 (d : details) (t : N) (x : list bytes * bytes) (q : data4 * bytes) : Prop :=
  snd q = without_nul (snd x) /\ transportable (fst x) /\ shaped C V4 (MData4 (fst q)) /\ data4_validate C (fst q) = Ok tt /\
  d4_ignore_unreadable (fst q) = false /\
  exists e, env_ok e /\ transported d e t V4 (MData4 (fst q)) (fst x).

Lemma send_sim4 d t s k smp e text s' ps : holds4 d t s k smp -> Conv4Proofs.small k ->
  (forall m k', encrypt4 C (de_tag d) t k false (without_nul text) [] (ev_send e) = Ok (m, k') -> own_keys C k') ->
  allowed d V4 -> env_ok e -> transportable ps ->
  send C e s t text = (s', [], Ok ps) ->
  exists m k', encrypt4 C (de_tag d) t k false (without_nul text) [] (ev_send e) = Ok (m, k') /\ holds4 d t s' k' smp /\
    flight4 d t (ps, text) (m, without_nul text).
Proof.
  intros (SI & D & NK & i & GI & RE & ST) SM OWN AL EO TP H.
  assert (SC : call C (fun _ => e) s (OpSend t text) = (s', [], Ok (AnPayloads ps))) by (unfold call, answering; now rewrite H).
  apply sinv_call in SC; [|discriminate|assumption]. destruct SC as [SI' D'].
  assert (E : otr_disabled (de_policy (se_details s)) = false) by (apply enabled_not_disabled; right; now rewrite D).
  assert (RI : in_receiver i = t) by (exact (sinv_get _ _ _ SI GI)).
  unfold send in H. rewrite E, GI in H. unfold in_status in H. rewrite ST in H. cbn [p_status status_eqb] in H.
  rewrite andb_false_r in H. unfold inst_send in H. rewrite ST in H. cbn [p_prepare] in H.
  fold (without_nul text) in H. change (drop_by_value text x00) with (without_nul text) in H.
  destruct (encrypt4 C (de_tag d) t k false (without_nul text) [] (ev_send e)) as [[m k']|x|] eqn:EN; cbn [bind] in H;
    try (apply pair3 in H; destruct H as (_ & _ & H); discriminate).
  cbn [p_version] in H. rewrite RI, D in H.
  destruct (let* content := _ in _) as [l|x|] eqn:PL; apply pair3 in H; destruct H as (S' & _ & H); try discriminate.
  injection H as ->. apply bind_ok in PL. destruct PL as (b & EB & PL).
  pose proof (encrypt4_shaped _ _ _ _ _ _ _ _ SM NK (OWN _ _ eq_refl) EN) as (SH & VA & NK' & IG).
  exists m, k'. split; [reflexivity|]. split.
  - split; [assumption|]. split; [congruence|]. split; [assumption|].
    exists (set_state i (PEnc4 (de_tag d) t k' smp)). split; [|split; [exact RE|reflexivity]].
    rewrite <- S'. cbn [se_instances]. apply get_set_same.
  - split; [reflexivity|]. split; [assumption|]. split; [assumption|]. split; [assumption|]. split; [assumption|].
    exists e. split; [assumption|]. eapply payloads_transported; eassumption.
Qed.

Lemma arrive_sim4 d0 d t s k smp e ps text q s' out rs :
  holds4 d t s k smp -> de_tag d0 = t -> allowed d V4 -> legal_details d -> legal_details d0 ->
  flight4 d0 (de_tag d) (ps, text) q ->
  receive_all C e s ps = (s', out, rs) -> ~ In Panic rs ->
  (exists e0, sent_as C d0 e0 (de_tag d) V4 ps (MData4 (fst q))) /\
  exists k' r, decrypt4 C k (fst q) (encode_authenticator_data4 t (de_tag d) (fst q)) (ev_now e) = (k', r) /\ r <> Panic /\
    match r with
    | Ok got => got = without_nul text -> holds4 d t s' k' smp /\ shown t text rs out
    | _ => holds4 d t s' k' smp /\ refused t rs out
    end.
Proof.
  intros (SI & D & NK & i & GI & RE & ST) <- AL LD LD0 (F1 & F2 & F3 & FV & F4 & e0 & EO & F5) RA NP.
  destruct q as [m qt]. cbn [fst snd] in *. subst qt.
  pose proof (sinv_receive_all C _ _ _ _ _ _ RA NP SI) as (SI' & D').
  assert (EI : entry (de_tag d0) (se_instances s) = i) by (unfold entry; now rewrite GI).
  assert (RI : in_receiver i = de_tag d0) by (exact (sinv_get _ _ _ SI GI)).
  apply (arrives_direct C d0 e0 (de_tag d) V4 (MData4 m)) in RA;
    [|assumption|now right|assumption|exact I|assumption|assumption|right; exact LD|rewrite D; destruct LD; lia|rewrite D; auto|now rewrite D
     |assumption|now rewrite EI|assumption].
  destruct RA as (W & a & i' & r & RA & NR & -> & -> & H). rewrite D, EI in H.
  split; [exists e0; split; assumption|].
  unfold inst_handle in H. cbn [em_version em_message em_sender em_receiver] in H. unfold inst_data4 in H. rewrite FV in H.
  cbn [in_state set_assembler set_state in_receiver] in H. rewrite ST in H. cbn [p_handle4] in H.
  destruct (decrypt4 C k m (encode_authenticator_data4 (de_tag d0) (de_tag d) m) (ev_now e)) as [k' r1] eqn:DE.
  assert (NK' : dr_pn k' < 4294967296) by (rewrite (decrypt4_pn _ _ _ _ _ _ DE); exact NK).
  exists k', r1. split; [reflexivity|].
  assert (HOLD : forall j, in_state j = PEnc4 (de_tag d) (de_tag d0) k' smp -> ready (in_assembler j) ->
            i' = j -> holds4 d (de_tag d0) (put s (de_tag d0) i') k' smp).
  { intros j J1 J2 ->. split; [assumption|]. split; [congruence|]. split; [assumption|]. exists j. rewrite get_put. auto. }
  destruct r1 as [got|x|].
  - split; [discriminate|]. intros ->. cbn [after_decrypt] in H. rewrite parse_text_only in H. cbn iota beta in H.
    cbn [existsb] in H. fin3 H. split.
    + eapply HOLD; [| |reflexivity]; [reflexivity|exact RA].
    + exists (length ps). rewrite RI. split; reflexivity.
  - split; [discriminate|]. cbn [after_decrypt] in H. cbn iota beta in H. rewrite data_error_unreadable, F4 in H. fin3 H. split.
    + eapply HOLD; [| |reflexivity]; [reflexivity|exact RA].
    + exists (length ps). cbn [in_receiver set_state set_assembler]. rewrite RI. split; reflexivity.
  - exfalso. cbn [after_decrypt] in H. apply pair3 in H. destruct H as (_ & _ & H). congruence.
Qed.

Lemma other_sim4 d t s k smp es o s' out r : holds4 d t s k smp -> call C es s o = (s', out, r) -> r <> Panic ->
  get_inst t (se_instances s') = get_inst t (se_instances s) -> holds4 d t s' k smp.
Proof.
  intros (SI & D & NK & i & GI & H) K NP GE. apply sinv_call in K; [|assumption|assumption]. destruct K as [SI' D'].
  split; [assumption|]. split; [congruence|]. split; [assumption|]. exists i. rewrite GE. auto.
Qed.

(** ** Both sides *)

Section Sim.
Context (da db : details) (LA : legal_details da) (LB : legal_details db) (AA : allowed da V4) (AB : allowed db V4)
  (smpa smpb : smp4_context).
Local Notation ta := (de_tag da).
Local Notation tb := (de_tag db).

Definition linked4 (l : link) (s : conv4) : Prop :=
  holds4 da tb (li_a l) (cw_a s) smpa /\ holds4 db ta (li_b l) (cw_b s) smpb /\
  Forall2 (flight4 da tb) (li_ab l) (cw_ab s) /\ Forall2 (flight4 db ta) (li_ba l) (cw_ba s).

(* the session of party a, and the messages that it sent *)
Definition li_side (a : bool) (l : link) : session := if a then li_a l else li_b l.
Definition li_sent (a : bool) (l : link) : list (list bytes * bytes) := if a then li_ab l else li_ba l.
Definition d_of (a : bool) : details := if a then da else db.
Definition smp_of (a : bool) : smp4_context := if a then smpa else smpb.
Lemma linked_holds l s a : linked4 l s -> holds4 (d_of a) (de_tag (d_of (negb a))) (li_side a l) (side a s) (smp_of a).
Proof. intros (A & B & _). now destruct a. Qed.
Lemma linked_flight l s a : linked4 l s -> Forall2 (flight4 (d_of a) (de_tag (d_of (negb a)))) (li_sent a l) (sent_by a s).
Proof. intros (_ & _ & A & B). now destruct a. Qed.
Lemma tag_d a : de_tag (d_of a) = tag_of ta tb a. Proof. now destruct a. Qed.
Lemma legal_d a : legal_details (d_of a). Proof. now destruct a. Qed.
Lemma allowed_d a : allowed (d_of a) V4. Proof. now destruct a. Qed.

(* what a happening is in the conversation of the ratchets *)
Definition mirror4 (h : happening) (os : list outcome4) : Prop :=
  match h with
  | Sends a _ => exists m, os = [Sending4 a m]
  | Loses a => os = [Losing4 a]
  | Arrives a text rs out =>
      (exists m sent, os = [Delivered4 a m sent sent] /\ shown (tag_of ta tb a) text rs out) \/
      (exists m sent, os = [Rejected4 a m sent] /\ refused (tag_of ta tb a) rs out)
  | Elsewhere _ => os = []
  end.
Inductive mirrors4 : list happening -> list outcome4 -> Prop :=
| m4_nil : mirrors4 [] []
| m4_snoc hs os h o : mirrors4 hs os -> mirror4 h o -> mirrors4 (hs ++ [h]) (os ++ o).

Definition with_side (a : bool) (k : double_ratchet) (s : conv4) : conv4 :=
  if a then mkConv4 k (cw_b s) (cw_ab s) (cw_ba s) else mkConv4 (cw_a s) k (cw_ab s) (cw_ba s).
Definition with_sent (a : bool) (q : list (data4 * bytes)) (s : conv4) : conv4 :=
  if a then mkConv4 (cw_a s) (cw_b s) q (cw_ba s) else mkConv4 (cw_a s) (cw_b s) (cw_ab s) q.

Lemma send_case l s a e text s' ps : linked4 l s -> inv4 C ta tb (cw_a s) (cw_b s) (cw_ab s) (cw_ba s) ->
  send C e (li_side a l) (de_tag (d_of (negb a))) text = (s', [], Ok ps) -> env_ok e -> transportable ps ->
  exists m k, encrypt4 C (tag_of ta tb a) (tag_of ta tb (negb a)) (side a s) false (without_nul text) [] (ev_send e) = Ok (m, k) /\
    step4 C ta tb s (Sending4 a m) (with_sent a (sent_by a s ++ [(m, without_nul text)]) (with_side a k s)) /\
    holds4 (d_of a) (de_tag (d_of (negb a))) s' k (smp_of a) /\ flight4 (d_of a) (de_tag (d_of (negb a))) (ps, text) (m, without_nul text).
Proof.
  intros L IV HS EO TP. pose proof (linked_holds l s a L) as HO.
  assert (IV' : inv4 C (tag_of ta tb a) (tag_of ta tb (negb a)) (side a s) (side (negb a) s) (sent_by a s) (sent_by (negb a) s))
    by (destruct a; [exact IV|apply inv4_sym; exact IV]).
  assert (OWN : forall m k, encrypt4 C (de_tag (d_of a)) (de_tag (d_of (negb a))) (side a s) false (without_nul text) [] (ev_send e) = Ok (m, k) ->
            own_keys C k).
  { intros m k EN. rewrite !tag_d in EN. pose proof (send4 C _ _ _ _ _ _ _ _ _ _ _ IV' EN) as X. apply X. }
  assert (SM : Conv4Proofs.small (side a s)) by apply IV'.
  destruct (send_sim4 _ _ _ _ _ _ _ _ _ HO SM OWN (allowed_d a) EO TP HS) as (m & k & EN & HO' & FL).
  rewrite !tag_d in EN. exists m, k. split; [assumption|]. split; [|auto].
  destruct a; cbn [with_sent with_side sent_by cw_a cw_b cw_ab cw_ba tag_of negb side] in *; econstructor; eassumption.
Qed.

Lemma arrive_case l s a e ps text r s' out rs : linked4 l s ->
  li_sent a l = (ps, text) :: r -> receive_all C e (li_side (negb a) l) ps = (s', out, rs) -> ~ In Panic rs ->
  exists m q, sent_by a s = (m, without_nul text) :: q /\ Forall2 (flight4 (d_of a) (de_tag (d_of (negb a)))) r q /\
  (exists e0, sent_as C (d_of a) e0 (de_tag (d_of (negb a))) V4 ps (MData4 m)) /\
  exists k' rr, decrypt4 C (side (negb a) s) m (encode_authenticator_data4 (tag_of ta tb a) (tag_of ta tb (negb a)) m) (ev_now e) = (k', rr) /\
    rr <> Panic /\
    match rr with
    | Ok got => got = without_nul text -> holds4 (d_of (negb a)) (de_tag (d_of a)) s' k' (smp_of (negb a)) /\ shown (tag_of ta tb a) text rs out
    | _ => holds4 (d_of (negb a)) (de_tag (d_of a)) s' k' (smp_of (negb a)) /\ refused (tag_of ta tb a) rs out
    end.
Proof.
  intros L E RA NP. pose proof (linked_flight l s a L) as F. rewrite E in F.
  inversion F as [|x' q r' qs F1 F2 E1 E2]; subst x' r'. symmetry in E2. destruct q as [m qt].
  assert (QT : qt = without_nul text) by apply F1. subst qt.
  pose proof (linked_holds l s (negb a) L) as HO. rewrite negb_involutive in HO.
  destruct (arrive_sim4 (d_of a) (d_of (negb a)) _ _ _ _ _ _ _ _ _ _ _ HO eq_refl (allowed_d _) (legal_d _) (legal_d _) F1 RA NP)
    as (SA & k' & rr & DE & NR & RR).
  cbn [fst] in DE, SA. exists m, qs. split; [reflexivity|]. split; [assumption|]. split; [assumption|].
  exists k', rr. rewrite !tag_d in DE. split; [assumption|]. split; [assumption|]. destruct a; exact RR.
Qed.

Lemma linked_send l s a s' k x q : linked4 l s -> holds4 (d_of a) (de_tag (d_of (negb a))) s' k (smp_of a) ->
  flight4 (d_of a) (de_tag (d_of (negb a))) x q ->
  linked4 (if a then mkLink s' (li_b l) (li_ab l ++ [x]) (li_ba l) else mkLink (li_a l) s' (li_ab l) (li_ba l ++ [x]))
    (with_sent a (sent_by a s ++ [q]) (with_side a k s)).
Proof.
  intros (HA & HB & FA & FB) HO FL. destruct a; cbn in *; (split; [|split; [|split]]); try assumption;
    (apply Forall2_app; [assumption|constructor; [assumption|constructor]]).
Qed.
Lemma linked_arrive l s a s' k r q : linked4 l s -> holds4 (d_of (negb a)) (de_tag (d_of a)) s' k (smp_of (negb a)) ->
  Forall2 (flight4 (d_of a) (de_tag (d_of (negb a)))) r q ->
  linked4 (if a then mkLink (li_a l) s' r (li_ba l) else mkLink s' (li_b l) (li_ab l) r) (with_sent a q (with_side (negb a) k s)).
Proof. intros (HA & HB & FA & FB) HO FL. destruct a; cbn in *; (split; [|split; [|split]]); assumption. Qed.

(* one step *)
Lemma step_sim4 s0 os s l h l' : conversation4 C ta tb s0 os s -> linked4 l s -> net_step C ta tb l h l' ->
  exists o s', conversation4 C ta tb s0 (os ++ o) s' /\ linked4 l' s' /\ mirror4 h o.
Proof.
  intros CV L ST. pose proof (conversation4_inv C G _ _ _ _ _ CV) as [IV _]. pose proof L as (HA & HB & FA & FB).
  assert (SEND : forall a e text s1 ps, send C e (li_side a l) (de_tag (d_of (negb a))) text = (s1, [], Ok ps) -> env_ok e -> transportable ps ->
    h = Sends a text ->
    l' = (if a then mkLink s1 (li_b l) (li_ab l ++ [(ps, text)]) (li_ba l) else mkLink (li_a l) s1 (li_ab l) (li_ba l ++ [(ps, text)])) ->
    exists o s', conversation4 C ta tb s0 (os ++ o) s' /\ linked4 l' s' /\ mirror4 h o).
  { intros a e text s1 ps HS EO TP -> ->. destruct (send_case l s a e text s1 ps L IV HS EO TP) as (m & k & _ & SS & HO & FL).
    exists [Sending4 a m]. eexists. split; [eapply c4_step; eassumption|]. split; [|now exists m]. now apply linked_send. }
  assert (ARR : forall a e ps text r s1 out rs, li_sent a l = (ps, text) :: r -> receive_all C e (li_side (negb a) l) ps = (s1, out, rs) ->
    ~ In Panic rs -> h = Arrives a text rs out ->
    l' = (if a then mkLink (li_a l) s1 r (li_ba l) else mkLink s1 (li_b l) (li_ab l) r) ->
    exists o s', conversation4 C ta tb s0 (os ++ o) s' /\ linked4 l' s' /\ mirror4 h o).
  { intros a e ps text r s1 out rs E RA NP -> ->.
    destruct (arrive_case l s a e ps text r s1 out rs L E RA NP) as (m & q & Q & F & _ & k' & rr & DE & NR & RR).
    destruct rr as [got|x|]; [| |congruence].
    - assert (SS : step4 C ta tb s (Delivered4 a m (without_nul text) got) (with_sent a q (with_side (negb a) k' s))).
      { destruct a; cbn [with_sent with_side negb side sent_by tag_of cw_a cw_b cw_ab cw_ba] in *; econstructor; eassumption. }
      pose proof (c4_step C ta tb _ _ _ _ _ CV SS) as CV'.
      assert (GT : got = without_nul text).
      { eapply (proj2 (conversation4_inv C G _ _ _ _ _ CV')). apply in_app_iff. right. now left. }
      destruct (RR GT) as [HO SH]. exists [Delivered4 a m (without_nul text) got]. eexists.
      split; [exact CV'|]. split; [now apply linked_arrive|]. subst got. left. eauto.
    - destruct RR as [HO RF]. exists [Rejected4 a m (without_nul text)], (with_sent a q (with_side (negb a) k' s)).
      split; [eapply c4_step; [exact CV|]|split; [now apply linked_arrive|right; eauto]].
      destruct a; cbn [with_sent with_side negb side sent_by tag_of cw_a cw_b cw_ab cw_ba] in *; econstructor; eassumption. }
  destruct ST as [l e text sx ps HS EO TP|l e text sx ps HS EO TP|l x r E|l x r E|l e ps text r sx out rs E RA NP
                 |l e ps text r sx out rs E RA NP|l es o sx out r K NP GI|l es o sx out r K NP GI].
  - exact (SEND true e text sx ps HS EO TP eq_refl eq_refl).
  - exact (SEND false e text sx ps HS EO TP eq_refl eq_refl).
  - rewrite E in FA. inversion FA as [|x' q r' qs F1 F2 E1 E2]; subst x' r'. symmetry in E2.
    exists [Losing4 true], (mkConv4 (cw_a s) (cw_b s) qs (cw_ba s)).
    split; [eapply c4_step; [exact CV|eapply s4_lose_a; eassumption]|].
    split; [|reflexivity]. split; [exact HA|]. split; [exact HB|]. split; [exact F2|exact FB].
  - rewrite E in FB. inversion FB as [|x' q r' qs F1 F2 E1 E2]; subst x' r'. symmetry in E2.
    exists [Losing4 false], (mkConv4 (cw_a s) (cw_b s) (cw_ab s) qs).
    split; [eapply c4_step; [exact CV|eapply s4_lose_b; eassumption]|].
    split; [|reflexivity]. split; [exact HA|]. split; [exact HB|]. split; [exact FA|exact F2].
  - exact (ARR true e ps text r sx out rs E RA NP eq_refl eq_refl).
  - exact (ARR false e ps text r sx out rs E RA NP eq_refl eq_refl).
  - exists [], s. rewrite app_nil_r. split; [assumption|]. split; [|reflexivity].
    split; [eapply other_sim4; eassumption|]. split; [exact HB|]. split; assumption.
  - exists [], s. rewrite app_nil_r. split; [assumption|]. split; [|reflexivity].
    split; [exact HA|]. split; [eapply other_sim4; eassumption|]. split; assumption.
Qed.

Lemma net_sim4 l0 s0 hs l : start4 C s0 -> linked4 l0 s0 -> net_run C ta tb l0 hs l ->
  exists os s, conversation4 C ta tb s0 os s /\ linked4 l s /\ mirrors4 hs os.
Proof.
  intros S0 L0 H. induction H as [|hs l h l' H IH ST].
  - exists [], s0. split; [now constructor|]. split; [assumption|constructor].
  - destruct IH as (os & s & CV & L & MI). destruct (step_sim4 _ _ _ _ _ _ CV L ST) as (o & s' & CV' & L' & M).
    exists (os ++ o), s'. split; [assumption|]. split; [assumption|]. now constructor.
Qed.

(* every message that arrives is shown or refused *)
Lemma mirrors_arrival4 hs os : mirrors4 hs os -> forall a text rs out, In (Arrives a text rs out) hs ->
  shown (tag_of ta tb a) text rs out \/ refused (tag_of ta tb a) rs out.
Proof.
  intros M. induction M as [|hs os h o M IH MH]; intros a text rs out I; [easy|].
  apply in_app_iff in I. destruct I as [I|[->|[]]]; [eauto|]. cbn [mirror4] in MH.
  destruct MH as [(? & ? & _ & ?)|(? & ? & _ & ?)]; auto.
Qed.

Lemma mirrors_snoc4 hs h os' : mirrors4 (hs ++ [h]) os' -> exists os o, os' = os ++ o /\ mirrors4 hs os /\ mirror4 h o.
Proof.
  intros M. remember (hs ++ [h]) as l eqn:E. destruct M as [|hs' os h' o M MH]; [destruct hs; discriminate|].
  apply app_inj_tail in E. destruct E as [-> <-]. eauto.
Qed.

Lemma shown_not_refused peer text rs out : shown peer text rs out -> refused peer rs out -> False.
Proof. intros (_ & _ & ->) (_ & _ & E). discriminate. Qed.

Lemma speaking_floor a hs s0 : speaking ta tb a hs ->
  forall os s, mirrors4 hs os -> conversation4 C ta tb s0 os s -> floor4 a os.
Proof.
  intros A. induction A as [a|a hs text rs out A IH|a hs text A IH|a hs text rs out A IH SH|a hs b A IH]; intros os s M CV.
  - inversion M as [E1 E2|hs' ? ? ? ? ? E]; [constructor|]. destruct hs'; discriminate.
  - change [Sends a text; Arrives a text rs out] with ([Sends a text] ++ [Arrives a text rs out]) in M. rewrite app_assoc in M.
    apply mirrors_snoc4 in M. destruct M as (os1 & o & -> & M & MA). apply mirrors_snoc4 in M. destruct M as (os2 & o2 & -> & M & (m2 & ->)).
    assert (exists o', o = [o'] /\ exists m sent, o' = Rejected4 a m sent \/ o' = Delivered4 a m sent sent) as (o' & -> & m & sent & O).
    { destruct MA as [(m & sent & -> & _)|(m & sent & -> & _)]; eexists; (split; [reflexivity|eauto]). }
    apply conversation_snoc in CV. destruct CV as (s2 & CV & ST2). apply conversation_snoc in CV. destruct CV as (s1 & CV & ST1).
    pose proof (IH _ _ M CV) as T. destruct (floor_inv C G ta tb _ _ _ _ CV T) as ([Q1 Q2] & _).
    assert (m = m2).
    { inversion ST1; subst; destruct O as [->| ->]; inversion ST2; subst; cbn [cw_ab cw_ba] in *;
        rewrite ?Q1, ?Q2 in *; cbn [app] in *; congruence. }
    subst m2. rewrite <- app_assoc. cbn [app]. destruct O as [->| ->]; now constructor.
  - change [Sends a text; Loses a] with ([Sends a text] ++ [Loses a]) in M. rewrite app_assoc in M.
    apply mirrors_snoc4 in M. destruct M as (os1 & o & -> & M & ->). apply mirrors_snoc4 in M. destruct M as (os2 & o2 & -> & M & (m2 & ->)).
    apply conversation_snoc in CV. destruct CV as (s2 & CV & ST2). apply conversation_snoc in CV. destruct CV as (s1 & CV & ST1).
    rewrite <- app_assoc. cbn [app]. constructor. exact (IH _ _ M CV).
  - pose proof (IH _ _ M CV) as FL. apply mirrors_snoc4 in M. destruct M as (os1 & o & -> & M & MA).
    destruct MA as [(m & sent & -> & _)|(m & sent & _ & RF)]; [|exfalso; eapply shown_not_refused; eassumption].
    now constructor.
  - apply mirrors_snoc4 in M. destruct M as (os1 & o & -> & M & ->). rewrite app_nil_r in *. exact (IH _ _ M CV).
Qed.

(* when one user speaks at a time, the next message is shown *)
Lemma net4_speaker l0 s0 hs l a text l1 text' rs out l2 : start4 C s0 -> linked4 l0 s0 -> net_run C ta tb l0 hs l ->
  speaking ta tb a hs -> net_step C ta tb l (Sends a text) l1 -> net_step C ta tb l1 (Arrives a text' rs out) l2 ->
  text' = text /\
  (shown (tag_of ta tb a) text rs out \/
   refused (tag_of ta tb a) rs out /\
   exists ps, li_sent a l1 = [(ps, text)] /\ repeats_key C (li_side (negb a) l1) (tag_of ta tb a) ps).
Proof.
  intros S0 L0 H SP ST1 ST2. destruct (net_sim4 l0 s0 hs l S0 L0 H) as (os & s & CV & L & M).
  pose proof (speaking_floor a hs s0 SP os s M CV) as FL.
  destruct (floor_inv C G ta tb _ _ _ _ CV FL) as ([Q1 Q2] & _).
  pose proof (conversation4_inv C G _ _ _ _ _ CV) as [IV _].
  pose proof L as (_ & _ & FA & FB). rewrite Q1 in FA. rewrite Q2 in FB. inversion FA as [LQ1|]; subst. inversion FB as [LQ2|]; subst.
  assert (S1 : exists e s1 ps, send C e (li_side a l) (de_tag (d_of (negb a))) text = (s1, [], Ok ps) /\ env_ok e /\ transportable ps /\
    l1 = (if a then mkLink s1 (li_b l) (li_ab l ++ [(ps, text)]) (li_ba l) else mkLink (li_a l) s1 (li_ab l) (li_ba l ++ [(ps, text)]))).
  { inversion ST1; subst; eexists _, _, _; (split; [eassumption|auto]). }
  destruct S1 as (e & s1 & ps & HS & EO & TP & EL).
  destruct (send_case l s a e text s1 ps L IV HS EO TP) as (m & k & EN & SS & HO & FLI).
  pose proof (linked_send l s a s1 k (ps, text) (m, without_nul text) L HO FLI) as L1. rewrite <- EL in L1.
  assert (S2 : exists e' s2 ps' r, li_sent a l1 = (ps', text') :: r /\ receive_all C e' (li_side (negb a) l1) ps' = (s2, out, rs) /\ ~ In Panic rs).
  { inversion ST2; subst; eexists _, _, _, _; (split; [|split]; eassumption). }
  destruct S2 as (e' & s2 & ps' & r & SN & RA & NP).
  assert (SNT : li_sent a l1 = [(ps, text)]).
  { rewrite EL. destruct a; cbn [li_sent li_ab li_ba]; rewrite <- ?LQ1, <- ?LQ2; reflexivity. }
  rewrite SNT in SN. injection SN as <- <- <-.
  split; [reflexivity|].
  destruct (arrive_case _ _ a e' ps text [] s2 out rs L1 SNT RA NP) as (m' & q & SB & _ & (e0 & SA) & k' & rr & DE & NR & RR).
  assert (m' = m /\ side (negb a) (with_sent a (sent_by a s ++ [(m, without_nul text)]) (with_side a k s)) = side (negb a) s) as [-> SD].
  { destruct a; cbn in SB |- *; rewrite ?Q1, ?Q2 in SB; cbn in SB; (split; [congruence|reflexivity]). }
  rewrite SD in DE.
  assert (DEC : {d4_dh m = Some (mx_public_dh (dr_shared (side (negb a) s)))} + {d4_dh m <> Some (mx_public_dh (dr_shared (side (negb a) s)))})
    by (decide equality; apply N.eq_dec).
  destruct DEC as [EQ|NEQ].
  - destruct rr as [got|x|]; [| |congruence].
    + assert (CV1 : conversation4 C ta tb s0 (os ++ [Sending4 a m]) (with_sent a (sent_by a s ++ [(m, without_nul text)]) (with_side a k s)))
        by (eapply c4_step; eassumption).
      assert (got = without_nul text) as GT.
      { rewrite <- SD in DE. pose proof (arrival4 C G ta tb _ _ _ a m (without_nul text) q (ev_now e') CV1 SB) as AR. cbv zeta in AR.
        rewrite DE in AR. destruct AR as [(y & AR)|[(_ & AR)|(_ & AR)]]; congruence. }
      left. apply RR. exact GT.
    + right. split; [apply RR|]. exists ps. split; [assumption|].
      pose proof (linked_holds _ _ (negb a) L1) as (_ & D1 & _ & i & GI & _ & IST). rewrite SD in IST.
      rewrite negb_involutive, !tag_d in GI.
      exists (d_of a), e0, m, (mx_public_dh (dr_shared (side (negb a) s))), (de_tag (d_of (negb a))), (de_tag (d_of (negb (negb a)))),
        (side (negb a) s), (smp_of (negb a)).
      rewrite D1. split; [assumption|]. split; [assumption|]. split; [|reflexivity].
      unfold state_of. rewrite GI. exact IST.
  - destruct (floor_delivers C G ta tb s0 os s a false (without_nul text) (ev_send e) m k (ev_now e') CV FL EN NEQ) as (y' & DL).
    rewrite DL in DE. injection DE as <- <-. left. apply RR. reflexivity.
Qed.
End Sim.
End WithCrypto.
