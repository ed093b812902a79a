(* Two sessions in an encrypted OTRv3 conversation: every run of the sessions is a conversation of their key
   managers. *)
From Verif Require Import Base BaseLemmas Types Crypto CryptoProofs Encoding EncodingProofs ClientProfile Messages MessagesProofs Fragment
  KeyManager KeyManagerProofs DataV3 SpecData3 DataV3Proofs History3Proofs Conv3Proofs Data3Lemmas Ratchet DataV4 AKE DAKE SMP SMP4
  Protocol Session SpecWire SpecSession SessionProofs SessionPartyProofs SessionInvProofs SessionSendProofs SessionRecvProofs SessionLemmas
  SpecNet NetProofs NetAKEProofs.
From Coq Require Import Lia ZifyN ZifyNat.
Local Open Scope N_scope.

Section WithCrypto.
Context (C : Crypto).

(** ** Key numbers fit their field *)

Definition narrow (k : key_manager) : Prop := own_id k < 4294967296 /\ peer_id k < 4294967296.

Lemma rotated_narrow k k' : km_rotated k = Ok k' -> narrow k -> narrow k'.
Proof. unfold km_rotated. destruct (negb _); [discriminate|]. intros [= <-] H. exact H. Qed.
Lemma acknowledge_narrow k id rnd k' : km_acknowledge_ours C k id rnd = Ok k' -> narrow k -> narrow k'.
Proof.
  unfold km_acknowledge_ours, kr_acknowledge, u32_succ, dh_generate. intros H [A B].
  destruct (id =? kr_ack (km_ours k)) eqn:E1; cbn [bind] in H.
  - injection H as <-. split; assumption.
  - destruct (N.eqb_spec (kr_ack (km_ours k)) 4294967295); cbn [bind] in H; [discriminate|].
    destruct (N.eqb_spec id (kr_ack (km_ours k) + 1)); [|discriminate].
    destruct (rnd =? 0); cbn [bind] in H; [discriminate|].
    apply rotated_narrow in H; [exact H|]. unfold narrow, own_id, peer_id in *. cbn. rewrite kr_ack_set. cbn. lia.
Qed.
Lemma register_narrow k id key k' : km_register_their_key k id key = Ok k' -> narrow k -> narrow k'.
Proof.
  unfold km_register_their_key, pr_register, u32_succ. intros H [A B].
  destruct (id =? 0); [discriminate|]. destruct (key =? 0); [discriminate|].
  destruct (pr_id (km_theirs k) =? id).
  - destruct (_ =? key); cbn [bind] in H; [injection H as <-; split; assumption|discriminate].
  - destruct (N.eqb_spec (pr_id (km_theirs k)) 4294967295); cbn [bind] in H; [discriminate|].
    destruct (N.eqb_spec (pr_id (km_theirs k) + 1) id); cbn [bind] in H; [|discriminate].
    apply rotated_narrow in H; [exact H|]. unfold narrow, own_id, peer_id in *. cbn. rewrite pr_id_set. cbn. lia.
Qed.
Lemma used_mac_narrow k mk : narrow k -> narrow (km_register_used_mac k mk).
Proof. unfold km_register_used_mac. destruct (existsb _ _); auto. Qed.
Lemma decrypt3_narrow k m auth rnd k' r : decrypt3 C k m auth rnd = (k', r) -> narrow k -> narrow k'.
Proof.
  intros H NK. unfold decrypt3 in H.
  destruct (pr_select _ _) as [y|?|]; cbn [keep] in H; try (injection H as <- <-; assumption).
  destruct (kr_select _ _) as [x|?|]; cbn [keep] in H; try (injection H as <- <-; assumption).
  destruct (data_derive _ _ _ _) as [sec|?|]; cbn [keep] in H; try (injection H as <- <-; assumption).
  destruct (of_bool _) as [?|?|]; cbn [keep] in H; try (injection H as <- <-; assumption).
  pose proof (used_mac_narrow k (receiver_mac_key C sec) NK) as N1.
  set (k1 := km_register_used_mac k (receiver_mac_key C sec)) in *.
  destruct (km_verify_counter k1 (d3_ctr m)) as [k2|?|] eqn:V; cbn [keep] in H; try (injection H as <- <-; assumption).
  assert (N2 : narrow k2).
  { unfold km_verify_counter in V. destruct (ctr_verify _ _); [|discriminate|discriminate]. injection V as <-. exact N1. }
  destruct (if all_zero (nonce_of_ctr (d3_ctr m)) then _ else _) as [?|?|]; cbn [keep] in H; try (injection H as <- <-; assumption).
  destruct (km_acknowledge_ours C k2 _ rnd) as [k3|?|] eqn:A; cbn [keep] in H; try (injection H as <- <-; assumption).
  pose proof (acknowledge_narrow _ _ _ _ A N2) as N3.
  destruct (bind _ _) as [k4|?|] eqn:R; cbn [keep] in H; try (injection H as <- <-; assumption).
  injection H as <- _. apply bind_ok in R. destruct R as (n & _ & R). now apply register_narrow in R.
Qed.

Lemma encrypt3_shaped our their k ig text m k' : wf3 k -> narrow k -> encrypt3 C our their k ig text = Ok (m, k') ->
  shaped C V3 (MData m) /\ narrow k' /\ d3_ignore_unreadable m = ig.
Proof.
  intros W [N1 N2] E. pose proof (encrypt3_step _ _ _ _ _ _ _ _ W E) as (E1 & E2 & E3 & E4 & _ & E6 & _).
  pose proof (encrypt3_wf C our their k ig text m k' W E) as W'.
  destruct W as [_ _ W1 W2 _]. destruct W' as [W3 _ _ _ _]. rewrite E6 in W3.
  assert (AU : length (d3_authenticator m) = MAC_LEN /\ d3_ignore_unreadable m = ig).
  { unfold encrypt3 in E. repeat bind_inv E.
    repeat match type of E with context [let '(_, _) := ?p in _] => destruct p end. repeat bind_inv E.
    repeat match type of E with context [if ?c then _ else _] => destruct c; try discriminate; repeat bind_inv E end.
    repeat match type of E with context [let '(_, _) := ?p in _] => destruct p end.
    repeat match type of E with context [if ?c then _ else _] => destruct c; try discriminate; repeat bind_inv E end.
    injection E as <- _. cbn [d3_authenticator d3_ignore_unreadable]. split; [apply hmac_sha1_length|reflexivity]. }
  destruct AU as [AU IG]. split; [|split; [|exact IG]].
  - unfold shaped, keyid_range. rewrite E3, E4. repeat split; try lia; assumption.
  - unfold narrow, own_id, peer_id. rewrite E1, E2. split; assumption.
Qed.

(** ** One side *)

(* session s of account d is encrypted with client t under k, and verifies identities as in smp *)
Definition holds3 (d : details) (t : N) (s : session) (k : key_manager) (smp : smp_context) : Prop :=
  sinv s /\ se_details s = d /\ narrow k /\
  exists i, get_inst t (se_instances s) = Some i /\ ready (in_assembler i) /\ in_state i = PEnc3 (de_tag d) t k smp.
(* the payloads are the data message, which carries the text *)
Definition flight3 (d : details) (t : N) (x : list bytes * bytes) (q : data3 * bytes) : Prop :=
  snd q = without_nul (snd x) /\ transportable (fst x) /\ shaped C V3 (MData (fst q)) /\ d3_ignore_unreadable (fst q) = false /\
  exists e, env_ok e /\ transported d e t V3 (MData (fst q)) (fst x).

Lemma get_put s t i : get_inst t (se_instances (put s t i)) = Some i.
Proof. unfold put. cbn [se_instances with_instances]. apply get_set_same. Qed.

Lemma send_sim3 d t s k smp e text s' ps : holds3 d t s k smp -> wf3 k -> allowed d V3 -> env_ok e -> transportable ps ->
  send C e s t text = (s', [], Ok ps) ->
  exists m k', encrypt3 C (de_tag d) t k false (without_nul text) = Ok (m, k') /\ holds3 d t s' k' smp /\
    flight3 d t (ps, text) (m, without_nul text).
Proof.
  intros (SI & D & NK & i & G & RE & ST) W AL EO TP H.
  assert (SC : call C (fun _ => e) s (OpSend t text) = (s', [], Ok (AnPayloads ps))) by (unfold call, answering; now rewrite H).
  apply sinv_call in SC; [|discriminate|assumption]. destruct SC as [SI' D'].
  assert (E : otr_disabled (de_policy (se_details s)) = false) by (apply enabled_not_disabled; left; now rewrite D).
  assert (RI : in_receiver i = t) by (exact (sinv_get _ _ _ SI G)).
  unfold send in H. rewrite E, G in H. unfold in_status in H. rewrite ST in H. cbn [p_status status_eqb] in H.
  rewrite andb_false_r in H. unfold inst_send in H. rewrite ST in H. cbn [p_prepare] in H.
  fold (without_nul text) in H. change (drop_by_value text x00) with (without_nul text) in H.
  destruct (encrypt3 C (de_tag d) t k false (without_nul text)) as [[m k']|x|] eqn:EN; cbn [bind] in H;
    try (apply pair3 in H; destruct H as (_ & _ & H); discriminate).
  cbn [p_version] in H. rewrite RI, D in H.
  destruct (let* content := _ in _) as [l|x|] eqn:PL; apply pair3 in H; destruct H as (S' & _ & H); try discriminate.
  injection H as ->. apply bind_ok in PL. destruct PL as (b & EB & PL).
  pose proof (encrypt3_shaped _ _ _ _ _ _ _ W NK EN) as (SH & NK' & IG).
  exists m, k'. split; [reflexivity|]. split.
  - split; [assumption|]. split; [congruence|]. split; [assumption|].
    exists (set_state i (PEnc3 (de_tag d) t k' smp)). split; [|split; [exact RE|reflexivity]].
    rewrite <- S'. cbn [se_instances]. apply get_set_same.
  - split; [reflexivity|]. split; [assumption|]. split; [assumption|]. split; [assumption|].
    exists e. split; [assumption|]. eapply payloads_transported; eassumption.
Qed.

Lemma arrive_sim3 d0 d t s k smp e ps text q s' out rs :
  holds3 d t s k smp -> de_tag d0 = t -> allowed d V3 -> legal_details d -> legal_details d0 ->
  flight3 d0 (de_tag d) (ps, text) q ->
  receive_all C e s ps = (s', out, rs) -> ~ In Panic rs ->
  exists k' r, decrypt3 C k (fst q) (encode_authenticator_data t (de_tag d) (fst q)) (ev_ack e) = (k', r) /\ r <> Panic /\
    match r with
    | Ok got => got = without_nul text -> holds3 d t s' k' smp /\ shown t text rs out
    | _ => holds3 d t s' k' smp /\ refused t rs out
    end.
Proof.
  intros (SI & D & NK & i & G & RE & ST) <- AL LD LD0 (F1 & F2 & F3 & F4 & e0 & EO & F5) RA NP.
  destruct q as [m qt]. cbn [fst snd] in *. subst qt.
  pose proof (sinv_receive_all C _ _ _ _ _ _ RA NP SI) as (SI' & D').
  assert (EI : entry (de_tag d0) (se_instances s) = i) by (unfold entry; now rewrite G).
  assert (RI : in_receiver i = de_tag d0) by (exact (sinv_get _ _ _ SI G)).
  apply (arrives_direct C d0 e0 (de_tag d) V3 (MData m)) in RA;
    [|assumption|now left|assumption|exact I|assumption|assumption|right; exact LD|rewrite D; destruct LD; lia|rewrite D; auto|now rewrite D
     |assumption|now rewrite EI|assumption].
  destruct RA as (_ & a & i' & r & RA & NR & -> & -> & H). rewrite D, EI in H.
  unfold inst_handle in H. cbn [em_version em_message em_sender em_receiver] in H. unfold inst_data3 in H.
  cbn [in_state set_assembler set_state in_receiver] in H. rewrite ST in H. cbn [p_handle3] in H.
  destruct (decrypt3 C k m (encode_authenticator_data (de_tag d0) (de_tag d) m) (ev_ack e)) as [k' r1] eqn:DE.
  assert (NK' : narrow k') by (eapply decrypt3_narrow; eassumption).
  exists k', r1. split; [reflexivity|].
  assert (HOLD : forall j, in_state j = PEnc3 (de_tag d) (de_tag d0) k' smp -> ready (in_assembler j) ->
            i' = j -> holds3 d (de_tag d0) (put s (de_tag d0) i') k' smp).
  { intros j J1 J2 ->. split; [assumption|]. split; [congruence|]. split; [assumption|]. exists j. rewrite get_put. auto. }
  destruct r1 as [got|x|].
  - split; [discriminate|]. intros ->. cbn [after_decrypt] in H. rewrite parse_text_only in H. cbn iota beta in H.
    cbn [existsb] in H. fin3 H. split.
    + eapply HOLD; [| |reflexivity]; [reflexivity|]. cbn [in_assembler set_state set_assembler]. now apply cleanup_ready.
    + exists (length ps). rewrite RI. split; reflexivity.
  - split; [discriminate|]. cbn [after_decrypt] in H. cbn iota beta in H. rewrite data_error_unreadable, F4 in H. fin3 H. split.
    + eapply HOLD; [| |reflexivity]; [reflexivity|]. cbn [in_assembler set_state set_assembler]. now apply cleanup_ready.
    + exists (length ps). cbn [in_receiver set_state set_assembler]. rewrite RI. split; reflexivity.
  - exfalso. cbn [after_decrypt] in H. apply pair3 in H. destruct H as (_ & _ & H). congruence.
Qed.

Lemma other_sim3 d t s k smp es o s' out r : holds3 d t s k smp -> call C es s o = (s', out, r) -> r <> Panic ->
  get_inst t (se_instances s') = get_inst t (se_instances s) -> holds3 d t s' k smp.
Proof.
  intros (SI & D & NK & i & G & H) K NP GI. apply sinv_call in K; [|assumption|assumption]. destruct K as [SI' D'].
  split; [assumption|]. split; [congruence|]. split; [assumption|]. exists i. rewrite GI. auto.
Qed.

(** ** Both sides *)

Definition linked3 (da db : details) (smpa smpb : smp_context) (l : link) (s : conv3) : Prop :=
  holds3 da (de_tag db) (li_a l) (cv_a s) smpa /\ holds3 db (de_tag da) (li_b l) (cv_b s) smpb /\
  Forall2 (flight3 da (de_tag db)) (li_ab l) (cv_ab s) /\ Forall2 (flight3 db (de_tag da)) (li_ba l) (cv_ba s).

(* what the happenings are in the conversation of the key managers *)
Inductive mirrors3 (ta tb : N) : list happening -> list outcome3 -> Prop :=
| m3_nil : mirrors3 ta tb [] []
| m3_send hs os (a : bool) text m : mirrors3 ta tb hs os -> mirrors3 ta tb (hs ++ [Sends a text]) (os ++ [Sending a m])
| m3_lose hs os (a : bool) : mirrors3 ta tb hs os -> mirrors3 ta tb (hs ++ [Loses a]) (os ++ [Losing a])
| m3_shown hs os (a : bool) text rs out m sent got : mirrors3 ta tb hs os -> shown (if a then ta else tb) text rs out ->
    mirrors3 ta tb (hs ++ [Arrives a text rs out]) (os ++ [Delivered a m sent got])
| m3_refused hs os (a : bool) text rs out m sent : mirrors3 ta tb hs os -> refused (if a then ta else tb) rs out ->
    mirrors3 ta tb (hs ++ [Arrives a text rs out]) (os ++ [Rejected a m sent])
| m3_other hs os (b : bool) : mirrors3 ta tb hs os -> mirrors3 ta tb (hs ++ [Elsewhere b]) os.

Lemma net_sim3 da db smpa smpb l0 s0 hs l : dh_group_ok C -> legal_details da -> legal_details db -> allowed da V3 -> allowed db V3 ->
  start3 C s0 -> linked3 da db smpa smpb l0 s0 -> net_run C (de_tag da) (de_tag db) l0 hs l ->
  exists os s, conversation3 C (de_tag da) (de_tag db) s0 os s /\ linked3 da db smpa smpb l s /\ mirrors3 (de_tag da) (de_tag db) hs os.
Proof.
  intros GO LA LB AA AB S0 L0 H. induction H as [|hs l h l' H IH ST].
  - exists [], s0. split; [now constructor|]. split; [assumption|constructor].
  - destruct IH as (os & s & CV & (HA & HB & FA & FB) & MI).
    assert (IV : conv_inv C (de_tag da) (de_tag db) s) by (assert (P0 : c_dh_p C <> 0) by (destruct GO; lia);
      eapply (conversation_inv C P0 (public_nonzero C GO)); eassumption).
    destruct IV as (WA & WB & _ & _).
    assert (EX : forall a m sent got s1, step3 C (de_tag da) (de_tag db) s (Delivered a m sent got) s1 -> got = sent).
    { intros a m sent got s1 S1. eapply (conversation_exact C (de_tag da) (de_tag db) GO s0); [eapply c3_step; eassumption|].
      apply in_app_iff. right. now left. }
    destruct ST as [l e text sx ps HS EO TP|l e text sx ps HS EO TP|l x r E|l x r E|l e ps text r sx out rs E RA NP
                   |l e ps text r sx out rs E RA NP|l es o sx out r K NP GI|l es o sx out r K NP GI].
    + destruct (send_sim3 _ _ _ _ _ _ _ _ _ HA WA AA EO TP HS) as (m & k' & EN & HA' & FL).
      exists (os ++ [Sending true m]), (mkConv3 k' (cv_b s) (cv_ab s ++ [(m, without_nul text)]) (cv_ba s)).
      split; [eapply c3_step; [exact CV|eapply s3_send_a; eassumption]|].
      split; [|now apply m3_send]. split; [exact HA'|]. split; [exact HB|]. split; [|exact FB].
      cbn [li_ab cv_ab]. apply Forall2_app; [assumption|]. constructor; [assumption|constructor].
    + destruct (send_sim3 _ _ _ _ _ _ _ _ _ HB WB AB EO TP HS) as (m & k' & EN & HB' & FL).
      exists (os ++ [Sending false m]), (mkConv3 (cv_a s) k' (cv_ab s) (cv_ba s ++ [(m, without_nul text)])).
      split; [eapply c3_step; [exact CV|eapply s3_send_b; eassumption]|].
      split; [|now apply m3_send]. split; [exact HA|]. split; [exact HB'|]. split; [exact FA|].
      cbn [li_ba cv_ba]. apply Forall2_app; [assumption|]. constructor; [assumption|constructor].
    + rewrite E in FA. inversion FA as [|x' q r' qs F1 F2 E1 E2]; subst x' r'. symmetry in E2.
      exists (os ++ [Losing true]), (mkConv3 (cv_a s) (cv_b s) qs (cv_ba s)).
      split; [eapply c3_step; [exact CV|eapply s3_lose_a; eassumption]|].
      split; [|now apply m3_lose]. split; [exact HA|]. split; [exact HB|]. split; [exact F2|exact FB].
    + rewrite E in FB. inversion FB as [|x' q r' qs F1 F2 E1 E2]; subst x' r'. symmetry in E2.
      exists (os ++ [Losing false]), (mkConv3 (cv_a s) (cv_b s) (cv_ab s) qs).
      split; [eapply c3_step; [exact CV|eapply s3_lose_b; eassumption]|].
      split; [|now apply m3_lose]. split; [exact HA|]. split; [exact HB|]. split; [exact FA|exact F2].
    + rewrite E in FA. inversion FA as [|x' q r' qs F1 F2 E1 E2]; subst x' r'. symmetry in E2. destruct q as [m qt].
      destruct (arrive_sim3 da db (de_tag da) _ _ _ _ _ _ _ _ _ _ HB eq_refl AB LB LA F1 RA NP) as (k' & rr & DE & NR & RR).
      cbn [fst] in DE. assert (QT : qt = without_nul text) by apply F1.
      destruct rr as [got|x|]; [| |congruence].
      * assert (SS : step3 C (de_tag da) (de_tag db) s (Delivered true m qt got) (mkConv3 (cv_a s) k' qs (cv_ba s)))
          by (eapply s3_deliver_a; eassumption).
        pose proof (EX _ _ _ _ _ SS) as EG. destruct RR as [HB' SHW]; [congruence|].
        exists (os ++ [Delivered true m qt got]), (mkConv3 (cv_a s) k' qs (cv_ba s)).
        split; [eapply c3_step; [exact CV|exact SS]|]. split; [|now apply m3_shown].
        split; [exact HA|]. split; [exact HB'|]. split; [exact F2|exact FB].
      * destruct RR as [HB' RFD].
        exists (os ++ [Rejected true m qt]), (mkConv3 (cv_a s) k' qs (cv_ba s)).
        split; [eapply c3_step; [exact CV|eapply s3_reject_a; eassumption]|]. split; [|now apply m3_refused].
        split; [exact HA|]. split; [exact HB'|]. split; [exact F2|exact FB].
    + rewrite E in FB. inversion FB as [|x' q r' qs F1 F2 E1 E2]; subst x' r'. symmetry in E2. destruct q as [m qt].
      destruct (arrive_sim3 db da (de_tag db) _ _ _ _ _ _ _ _ _ _ HA eq_refl AA LA LB F1 RA NP) as (k' & rr & DE & NR & RR).
      cbn [fst] in DE. assert (QT : qt = without_nul text) by apply F1.
      destruct rr as [got|x|]; [| |congruence].
      * assert (SS : step3 C (de_tag da) (de_tag db) s (Delivered false m qt got) (mkConv3 k' (cv_b s) (cv_ab s) qs))
          by (eapply s3_deliver_b; eassumption).
        pose proof (EX _ _ _ _ _ SS) as EG. destruct RR as [HA' SHW]; [congruence|].
        exists (os ++ [Delivered false m qt got]), (mkConv3 k' (cv_b s) (cv_ab s) qs).
        split; [eapply c3_step; [exact CV|exact SS]|]. split; [|now apply m3_shown].
        split; [exact HA'|]. split; [exact HB|]. split; [exact FA|exact F2].
      * destruct RR as [HA' RFD].
        exists (os ++ [Rejected false m qt]), (mkConv3 k' (cv_b s) (cv_ab s) qs).
        split; [eapply c3_step; [exact CV|eapply s3_reject_b; eassumption]|]. split; [|now apply m3_refused].
        split; [exact HA'|]. split; [exact HB|]. split; [exact FA|exact F2].
    + exists os, s. split; [assumption|]. split; [|now apply m3_other].
      split; [eapply other_sim3; eassumption|]. split; [exact HB|]. split; assumption.
    + exists os, s. split; [assumption|]. split; [|now apply m3_other].
      split; [exact HA|]. split; [eapply other_sim3; eassumption|]. split; assumption.
Qed.

(* every message that arrives is shown or refused *)
Lemma mirrors_arrival ta tb hs os : mirrors3 ta tb hs os -> forall a text rs out, In (Arrives a text rs out) hs ->
  shown (if a then ta else tb) text rs out
  \/ refused (if a then ta else tb) rs out /\ exists m sent, In (Rejected a m sent) os.
Proof.
  intros M. induction M as [|hs os a text m M IH|hs os a M IH|hs os a text rs out m sent got M IH S|hs os a text rs out m sent M IH R
                           |hs os b M IH]; intros a' text' rs' out' I; [easy| | | | |];
    apply in_app_iff in I; destruct I as [I|[I|[]]]; try discriminate.
  1,2,3,5,7: destruct (IH _ _ _ _ I) as [S'|(R' & m' & sent' & J)]; [now left|right; split; [assumption|]];
    exists m', sent'; try exact J; apply in_app_iff; now left.
  - injection I as <- <- <- <-. now left.
  - injection I as <- <- <- <-. right. split; [assumption|]. exists m, sent. apply in_app_iff. right. now left.
Qed.
Lemma mirrors_snoc ta tb hs h os' : mirrors3 ta tb (hs ++ [h]) os' ->
  match h with
  | Sends a _ => exists os m, os' = os ++ [Sending a m] /\ mirrors3 ta tb hs os
  | Loses a => exists os, os' = os ++ [Losing a] /\ mirrors3 ta tb hs os
  | Arrives a _ _ _ => exists os m sent, (os' = os ++ [Rejected a m sent] \/ exists got, os' = os ++ [Delivered a m sent got]) /\
      mirrors3 ta tb hs os
  | Elsewhere _ => mirrors3 ta tb hs os'
  end.
Proof.
  intros M. remember (hs ++ [h]) as l eqn:E.
  destruct M as [|hs' os a text m M|hs' os a M|hs' os a text rs out m sent got M S|hs' os a text rs out m sent M R|hs' os b M];
    [destruct hs; discriminate| | | | |]; apply app_inj_tail in E; destruct E as [-> <-].
  - eauto.
  - eauto.
  - exists os, m, sent. split; [right; eauto|assumption].
  - exists os, m, sent. split; [now left|assumption].
  - assumption.
Qed.
Lemma alternating_turns ta tb a hs s0 : dh_group_ok C -> alternating a hs ->
  forall os s, mirrors3 ta tb hs os -> conversation3 C ta tb s0 os s -> turns3 a os.
Proof.
  intros GO A. induction A as [a|a hs text rs out A IH|a hs b A IH]; intros os s M CV.
  - inversion M as [ | hs' ? ? ? ? ? E | hs' ? ? ? E | hs' ? ? ? ? ? ? ? ? ? ? E | hs' ? ? ? ? ? ? ? ? ? E | hs' ? ? ? E];
      try (destruct hs'; discriminate). constructor.
  - change [Sends a text; Arrives a text rs out] with ([Sends a text] ++ [Arrives a text rs out]) in M. rewrite app_assoc in M.
    apply mirrors_snoc in M. destruct M as (os1 & m & sent & M1 & M). apply mirrors_snoc in M. destruct M as (os2 & m2 & -> & M).
    assert (exists o, os = (os2 ++ [Sending a m2]) ++ [o] /\ (o = Rejected a m sent \/ exists got, o = Delivered a m sent got)) as (o & -> & O).
    { destruct M1 as [->|(got & ->)]; eexists; (split; [reflexivity|eauto]). }
    apply conv_snoc in CV. destruct CV as (s2 & CV & ST2). apply conv_snoc in CV. destruct CV as (s1 & CV & ST1).
    pose proof (IH _ _ M CV) as T.
    assert (Q : cv_ab s1 = [] /\ cv_ba s1 = []).
    { assert (P0 : c_dh_p C <> 0) by (destruct GO; lia).
      destruct (turns_inv C P0 (public_nonzero C GO) ta tb a os2 s0 s1 T CV) as ((Q1 & Q2 & _) & _). auto. }
    assert (m = m2).
    { destruct Q as [Q1 Q2]. inversion ST1; subst; destruct O as [->|(got & ->)]; inversion ST2; subst; cbn [cv_ab cv_ba] in *;
        rewrite ?Q1, ?Q2 in *; cbn [app] in *; congruence. }
    subst m2. rewrite <- app_assoc. cbn [app]. destruct O as [->|(got & ->)]; now constructor.
  - apply mirrors_snoc in M. now apply (IH os s).
Qed.

Lemma net3_arrivals da db smpa smpb l0 s0 hs l : dh_group_ok C -> legal_details da -> legal_details db -> allowed da V3 -> allowed db V3 ->
  start3 C s0 -> linked3 da db smpa smpb l0 s0 -> net_run C (de_tag da) (de_tag db) l0 hs l ->
  forall a text rs out, In (Arrives a text rs out) hs ->
  shown (if a then de_tag da else de_tag db) text rs out \/ refused (if a then de_tag da else de_tag db) rs out.
Proof.
  intros GO LA LB AA AB S0 L0 H a text rs out I.
  destruct (net_sim3 da db smpa smpb l0 s0 hs l GO LA LB AA AB S0 L0 H) as (os & s & CV & _ & M).
  destruct (mirrors_arrival _ _ _ _ M _ _ _ _ I) as [?|(? & _)]; auto.
Qed.
Lemma net3_turns da db smpa smpb l0 s0 hs l b : dh_group_ok C -> legal_details da -> legal_details db -> allowed da V3 -> allowed db V3 ->
  start3 C s0 -> linked3 da db smpa smpb l0 s0 -> net_run C (de_tag da) (de_tag db) l0 hs l -> alternating b hs ->
  forall a text rs out, In (Arrives a text rs out) hs -> shown (if a then de_tag da else de_tag db) text rs out.
Proof.
  intros GO LA LB AA AB S0 L0 H T a text rs out I.
  destruct (net_sim3 da db smpa smpb l0 s0 hs l GO LA LB AA AB S0 L0 H) as (os & s & CV & _ & M).
  destruct (mirrors_arrival _ _ _ _ M _ _ _ _ I) as [?|(_ & m & sent & J)]; [assumption|exfalso].
  eapply (turn_taking C _ _ GO); [exact CV|eapply alternating_turns; eassumption|exact J].
Qed.
End WithCrypto.
