(* Invariants of one client over all histories of an OTRv3 session. *)
From Coq Require Import Lia ZifyN ZifyNat.
From Verif Require Import Base BaseLemmas Types Crypto CryptoProofs Encoding EncodingProofs Messages
  KeyManager KeyManagerProofs DataV3 SpecData3 DataV3Proofs.
Local Open Scope N_scope.

Lemma snoc_split {A} (h : list A) e h1 x h2 :
  h ++ [e] = h1 ++ x :: h2 ->
  (h2 = [] /\ e = x /\ h = h1) \/ (exists h2', h2 = h2' ++ [e] /\ h = h1 ++ x :: h2').
Proof.
  intros E. destruct h2 as [|y h2] using rev_ind.
  - left. change (h1 ++ [x]) with (h1 ++ [x]) in E. apply app_inj_tail in E. destruct E; subst. auto.
  - right. rewrite app_comm_cons, app_assoc in E. apply app_inj_tail in E. destruct E as [-> ->]. eauto.
Qed.

Lemma app3 {A} (h1 : list A) a h2 b h3 c h4 :
  h1 ++ a :: h2 ++ b :: h3 ++ c :: h4 = (h1 ++ a :: h2 ++ b :: h3) ++ c :: h4.
Proof. rewrite <- app_assoc. cbn [app]. rewrite <- app_assoc. reflexivity. Qed.

Lemma app_inj_len {A} (a b c d : list A) : length a = length c -> a ++ b = c ++ d -> a = c /\ b = d.
Proof.
  revert c. induction a as [|x a IH]; intros [|y c] L E; cbn in *; try discriminate; [auto|].
  injection E as -> E. destruct (IH c) as [-> ->]; auto.
Qed.

Section WithCrypto.
Context (C : Crypto) (our their : N).

Record wf3 (k : key_manager) : Prop := mkWf3 {
  wf_our_ctr : length (km_our_ctr k) = 8%nat;
  wf_their_ctr : length (km_their_ctr k) = 8%nat;
  wf_own : own_id k <> 0;
  wf_peer : peer_id k <> 0;
  wf_macs : km_mac_wf k }.

Lemma km_new_wf o key t tkey r0 r1 k : km_new C o key t tkey r0 r1 = Ok k -> wf3 k.
Proof.
  unfold km_new. destruct (N.eqb_spec o 0); cbn [orb]; [discriminate|].
  destruct (N.eqb_spec t 0); cbn [orb]; [discriminate|].
  unfold kr_new. destruct (N.eqb_spec o 0); [contradiction|].
  destruct (negb _); cbn [bind]; [discriminate|].
  destruct (dh_generate C r0) as [k0| |]; cbn [bind]; try discriminate.
  destruct (dh_generate C r1) as [k1| |]; cbn [bind]; try discriminate.
  unfold pr_new. destruct (N.eqb_spec t 0); [contradiction|].
  destruct (N.eqb_spec tkey 0); cbn [bind]; [discriminate|].
  intros E. injection E as <-. constructor; cbn; auto.
  - unfold own_id. cbn. rewrite kr_ack_set. assumption.
  - unfold peer_id. cbn. rewrite pr_id_set. assumption.
  - split; cbn; [reflexivity|constructor].
Qed.

Lemma register_used_wf k mk : length mk = 20%nat -> wf3 k -> wf3 (km_register_used_mac k mk).
Proof.
  intros L [A B O P [M1 M2]]. unfold km_register_used_mac. destruct (existsb _ _); [constructor; auto; split; auto|].
  constructor; cbn; auto. split; cbn; [assumption|]. apply Forall_app. auto.
Qed.

Lemma authentic3_len k m auth mk : authentic3 C k m auth mk -> length mk = 20%nat.
Proof. intros (x & y & enc & _ & _ & (_ & _ & ->) & _). apply sha1_length. Qed.

Lemma rotated_macs_wf old used :
  Nat.modulo (length old) 20 = 0%nat -> Forall (fun m : bytes => length m = 20%nat) used ->
  Nat.modulo (length (old ++ concat used)) 20 = 0%nat.
Proof.
  intros H1 H2. rewrite app_length, (concat_20_length _ H2).
  rewrite Nat.mul_comm, Nat.mod_add by lia. assumption.
Qed.

Lemma acknowledge_wf k id rnd k' : id <> 0 -> wf3 k -> km_acknowledge_ours C k id rnd = Ok k' -> wf3 k'.
Proof.
  intros NZ W E. apply km_acknowledge_cases in E. destruct E as (T & O & [(_ & ->)|E]); [assumption|].
  destruct E as (_ & _ & _ & _ & C1 & C2 & U & OM). destruct W as [A B WO P [M1 M2]].
  constructor; rewrite ?C1, ?C2, ?O; auto.
  - unfold peer_id in *. now rewrite T.
  - split; rewrite ?U, ?OM; [now apply rotated_macs_wf|constructor].
Qed.

Lemma register_wf k id key k' : wf3 k -> km_register_their_key k id key = Ok k' -> wf3 k'.
Proof.
  intros W E. apply km_register_cases in E. destruct E as (T & O & NZ & _ & _ & [(_ & ->)|E]); [assumption|].
  destruct E as (_ & _ & C1 & C2 & U & OM). destruct W as [A B WO P [M1 M2]].
  constructor; rewrite ?C1, ?C2, ?O; auto.
  - unfold own_id in *. now rewrite T.
  - split; rewrite ?U, ?OM; [now apply rotated_macs_wf|constructor].
Qed.

Lemma k2_wf k m mk : length mk = 20%nat -> length (d3_ctr m) = length (km_their_ctr k) -> wf3 k ->
  wf3 (mkKM (km_ours k) (km_theirs k) (km_our_ctr k) (d3_ctr m)
              (km_used_macs (km_register_used_mac k mk)) (km_old_macs k)).
Proof.
  intros L LC W. pose proof (register_used_wf k mk L W) as [A B O P [M1 M2]].
  destruct W as [A' B' O' P' [M1' M2']].
  constructor; cbn; auto; try congruence. split; cbn; auto.
Qed.

(* a received message that was not accepted with a length mismatch cannot occur: the counter read from
   the wire always has eight bytes; for the generic record we keep it as a condition *)
Lemma ctr_len_of_verify stored c : length stored = 8%nat -> be_val stored < be_val c ->
  forall v, ctr_verify stored c = Ok v -> length c = 8%nat.
Proof. intros L _ v E. apply ctr_verify_ok in E. destruct E as (_ & _ & ->). assumption. Qed.

Lemma encrypt3_wf k ig text m k' : wf3 k -> encrypt3 C our their k ig text = Ok (m, k') -> wf3 k'.
Proof.
  intros [A B O P [M1 M2]] E. apply encrypt3_ok in E.
  destruct E as (ek & mk & c & T & _ & _ & -> & _). apply ctr_take_ok in T. destruct T as [_ T].
  constructor; cbn; auto; [congruence|]. split; cbn; auto.
Qed.

(* ids never move by more than one, and the counters restart exactly when one of them moves *)
Lemma recv_ids k m auth rnd k' r :
  recv_result3 C k m auth rnd k' r ->
  (own_id k' = own_id k \/ own_id k' = own_id k + 1) /\
  (peer_id k' = peer_id k \/ peer_id k' = peer_id k + 1) /\
  (own_id k' = own_id k -> peer_id k' = peer_id k ->
     km_our_ctr k' = km_our_ctr k /\ km_old_macs k' = km_old_macs k /\
     km_ours k' = km_ours k /\ km_theirs k' = km_theirs k /\
     (km_their_ctr k' = km_their_ctr k \/
      (km_their_ctr k' = d3_ctr m /\ be_val (km_their_ctr k) < be_val (d3_ctr m)))) /\
  (own_id k' <> own_id k \/ peer_id k' <> peer_id k ->
     km_our_ctr k' = COUNTER_INITIAL_VALUE /\ km_their_ctr k' = COUNTER_INITIAL_VALUE /\
     km_used_macs k' = []).
Proof.
  intros [e NA|mk e AU LE|mk k2 k3 e AU LT LN E2 KA KR|mk enc x y k2 k3 k4 OW PE RK A Z LT LN E2 KA SM KR].
  - repeat split; auto; exfalso; tauto.
  - destruct (km_register_used_mac_fields k mk) as (F1 & F2 & F3 & F4 & F5).
    unfold own_id, peer_id. rewrite F1, F2, F3, F4, F5.
    repeat split; auto; exfalso; tauto.
  - apply km_acknowledge_cases in KA. destruct KA as (T & O & [(I & ->)|KA]).
    + subst k2. cbn. unfold own_id, peer_id in *. cbn. repeat split; auto; exfalso; tauto.
    + destruct KA as (I & _ & _ & _ & C1 & C2 & U & _). subst k2. cbn in *.
      assert (P : peer_id k3 = peer_id k) by (unfold peer_id; now rewrite T).
      assert (O' : own_id k3 = own_id k + 1) by (rewrite O; exact I).
      rewrite P, O'. split; [auto|]. split; [auto|]. split; [intros; lia|]. auto.
  - apply km_acknowledge_cases in KA. destruct KA as (T & O & KA).
    apply km_register_cases in KR. destruct KR as (T' & O' & _ & _ & _ & KR).
    assert (OO : own_id k4 = own_id k3) by (unfold own_id; now rewrite T').
    assert (PP : peer_id k3 = peer_id k).
    { unfold peer_id. rewrite T. subst k2. reflexivity. }
    assert (EO : own_id k2 = own_id k) by (subst k2; reflexivity).
    rewrite OO. rewrite EO in KA. rewrite PP in KR.
    destruct KA as [(I & ->)|KA]; destruct KR as [(J & ->)|KR].
    + subst k2. cbn in *. repeat split; auto; exfalso; tauto.
    + destruct KR as (J & _ & C1 & C2 & U & _). rewrite O'. split; [auto|]. split; [auto|].
      split; [intros; lia|]. auto.
    + destruct KA as (I & _ & _ & _ & C1 & C2 & U & _). rewrite O. split; [auto|].
      split; [left; exact PP|]. split; [intros; lia|]. auto.
    + destruct KR as (J & _ & C1 & C2 & U & _). destruct KA as (I & _). rewrite O, O'.
      split; [auto|]. split; [auto|]. split; [intros; lia|]. auto.
Qed.

(* an accepted message: exactly which ids it leaves *)
Lemma accept_ids k m auth rnd k' t :
  recv_result3 C k m auth rnd k' (Ok t) ->
  own_id k' = d3_receiver_keyid m /\ peer_id k' = d3_sender_keyid m + 1 /\
  d3_receiver_keyid m <> 0 /\ d3_sender_keyid m <> 0 /\
  (d3_receiver_keyid m = own_id k \/ d3_receiver_keyid m = own_id k + 1) /\
  (d3_sender_keyid m = peer_id k \/ d3_sender_keyid m + 1 = peer_id k) /\
  be_val (km_their_ctr k) < ctr3 m /\ length (d3_ctr m) = length (km_their_ctr k).
Proof.
  intros H. remember (Ok t) as r eqn:ER. destruct H as [| | |mk enc x y k2 k3 k4 OW PE RK A Z LT LN E2 KA SM KR];
    try discriminate. clear ER.
  apply km_acknowledge_cases in KA. destruct KA as (T & O & _).
  apply km_register_cases in KR. destruct KR as (T' & O' & _).
  destruct OW as (N1 & W1 & _). destruct PE as (N2 & W2 & _).
  unfold own_id at 1. rewrite T'. fold (own_id k3). auto 10.
Qed.

Lemma accept_ctr k m auth rnd k' t :
  recv_result3 C k m auth rnd k' (Ok t) ->
  own_id k' = own_id k -> peer_id k' = peer_id k -> km_their_ctr k' = d3_ctr m.
Proof.
  intros H. remember (Ok t) as r eqn:ER. destruct H as [| | |mk enc x y k2 k3 k4 OW PE RK A Z LT LN E2 KA SM KR];
    try discriminate. clear ER. intros EO EP.
  apply km_acknowledge_cases in KA. destruct KA as (T & O & KA).
  apply km_register_cases in KR. destruct KR as (T' & O' & _ & _ & _ & KR).
  assert (OO : own_id k4 = own_id k3) by (unfold own_id; now rewrite T').
  assert (PP : peer_id k3 = peer_id k).
  { unfold peer_id. rewrite T. subst k2. reflexivity. }
  assert (EO2 : own_id k2 = own_id k) by (subst k2; reflexivity).
  destruct KA as [(I & ->)|KA]; [|destruct KA as (J & _); lia].
  destruct KR as [(J & ->)|KR]; [|destruct KR as (J & _); lia].
  subst k2. reflexivity.
Qed.

Lemma recv_wf k m auth rnd k' r : wf3 k -> recv_result3 C k m auth rnd k' r -> wf3 k'.
Proof.
  intros W [e NA|mk e AU LE|mk k2 k3 e AU LT LN E2 KA KR|mk enc x y k2 k3 k4 OW PE RK A Z LT LN E2 KA SM KR].
  - assumption.
  - apply register_used_wf; [now apply authentic3_len in AU|assumption].
  - assert (L : length mk = 20%nat) by now apply authentic3_len in AU.
    destruct AU as (x & y & enc & OW & PE & RK & _). destruct OW as (NZ & _).
    pose proof (k2_wf k m mk L LN W) as W2. rewrite <- E2 in W2.
    eapply acknowledge_wf; eassumption.
  - assert (L : length mk = 20%nat) by (destruct RK as (_ & _ & ->); apply sha1_length).
    destruct OW as (NZ & _).
    pose proof (k2_wf k m mk L LN W) as W2. rewrite <- E2 in W2.
    eapply register_wf; [|eassumption]. eapply acknowledge_wf; eassumption.
Qed.

Lemma run3_wf k0 h k : wf3 k0 -> run3 C our their k0 h k -> wf3 k.
Proof.
  intros W H. induction H as [|h k ig text m k' _ IH E|h k m auth rnd k' text _ IH E|h k m auth rnd k' e _ IH E].
  - assumption.
  - eapply encrypt3_wf; eassumption.
  - eapply recv_wf; [exact IH|]. apply decrypt3_cases; [eassumption|discriminate].
  - eapply recv_wf; [exact IH|]. apply decrypt3_cases; [eassumption|discriminate].
Qed.

Lemma history3_wf h k : history3 C our their h k -> wf3 k.
Proof.
  intros (o & key & t & tkey & r0 & r1 & k0 & N & R). eapply run3_wf; [|exact R]. eapply km_new_wf; eassumption.
Qed.

(** ** C16: counters *)

Lemma encrypt3_step k ig text m k' : wf3 k -> encrypt3 C our their k ig text = Ok (m, k') ->
  km_ours k' = km_ours k /\ km_theirs k' = km_theirs k /\
  d3_sender_keyid m = own_id k /\ d3_receiver_keyid m = peer_id k /\
  be_val (km_our_ctr k) < ctr3 m /\ km_our_ctr k' = d3_ctr m /\ km_their_ctr k' = km_their_ctr k.
Proof.
  intros W E. apply encrypt3_ok in E.
  destruct E as (ek & mk & c & T & _ & _ & -> & _ & S1 & S2 & _ & S3 & _).
  apply ctr_take_ok in T. destruct T as [T _]. cbn. unfold ctr3. rewrite S3.
  repeat split; auto. lia.
Qed.

Definition sent_inv (h : list event3) (k : key_manager) : Prop :=
  forall m text, In (Sent3 m text) h ->
    d3_sender_keyid m <= own_id k /\ d3_receiver_keyid m <= peer_id k /\ 0 < ctr3 m /\
    (d3_sender_keyid m = own_id k -> d3_receiver_keyid m = peer_id k -> ctr3 m <= be_val (km_our_ctr k)).

Lemma recv_sent_inv h k m auth rnd k' r e :
  (forall x t, e <> Sent3 x t) ->
  sent_inv h k -> recv_result3 C k m auth rnd k' r -> sent_inv (h ++ [e]) k'.
Proof.
  intros NE H R x t I. apply in_app_iff in I. destruct I as [I|[I|[]]]; [|now apply NE in I].
  apply recv_ids in R. destruct R as (R1 & R2 & R3 & _). destruct (H x t I) as (A & B & Z & D).
  repeat split; [lia|lia|assumption|]. intros E1 E2.
  assert (own_id k' = own_id k) by lia. assert (peer_id k' = peer_id k) by lia.
  destruct (R3 H0 H1) as (-> & _). apply D; congruence.
Qed.

Lemma run3_sent_inv k0 h k : wf3 k0 -> run3 C our their k0 h k -> sent_inv h k.
Proof.
  intros W H. induction H as [|h k ig text m k' H IH E|h k m auth rnd k' text H IH E|h k m auth rnd k' e H IH E].
  - intros m t [].
  - pose proof (run3_wf _ _ _ W H) as Wk.
    destruct (encrypt3_step _ _ _ _ _ Wk E) as (O & T & S1 & S2 & LT & EC & _).
    intros x t I. apply in_app_iff in I. unfold own_id, peer_id in *. rewrite O, T, EC.
    destruct I as [I|[I|[]]].
    + destruct (IH x t I) as (A & B & Z & D). repeat split; auto. intros E1 E2. unfold ctr3 in *.
      specialize (D E1 E2). lia.
    + injection I as <- <-. unfold ctr3 in *. repeat split; lia.
  - eapply recv_sent_inv; [intros; discriminate|exact IH|]. apply decrypt3_cases; [eassumption|discriminate].
  - eapply recv_sent_inv; [intros; discriminate|exact IH|]. apply decrypt3_cases; [eassumption|discriminate].
Qed.

Theorem counters_never_repeat h k h1 m1 t1 h2 m2 t2 h3 :
  history3 C our their h k -> h = h1 ++ Sent3 m1 t1 :: h2 ++ Sent3 m2 t2 :: h3 ->
  same_keys3 m1 m2 -> 0 < ctr3 m1 < ctr3 m2.
Proof.
  intros (o & key & t & tkey & r0 & r1 & k0 & N & R). apply km_new_wf in N.
  revert h1 m1 t1 h2 m2 t2 h3.
  induction R as [|h k ig text m k' H IH E|h k m auth rnd k' text H IH E|h k m auth rnd k' e H IH E];
    intros h1 m1 t1 h2 m2 t2 h3 EH SK.
  - destruct h1; discriminate.
  - rewrite app_comm_cons, app_assoc in EH. apply snoc_split in EH. destruct EH as [(-> & EM & EH)|(h3' & -> & EH)].
    + injection EM as <- <-.
      pose proof (run3_wf _ _ _ N H) as Wk.
      destruct (encrypt3_step _ _ _ _ _ Wk E) as (O & T & S1 & S2 & LT & EC & _).
      assert (I : In (Sent3 m1 t1) h) by (rewrite EH; apply in_app_iff; right; left; reflexivity).
      destruct (run3_sent_inv _ _ _ N H m1 t1 I) as (A & B & Z & D).
      destruct SK as [K1 K2]. specialize (D ltac:(congruence) ltac:(congruence)). lia.
    + eapply IH; [|exact SK]. rewrite EH. rewrite <- app_assoc. reflexivity.
  - rewrite app_comm_cons, app_assoc in EH. apply snoc_split in EH.
    destruct EH as [(_ & EM & _)|(h3' & -> & EH)]; [discriminate|].
    eapply IH; [|exact SK]. rewrite EH. rewrite <- app_assoc. reflexivity.
  - rewrite app_comm_cons, app_assoc in EH. apply snoc_split in EH.
    destruct EH as [(_ & EM & _)|(h3' & -> & EH)]; [discriminate|].
    eapply IH; [|exact SK]. rewrite EH. rewrite <- app_assoc. reflexivity.
Qed.

(** ** C17: replay *)

Definition got_inv (h : list event3) (k : key_manager) : Prop :=
  (forall m auth t, In (Got3 m auth (Some t)) h ->
     d3_receiver_keyid m <= own_id k /\ d3_sender_keyid m + 1 <= peer_id k) /\
  (forall h1 m0 a0 t0 h2 m1 a1 t1 h3,
     h = h1 ++ Got3 m0 a0 (Some t0) :: h2 ++ Got3 m1 a1 (Some t1) :: h3 -> same_keys3 m0 m1 ->
     d3_receiver_keyid m1 = own_id k -> d3_sender_keyid m1 + 1 = peer_id k ->
     ctr3 m1 <= be_val (km_their_ctr k)).

Lemma run3_got_inv k0 h k : wf3 k0 -> run3 C our their k0 h k -> got_inv h k.
Proof.
  intros W H. induction H as [|h k ig text m k' H IH E|h k m auth rnd k' text H IH E|h k m auth rnd k' e H IH E].
  - split; [intros m a t []|]. intros h1; destruct h1; discriminate.
  - pose proof (run3_wf _ _ _ W H) as Wk.
    destruct (encrypt3_step _ _ _ _ _ Wk E) as (O & T & S1 & S2 & LT & EC & EC').
    unfold got_inv, own_id, peer_id in *. rewrite O, T, EC'. destruct IH as [I1 I2]. split.
    + intros m' a t I. apply in_app_iff in I. destruct I as [I|[I|[]]]; [eauto|discriminate].
    + intros h1 m0 a0 t0 h2 m1 a1 t1 h3 EH. rewrite app_comm_cons, app_assoc in EH. apply snoc_split in EH.
      destruct EH as [(_ & EM & _)|(h3' & -> & EH)]; [discriminate|].
      eapply I2. rewrite EH, <- app_assoc. reflexivity.
  - apply decrypt3_cases in E; [|discriminate].
    pose proof (recv_ids _ _ _ _ _ _ E) as (R1 & R2 & R3 & _).
    pose proof (accept_ids _ _ _ _ _ _ E) as (A1 & A2 & A3 & A4 & A5 & A6 & A7 & A8).
    destruct IH as [I1 I2]. split.
    + intros m' a t I. apply in_app_iff in I. destruct I as [I|[I|[]]].
      * destruct (I1 _ _ _ I). lia.
      * injection I as <- _ _. lia.
    + intros h1 m0 a0 t0 h2 m1 a1 t1 h3 EH. rewrite app_comm_cons, app_assoc in EH. apply snoc_split in EH.
      destruct EH as [(-> & EM & EH)|(h3' & -> & EH)].
      * injection EM as <- _ _. intros [K1 K2] _ _.
        assert (I : In (Got3 m0 a0 (Some t0)) h) by (rewrite EH; apply in_app_iff; right; left; reflexivity).
        destruct (I1 _ _ _ I) as [B1 B2].
        rewrite (accept_ctr _ _ _ _ _ _ E); [|lia|lia]. unfold ctr3. lia.
      * intros SK E1 E2.
        assert (I : In (Got3 m1 a1 (Some t1)) h).
        { rewrite EH. apply in_app_iff. right. left. reflexivity. }
        destruct (I1 _ _ _ I) as [B1 B2].
        destruct (R3 ltac:(lia) ltac:(lia)) as (_ & _ & _ & _ & CT).
        assert (X : ctr3 m1 <= be_val (km_their_ctr k)).
        { eapply I2; [rewrite EH, <- app_assoc; reflexivity|exact SK|lia|lia]. }
        destruct CT as [->|[-> CT]]; [assumption|lia].
  - apply decrypt3_cases in E; [|discriminate].
    pose proof (recv_ids _ _ _ _ _ _ E) as (R1 & R2 & R3 & _).
    destruct IH as [I1 I2]. split.
    + intros m' a t I. apply in_app_iff in I. destruct I as [I|[I|[]]]; [|discriminate].
      destruct (I1 _ _ _ I). lia.
    + intros h1 m0 a0 t0 h2 m1 a1 t1 h3 EH. rewrite app_comm_cons, app_assoc in EH. apply snoc_split in EH.
      destruct EH as [(-> & EM & EH)|(h3' & -> & EH)]; [discriminate|]. intros SK E1 E2.
      assert (I : In (Got3 m1 a1 (Some t1)) h).
      { rewrite EH. apply in_app_iff. right. left. reflexivity. }
      destruct (I1 _ _ _ I) as [B1 B2].
      destruct (R3 ltac:(lia) ltac:(lia)) as (_ & _ & _ & _ & CT).
      assert (X : ctr3 m1 <= be_val (km_their_ctr k)).
      { eapply I2; [rewrite EH, <- app_assoc; reflexivity|exact SK|lia|lia]. }
      destruct CT as [->|[-> CT]]; [assumption|unfold ctr3 in *; lia].
Qed.

(* From the second message on, the counters of the accepted messages under one pair of keys strictly
   increase. *)
Theorem replay_bound h k h1 m0 a0 t0 h2 m1 a1 t1 h3 m2 a2 t2 h4 :
  history3 C our their h k ->
  h = h1 ++ Got3 m0 a0 (Some t0) :: h2 ++ Got3 m1 a1 (Some t1) :: h3 ++ Got3 m2 a2 (Some t2) :: h4 ->
  same_keys3 m0 m1 -> same_keys3 m1 m2 -> ctr3 m1 < ctr3 m2.
Proof.
  intros (o & key & t & tkey & r0 & r1 & k0 & N & R). apply km_new_wf in N.
  revert h4.
  induction R as [|h k ig text m k' H IH E|h k m auth rnd k' text H IH E|h k m auth rnd k' e H IH E];
    intros h4 EH SK SK'.
  - destruct h1; discriminate.
  - rewrite app3 in EH. apply snoc_split in EH.
    destruct EH as [(_ & EM & _)|(h3' & -> & EH)]; [discriminate|].
    eapply IH; [|exact SK|exact SK']. rewrite EH, <- app3. reflexivity.
  - rewrite app3 in EH. apply snoc_split in EH.
    destruct EH as [(-> & EM & EH)|(h3' & -> & EH)].
    + injection EM as <- _ _. apply decrypt3_cases in E; [|discriminate].
      pose proof (accept_ids _ _ _ _ _ _ E) as (A1 & A2 & A3 & A4 & A5 & A6 & A7 & A8).
      destruct (run3_got_inv _ _ _ N H) as [I1 I2].
      assert (I : In (Got3 m1 a1 (Some t1)) h).
      { rewrite EH, app_comm_cons, app_assoc. apply in_app_iff. right. left. reflexivity. }
      destruct (I1 _ _ _ I) as [B1 B2]. destruct SK' as [K1 K2].
      assert (X : ctr3 m1 <= be_val (km_their_ctr k)).
      { eapply I2; [exact EH|exact SK|lia|lia]. }
      lia.
    + eapply IH; [|exact SK|exact SK']. rewrite EH, <- app3. reflexivity.
  - rewrite app3 in EH. apply snoc_split in EH.
    destruct EH as [(_ & EM & _)|(h3' & -> & EH)]; [discriminate|].
    eapply IH; [|exact SK|exact SK']. rewrite EH, <- app3. reflexivity.
Qed.

(** ** Forward direction: a message that verifies is accepted *)

Lemma kr_select_own k id x : own_key3 k id x -> id = own_id k \/ own_id k <> 4294967295 -> kr_select (km_ours k) id = Ok x.
Proof.
  intros (NZ & W & ->) M. unfold kr_select, own_id in *. destruct (N.eqb_spec id 0); [contradiction|].
  destruct (N.eqb_spec (kr_ack (km_ours k)) id); [reflexivity|]. destruct M as [M|M]; [congruence|].
  unfold u32_succ. destruct (N.eqb_spec (kr_ack (km_ours k)) 4294967295); [contradiction|]. cbn [bind].
  destruct (N.eqb_spec (kr_ack (km_ours k) + 1) id); [reflexivity|lia].
Qed.
Lemma pr_select_peer k id y : peer_key3 k id y -> pr_select (km_theirs k) id = Ok y.
Proof.
  intros (NZ & W & ->). unfold pr_select. destruct (N.eqb_spec id 0); [contradiction|].
  destruct (N.eqb_spec (pr_id (km_theirs k)) 0); [lia|].
  destruct (N.eqb_spec (pr_id (km_theirs k) - 1) id), (N.eqb_spec (pr_id (km_theirs k)) id); cbn [orb]; try reflexivity.
  lia.
Qed.

Lemma acknowledge_total k id rnd :
  wf3 k -> id <> 0 -> (id = own_id k \/ id = own_id k + 1 /\ rnd <> 0 /\ own_id k <> 4294967295) ->
  exists k', km_acknowledge_ours C k id rnd = Ok k'.
Proof.
  intros W NZ HC. unfold km_acknowledge_ours, kr_acknowledge, own_id in *.
  destruct (N.eqb_spec id (kr_ack (km_ours k))); [cbn [bind]; eauto|].
  destruct HC as [HC|(HC & R & M)]; [contradiction|].
  unfold u32_succ. destruct (N.eqb_spec (kr_ack (km_ours k)) 4294967295); [contradiction|]. cbn [bind].
  destruct (N.eqb_spec id (kr_ack (km_ours k) + 1)); [|contradiction].
  unfold dh_generate. destruct (N.eqb_spec rnd 0); [contradiction|]. cbn [bind].
  eexists. apply km_rotated_total. destruct W. assumption.
Qed.
Lemma register_total k id key :
  wf3 k -> id <> 0 -> key <> 0 ->
  (id = peer_id k /\ pr_slot (km_theirs k) id = key \/ id = peer_id k + 1 /\ peer_id k <> 4294967295) ->
  exists k', km_register_their_key k id key = Ok k'.
Proof.
  intros W NZ KZ HC. unfold km_register_their_key, pr_register, peer_id in *.
  destruct (N.eqb_spec id 0); [contradiction|]. destruct (N.eqb_spec key 0); [contradiction|].
  destruct (N.eqb_spec (pr_id (km_theirs k)) id).
  - destruct HC as [(_ & HC)|HC]; [|lia].
    destruct (N.eqb_spec (pr_slot (km_theirs k) id) key); [|contradiction]. cbn [bind]. eauto.
  - destruct HC as [HC|(HC & M)]; [lia|].
    unfold u32_succ. destruct (N.eqb_spec (pr_id (km_theirs k)) 4294967295); [contradiction|]. cbn [bind].
    destruct (N.eqb_spec (pr_id (km_theirs k) + 1) id); [|lia]. cbn [bind].
    eexists. apply km_rotated_total. destruct W. assumption.
Qed.

Lemma ctr_verify_total stored c : be_val stored < be_val c -> length c = length stored -> ctr_verify stored c = Ok c.
Proof. intros H L. destruct (ctr_verify_cases stored c L) as [[_ E]|[X _]]; [exact E|lia]. Qed.

Lemma decrypt3_accepts k m auth rnd x y enc mk :
  wf3 k -> d3_sender_keyid m <> 4294967295 ->
  own_key3 k (d3_receiver_keyid m) x -> peer_key3 k (d3_sender_keyid m) y ->
  recv_keys3 C x y enc mk ->
  d3_authenticator m = hmac_sha1 C mk auth -> any_nonzero (d3_authenticator m) = true ->
  be_val (km_their_ctr k) < ctr3 m -> length (d3_ctr m) = 8%nat ->
  (d3_receiver_keyid m = own_id k \/ rnd <> 0 /\ own_id k <> 4294967295) ->
  d3_dh_y m <> 0 ->
  (d3_sender_keyid m + 1 = peer_id k -> d3_dh_y m = pr_slot (km_theirs k) (peer_id k)) ->
  exists k', decrypt3 C k m auth rnd
             = (k', Ok (aes_crypt C enc (nonce_of_ctr (d3_ctr m)) (d3_encrypted m))).
Proof.
  intros W M2 OW PE RK AU ANZ LT L8 RN YZ YS. unfold decrypt3.
  rewrite (pr_select_peer _ _ _ PE), (kr_select_own _ _ _ OW) by tauto. cbn [keep].
  destruct (data_derive_total C x y (write_mpi (dh_shared C x y))) as [d D]; [apply RK|].
  rewrite D. cbn [keep]. apply data_derive_ok in D. destruct D as [_ D].
  destruct (recv_keys3_unique _ _ _ _ _ _ _ RK D) as [-> ->].
  assert (X : ct_compare (d3_authenticator m) (hmac_sha1 C (receiver_mac_key C d) auth) = true).
  { apply ct_compare_true. auto. }
  rewrite X. cbn [of_bool keep].
  set (mk := receiver_mac_key C d) in *.
  assert (LM : length mk = 20%nat) by (apply sha1_length).
  destruct (km_register_used_mac_fields k mk) as (F1 & F2 & F3 & F4 & F5).
  unfold km_verify_counter. rewrite F1, F2, F3, F4, F5.
  rewrite ctr_verify_total by (try exact LT; destruct W; congruence). cbn [bind keep].
  assert (NZ : all_zero (nonce_of_ctr (d3_ctr m)) = false).
  { apply any_nonzero_app. unfold any_nonzero. destruct (all_zero (d3_ctr m)) eqn:Z; [|reflexivity].
    apply all_zero_be_val in Z. unfold ctr3 in LT. lia. }
  rewrite NZ. cbn [keep].
  assert (W2 : wf3 (mkKM (km_ours k) (km_theirs k) (km_our_ctr k) (d3_ctr m)
              (km_used_macs (km_register_used_mac k mk)) (km_old_macs k))).
  { apply k2_wf; [exact LM| |exact W]. destruct W; congruence. }
  set (k2 := mkKM _ _ _ _ _ _) in *.
  destruct (acknowledge_total k2 (d3_receiver_keyid m) rnd W2) as [k3 K3].
  { apply OW. }
  { destruct OW as (_ & [O|O] & _); [left; exact O|].
    destruct RN as [O'|RN]; [left; exact O'|]. right. split; [exact O|]. exact RN. }
  rewrite K3. cbn [keep].
  assert (W3 : wf3 k3) by (eapply acknowledge_wf; [apply OW|exact W2|exact K3]).
  apply km_acknowledge_cases in K3. destruct K3 as (T3 & _).
  assert (P3 : peer_id k3 = peer_id k) by (unfold peer_id; rewrite T3; reflexivity).
  assert (T3' : km_theirs k3 = km_theirs k) by (rewrite T3; reflexivity).
  unfold u32_succ. destruct (N.eqb_spec (d3_sender_keyid m) 4294967295); [contradiction|]. cbn [bind].
  destruct (register_total k3 (d3_sender_keyid m + 1) (d3_dh_y m) W3) as [k4 K4]; [lia|exact YZ| |].
  { destruct PE as (_ & [P|P] & _).
    - right. unfold peer_id in *. rewrite P3. rewrite <- P. auto.
    - left. rewrite P3, T3'. split; [exact P|]. rewrite (YS P). f_equal. exact P. }
  rewrite K4. cbn [keep]. eauto.
Qed.


(** ** What an accepted message leaves behind *)

Lemma accept_keys k m auth rnd k' t :
  recv_result3 C k m auth rnd k' (Ok t) ->
  exists x y enc mk,
    own_key3 k (d3_receiver_keyid m) x /\ peer_key3 k (d3_sender_keyid m) y /\ recv_keys3 C x y enc mk /\
    d3_authenticator m = hmac_sha1 C mk auth /\ any_nonzero (d3_authenticator m) = true /\
    t = aes_crypt C enc (nonce_of_ctr (d3_ctr m)) (d3_encrypted m) /\
    own_key3 k' (d3_receiver_keyid m) x /\ peer_key3 k' (d3_sender_keyid m) y /\
    pr_slot (km_theirs k') (d3_sender_keyid m + 1) = d3_dh_y m /\ d3_dh_y m <> 0 /\
    d3_sender_keyid m <> 4294967295 /\
    (own_id k' <> own_id k \/ peer_id k' <> peer_id k ->
     exists l, km_old_macs k' = km_old_macs k ++ concat (km_used_macs (km_register_used_mac k mk)) ++ l /\ l = []).
Proof.
  intros H. pose proof (accept_ids _ _ _ _ _ _ H) as AI. revert AI.
  remember (Ok t) as r eqn:ER.
  destruct H as [| | |mk enc x y k2 k3 k4 OW PE RK A Z LT LN E2 KA SM KR]; try discriminate.
  injection ER as <-. intros (A1 & A2 & A3 & A4 & A5 & A6 & _).
  exists x, y, enc, mk.
  apply km_acknowledge_cases in KA. destruct KA as (T & O & KA).
  apply km_register_cases in KR. destruct KR as (T' & O' & _ & YZ & YS & KR).
  assert (PP : peer_id k3 = peer_id k).
  { unfold peer_id. rewrite T. subst k2. reflexivity. }
  assert (TT : km_theirs k3 = km_theirs k) by (rewrite T; subst k2; reflexivity).
  assert (EO : own_id k2 = own_id k) by (subst k2; reflexivity).
  rewrite EO in KA. rewrite PP in KR.
  repeat (split; [assumption || reflexivity|]).
  split.
  { split; [assumption|]. split; [left; exact (eq_sym A1)|]. rewrite T'.
    destruct OW as (_ & OW & ->). destruct KA as [(I & ->)|KA]; [subst k2; reflexivity|].
    destruct KA as (I & _ & S & _). rewrite S. subst k2. reflexivity. }
  split.
  { split; [assumption|]. split; [right; exact (eq_sym A2)|].
    destruct PE as (_ & PE & ->). destruct KR as [(J & ->)|KR]; [now rewrite TT|].
    destruct KR as (J & S & _). assert (ES : d3_sender_keyid m = peer_id k) by lia.
    rewrite ES, S, TT. reflexivity. }
  repeat (split; [assumption|]).
  intros CH. exists []. rewrite app_nil_r. split; [|reflexivity].
  assert (OO : own_id k4 = own_id k3) by (unfold own_id; now rewrite T').
  destruct KA as [(I & ->)|KA]; destruct KR as [(J & ->)|KR].
  - exfalso. rewrite <- EO in CH at 1. destruct CH as [CH|CH]; [rewrite EO in CH|]; contradiction.
  - destruct KR as (_ & _ & _ & _ & _ & ->). subst k2. reflexivity.
  - destruct KA as (_ & _ & _ & _ & _ & _ & _ & ->). subst k2. reflexivity.
  - destruct KR as (_ & _ & _ & _ & _ & ->). destruct KA as (_ & _ & _ & _ & _ & _ & U & M).
    rewrite U, M. cbn [concat]. rewrite app_nil_r. subst k2. reflexivity.
Qed.

(* A message whose acceptance rotated a key is accepted again. *)
Theorem replay_after_rotation k m auth rnd k' t :
  wf3 k -> decrypt3 C k m auth rnd = (k', Ok t) ->
  own_id k' <> own_id k \/ peer_id k' <> peer_id k ->
  forall rnd', exists k'', decrypt3 C k' m auth rnd' = (k'', Ok t).
Proof.
  intros W E CH rnd'. apply decrypt3_cases in E; [|discriminate].
  pose proof (recv_wf _ _ _ _ _ _ W E) as W'.
  pose proof (recv_ids _ _ _ _ _ _ E) as (_ & _ & _ & R4). destruct (R4 CH) as (_ & C2 & _).
  pose proof (accept_ids _ _ _ _ _ _ E) as (A1 & A2 & A3 & A4 & A5 & A6 & LT & LN).
  apply accept_keys in E.
  destruct E as (x & y & enc & mk & _ & _ & RK & AU & NZ & -> & OW & PE & YS & YZ & SM & _).
  apply (decrypt3_accepts k' m auth rnd' x y enc mk); auto.
  - rewrite C2, ctr_initial. lia.
  - rewrite LN. apply W.
  - rewrite A2. intros _. auto.
Qed.

(** ** C18: revealing MAC keys *)

Lemma chunk20 (l : bytes) : Nat.modulo (length l) 20 = 0%nat ->
  exists keys, l = concat keys /\ Forall (fun k => length k = 20%nat) keys.
Proof.
  intros H. remember (Nat.div (length l) 20) as n eqn:En.
  assert (L : length l = (20 * n)%nat).
  { pose proof (Nat.div_mod (length l) 20 ltac:(lia)). lia. }
  clear H En. revert l L. induction n as [|n IH]; intros l L.
  - exists []. destruct l; [auto|cbn in L; lia].
  - destruct (IH (skipn 20 l)) as (keys & E & F); [rewrite skipn_length; lia|].
    exists (firstn 20 l :: keys). cbn [concat]. rewrite <- E, firstn_skipn. split; [reflexivity|].
    constructor; [|exact F]. rewrite firstn_length. lia.
Qed.

Lemma chunks_unique (a b : list bytes) :
  Forall (fun k => length k = 20%nat) a -> Forall (fun k => length k = 20%nat) b ->
  concat a = concat b -> a = b.
Proof.
  intros HA. revert b. induction HA as [|x a LX HA IH]; intros b HB E.
  - destruct HB as [|y b LY HB]; [reflexivity|]. exfalso. cbn in E.
    apply (f_equal (@length byte)) in E. rewrite app_length in E. cbn in E. lia.
  - destruct HB as [|y b LY HB].
    { exfalso. cbn in E. apply (f_equal (@length byte)) in E. rewrite app_length in E. cbn in E. lia. }
    cbn in E. apply app_inj_len in E; [|congruence]. destruct E as [-> E]. f_equal. auto.
Qed.

(* [mk] verified a message received earlier in the run; [P] constrains the state it arrived in *)
Definition verified_earlier (k0 : key_manager) (h : list event3) (mk : bytes) (P : key_manager -> Prop) : Prop :=
  exists h1 m auth t h2 k1,
    h = h1 ++ Got3 m auth t :: h2 /\ run3 C our their k0 h1 k1 /\ authentic3 C k1 m auth mk /\ P k1.

Lemma verified_earlier_snoc k0 h e mk (P Q : key_manager -> Prop) :
  (forall k, P k -> Q k) -> verified_earlier k0 h mk P -> verified_earlier k0 (h ++ [e]) mk Q.
Proof.
  intros PQ (h1 & m & auth & t & h2 & k1 & -> & R & A & HP).
  exists h1, m, auth, t, (h2 ++ [e]), k1. rewrite <- app_assoc. auto.
Qed.

Definition ids_le (k1 k : key_manager) : Prop := own_id k1 <= own_id k /\ peer_id k1 <= peer_id k.
Definition ids_lt (k1 k : key_manager) : Prop :=
  ids_le k1 k /\ (own_id k1 <> own_id k \/ peer_id k1 <> peer_id k).

Definition mac_inv (k0 : key_manager) (h : list event3) (k : key_manager) : Prop :=
  (exists keys, km_old_macs k = concat keys /\ Forall (fun m => length m = 20%nat) keys /\
     Forall (fun mk => verified_earlier k0 h mk (fun k1 => ids_lt k1 k)) keys) /\
  Forall (fun mk => verified_earlier k0 h mk (fun k1 => ids_le k1 k)) (km_used_macs k).

(* old and used keys after a received message *)
Lemma recv_macs k m auth rnd k' r :
  recv_result3 C k m auth rnd k' r ->
  (k' = k) \/
  (exists mk, authentic3 C k m auth mk /\
     ((own_id k' = own_id k /\ peer_id k' = peer_id k /\ km_old_macs k' = km_old_macs k /\
       km_used_macs k' = km_used_macs (km_register_used_mac k mk)) \/
      (ids_lt k k' /\ km_used_macs k' = [] /\
       km_old_macs k' = km_old_macs k ++ concat (km_used_macs (km_register_used_mac k mk))))).
Proof.
  intros H. pose proof (recv_ids _ _ _ _ _ _ H) as (R1 & R2 & R3 & R4).
  destruct H as [e NA|mk e AU LE|mk k2 k3 e AU LT LN E2 KA KR|mk enc x y k2 k3 k4 OW PE RK A Z LT LN E2 KA SM KR].
  - auto.
  - right. exists mk. split; [exact AU|]. left.
    destruct (km_register_used_mac_fields k mk) as (F1 & F2 & F3 & F4 & F5).
    unfold own_id, peer_id. rewrite F1, F2, F5. auto.
  - right. exists mk. split; [exact AU|].
    apply km_acknowledge_cases in KA. destruct KA as (T & O & KA).
    assert (EO : own_id k2 = own_id k) by (subst k2; reflexivity). rewrite EO in KA.
    destruct KA as [(I & ->)|KA]; [left; subst k2; auto|right].
    destruct KA as (I & _ & _ & _ & _ & _ & U & M). unfold ids_lt, ids_le.
    split; [|subst k2; auto].
    assert (peer_id k3 = peer_id k) by (unfold peer_id; rewrite T; subst k2; reflexivity). lia.
  - right. exists mk. split; [exists x, y, enc; auto|].
    apply km_acknowledge_cases in KA. destruct KA as (T & O & KA).
    apply km_register_cases in KR. destruct KR as (T' & O' & _ & _ & _ & KR).
    assert (PP : peer_id k3 = peer_id k).
    { unfold peer_id. rewrite T. subst k2. reflexivity. }
    assert (EO : own_id k2 = own_id k) by (subst k2; reflexivity).
    assert (OO : own_id k4 = own_id k3) by (unfold own_id; now rewrite T').
    rewrite EO in KA. rewrite PP in KR. unfold ids_lt, ids_le.
    destruct KA as [(I & ->)|KA]; destruct KR as [(J & ->)|KR].
    + left. subst k2. auto.
    + right. destruct KR as (J & _ & _ & _ & -> & ->). split; [lia|]. subst k2. auto.
    + right. destruct KA as (I & _ & _ & _ & _ & _ & -> & ->). split; [lia|]. subst k2. auto.
    + right. destruct KR as (J & _ & _ & _ & -> & ->). destruct KA as (I & _ & _ & _ & _ & _ & U & M).
      rewrite U, M. cbn [concat]. rewrite app_nil_r. split; [lia|]. subst k2. auto.
Qed.

Lemma register_used_in k mk x :
  In x (km_used_macs (km_register_used_mac k mk)) <-> In x (km_used_macs k) \/ x = mk.
Proof.
  unfold km_register_used_mac. destruct (existsb (bytes_eqb mk) (km_used_macs k)) eqn:E.
  - split; [auto|]. intros [I| ->]; [assumption|]. apply existsb_exists in E. destruct E as (z & I & Z).
    apply bytes_eqb_eq in Z. now subst z.
  - cbn. rewrite in_app_iff. cbn. intuition.
Qed.

Lemma recv_mac_inv k0 h k m auth rnd k' r t :
  wf3 k -> run3 C our their k0 h k -> mac_inv k0 h k -> recv_result3 C k m auth rnd k' r ->
  mac_inv k0 (h ++ [Got3 m auth t]) k'.
Proof.
  intros W R [(keys & EO & F1 & F2) F3] H. pose proof (recv_ids _ _ _ _ _ _ H) as (R1 & R2 & _ & _).
  pose proof (recv_wf _ _ _ _ _ _ W H) as W'.
  assert (LE : ids_le k k') by (unfold ids_le; lia).
  assert (LTt : forall k1, ids_lt k1 k -> ids_lt k1 k').
  { unfold ids_lt, ids_le in *. intros; lia. }
  assert (LEt : forall k1, ids_le k1 k -> ids_le k1 k').
  { unfold ids_le in *. intros; lia. }
  apply recv_macs in H. destruct H as [->|(mk & AU & H)].
  - split.
    + exists keys. repeat split; auto. eapply Forall_impl; [|exact F2]. intros mk.
      apply verified_earlier_snoc. auto.
    + eapply Forall_impl; [|exact F3]. intros mk. apply verified_earlier_snoc. auto.
  - assert (VM : verified_earlier k0 (h ++ [Got3 m auth t]) mk (fun k1 => ids_le k1 k /\ (k1 = k \/ ids_le k1 k))).
    { exists h, m, auth, t, [], k. unfold ids_le. repeat split; auto; lia. }
    assert (VU : Forall (fun x => verified_earlier k0 (h ++ [Got3 m auth t]) x (fun k1 => ids_le k1 k))
                   (km_used_macs (km_register_used_mac k mk))).
    { apply Forall_forall. intros x I. apply register_used_in in I. destruct I as [I| ->].
      - rewrite Forall_forall in F3. eapply verified_earlier_snoc; [|apply F3; exact I]. auto.
      - destruct VM as (h1 & m1 & a1 & t1 & h2 & k1 & X1 & X2 & X3 & X4 & _).
        exists h1, m1, a1, t1, h2, k1. auto. }
    destruct H as [(I1 & I2 & EO' & EU)|(LT & EU & EO')].
    + split.
      * exists keys. rewrite EO'. repeat split; auto. eapply Forall_impl; [|exact F2]. intros z.
        apply verified_earlier_snoc. auto.
      * rewrite EU. eapply Forall_impl; [|exact VU]. intros z (h1 & m1 & a1 & t1 & h2 & k1 & X1 & X2 & X3 & X4).
        exists h1, m1, a1, t1, h2, k1. auto.
    + split; [|rewrite EU; constructor].
      exists (keys ++ km_used_macs (km_register_used_mac k mk)). rewrite EO', EO, concat_app.
      split; [reflexivity|]. split.
      * apply Forall_app. split; [exact F1|].
        pose proof (register_used_wf k mk (authentic3_len _ _ _ _ AU) W) as W1. apply W1.
      * apply Forall_app. split.
        -- eapply Forall_impl; [|exact F2]. intros z. apply verified_earlier_snoc. auto.
        -- eapply Forall_impl; [|exact VU]. intros z (h1 & m1 & a1 & t1 & h2 & k1 & X1 & X2 & X3 & X4).
           exists h1, m1, a1, t1, h2, k1. repeat split; auto; unfold ids_lt, ids_le in *; lia.
Qed.

Lemma run3_mac_inv k0 h k :
  wf3 k0 -> km_old_macs k0 = [] -> km_used_macs k0 = [] -> run3 C our their k0 h k -> mac_inv k0 h k.
Proof.
  intros W O0 U0 H. induction H as [|h k ig text m k' H IH E|h k m auth rnd k' text H IH E|h k m auth rnd k' e H IH E].
  - split; [exists []; rewrite O0; auto|]. rewrite U0. constructor.
  - apply encrypt3_ok in E. destruct E as (ek & mk & c & _ & _ & _ & -> & _). destruct IH as [_ IH].
    split; [exists []; auto|]. cbn. eapply Forall_impl; [|exact IH]. intros z.
    apply verified_earlier_snoc. auto.
  - eapply recv_mac_inv; [|exact H|exact IH|].
    + eapply run3_wf; eassumption.
    + apply decrypt3_cases; [eassumption|discriminate].
  - eapply recv_mac_inv; [|exact H|exact IH|].
    + eapply run3_wf; eassumption.
    + apply decrypt3_cases; [eassumption|discriminate].
Qed.

Lemma km_new_macs o key t tkey r0 r1 k :
  km_new C o key t tkey r0 r1 = Ok k -> km_old_macs k = [] /\ km_used_macs k = [].
Proof.
  unfold km_new. destruct (_ || _); [discriminate|].
  destruct (kr_new C o key r0 r1); cbn [bind]; try discriminate.
  destruct (pr_new t tkey); cbn [bind]; try discriminate. intros E. injection E as <-. auto.
Qed.

(* Every revealed key was the receiving MAC key of a message received before, and one of the two
   parties' keys has been replaced since then. *)
Theorem reveals_are_old k0 o key t tkey r0 r1 h k m text0 h1 h2 :
  km_new C o key t tkey r0 r1 = Ok k0 -> run3 C our their k0 h k -> h = h1 ++ Sent3 m text0 :: h2 ->
  exists keys, reveals3 m keys /\
    forall mk, In mk keys ->
      exists ha m' auth' t' hb k1,
        h1 = ha ++ Got3 m' auth' t' :: hb /\ run3 C our their k0 ha k1 /\ authentic3 C k1 m' auth' mk /\
        own_id k1 <= d3_sender_keyid m /\ peer_id k1 <= d3_receiver_keyid m /\
        (own_id k1 <> d3_sender_keyid m \/ peer_id k1 <> d3_receiver_keyid m).
Proof.
  intros N R. pose proof (km_new_macs _ _ _ _ _ _ _ N) as [N1 N2]. apply km_new_wf in N.
  revert h2. induction R as [|h k ig text m' k' H IH E|h k m' auth rnd k' text H IH E|h k m' auth rnd k' e H IH E];
    intros h2 EH.
  - destruct h1; discriminate.
  - apply snoc_split in EH. destruct EH as [(-> & EM & <-)|(h2' & -> & EH)]; [|eauto].
    injection EM as <- <-.
    destruct (run3_mac_inv _ _ _ N N1 N2 H) as [(keys & EO & F1 & F2) _].
    pose proof (encrypt3_step _ _ _ _ _ (run3_wf _ _ _ N H) E) as (_ & _ & S1 & S2 & _).
    apply encrypt3_ok in E. destruct E as (ek & mk & c & _ & _ & _ & _ & _ & _ & _ & _ & _ & _ & _ & _ & _ & RV).
    exists keys. split; [split; [congruence|exact F1]|]. intros mk' I. rewrite Forall_forall in F2.
    destruct (F2 _ I) as (ha & m1 & a1 & t1 & hb & k1 & -> & X2 & X3 & X4).
    exists ha, m1, a1, t1, hb, k1. rewrite S1, S2. unfold ids_lt, ids_le in X4. tauto.
  - apply snoc_split in EH. destruct EH as [(_ & EM & _)|(h2' & -> & EH)]; [discriminate|eauto].
  - apply snoc_split in EH. destruct EH as [(_ & EM & _)|(h2' & -> & EH)]; [discriminate|eauto].
Qed.

(* Following one key: kept while nothing rotates, then queued for the next message. *)
Definition kept_mac (k0 : key_manager) (mk : bytes) (k : key_manager) : Prop :=
  (In mk (km_used_macs k) /\ own_id k = own_id k0 /\ peer_id k = peer_id k0) \/
  (exists keys, km_old_macs k = concat keys /\ Forall (fun m => length m = 20%nat) keys /\ In mk keys).

Lemma recv_kept kb mk k m auth rnd k' r :
  wf3 k -> ids_le kb k -> kept_mac kb mk k -> recv_result3 C k m auth rnd k' r -> kept_mac kb mk k'.
Proof.
  intros W LE H R. apply recv_macs in R. destruct R as [->|(mk' & AU & R)]; [exact H|].
  assert (WU : Forall (fun m => length m = 20%nat) (km_used_macs (km_register_used_mac k mk'))).
  { apply register_used_wf; [eapply authentic3_len; eassumption|exact W]. }
  destruct R as [(I1 & I2 & EO & EU)|(LT & EU & EO)]; destruct H as [(U & O & P)|(keys & K1 & K2 & K3)].
  - left. rewrite EU, I1, I2. split; [apply register_used_in; auto|auto].
  - right. exists keys. rewrite EO. auto.
  - right. destruct (chunk20 (km_old_macs k)) as (keys & K1 & K2); [apply W|].
    exists (keys ++ km_used_macs (km_register_used_mac k mk')). rewrite EO, K1, concat_app.
    split; [reflexivity|]. split; [apply Forall_app; auto|]. apply in_app_iff. right.
    apply register_used_in. auto.
  - right. exists (keys ++ km_used_macs (km_register_used_mac k mk')). rewrite EO, K1, concat_app.
    split; [reflexivity|]. split; [apply Forall_app; auto|]. apply in_app_iff. auto.
Qed.

Lemma run3_kept kb mk k1 h k :
  wf3 k1 -> ids_le kb k1 -> kept_mac kb mk k1 -> run3 C our their k1 h k ->
  ids_le kb k /\
  (kept_mac kb mk k \/ exists m t keys, In (Sent3 m t) h /\ reveals3 m keys /\ In mk keys).
Proof.
  intros W LE K H. induction H as [|h k ig text m k' H [IHl IH] E|h k m auth rnd k' text H [IHl IH] E|h k m auth rnd k' e H [IHl IH] E].
  - auto.
  - pose proof (encrypt3_step _ _ _ _ _ (run3_wf _ _ _ W H) E) as (O & T & _).
    split; [unfold ids_le, own_id, peer_id in *; rewrite O, T; exact IHl|].
    destruct IH as [IH|(m0 & x0 & keys & I & X)].
    2: { right. exists m0, x0, keys. split; [apply in_app_iff; auto|exact X]. }
    apply encrypt3_ok in E.
    destruct E as (ek & mk' & c & _ & _ & _ & -> & _ & _ & _ & _ & _ & _ & _ & _ & _ & RV).
    destruct IH as [IH|(keys & K1 & K2 & K3)]; [left; left; exact IH|].
    right. exists m, text, keys. split; [apply in_app_iff; right; left; reflexivity|].
    split; [|exact K3]. split; [congruence|exact K2].
  - apply decrypt3_cases in E; [|discriminate].
    pose proof (recv_ids _ _ _ _ _ _ E) as (R1 & R2 & _).
    split; [unfold ids_le in *; lia|].
    destruct IH as [IH|(m0 & x0 & keys & I & X)].
    2: { right. exists m0, x0, keys. split; [apply in_app_iff; auto|exact X]. }
    left. eapply recv_kept; [|exact IHl|exact IH|exact E]. eapply run3_wf; eassumption.
  - apply decrypt3_cases in E; [|discriminate].
    pose proof (recv_ids _ _ _ _ _ _ E) as (R1 & R2 & _).
    split; [unfold ids_le in *; lia|].
    destruct IH as [IH|(m0 & x0 & keys & I & X)].
    2: { right. exists m0, x0, keys. split; [apply in_app_iff; auto|exact X]. }
    left. eapply recv_kept; [|exact IHl|exact IH|exact E]. eapply run3_wf; eassumption.
Qed.

(* a key that verified a message is kept from then on *)
Lemma accept_kept k m auth rnd k' t mk :
  wf3 k -> recv_result3 C k m auth rnd k' (Ok t) -> authentic3 C k m auth mk -> kept_mac k mk k'.
Proof.
  intros W R AU.
  pose proof (accept_ids _ _ _ _ _ _ R) as (_ & _ & _ & _ & _ & _ & LT & _).
  pose proof (accept_keys _ _ _ _ _ _ R) as (x & y & enc & mk2 & OW & PE & RK & _ & _ & _ & _ & _ & _ & _ & _ & RO).
  assert (mk2 = mk).
  { destruct AU as (x' & y' & enc' & OW' & PE' & RK' & _).
    destruct OW as (_ & _ & ->). destruct PE as (_ & _ & ->).
    destruct OW' as (_ & _ & ->). destruct PE' as (_ & _ & ->).
    eapply recv_keys3_unique; eassumption. }
  subst mk2.
  remember (Ok t) as r eqn:ER. 
  pose proof R as R'. apply recv_macs in R'. destruct R' as [->|(mk' & AU' & R')].
  - exfalso. subst r. pose proof (accept_ctr _ _ _ _ _ _ R eq_refl eq_refl) as EC.
    unfold ctr3 in LT. rewrite EC in LT. lia.
  - assert (mk' = mk).
    { destruct AU' as (x' & y' & enc' & OW' & PE' & RK' & _).
      destruct OW as (_ & _ & ->). destruct PE as (_ & _ & ->).
      destruct OW' as (_ & _ & ->). destruct PE' as (_ & _ & ->).
      eapply recv_keys3_unique; eassumption. }
    subst mk'. destruct R' as [(I1 & I2 & EO & EU)|(L & EU & EO)].
    + left. rewrite EU. split; [apply register_used_in; auto|auto].
    + right. destruct (chunk20 (km_old_macs k)) as (keys & K1 & K2); [apply W|].
      exists (keys ++ km_used_macs (km_register_used_mac k mk)). rewrite EO, K1, concat_app.
      split; [reflexivity|]. split.
      * apply Forall_app. split; [exact K2|]. apply register_used_wf; [eapply authentic3_len; eassumption|exact W].
      * apply in_app_iff. right. apply register_used_in. auto.
Qed.

(* The key that verified an accepted message is revealed at the latest in the first message sent
   after one of the keys was replaced. *)
Theorem used_keys_are_revealed k m auth rnd k1 t mk h k2 ig text m2 k3 :
  wf3 k -> decrypt3 C k m auth rnd = (k1, Ok t) -> authentic3 C k m auth mk ->
  run3 C our their k1 h k2 ->
  own_id k2 <> own_id k \/ peer_id k2 <> peer_id k ->
  encrypt3 C our their k2 ig text = Ok (m2, k3) ->
  exists m' text' keys, In (Sent3 m' text') (h ++ [Sent3 m2 text]) /\ reveals3 m' keys /\ In mk keys.
Proof.
  intros W E AU R CH S. apply decrypt3_cases in E; [|discriminate].
  pose proof (accept_kept _ _ _ _ _ _ _ W E AU) as K.
  pose proof (recv_ids _ _ _ _ _ _ E) as (R1 & R2 & _).
  destruct (run3_kept k mk k1 h k2) as [LE [K2|(m0 & x0 & keys & I & X)]]; auto.
  - eapply recv_wf; eassumption.
  - unfold ids_le. lia.
  - destruct K2 as [(_ & O & P)|(keys & K1 & K2 & K3)]; [lia|].
    apply encrypt3_ok in S. destruct S as (ek & mk' & c & _ & _ & _ & _ & _ & _ & _ & _ & _ & _ & _ & _ & _ & RV).
    exists m2, text, keys. split; [apply in_app_iff; right; left; reflexivity|]. split; [|exact K3].
    split; [congruence|exact K2].
  - exists m0, x0, keys. split; [apply in_app_iff; auto|exact X].
Qed.

(* After a rotation the key is published in the very next message, while messages under it are
   still accepted: anyone can then forge a message. *)
Theorem revealed_key_still_valid k m auth rnd k1 t ig text reply k2 :
  wf3 k -> decrypt3 C k m auth rnd = (k1, Ok t) ->
  own_id k1 <> own_id k \/ peer_id k1 <> peer_id k ->
  encrypt3 C our their k1 ig text = Ok (reply, k2) ->
  exists mk keys enc, reveals3 reply keys /\ In mk keys /\
    forall m' auth' rnd',
      same_keys3 m' m -> d3_dh_y m' = d3_dh_y m -> length (d3_ctr m') = 8%nat -> 0 < ctr3 m' ->
      d3_authenticator m' = hmac_sha1 C mk auth' -> any_nonzero (d3_authenticator m') = true ->
      exists k3, decrypt3 C k2 m' auth' rnd'
                 = (k3, Ok (aes_crypt C enc (nonce_of_ctr (d3_ctr m')) (d3_encrypted m'))).
Proof.
  intros W E CH S. apply decrypt3_cases in E; [|discriminate].
  pose proof (recv_wf _ _ _ _ _ _ W E) as W1.
  pose proof (encrypt3_wf _ _ _ _ _ W1 S) as W2.
  pose proof (encrypt3_step _ _ _ _ _ W1 S) as (SO & ST & _ & _ & _ & _ & SC).
  pose proof (recv_ids _ _ _ _ _ _ E) as (_ & _ & _ & R4). destruct (R4 CH) as (_ & C2 & _).
  pose proof (accept_ids _ _ _ _ _ _ E) as (A1 & A2 & A3 & A4 & A5 & A6 & LT & LN).
  pose proof (accept_keys _ _ _ _ _ _ E) as
    (x & y & enc & mk & OW0 & PE0 & RK & AU & NZ & ET & OW & PE & YS & YZ & SM & _).
  destruct (accept_kept _ _ _ _ _ _ mk W E) as [(_ & O & P)|(keys & K1 & K2 & K3)].
  { exists x, y, enc. auto. }
  { exfalso. destruct CH; contradiction. }
  exists mk, keys, enc.
  pose proof S as S'. apply encrypt3_ok in S'.
  destruct S' as (ek & mk' & c & _ & _ & _ & _ & _ & _ & _ & _ & _ & _ & _ & _ & _ & RV).
  split; [split; [congruence|exact K2]|]. split; [exact K3|].
  intros m' auth' rnd' [S1 S2] Y L8 C0 AU' NZ'.
  apply (decrypt3_accepts k2 m' auth' rnd' x y enc mk); auto; rewrite ?S1, ?S2, ?Y; auto.
  - unfold own_key3 in *. rewrite SO. exact OW.
  - unfold peer_key3 in *. rewrite ST. exact PE.
  - rewrite SC, C2, ctr_initial. exact C0.
  - left. unfold own_id in *. rewrite SO. symmetry. exact A1.
  - unfold peer_id in *. rewrite ST, A2. auto.
Qed.

(** ** C19, C23 *)

(* A message that does not verify changes nothing. *)
Theorem unauthentic_no_effect k m auth rnd k' r :
  decrypt3 C k m auth rnd = (k', r) -> r <> Panic -> (forall mk, ~ authentic3 C k m auth mk) ->
  k' = k /\ exists e, r = Err e.
Proof.
  intros E NP NA. apply decrypt3_cases in E; [|exact NP].
  destruct E as [e _|mk e AU LE|mk k2 k3 e AU LT LN E2 KA KR|mk enc x y k2 k3 k4 OW PE RK A Z LT LN E2 KA SM KR].
  - eauto.
  - now apply NA in AU.
  - now apply NA in AU.
  - exfalso. apply (NA mk). exists x, y, enc. auto.
Qed.

Theorem key_window k m auth rnd k' t :
  decrypt3 C k m auth rnd = (k', Ok t) ->
  (exists mk, authentic3 C k m auth mk) /\
  (d3_receiver_keyid m = own_id k \/ d3_receiver_keyid m = own_id k + 1) /\
  (d3_sender_keyid m = peer_id k \/ d3_sender_keyid m + 1 = peer_id k) /\
  own_id k' = d3_receiver_keyid m /\ peer_id k' = d3_sender_keyid m + 1 /\
  pr_slot (km_theirs k') (peer_id k') = d3_dh_y m.
Proof.
  intros E. apply decrypt3_cases in E; [|discriminate].
  pose proof (accept_ids _ _ _ _ _ _ E) as (A1 & A2 & A3 & A4 & A5 & A6 & _).
  apply accept_keys in E. destruct E as (x & y & enc & mk & OW & PE & RK & AU & NZ & _ & _ & _ & YS & _).
  repeat split; auto.
  - exists mk, x, y, enc. auto.
  - rewrite A2. exact YS.
Qed.

(* a known key is never replaced by another under the same number *)
Theorem keys_never_change k m auth rnd k' r :
  decrypt3 C k m auth rnd = (k', r) -> r <> Panic ->
  (own_id k' = own_id k \/ own_id k' = own_id k + 1) /\
  (peer_id k' = peer_id k \/ peer_id k' = peer_id k + 1) /\
  kr_slot (km_ours k') (own_id k') = kr_slot (km_ours k) (own_id k') /\
  pr_slot (km_theirs k') (peer_id k) = pr_slot (km_theirs k) (peer_id k).
Proof.
  intros E NP. apply decrypt3_cases in E; [|exact NP].
  pose proof (recv_ids _ _ _ _ _ _ E) as (R1 & R2 & _). split; [exact R1|]. split; [exact R2|].
  destruct E as [e _|mk e AU LE|mk k2 k3 e AU LT LN E2 KA KR|mk enc x y k2 k3 k4 OW PE RK A Z LT LN E2 KA SM KR].
  - auto.
  - destruct (km_register_used_mac_fields k mk) as (F1 & F2 & _). rewrite F1, F2. auto.
  - apply km_acknowledge_cases in KA. destruct KA as (T & O & KA). rewrite T, O.
    destruct KA as [(I & ->)|(I & _ & S & _)]; [subst k2; auto|]. rewrite S. subst k2; auto.
  - apply km_acknowledge_cases in KA. destruct KA as (T & O & KA).
    apply km_register_cases in KR. destruct KR as (T' & O' & _ & _ & _ & KR).
    assert (OO : own_id k4 = own_id k3) by (unfold own_id; now rewrite T').
    assert (PP : peer_id k3 = peer_id k) by (unfold peer_id; rewrite T; subst k2; reflexivity).
    rewrite OO, O, T'. split.
    + destruct KA as [(I & ->)|(I & _ & S & _)]; [subst k2; auto|]. rewrite S. subst k2; auto.
    + destruct KR as [(J & ->)|KR]; [rewrite T; subst k2; auto|].
      destruct KR as (J & S & _). rewrite PP in S. rewrite S, T. subst k2; auto.
Qed.

End WithCrypto.
