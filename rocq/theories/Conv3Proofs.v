(* Two OTRv3 clients over a lossy, ordered network: the keys they hold stay in step. *)
From Coq Require Import Lia ZifyN ZifyNat.
From Verif Require Import Base BaseLemmas Types Crypto CryptoProofs Encoding EncodingProofs Messages
  KeyManager KeyManagerProofs DataV3 SpecData3 DataV3Proofs History3Proofs.
Local Open Scope N_scope.

Section WithCrypto.
Context (C : Crypto).
Context (Pnz : c_dh_p C <> 0) (Gnz : forall e, dh_public (dh_new C e) <> 0).

(* [m] is on its way from A (tag [ta]) to B (tag [tb]) *)
Definition on_way (ta tb : N) (A B : key_manager) (q : data3 * bytes) : Prop :=
  let (m, text) := q in
  let s := d3_sender_keyid m in let r := d3_receiver_keyid m in
  (s = peer_id B \/ s + 1 = peer_id B) /\ s <> 0 /\ s <= own_id A /\
  (r = own_id B \/ r = own_id B + 1) /\ r <> 0 /\ r <= peer_id A /\
  (exists e f enc mk,
     pr_slot (km_theirs B) s = dh_public (dh_new C e) /\ kr_slot (km_ours B) r = dh_new C f /\
     send_keys3 C (dh_new C e) (dh_public (dh_new C f)) enc mk /\
     d3_encrypted m = aes_crypt C enc (nonce_of_ctr (d3_ctr m)) text /\
     d3_authenticator m = hmac_sha1 C mk (encode_authenticator_data ta tb m)) /\
  any_nonzero (d3_authenticator m) = true /\
  length (d3_ctr m) = 8%nat /\ d3_dh_y m <> 0 /\
  (s = peer_id B -> d3_dh_y m = dh_public (kr_slot (km_ours A) (own_id A + 1))) /\
  (s + 1 = peer_id B -> d3_dh_y m = pr_slot (km_theirs B) (peer_id B)).

Fixpoint ordered3 (q : list (data3 * bytes)) : Prop :=
  match q with
  | [] => True
  | (m, _) :: r =>
      Forall (fun x => d3_sender_keyid m <= d3_sender_keyid (fst x) /\
                       d3_receiver_keyid m <= d3_receiver_keyid (fst x)) r /\ ordered3 r
  end.

(* B's knowledge of A's keys *)
Definition in_step (A B : key_manager) : Prop :=
  (peer_id B = own_id A \/ peer_id B = own_id A + 1) /\
  (forall id, id = own_id A \/ id = own_id A + 1 -> exists e, kr_slot (km_ours A) id = dh_new C e) /\
  (forall id, id = own_id A \/ id = own_id A + 1 -> id <= peer_id B ->
     pr_slot (km_theirs B) id = dh_public (kr_slot (km_ours A) id)).

Definition half (ta tb : N) (A B : key_manager) (q : list (data3 * bytes)) : Prop :=
  in_step A B /\ Forall (on_way ta tb A B) q /\ ordered3 q.

Lemma ordered3_app q m t :
  ordered3 q ->
  Forall (fun x => d3_sender_keyid (fst x) <= d3_sender_keyid m /\
                   d3_receiver_keyid (fst x) <= d3_receiver_keyid m) q ->
  ordered3 (q ++ [(m, t)]).
Proof.
  induction q as [|[x tx] q IH]; intros O F; cbn; [auto|].
  destruct O as [O1 O2]. inversion F as [|? ? F1 F2]; subst. cbn in F1. split; [|auto].
  apply Forall_app. split; [exact O1|]. constructor; [exact F1|constructor].
Qed.

(** ** Sending *)

Lemma send_half ta tb A B q q' ig text m A' :
  wf3 A -> wf3 B -> half ta tb A B q -> half tb ta B A q' ->
  encrypt3 C ta tb A ig text = Ok (m, A') ->
  half ta tb A' B (q ++ [(m, text)]) /\ half tb ta B A' q'.
Proof.
  intros WA WB (S1 & F1 & O1) (S2 & F2 & O2) E.
  pose proof (encrypt3_step _ _ _ _ _ _ _ _ WA E) as (SO & ST & _).
  pose proof (encrypt3_wf _ _ _ _ _ _ _ _ WA E) as WA'.
  apply encrypt3_ok in E.
  destruct E as (ek & mk & c & T & SK & _ & _ & _ & M1 & M2 & M3 & M4 & M5 & _ & M6 & M7 & _).
  apply ctr_take_ok in T. destruct T as [_ T].
  assert (OA : own_id A' = own_id A) by (unfold own_id; now rewrite SO).
  assert (PA : peer_id A' = peer_id A) by (unfold peer_id; now rewrite ST).
  assert (IS1 : in_step A' B) by (unfold in_step in *; rewrite SO, OA; exact S1).
  assert (IS2 : in_step B A') by (unfold in_step in *; rewrite ST, PA; exact S2).
  assert (FW : Forall (on_way ta tb A' B) q).
  { eapply Forall_impl; [|exact F1]. intros [x tx]. unfold on_way. rewrite SO, OA, PA. auto. }
  split; [split; [exact IS1|]|].
  2: { split; [exact IS2|]. split; [|exact O2]. eapply Forall_impl; [|exact F2].
       intros [x tx]. unfold on_way. rewrite SO, ST, OA, PA. auto. }
  split.
  - apply Forall_app. split; [exact FW|]. constructor; [|constructor].
    destruct S1 as (P1 & K1 & L1). destruct S2 as (P2 & K2 & L2).
    destruct (K1 (own_id A) (or_introl eq_refl)) as [e Ee].
    destruct (K2 (peer_id A) ltac:(lia)) as [f Ef].
    unfold on_way. rewrite M1, M2, SO, OA, PA.
    split; [lia|]. split; [apply WA|]. split; [lia|]. split; [lia|]. split; [apply WA|]. split; [lia|].
    split.
    { exists e, f, ek, mk. rewrite <- Ee, <- Ef. 
      rewrite <- (L2 (peer_id A) ltac:(lia) ltac:(lia)).
      split; [apply L1; lia|]. split; [reflexivity|]. split; [exact SK|]. split; [congruence|exact M6]. }
    split; [unfold any_nonzero; now rewrite M7|]. split; [rewrite M4, T; apply WA|].
    destruct (K1 (own_id A + 1) (or_intror eq_refl)) as [e' Ee'].
    split; [rewrite M3, Ee'; apply Gnz|].
    split; [intros _; exact M3|]. intros Q. rewrite M3, <- Q. symmetry. apply L1; lia.
  - apply ordered3_app; [exact O1|]. eapply Forall_impl; [|exact F1]. intros [x tx]. unfold on_way. cbn.
    rewrite M1, M2. intuition.
Qed.

(** ** Receiving *)

Lemma on_way_keys ta tb A B m text :
  on_way ta tb A B (m, text) ->
  exists x y enc mk,
    own_key3 B (d3_receiver_keyid m) x /\ peer_key3 B (d3_sender_keyid m) y /\ recv_keys3 C x y enc mk /\
    d3_authenticator m = hmac_sha1 C mk (encode_authenticator_data ta tb m) /\
    any_nonzero (d3_authenticator m) = true /\
    aes_crypt C enc (nonce_of_ctr (d3_ctr m)) (d3_encrypted m) = text.
Proof.
  intros (S1 & S2 & S3 & R1 & R2 & R3 & (e & f & enc & mk & K1 & K2 & K3 & K4 & K5) & NZ & _).
  exists (dh_new C f), (dh_public (dh_new C e)), enc, mk.
  split; [split; [exact R2|]; split; [exact R1|congruence]|].
  split; [split; [exact S2|]; split; [exact S1|congruence]|].
  split; [now apply keys3_agree|]. split; [exact K5|]. split; [exact NZ|].
  rewrite K4. apply aes_crypt_involutive.
Qed.

Lemma decrypt3_stale k m auth rnd x y enc mk :
  wf3 k -> (d3_receiver_keyid m = own_id k \/ own_id k <> 4294967295) ->
  own_key3 k (d3_receiver_keyid m) x -> peer_key3 k (d3_sender_keyid m) y ->
  recv_keys3 C x y enc mk ->
  d3_authenticator m = hmac_sha1 C mk auth -> any_nonzero (d3_authenticator m) = true ->
  ctr3 m <= be_val (km_their_ctr k) -> length (d3_ctr m) = 8%nat ->
  exists k' e, decrypt3 C k m auth rnd = (k', Err e).
Proof.
  intros W M1 OW PE RK AU ANZ LE L8. unfold decrypt3.
  rewrite (pr_select_peer _ _ _ PE), (kr_select_own _ _ _ OW) by tauto. cbn [keep].
  destruct (data_derive_total C x y (write_mpi (dh_shared C x y))) as [d D]; [apply RK|].
  rewrite D. cbn [keep]. apply data_derive_ok in D. destruct D as [_ D].
  destruct (recv_keys3_unique _ _ _ _ _ _ _ RK D) as [-> ->].
  assert (X : ct_compare (d3_authenticator m) (hmac_sha1 C (receiver_mac_key C d) auth) = true).
  { apply ct_compare_true. auto. }
  rewrite X. cbn [of_bool keep].
  set (mk := receiver_mac_key C d) in *.
  destruct (km_register_used_mac_fields k mk) as (F1 & F2 & F3 & F4 & F5).
  unfold km_verify_counter. rewrite F4.
  destruct (ctr_verify_cases (km_their_ctr k) (d3_ctr m)) as [[Y _]|[_ Y]].
  - rewrite L8. symmetry. apply W.
  - unfold ctr3 in LE. lia.
  - rewrite Y. cbn [bind keep]. eauto.
Qed.

(* A message that arrives is either decrypted to the text that was sent, or refused because its
   counter is not larger than the last one seen. *)
Lemma arrival ta tb A B m text rest rnd :
  wf3 B -> half ta tb A B ((m, text) :: rest) ->
  rnd <> 0 -> own_id B <> 4294967295 -> own_id A < 4294967295 ->
  exists B', (be_val (km_their_ctr B) < ctr3 m /\
              decrypt3 C B m (encode_authenticator_data ta tb m) rnd = (B', Ok text)) \/
             (ctr3 m <= be_val (km_their_ctr B) /\ exists e,
              decrypt3 C B m (encode_authenticator_data ta tb m) rnd = (B', Err e)).
Proof.
  intros W (_ & F & _) RN MB MA. inversion F as [|? ? OWM _]; subst.
  pose proof (on_way_keys _ _ _ _ _ _ OWM) as (x & y & enc & mk & OW & PE & RK & AU & NZ & TX).
  destruct OWM as (S1 & S2 & S3 & R1 & R2 & R3 & _ & _ & L8 & YZ & Y1 & Y2).
  destruct (N.ltb_spec (be_val (km_their_ctr B)) (ctr3 m)) as [LT|LE].
  - destruct (decrypt3_accepts C B m (encode_authenticator_data ta tb m) rnd x y enc mk) as [B' E]; auto; try lia.
    exists B'. left. rewrite TX in E. auto.
  - destruct (decrypt3_stale B m (encode_authenticator_data ta tb m) rnd x y enc mk) as (B' & e & E); auto.
    exists B'. right. eauto.
Qed.

Lemma register_not_err k id key e :
  (id = peer_id k /\ pr_slot (km_theirs k) id = key) \/ id = peer_id k + 1 ->
  km_register_their_key k id key <> Err e.
Proof.
  intros HC. unfold km_register_their_key, pr_register, peer_id in *.
  destruct (id =? 0); [discriminate|]. destruct (key =? 0); [discriminate|].
  destruct (N.eqb_spec (pr_id (km_theirs k)) id).
  - destruct HC as [(_ & HC)|HC]; [|lia]. rewrite HC, N.eqb_refl. discriminate.
  - destruct HC as [(HC & _)|HC]; [congruence|]. unfold u32_succ.
    destruct (pr_id (km_theirs k) =? 4294967295); cbn [bind]; [discriminate|].
    destruct (N.eqb_spec (pr_id (km_theirs k) + 1) id); [|lia]. cbn [bind].
    unfold km_rotated. destruct (negb _); discriminate.
Qed.

(* only the counters and MAC key lists differ *)
Lemma half_ext ta tb A B q q' B' :
  km_ours B' = km_ours B -> km_theirs B' = km_theirs B ->
  half ta tb A B q -> half tb ta B A q' -> half ta tb A B' q /\ half tb ta B' A q'.
Proof.
  intros EO ET (S1 & F1 & O1) (S2 & F2 & O2).
  assert (OB : own_id B' = own_id B) by (unfold own_id; now rewrite EO).
  assert (PB : peer_id B' = peer_id B) by (unfold peer_id; now rewrite ET).
  split; (split; [|split]); auto.
  - unfold in_step in *. rewrite ET, PB. exact S1.
  - eapply Forall_impl; [|exact F1]. intros [x tx]. unfold on_way. rewrite EO, ET, OB, PB. auto.
  - unfold in_step in *. rewrite EO, OB. exact S2.
  - eapply Forall_impl; [|exact F2]. intros [x tx]. unfold on_way. rewrite EO, OB, PB. auto.
Qed.

Lemma half_tail ta tb A B x q : half ta tb A B (x :: q) -> half ta tb A B q.
Proof.
  intros (S & F & O). inversion F; subst. split; [exact S|]. split; [assumption|].
  destruct x. now destruct O.
Qed.

Lemma recv_half ta tb A B m text rest q' rnd B' r :
  wf3 A -> wf3 B -> half ta tb A B ((m, text) :: rest) -> half tb ta B A q' ->
  recv_result3 C B m (encode_authenticator_data ta tb m) rnd B' r ->
  half ta tb A B' rest /\ half tb ta B' A q' /\
  match r with
  | Ok got => got = text
  | Err _ => ctr3 m <= be_val (km_their_ctr B) /\ own_id B' = own_id B /\ peer_id B' = peer_id B
  | Panic => True
  end.
Proof.
  intros WA WB H1 H2 R.
  assert (HT : half ta tb A B rest) by (eapply half_tail; eassumption).
  destruct H1 as (S1 & F1 & O1). inversion F1 as [|? ? OWM FR]; subst.
  pose proof (on_way_keys _ _ _ _ _ _ OWM) as (x0 & y0 & enc0 & mk0 & OW0 & PE0 & RK0 & AU0 & NZ0 & TX).
  destruct OWM as (M1 & M2 & M3 & M4 & M5 & M6 & _ & _ & L8 & YZ & Y1 & Y2).
  destruct R as [e NA|mk e AU LE|mk k2 k3 e AU LT LN E2 KA KR|mk enc x y k2 k3 k4 OW PE RK AU NZ LT LN E2 KA SM KR].
  - exfalso. apply (NA mk0). exists x0, y0, enc0. auto.
  - destruct (km_register_used_mac_fields B mk) as (G1 & G2 & _).
    destruct (half_ext ta tb A B rest q' (km_register_used_mac B mk) G1 G2 HT H2). unfold own_id, peer_id.
    rewrite G1, G2. auto 10.
  - exfalso. apply km_acknowledge_cases in KA. destruct KA as (T & _).
    assert (TT : km_theirs k3 = km_theirs B) by (rewrite T; subst k2; reflexivity).
    revert KR. apply register_not_err. unfold peer_id in *. rewrite TT.
    destruct M1 as [M1|M1]; [right; lia|left]. split; [exact M1|]. rewrite (Y2 M1). f_equal. exact M1.
  - apply km_acknowledge_cases in KA. destruct KA as (T & O & KA).
    apply km_register_cases in KR. destruct KR as (T' & O' & _ & _ & YS & KR).
    assert (TT : km_theirs k3 = km_theirs B) by (rewrite T; subst k2; reflexivity).
    assert (PP : peer_id k3 = peer_id B) by (unfold peer_id; now rewrite TT).
    assert (EO2 : km_ours k2 = km_ours B) by (subst k2; reflexivity).
    assert (EO : own_id k2 = own_id B) by (subst k2; reflexivity).
    assert (OO : own_id k4 = d3_receiver_keyid m) by (unfold own_id in *; now rewrite T').
    rewrite EO in KA. rewrite PP in KR.
    set (s := d3_sender_keyid m) in *. set (rr := d3_receiver_keyid m) in *.
    (* keys B holds afterwards *)
    assert (KS : kr_slot (km_ours k4) rr = kr_slot (km_ours B) rr).
    { rewrite T'. destruct KA as [(_ & ->)|(_ & _ & S & _)]; congruence. }
    assert (KN : exists e, kr_slot (km_ours k4) (rr + 1) = dh_new C e).
    { rewrite T'. destruct KA as [(I & ->)|(I & _ & _ & S & _)]; [|eauto].
      rewrite EO2. destruct H2 as ((_ & Q & _) & _). apply Q. lia. }
    assert (KSAME : rr = own_id B -> km_ours k4 = km_ours B).
    { intros I. rewrite T'. destruct KA as [(_ & ->)|(I' & _)]; [exact EO2|lia]. }
    assert (PS : pr_slot (km_theirs k4) s = pr_slot (km_theirs B) s).
    { destruct KR as [(J & ->)|(J & S & _)]; [now rewrite TT|].
      assert (s = peer_id B) by lia. rewrite H, S, TT. reflexivity. }
    assert (PSAME : s + 1 = peer_id B -> km_theirs k4 = km_theirs B).
    { intros J. destruct KR as [(_ & ->)|(J' & _)]; [exact TT|lia]. }
    destruct S1 as (P1 & K1 & L1). destruct H2 as ((P2 & K2 & L2) & F2 & O2).
    assert (R2 : rr <= peer_id A) by exact M6.
    destruct O1 as [O1 O1'].
    assert (A1 : in_step A k4).
    { split; [|split].
      - rewrite O'. lia.
      - exact K1.
      - intros id Hid Le. rewrite O' in Le. destruct M1 as [M1|M1].
        + (* B learns A's next key *)
          assert (Es : s = own_id A) by lia. destruct Hid as [->|Hid].
          * rewrite <- Es. rewrite PS. rewrite Es. apply L1; lia.
          * assert (Ei : id = s + 1) by lia. rewrite Ei, YS, (Y1 M1). now rewrite <- Es.
        + rewrite (PSAME M1). apply L1; [exact Hid|lia]. }
    assert (A2 : in_step k4 A).
    { unfold in_step. rewrite OO. split; [lia|]. split.
      - intros id [-> | ->]; [rewrite KS; apply K2; lia|exact KN].
      - intros id Hid Le. destruct M4 as [M4|M4].
        + rewrite (KSAME M4). apply L2; lia.
        + assert (id = rr) by lia. subst id. rewrite KS. apply L2; lia. }
    split; [|split].
    + split; [exact A1|]. split; [|exact O1'].
      apply Forall_forall. intros [z tz] Iz. rewrite Forall_forall in FR, O1.
      specialize (FR _ Iz). specialize (O1 _ Iz). cbn in O1.
      destruct FR as (Z1 & Z2 & Z3 & Z4 & Z5 & Z6 & ZX & Z7 & Z8 & Z9 & Z10 & Z11).
      unfold on_way. rewrite O', OO.
      assert (ZS : pr_slot (km_theirs k4) (d3_sender_keyid z) = pr_slot (km_theirs B) (d3_sender_keyid z)).
      { destruct M1 as [M1|M1]; [|now rewrite (PSAME M1)].
        assert (Ez : d3_sender_keyid z = s) by (clear - M1 Z1 O1; lia). rewrite Ez. exact PS. }
      assert (ZR : kr_slot (km_ours k4) (d3_receiver_keyid z) = kr_slot (km_ours B) (d3_receiver_keyid z)).
      { destruct M4 as [M4|M4]; [now rewrite (KSAME M4)|].
        assert (Ez : d3_receiver_keyid z = rr) by (clear - M4 Z4 O1; lia). rewrite Ez. exact KS. }
      split; [clear - M1 Z1 O1; lia|]. split; [exact Z2|]. split; [exact Z3|].
      split; [clear - M4 Z4 O1; lia|]. split; [exact Z5|].
      split; [exact Z6|]. split.
      { destruct ZX as (e & f & enc' & mk' & X1 & X2 & X3 & X4 & X5). exists e, f, enc', mk'. rewrite ZS, ZR. auto. }
      split; [exact Z7|]. split; [exact Z8|]. split; [exact Z9|].
      destruct M1 as [M1|M1].
      * assert (Ez : d3_sender_keyid z = s) by (clear - M1 Z1 O1; lia). rewrite Ez.
        split; [clear; intros; lia|]. intros _. rewrite YS, (Y1 M1). apply Z10. congruence.
      * split.
        -- intros Ez. apply Z10. clear - M1 Ez. lia.
        -- intros Ez. rewrite YS, (Y2 M1). apply Z11. clear - M1 Ez. lia.
    + split; [exact A2|]. split; [|exact O2].
      apply Forall_forall. intros [z tz] Iz. rewrite Forall_forall in F2. specialize (F2 _ Iz).
      destruct F2 as (Z1 & Z2 & Z3 & Z4 & Z5 & Z6 & Z7 & Z8 & Z9 & Z10 & Z11 & Z12).
      unfold on_way. rewrite O', OO.
      split; [exact Z1|]. split; [exact Z2|]. split; [clear - Z3 M4; lia|]. split; [exact Z4|]. split; [exact Z5|].
      split; [clear - Z6 M1; lia|]. split; [exact Z7|]. split; [exact Z8|]. split; [exact Z9|]. split; [exact Z10|].
      split; [|exact Z12]. intros Ez. destruct M4 as [M4|M4].
      * rewrite (KSAME M4), M4. apply Z11. exact Ez.
      * exfalso. clear - M4 Ez Z3 R2 P2. lia.
    + rewrite <- TX.
      destruct OW as (_ & _ & ->). destruct PE as (_ & _ & ->).
      destruct OW0 as (_ & _ & ->). destruct PE0 as (_ & _ & ->).
      destruct (recv_keys3_unique _ _ _ _ _ _ _ RK RK0) as [-> _]. reflexivity.
Qed.

(** ** Conversations *)

Definition conv_inv (ta tb : N) (s : conv3) : Prop :=
  wf3 (cv_a s) /\ wf3 (cv_b s) /\
  half ta tb (cv_a s) (cv_b s) (cv_ab s) /\ half tb ta (cv_b s) (cv_a s) (cv_ba s).

Lemma km_new_state o x t y r0 r1 k :
  km_new C o (dh_new C x) t y r0 r1 = Ok k ->
  own_id k = o /\ peer_id k = t /\ kr_slot (km_ours k) o = dh_new C x /\
  pr_slot (km_theirs k) t = y /\ (exists e, kr_slot (km_ours k) (o + 1) = dh_new C e) /\
  km_our_ctr k = COUNTER_INITIAL_VALUE /\ km_their_ctr k = COUNTER_INITIAL_VALUE.
Proof.
  unfold km_new. destruct (_ || _); [discriminate|]. unfold kr_new, pr_new, dh_generate.
  destruct (o =? 0); cbn [bind]; [discriminate|]. destruct (negb _); cbn [bind]; [discriminate|].
  destruct (r0 =? 0); cbn [bind]; [discriminate|]. destruct (r1 =? 0); cbn [bind]; [discriminate|].
  destruct (t =? 0); cbn [bind]; [discriminate|]. destruct (y =? 0); cbn [bind]; [discriminate|].
  intros E. injection E as <-. unfold own_id, peer_id. cbn [km_ours km_theirs km_our_ctr km_their_ctr].
  rewrite kr_ack_set, pr_id_set, kr_slot_set_same, pr_slot_set_same. repeat split; auto.
  rewrite kr_slot_set_pred. unfold kr_slot. cbn [kr_even kr_odd]. destruct (N.even _); eauto.
Qed.

Lemma start_inv ta tb s : start3 C s -> conv_inv ta tb s.
Proof.
  intros (xa & xb & ra0 & ra1 & rb0 & rb1 & EA & EB & Q1 & Q2). unfold conv_inv. rewrite Q1, Q2.
  pose proof (km_new_wf _ _ _ _ _ _ _ _ EA) as WA. pose proof (km_new_wf _ _ _ _ _ _ _ _ EB) as WB.
  apply km_new_state in EA. apply km_new_state in EB.
  destruct EA as (A1 & A2 & A3 & A4 & A5 & _). destruct EB as (B1 & B2 & B3 & B4 & B5 & _).
  split; [exact WA|]. split; [exact WB|]. unfold half, in_step. rewrite A1, A2, B1, B2.
  split; (split; [|split; [constructor|exact I]]).
  - split; [auto|]. split; [intros id [-> | ->]; eauto|]. intros id [-> | ->] Le; [congruence|lia].
  - split; [auto|]. split; [intros id [-> | ->]; eauto|]. intros id [-> | ->] Le; [congruence|lia].
Qed.

Lemma step_inv ta tb s o s' : conv_inv ta tb s -> step3 C ta tb s o s' ->
  conv_inv ta tb s' /\
  (forall a m sent got, o = Delivered a m sent got -> got = sent) /\
  (forall m sent, o = Rejected true m sent -> ctr3 m <= be_val (km_their_ctr (cv_b s))) /\
  (forall m sent, o = Rejected false m sent -> ctr3 m <= be_val (km_their_ctr (cv_a s))).
Proof.
  intros (WA & WB & H1 & H2) ST.
  destruct ST as [s ig text m k E|s ig text m k E|s x r E|s x r E|s m text r rnd k got Q E
                 |s m text r rnd k got Q E|s m text r rnd k e Q E|s m text r rnd k e Q E];
    cbn [cv_a cv_b cv_ab cv_ba] in *.
  - split; [|split; [intros; discriminate|split; intros; discriminate]].
    destruct (send_half _ _ _ _ _ _ _ _ _ _ WA WB H1 H2 E).
    split; [eapply encrypt3_wf; [|exact E]; assumption|]. auto.
  - split; [|split; [intros; discriminate|split; intros; discriminate]].
    destruct (send_half _ _ _ _ _ _ _ _ _ _ WB WA H2 H1 E).
    split; [auto|]. split; [eapply encrypt3_wf; [|exact E]; assumption|]. auto.
  - split; [|split; [intros; discriminate|split; intros; discriminate]]. rewrite E in H1. apply half_tail in H1.
    unfold conv_inv. auto.
  - split; [|split; [intros; discriminate|split; intros; discriminate]]. rewrite E in H2. apply half_tail in H2.
    unfold conv_inv. auto.
  - rewrite Q in H1. apply decrypt3_cases in E; [|discriminate].
    destruct (recv_half _ _ _ _ _ _ _ _ _ _ _ WA WB H1 H2 E) as (G1 & G2 & G3).
    split; [split; [auto|]; split; [eapply recv_wf; [|exact E]; assumption|auto]|].
    split; [intros ? ? ? ? X; injection X as <- <- <- <-; exact G3|]. split; intros; discriminate.
  - rewrite Q in H2. apply decrypt3_cases in E; [|discriminate].
    destruct (recv_half _ _ _ _ _ _ _ _ _ _ _ WB WA H2 H1 E) as (G1 & G2 & G3).
    split; [split; [eapply recv_wf; [|exact E]; assumption|auto]|].
    split; [intros ? ? ? ? X; injection X as <- <- <- <-; exact G3|]. split; intros; discriminate.
  - rewrite Q in H1. apply decrypt3_cases in E; [|discriminate].
    destruct (recv_half _ _ _ _ _ _ _ _ _ _ _ WA WB H1 H2 E) as (G1 & G2 & G3).
    split; [split; [auto|]; split; [eapply recv_wf; [|exact E]; assumption|auto]|].
    split; [intros; discriminate|]. split; [|intros; discriminate]. intros ? ? X. injection X as <- <-. apply G3.
  - rewrite Q in H2. apply decrypt3_cases in E; [|discriminate].
    destruct (recv_half _ _ _ _ _ _ _ _ _ _ _ WB WA H2 H1 E) as (G1 & G2 & G3).
    split; [split; [eapply recv_wf; [|exact E]; assumption|auto]|].
    split; [intros; discriminate|]. split; [intros; discriminate|]. intros ? ? X. injection X as <- <-. apply G3.
Qed.

Lemma conversation_inv ta tb s0 os s : conversation3 C ta tb s0 os s ->
  conv_inv ta tb s /\ (forall a m sent got, In (Delivered a m sent got) os -> got = sent).
Proof.
  intros H. induction H as [s H|s0 os s o s' H [IH1 IH2] ST].
  - split; [now apply start_inv|]. intros ? ? ? ? [].
  - destruct (step_inv _ _ _ _ _ IH1 ST) as (I1 & I2 & _). split; [exact I1|].
    intros a m sent got I. apply in_app_iff in I. destruct I as [I|[I|[]]]; [eauto|eapply I2; exact I].
Qed.

(** ** Taking turns *)

Lemma conv_snoc ta tb s0 os o s' : conversation3 C ta tb s0 (os ++ [o]) s' ->
  exists s, conversation3 C ta tb s0 os s /\ step3 C ta tb s o s'.
Proof.
  intros H. inversion H as [s E1 E2 E3|s1 os' s o' s1' H1 H2 E1 E2 E3].
  - destruct os; discriminate.
  - apply app_inj_tail in E2. destruct E2 as [-> ->]. eauto.
Qed.

(* X is about to send, Y to listen *)
Definition turn_inv (X Y : key_manager) : Prop :=
  peer_id Y = own_id X /\ be_val (km_their_ctr X) = 0 /\ be_val (km_their_ctr Y) = 0.

Lemma turn_step tx ty X Y ig text m X' rnd Y' r :
  wf3 X -> wf3 Y -> half tx ty X Y [] -> half ty tx Y X [] -> turn_inv X Y ->
  encrypt3 C tx ty X ig text = Ok (m, X') ->
  decrypt3 C Y m (encode_authenticator_data tx ty m) rnd = (Y', r) -> r <> Panic ->
  (exists got, r = Ok got) /\ turn_inv Y' X'.
Proof.
  intros WX WY H1 H2 (T1 & T2 & T3) E D NP.
  pose proof (encrypt3_wf _ _ _ _ _ _ _ _ WX E) as WX'.
  pose proof (send_half _ _ _ _ _ _ _ _ _ _ WX WY H1 H2 E) as [G1 G2]. cbn [app] in G1.
  pose proof (encrypt3_step _ _ _ _ _ _ _ _ WX E) as (O & T & S1 & S2 & LT & _ & CT).
  apply decrypt3_cases in D; [|exact NP].
  pose proof (recv_half _ _ _ _ _ _ _ _ _ _ _ WX' WY G1 G2 D) as (_ & _ & R).
  destruct r as [got|e|]; [|exfalso; lia|contradiction].
  split; [eauto|].
  pose proof (accept_ids _ _ _ _ _ _ _ D) as (A1 & A2 & _).
  pose proof (recv_ids _ _ _ _ _ _ _ D) as (_ & _ & _ & R4).
  destruct R4 as (_ & C0 & _); [right; lia|].
  unfold turn_inv. rewrite C0, A1, S2, CT, T2, ctr_initial. unfold peer_id. rewrite T. auto.
Qed.

Lemma turns_inv ta tb a os s0 s :
  turns3 a os -> conversation3 C ta tb s0 os s ->
  (cv_ab s = [] /\ cv_ba s = [] /\
   if a then turn_inv (cv_a s) (cv_b s) else turn_inv (cv_b s) (cv_a s)) /\
  forall d m sent, ~ In (Rejected d m sent) os.
Proof.
  intros T. revert s.
  induction T as [a|a os m sent got T IH|a os m sent T IH]; intros s H.
  - split; [|intros ? ? ? []]. inversion H as [s1 H1 E1 E2 E3|s1 os' s2 o' s3 H1 H2 E1 E2 E3]; subst.
    2: { destruct os'; discriminate. }
    destruct H1 as (xa & xb & ra0 & ra1 & rb0 & rb1 & EA & EB & Q1 & Q2).
    apply km_new_state in EA. apply km_new_state in EB.
    destruct EA as (A1 & A2 & _ & _ & _ & _ & A3). destruct EB as (B1 & B2 & _ & _ & _ & _ & B3).
    split; [exact Q1|]. split; [exact Q2|]. unfold turn_inv.
    rewrite A1, A2, A3, B1, B2, B3, ctr_initial. destruct a; auto.
  - change [Sending a m; Delivered a m sent got] with ([Sending a m] ++ [Delivered a m sent got]) in H.
    rewrite app_assoc in H. apply conv_snoc in H. destruct H as (s2 & H & ST2).
    pose proof H as H'. apply conv_snoc in H'. destruct H' as (s1 & H1 & ST1).
    destruct (IH _ H1) as [(Q1 & Q2 & TI) NR].
    destruct (conversation_inv _ _ _ _ _ H1) as [(WA & WB & HA & HB) _]. rewrite Q1 in HA. rewrite Q2 in HB.
    split.
    + destruct a; cbn [negb].
      * inversion ST1 as [? ig text ? k E Ea Eb Ec| | | | | | |]; subst.
        inversion ST2 as [| | | |? ? ? q rnd k2 ? Q D Ea Eb Ec| | |]; subst.
        cbn [cv_a cv_b cv_ab cv_ba] in *. rewrite Q1 in Q. cbn [app] in Q. injection Q as <- <-.
        split; [reflexivity|]. split; [exact Q2|].
        eapply turn_step; [exact WA|exact WB|exact HA|exact HB|exact TI|exact E|exact D|discriminate].
      * inversion ST1 as [|? ig text ? k E Ea Eb Ec| | | | | |]; subst.
        inversion ST2 as [| | | | |? ? ? q rnd k2 ? Q D Ea Eb Ec| |]; subst.
        cbn [cv_a cv_b cv_ab cv_ba] in *. rewrite Q2 in Q. cbn [app] in Q. injection Q as <- <-.
        split; [exact Q1|]. split; [reflexivity|].
        eapply turn_step; [exact WB|exact WA|exact HB|exact HA|exact TI|exact E|exact D|discriminate].
    + intros d z sz I. apply in_app_iff in I. destruct I as [I|[I|[I|[]]]]; try discriminate.
      eapply NR. exact I.
  - exfalso.
    change [Sending a m; Rejected a m sent] with ([Sending a m] ++ [Rejected a m sent]) in H.
    rewrite app_assoc in H. apply conv_snoc in H. destruct H as (s2 & H & ST2).
    pose proof H as H'. apply conv_snoc in H'. destruct H' as (s1 & H1 & ST1).
    destruct (IH _ H1) as [(Q1 & Q2 & TI) NR].
    destruct (conversation_inv _ _ _ _ _ H1) as [(WA & WB & HA & HB) _]. rewrite Q1 in HA. rewrite Q2 in HB.
    destruct a.
    * inversion ST1 as [? ig text ? k E Ea Eb Ec| | | | | | |]; subst.
      inversion ST2 as [| | | | | |? ? ? q rnd k2 e Q D Ea Eb Ec|]; subst.
      cbn [cv_a cv_b cv_ab cv_ba] in *. rewrite Q1 in Q. cbn [app] in Q. injection Q as <- <-.
      destruct (turn_step _ _ _ _ _ _ _ _ _ _ _ WA WB HA HB TI E D) as [[g X] _]; discriminate.
    * inversion ST1 as [|? ig text ? k E Ea Eb Ec| | | | | |]; subst.
      inversion ST2 as [| | | | | | |? ? ? q rnd k2 e Q D Ea Eb Ec]; subst.
      cbn [cv_a cv_b cv_ab cv_ba] in *. rewrite Q2 in Q. cbn [app] in Q. injection Q as <- <-.
      destruct (turn_step _ _ _ _ _ _ _ _ _ _ _ WB WA HB HA TI E D) as [[g X] _]; discriminate.
Qed.

End WithCrypto.
