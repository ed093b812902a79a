(* OTRv3: the MAC keys of all accepted messages are published by the next message. *)
From Verif Require Import Base BaseLemmas Types Crypto CryptoProofs Encoding Messages KeyManager KeyManagerProofs DataV3 SpecData3
  DataV3Proofs History3Proofs.
From Coq Require Import Lia ZifyN ZifyNat.
Local Open Scope N_scope.

Section WithCrypto.
Context (C : Crypto) (our their : N).

(* the key was published, or will be with the next message *)
Definition pub (h : list event3) (k : key_manager) (mk : bytes) : Prop :=
  (exists m t keys, In (Sent3 m t) h /\ reveals3 m keys /\ In mk keys) \/
  (exists keys, km_old_macs k = concat keys /\ Forall (fun m => length m = 20%nat) keys /\ In mk keys).
(* so is the key for the previous key of the peer and our key in use *)
Definition pair_pub (h : list event3) (k : key_manager) : Prop := forall enc mk, peer_id k <> 1 ->
  recv_keys3 C (kr_slot (km_ours k) (own_id k)) (pr_slot (km_theirs k) (peer_id k - 1)) enc mk -> pub h k mk.
Definition acc_pub (h : list event3) (k : key_manager) : Prop := forall m auth t, In (Got3 m auth (Some t)) h ->
  exists mk, d3_authenticator m = hmac_sha1 C mk auth /\ pub h k mk.

Lemma pub_sent h k ig text m k' mk : encrypt3 C our their k ig text = Ok (m, k') -> pub h k mk ->
  exists m0 t keys, In (Sent3 m0 t) (h ++ [Sent3 m text]) /\ reveals3 m0 keys /\ In mk keys.
Proof.
  intros E [(m0 & x0 & keys & I & X)|(keys & K1 & K2 & K3)].
  - exists m0, x0, keys. split; [apply in_app_iff; auto|exact X].
  - apply encrypt3_ok in E. destruct E as (ek & mk' & c & _ & _ & _ & -> & _ & _ & _ & _ & _ & _ & _ & _ & _ & RV).
    exists m, text, keys. split; [apply in_app_iff; right; now left|]. split; [|exact K3]. split; [congruence|exact K2].
Qed.
Lemma pub_send h k ig text m k' mk : encrypt3 C our their k ig text = Ok (m, k') -> pub h k mk -> pub (h ++ [Sent3 m text]) k' mk.
Proof. intros E P. left. eapply pub_sent; eassumption. Qed.
Lemma pub_recv h e k m auth rnd k' r mk : wf3 k -> recv_result3 C k m auth rnd k' r -> pub h k mk -> pub (h ++ [e]) k' mk.
Proof.
  intros W R [(m0 & x0 & keys & I & X)|H].
  - left. exists m0, x0, keys. split; [apply in_app_iff; auto|exact X].
  - right. destruct H as (keys & K1 & K2 & K3). apply recv_macs in R. destruct R as [->|(mk' & AU & R)]; [exists keys; auto|].
    destruct R as [(_ & _ & EO & _)|(_ & _ & EO)]; [exists keys; rewrite EO; auto|].
    exists (keys ++ km_used_macs (km_register_used_mac k mk')). rewrite EO, K1, concat_app. split; [reflexivity|].
    split; [|apply in_app_iff; auto]. apply Forall_app. split; [assumption|].
    apply register_used_wf; [eapply authentic3_len; eassumption|exact W].
Qed.
Lemma authentic_keys k m auth mk x y enc mk2 : authentic3 C k m auth mk -> own_key3 k (d3_receiver_keyid m) x ->
  peer_key3 k (d3_sender_keyid m) y -> recv_keys3 C x y enc mk2 -> mk2 = mk.
Proof.
  intros (x' & y' & enc' & OW' & PE' & RK' & _) OW PE RK.
  destruct OW as (_ & _ & ->). destruct PE as (_ & _ & ->). destruct OW' as (_ & _ & ->). destruct PE' as (_ & _ & ->).
  eapply recv_keys3_unique; eassumption.
Qed.
(* a rotation publishes the key of the message that caused it *)
Lemma rotation_pub h k m auth rnd k' r mk : wf3 k -> recv_result3 C k m auth rnd k' r -> authentic3 C k m auth mk ->
  own_id k' <> own_id k \/ peer_id k' <> peer_id k -> pub h k' mk.
Proof.
  intros W R AU CH. apply recv_macs in R. destruct R as [->|(mk' & AU' & R)]; [exfalso; tauto|].
  assert (mk' = mk). { destruct AU' as (x & y & enc & OW & PE & RK & _). eapply authentic_keys; eassumption. } subst mk'.
  destruct R as [(I1 & I2 & _)|(_ & _ & EO)]; [exfalso; tauto|]. right.
  destruct (chunk20 (km_old_macs k)) as (keys & K1 & K2); [apply W|].
  exists (keys ++ km_used_macs (km_register_used_mac k mk)). rewrite EO, K1, concat_app. split; [reflexivity|]. split.
  - apply Forall_app. split; [assumption|]. apply register_used_wf; [eapply authentic3_len; eassumption|exact W].
  - apply in_app_iff. right. apply register_used_in. auto.
Qed.
(* and the keys of that message are then the previous ones *)
Lemma rotation_pair k m auth rnd k' r : recv_result3 C k m auth rnd k' r -> own_id k' <> own_id k \/ peer_id k' <> peer_id k ->
  exists x y enc mk, authentic3 C k m auth mk /\ recv_keys3 C x y enc mk /\
    kr_slot (km_ours k') (own_id k') = x /\ pr_slot (km_theirs k') (peer_id k' - 1) = y.
Proof.
  intros R CH. pose proof R as R0. destruct R as [e NA|mk e AU LE|mk k2 k3 e AU LT LN E2 KA KR|mk enc x y k2 k3 k4 OW PE RK A Z LT LN E2 KA SM KR].
  - exfalso. tauto.
  - destruct (km_register_used_mac_fields k mk) as (F1 & F2 & _). unfold own_id, peer_id in CH. rewrite F1, F2 in CH. exfalso. tauto.
  - pose proof AU as (x & y & enc & OW & PE & RK & _). exists x, y, enc, mk. split; [assumption|]. split; [assumption|].
    apply km_acknowledge_cases in KA. destruct KA as (T & O & KA).
    assert (TT : km_theirs k3 = km_theirs k) by (rewrite T; subst k2; reflexivity).
    assert (PP : peer_id k3 = peer_id k) by (unfold peer_id; now rewrite TT).
    destruct KA as [(I & ->)|(I & _ & S & _)].
    { exfalso. subst k2. unfold own_id, peer_id in CH. cbn in CH. tauto. }
    split.
    + rewrite O. destruct OW as (_ & _ & ->). rewrite S. subst k2. reflexivity.
    + destruct PE as (NZ & PE & ->). rewrite PP, TT. f_equal. fold (peer_id k) in PE. destruct PE as [PE|PE]; [|lia].
      exfalso. unfold km_register_their_key, pr_register in KR.
      replace (d3_sender_keyid m + 1 =? 0) with false in KR by (symmetry; apply N.eqb_neq; lia).
      destruct (d3_dh_y m =? 0); [discriminate|]. fold (peer_id k3) in KR. rewrite PP in KR.
      replace (peer_id k =? d3_sender_keyid m + 1) with false in KR by (symmetry; apply N.eqb_neq; lia).
      destruct (u32_succ (peer_id k)) as [n|n|] eqn:U; cbn [bind] in KR; [|exact (u32_succ_not_err _ _ U)|discriminate].
      apply u32_succ_ok in U. destruct U as [-> _]. rewrite PE, N.eqb_refl in KR. cbn [bind] in KR.
      unfold km_rotated in KR. destruct (negb _); discriminate KR.
  - destruct (accept_ids _ _ _ _ _ _ _ R0) as (A1 & A2 & _).
    destruct (accept_keys _ _ _ _ _ _ _ R0) as (x' & y' & enc' & mk' & OW' & PE' & RK' & A' & Z' & _ & OK & PK & _).
    exists x', y', enc', mk'. split; [exists x', y', enc'; auto|]. split; [assumption|].
    destruct OK as (_ & _ & ->). destruct PK as (_ & _ & ->). rewrite A1, A2. split; [reflexivity|]. f_equal. lia.
Qed.

Lemma recv_pair_pub h e k m auth rnd k' r : wf3 k -> recv_result3 C k m auth rnd k' r -> pair_pub h k -> pair_pub (h ++ [e]) k'.
Proof.
  intros W R P enc mk N1 RK. pose proof (recv_ids _ _ _ _ _ _ _ R) as (_ & _ & SAME & _).
  destruct (N.eq_dec (own_id k') (own_id k)) as [EO|NO]; [destruct (N.eq_dec (peer_id k') (peer_id k)) as [EP|NP]|].
  - destruct (SAME EO EP) as (_ & _ & O & T & _). rewrite EO, EP, O, T in RK. rewrite EP in N1.
    eapply pub_recv; [eassumption..|]. exact (P enc mk N1 RK).
  - destruct (rotation_pair _ _ _ _ _ _ R (or_intror NP)) as (x & y & enc' & mk' & AU & RK' & EX & EY). rewrite EX, EY in RK.
    destruct (recv_keys3_unique _ _ _ _ _ _ _ RK RK') as [_ ->]. eapply rotation_pub; eauto.
  - destruct (rotation_pair _ _ _ _ _ _ R (or_introl NO)) as (x & y & enc' & mk' & AU & RK' & EX & EY). rewrite EX, EY in RK.
    destruct (recv_keys3_unique _ _ _ _ _ _ _ RK RK') as [_ ->]. eapply rotation_pub; eauto.
Qed.
Lemma recv_acc_pub h k m auth rnd k' r : wf3 k -> recv_result3 C k m auth rnd k' r -> pair_pub h k -> acc_pub h k ->
  forall t, (forall x, t = Some x -> r = Ok x) -> acc_pub (h ++ [Got3 m auth t]) k'.
Proof.
  intros W R P A t ER m0 auth0 t0 I. apply in_app_iff in I. destruct I as [I|[I|[]]].
  - destruct (A _ _ _ I) as (mk & E & PU). exists mk. split; [assumption|]. eapply pub_recv; eassumption.
  - injection I as -> -> ->. rewrite (ER t0 eq_refl) in R.
    pose proof (accept_ids _ _ _ _ _ _ _ R) as (A1 & A2 & A3 & A4 & A5 & A6 & _).
    destruct (accept_keys _ _ _ _ _ _ _ R) as (x & y & enc & mk & OW & PE & RK & AU & NZ & _).
    exists mk. split; [assumption|].
    assert (AT : authentic3 C k m0 auth0 mk) by (exists x, y, enc; auto).
    destruct (N.eq_dec (own_id k') (own_id k)) as [EO|NO]; [destruct (N.eq_dec (peer_id k') (peer_id k)) as [EP|NP]|].
    + eapply pub_recv; [eassumption..|]. apply (P enc mk); [lia|]. destruct OW as (_ & _ & ->). destruct PE as (_ & _ & ->).
      replace (peer_id k - 1) with (d3_sender_keyid m0) by lia. replace (own_id k) with (d3_receiver_keyid m0) by lia. exact RK.
    + eapply rotation_pub; eauto.
    + eapply rotation_pub; eauto.
Qed.

Lemma run3_pub k0 h k : wf3 k0 -> peer_id k0 = 1 -> run3 C our their k0 h k -> pair_pub h k /\ acc_pub h k.
Proof.
  intros W P1 H. induction H as [|h k ig text m k' H [IP IA] E|h k m auth rnd k' text H [IP IA] E|h k m auth rnd k' e H [IP IA] E].
  - split; [intros enc mk N1; contradiction|]. intros m a t [].
  - split.
    + intros enc mk N1 RK. pose proof (encrypt3_step _ _ _ _ _ _ _ _ (run3_wf _ _ _ _ _ _ W H) E) as (O & T & _).
      unfold own_id, peer_id in *. rewrite O, T in RK. rewrite T in N1. eapply pub_send; [exact E|]. exact (IP _ _ N1 RK).
    + intros m0 a t I. apply in_app_iff in I. destruct I as [I|[I|[]]]; [|discriminate I].
      destruct (IA _ _ _ I) as (mk & AU & PU). exists mk. split; [assumption|]. eapply pub_send; eassumption.
  - apply decrypt3_cases in E; [|discriminate]. pose proof (run3_wf _ _ _ _ _ _ W H) as WK.
    split; [eapply recv_pair_pub; eassumption|]. eapply recv_acc_pub; try eassumption. congruence.
  - apply decrypt3_cases in E; [|discriminate]. pose proof (run3_wf _ _ _ _ _ _ W H) as WK.
    split; [eapply recv_pair_pub; eassumption|]. eapply recv_acc_pub; try eassumption. discriminate.
Qed.

Theorem published_at_end h k ig text m k' m0 auth t : begun3 C our their h k -> encrypt3 C our their k ig text = Ok (m, k') ->
  In (Got3 m0 auth (Some t)) h ->
  exists mk m' t' keys, d3_authenticator m0 = hmac_sha1 C mk auth /\ In (Sent3 m' t') (h ++ [Sent3 m text]) /\ reveals3 m' keys /\ In mk keys.
Proof.
  intros (key & tkey & r0 & r1 & k0 & N0 & R) E I. pose proof (km_new_wf _ _ _ _ _ _ _ _ N0) as W.
  assert (P1 : peer_id k0 = 1).
  { unfold km_new in N0. cbn [N.eqb orb Pos.eqb] in N0. destruct (kr_new C 1 key r0 r1); cbn [bind] in N0; try discriminate.
    unfold pr_new in N0. cbn [N.eqb Pos.eqb] in N0. destruct (tkey =? 0); cbn [bind] in N0; [discriminate|]. injection N0 as <-. reflexivity. }
  destruct (run3_pub _ _ _ W P1 R) as [_ A]. destruct (A _ _ _ I) as (mk & AU & PU). exists mk.
  destruct (pub_sent _ _ _ _ _ _ _ E PU) as (m' & t' & keys & X). exists m', t', keys. auto.
Qed.
End WithCrypto.
