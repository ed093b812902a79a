(* The statements about OTRv3 data messages, put together from the proofs. *)
From Coq Require Import Lia ZifyN ZifyNat.
From Verif Require Import Base BaseLemmas Types Crypto CryptoProofs Encoding EncodingProofs Messages
  ToyCrypto KeyManager KeyManagerProofs DataV3 SpecData3 DataV3Proofs History3Proofs Conv3Proofs Data3Examples.
Local Open Scope N_scope.

Lemma public_nonzero C : dh_group_ok C -> forall e, dh_public (dh_new C e) <> 0.
Proof.
  intros [P G] e. unfold dh_new, dh_new_custom. cbn [dh_public]. rewrite modpow_spec by lia.
  intros H. apply N.mod_divide in H; [|lia]. revert H.
  induction e as [|e IH] using N.peano_ind.
  - rewrite N.pow_0_r. intros H. apply N.divide_1_r in H. lia.
  - rewrite N.pow_succ_r'. intros H. apply N.gauss in H; [auto|]. now rewrite N.gcd_comm.
Qed.

Lemma toy_group_ok : dh_group_ok toy.
Proof. split; vm_compute; reflexivity. Qed.

Section WithCrypto.
Context (C : Crypto) (our their : N).

Lemma history3_snoc_accept h k m auth rnd k' t :
  history3 C our their h k -> decrypt3 C k m auth rnd = (k', Ok t) ->
  history3 C our their (h ++ [Got3 m auth (Some t)]) k'.
Proof.
  intros (o & key & t0 & tkey & r0 & r1 & k0 & N & R) E.
  exists o, key, t0, tkey, r0, r1, k0. split; [exact N|]. eapply r3_accept; eassumption.
Qed.

Lemma replay_accepted h k m auth rnd k' t :
  history3 C our their h k -> decrypt3 C k m auth rnd = (k', Ok t) ->
  own_id k' <> own_id k \/ peer_id k' <> peer_id k ->
  forall rnd', exists k'', decrypt3 C k' m auth rnd' = (k'', Ok t).
Proof. intros H. apply replay_after_rotation. eapply history3_wf; eassumption. Qed.

Lemma reveals_not_early h k h1 m text h2 :
  history3 C our their h k -> h = h1 ++ Sent3 m text :: h2 ->
  exists keys, reveals3 m keys /\
    forall mk, In mk keys ->
      exists ha m' auth' t' hb k1,
        h1 = ha ++ Got3 m' auth' t' :: hb /\ history3 C our their ha k1 /\ authentic3 C k1 m' auth' mk /\
        own_id k1 <= d3_sender_keyid m /\ peer_id k1 <= d3_receiver_keyid m /\
        (own_id k1 <> d3_sender_keyid m \/ peer_id k1 <> d3_receiver_keyid m).
Proof.
  intros (o & key & t0 & tkey & r0 & r1 & k0 & N & R) EH.
  destruct (reveals_are_old C our their _ _ _ _ _ _ _ _ _ _ _ _ _ N R EH) as (keys & RV & K).
  exists keys. split; [exact RV|]. intros mk I.
  destruct (K mk I) as (ha & m' & a' & t' & hb & k1 & X1 & X2 & X3).
  exists ha, m', a', t', hb, k1. split; [exact X1|]. split; [|exact X3].
  exists o, key, t0, tkey, r0, r1, k0. auto.
Qed.

Lemma reveals_none_lost h0 k m auth rnd k1 t mk h k2 ig text m2 k3 :
  history3 C our their h0 k ->
  decrypt3 C k m auth rnd = (k1, Ok t) -> authentic3 C k m auth mk ->
  run3 C our their k1 h k2 ->
  own_id k2 <> own_id k \/ peer_id k2 <> peer_id k ->
  encrypt3 C our their k2 ig text = Ok (m2, k3) ->
  exists m' text' keys, In (Sent3 m' text') (h ++ [Sent3 m2 text]) /\ reveals3 m' keys /\ In mk keys.
Proof. intros H. apply used_keys_are_revealed. eapply history3_wf; eassumption. Qed.

Lemma revealed_still_valid h k m auth rnd k1 t ig text reply k2 :
  history3 C our their h k -> decrypt3 C k m auth rnd = (k1, Ok t) ->
  own_id k1 <> own_id k \/ peer_id k1 <> peer_id k ->
  encrypt3 C our their k1 ig text = Ok (reply, k2) ->
  exists mk keys enc, reveals3 reply keys /\ In mk keys /\
    forall m' auth' rnd',
      same_keys3 m' m -> d3_dh_y m' = d3_dh_y m -> length (d3_ctr m') = 8%nat -> 0 < ctr3 m' ->
      d3_authenticator m' = hmac_sha1 C mk auth' -> any_nonzero (d3_authenticator m') = true ->
      exists k3, decrypt3 C k2 m' auth' rnd'
                 = (k3, Ok (aes_crypt C enc (nonce_of_ctr (d3_ctr m')) (d3_encrypted m'))).
Proof. intros H. apply revealed_key_still_valid. eapply history3_wf; eassumption. Qed.

Lemma ids_nonzero h k : history3 C our their h k -> own_id k <> 0 /\ peer_id k <> 0.
Proof. intros H. apply history3_wf in H. split; apply H. Qed.

(* ids along a whole history: those in the messages sent never decrease *)
Lemma sent_ids h k : history3 C our their h k -> forall m text, In (Sent3 m text) h ->
  d3_sender_keyid m <> 0 /\ d3_receiver_keyid m <> 0.
Proof.
  intros (o & key & t0 & tkey & r0 & r1 & k0 & N & R). apply km_new_wf in N.
  induction R as [|h k ig text m' k' H IH E|h k m' auth rnd k' text H IH E|h k m' auth rnd k' e H IH E];
    intros m tx I.
  - destruct I.
  - apply in_app_iff in I. destruct I as [I|[I|[]]]; [eauto|]. injection I as <- <-.
    pose proof (run3_wf _ _ _ _ _ _ N H) as W.
    pose proof (encrypt3_step _ _ _ _ _ _ _ _ W E) as (_ & _ & -> & -> & _). split; apply W.
  - apply in_app_iff in I. destruct I as [I|[I|[]]]; [eauto|discriminate].
  - apply in_app_iff in I. destruct I as [I|[I|[]]]; [eauto|discriminate].
Qed.

Lemma conversation_exact (OK : dh_group_ok C) s0 os s a m sent got :
  conversation3 C our their s0 os s -> In (Delivered a m sent got) os -> got = sent.
Proof.
  intros H.
  assert (P : c_dh_p C <> 0) by (destruct OK; lia).
  destruct (conversation_inv C P (public_nonzero C OK) _ _ _ _ _ H) as [_ D]. apply D.
Qed.

Lemma conversation_arrival (OK : dh_group_ok C) s0 os s m text rest rnd :
  conversation3 C our their s0 os s -> rnd <> 0 ->
  own_id (cv_a s) < 4294967295 -> own_id (cv_b s) < 4294967295 ->
  (cv_ab s = (m, text) :: rest ->
   exists k, (be_val (km_their_ctr (cv_b s)) < ctr3 m /\
              decrypt3 C (cv_b s) m (encode_authenticator_data our their m) rnd = (k, Ok text)) \/
             (ctr3 m <= be_val (km_their_ctr (cv_b s)) /\ exists e,
              decrypt3 C (cv_b s) m (encode_authenticator_data our their m) rnd = (k, Err e))) /\
  (cv_ba s = (m, text) :: rest ->
   exists k, (be_val (km_their_ctr (cv_a s)) < ctr3 m /\
              decrypt3 C (cv_a s) m (encode_authenticator_data their our m) rnd = (k, Ok text)) \/
             (ctr3 m <= be_val (km_their_ctr (cv_a s)) /\ exists e,
              decrypt3 C (cv_a s) m (encode_authenticator_data their our m) rnd = (k, Err e))).
Proof.
  intros H RN MA MB. assert (P : c_dh_p C <> 0) by (destruct OK; lia).
  destruct (conversation_inv C P (public_nonzero C OK) _ _ _ _ _ H) as [(WA & WB & HA & HB) _].
  split; intros Q.
  - rewrite Q in HA. apply (arrival C P (public_nonzero C OK) our their (cv_a s) _ _ _ rest); auto. lia.
  - rewrite Q in HB. apply (arrival C P (public_nonzero C OK) their our (cv_b s) _ _ _ rest); auto. lia.
Qed.

Lemma turn_taking (OK : dh_group_ok C) s0 os s a :
  conversation3 C our their s0 os s -> turns3 a os -> forall d m sent, ~ In (Rejected d m sent) os.
Proof.
  intros H T. assert (P : c_dh_p C <> 0) by (destruct OK; lia).
  apply (turns_inv C P (public_nonzero C OK) _ _ _ _ _ _ T H).
Qed.

End WithCrypto.
