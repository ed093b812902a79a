(* OTRv3: what one client reads is what the other wrote, whatever the network does, as long as each accepts only
   messages of the other. *)
From Coq Require Import Lia ZifyN ZifyNat.
From Verif Require Import Base BaseLemmas Types Crypto CryptoProofs Encoding EncodingProofs Messages
  KeyManager KeyManagerProofs DataV3 SpecData3 DataV3Proofs History3Proofs Conv3Proofs SpecTexts.
Local Open Scope N_scope.

Section WithCrypto.
Context (C : Crypto).
Notation public n := (dh_public (dh_new C n)).

(* f: the secret exponents of the own keys, by number; P: the public keys of the peer, by number *)
Definition own_keys (f : N -> N) (k : key_manager) : Prop :=
  forall id, id = own_id k \/ id = own_id k + 1 -> kr_slot (km_ours k) id = dh_new C (f id).
Definition peer_keys (P : N -> N) (k : key_manager) : Prop :=
  forall id, id <> 0 -> id = peer_id k \/ id + 1 = peer_id k -> pr_slot (km_theirs k) id = P id.

Definition writes3 (our their : N) (f P : N -> N) (m : data3) (text : bytes) : Prop :=
  exists enc mk, send_keys3 C (dh_new C (f (d3_sender_keyid m))) (P (d3_receiver_keyid m)) enc mk /\
    d3_encrypted m = aes_crypt C enc (nonce_of_ctr (d3_ctr m)) text /\
    d3_authenticator m = hmac_sha1 C mk (encode_authenticator_data our their m).
Definition reads3 (f P : N -> N) (m : data3) (auth text : bytes) : Prop :=
  exists enc mk, recv_keys3 C (dh_new C (f (d3_receiver_keyid m))) (P (d3_sender_keyid m)) enc mk /\
    text = aes_crypt C enc (nonce_of_ctr (d3_ctr m)) (d3_encrypted m) /\
    d3_authenticator m = hmac_sha1 C mk auth.

Definition own_kept (n : N) (f f' : N -> N) : Prop := forall id, id <= n -> f' id = f id.

Lemma ack_own f k id rnd k' : own_keys f k -> km_acknowledge_ours C k id rnd = Ok k' ->
  exists f', own_kept (own_id k + 1) f f' /\ own_keys f' k' /\ own_id k <= own_id k'.
Proof.
  intros O E. apply km_acknowledge_cases in E. destruct E as (_ & ID & [(-> & ->)|(E & _ & S1 & S2 & _)]).
  - exists f. split; [easy|]. split; [assumption|lia].
  - exists (fun n => if n =? id + 1 then rnd else f n). split; [|split; [|lia]].
    + intros n L. destruct (N.eqb_spec n (id + 1)); [lia|reflexivity].
    + intros n [-> | ->]; rewrite ID.
      * destruct (N.eqb_spec id (id + 1)); [lia|]. rewrite S1. apply O. lia.
      * now rewrite N.eqb_refl.
Qed.

Definition got_from (P : N -> N) (h : list event3) : Prop :=
  forall m auth text, In (Got3 m auth (Some text)) h -> d3_dh_y m = P (d3_sender_keyid m + 1).

(* one receive: the own keys afterwards *)
Lemma recv_own f k m auth rnd k' r : own_keys f k -> recv_result3 C k m auth rnd k' r ->
  exists f', own_kept (own_id k + 1) f f' /\ own_keys f' k' /\ own_id k <= own_id k'.
Proof.
  intros O R. destruct R as [e NA|mk e AU LE|mk k2 k3 e AU LT LN E2 KA KR|mk enc x y k2 k3 k4 OW PE RK A Z LT LN E2 KA SM KR].
  - exists f. split; [easy|]. split; [assumption|lia].
  - destruct (km_register_used_mac_fields k mk) as (F & _). exists f. split; [easy|]. unfold own_keys, own_id in *. rewrite F. split; [assumption|lia].
  - subst k2. apply (ack_own f) in KA; [exact KA|exact O].
  - subst k2. apply (ack_own f) in KA; [|exact O]. apply km_register_cases in KR. destruct KR as (E & _). unfold own_keys, own_id in *.
    rewrite E. exact KA.
Qed.
Lemma recv_peer P k m auth rnd k' r : peer_keys P k -> recv_result3 C k m auth rnd k' r ->
  ((exists t, r = Ok t) -> d3_dh_y m = P (d3_sender_keyid m + 1)) -> peer_keys P k'.
Proof.
  intros PK R Y. destruct R as [e NA|mk e AU LE|mk k2 k3 e AU LT LN E2 KA KR|mk enc x y k2 k3 k4 OW PE RK A Z LT LN E2 KA SM KR].
  - assumption.
  - destruct (km_register_used_mac_fields k mk) as (_ & F & _). unfold peer_keys, peer_id in *. now rewrite F.
  - subst k2. apply km_acknowledge_cases in KA. destruct KA as (T & _). unfold peer_keys, peer_id in *. now rewrite T.
  - subst k2. apply km_acknowledge_cases in KA. destruct KA as (T & _). cbn [km_theirs] in T.
    assert (PK3 : peer_keys P k3) by (unfold peer_keys, peer_id in *; now rewrite T).
    apply km_register_cases in KR. destruct KR as (_ & ID & _ & _ & S1 & [(_ & ->)|(E & S2 & _)]); [assumption|].
    intros id NZ [-> | I]; rewrite ID in *.
    + rewrite S1. apply Y. eauto.
    + assert (id = peer_id k3) as -> by lia. rewrite S2. apply PK3; [assumption|now left].
Qed.

Lemma run3_ghost our their k0 f0 h k : wf3 k0 -> own_keys f0 k0 -> run3 C our their k0 h k ->
  exists f, own_kept (own_id k0 + 1) f0 f /\ own_keys f k /\ own_id k0 <= own_id k /\
    (forall m text, In (Sent3 m text) h -> d3_sender_keyid m <= own_id k /\ d3_dh_y m = public (f (d3_sender_keyid m + 1))) /\
    (forall m auth text, In (Got3 m auth (Some text)) h -> d3_receiver_keyid m <= own_id k) /\
    forall P, peer_keys P k0 -> got_from P h ->
      peer_keys P k /\
      (forall m text, In (Sent3 m text) h -> writes3 our their f P m text) /\
      (forall m auth text, In (Got3 m auth (Some text)) h -> reads3 f P m auth text).
Proof.
  intros W O0 R. induction R as [|h k ig text m k' R IH E|h k m auth rnd k' text R IH E|h k m auth rnd k' e R IH E].
  - exists f0. split; [easy|]. split; [assumption|]. split; [lia|]. split; [easy|]. split; [easy|]. intros P PK _. easy.
  - destruct IH as (f & K & O & L & S & G & IH). pose proof (run3_wf _ _ _ _ _ _ W R) as Wk.
    pose proof (encrypt3_step _ _ _ _ _ _ _ _ Wk E) as (SO & ST & _). apply encrypt3_ok in E.
    destruct E as (ek & mk & c & _ & SK & _ & _ & _ & M1 & M2 & M3 & M4 & M5 & _ & M6 & _).
    assert (OI : own_id k' = own_id k) by (unfold own_id; now rewrite SO).
    assert (PI : peer_id k' = peer_id k) by (unfold peer_id; now rewrite ST).
    exists f. split; [assumption|]. split; [unfold own_keys; rewrite SO, OI; exact O|]. split; [lia|]. split; [|split].
    + intros x t I. apply in_app_or in I. destruct I as [I|[I|[]]]; [rewrite OI; eauto|]. injection I as <- <-.
      split; [lia|]. rewrite M3, M1. f_equal. apply O. now right.
    + intros x a t I. apply in_app_or in I. destruct I as [I|[I|[]]]; [rewrite OI; eauto|discriminate].
    + intros P PK GF. destruct (IH P PK) as (PK' & WR & RE). { intros x a t I. apply (GF x a t). apply in_or_app. now left. }
      split; [unfold peer_keys; rewrite ST, PI; exact PK'|]. split.
      * intros x t I. apply in_app_or in I. destruct I as [I|[I|[]]]; [eauto|]. injection I as <- <-.
        exists ek, mk. rewrite M1, M2, M4, M5. split; [|split; [reflexivity|assumption]].
        rewrite <- (PK' (peer_id k)), <- (O (own_id k)); [exact SK|now left|apply Wk|now left].
      * intros x a t I. apply in_app_or in I. destruct I as [I|[I|[]]]; [eauto|discriminate].
  - destruct IH as (f & K & O & L & S & G & IH). apply decrypt3_cases in E; [|discriminate].
    destruct (recv_own f _ _ _ _ _ _ O E) as (f' & K' & O' & L'). pose proof (accept_ids _ _ _ _ _ _ _ E) as (A1 & _ & A3 & A4 & A5 & A6 & _).
    pose proof (accept_keys _ _ _ _ _ _ _ E) as (x & y & enc & mk & (_ & _ & X) & (_ & _ & Y) & RK & AU & _ & TX & _).
    exists f'. split; [intros id I; rewrite (K' id); [apply K; assumption|lia]|]. split; [assumption|]. split; [lia|]. split; [|split].
    + intros x' t I. apply in_app_or in I. destruct I as [I|[I|[]]]; [|discriminate]. apply S in I. destruct I as [I1 I2].
      split; [lia|]. rewrite I2. now rewrite K' by lia.
    + intros x' a t I. apply in_app_or in I. destruct I as [I|[I|[]]]; [apply G in I; lia|]. injection I as <- <- <-. lia.
    + intros P PK GF. destruct (IH P PK) as (PK' & WR & RE). { intros x' a t I. apply (GF x' a t). apply in_or_app. now left. }
      assert (Y1 : d3_dh_y m = P (d3_sender_keyid m + 1)) by (apply (GF m auth text); apply in_or_app; right; now left).
      split; [now apply (recv_peer P) in E|]. split.
      * intros x' t I. apply in_app_or in I. destruct I as [I|[I|[]]]; [|discriminate]. destruct (WR _ _ I) as (ek & mk' & SK & EN).
        apply S in I. destruct I as [I1 _]. exists ek, mk'. rewrite K' by lia. auto.
      * intros x' a t I. apply in_app_or in I. destruct I as [I|[I|[]]].
        -- destruct (RE _ _ _ I) as (ek & mk' & RK' & EN). apply G in I. exists ek, mk'. rewrite K' by lia. auto.
        -- injection I as <- <- <-. exists enc, mk. split; [|split; [exact TX|exact AU]]. rewrite K' by lia.
           rewrite <- O by lia. rewrite <- PK' by assumption || lia. now rewrite <- X, <- Y.
  - destruct IH as (f & K & O & L & S & G & IH). apply decrypt3_cases in E; [|discriminate].
    destruct (recv_own f _ _ _ _ _ _ O E) as (f' & K' & O' & L').
    exists f'. split; [intros id I; rewrite (K' id); [apply K; assumption|lia]|]. split; [assumption|]. split; [lia|]. split; [|split].
    + intros x' t I. apply in_app_or in I. destruct I as [I|[I|[]]]; [|discriminate]. apply S in I. destruct I as [I1 I2].
      split; [lia|]. rewrite I2. now rewrite K' by lia.
    + intros x' a t I. apply in_app_or in I. destruct I as [I|[I|[]]]; [apply G in I; lia|discriminate].
    + intros P PK GF. destruct (IH P PK) as (PK' & WR & RE). { intros x' a t I. apply (GF x' a t). apply in_or_app. now left. }
      split; [apply (recv_peer P) in E; [assumption..|]; intros (t & X); discriminate|]. split.
      * intros x' t I. apply in_app_or in I. destruct I as [I|[I|[]]]; [|discriminate]. destruct (WR _ _ I) as (ek & mk' & SK & EN).
        apply S in I. destruct I as [I1 _]. exists ek, mk'. rewrite K' by lia. auto.
      * intros x' a t I. apply in_app_or in I. destruct I as [I|[I|[]]]; [|discriminate].
        destruct (RE _ _ _ I) as (ek & mk' & RK' & EN). apply G in I. exists ek, mk'. rewrite K' by lia. auto.
Qed.

(** ** Two clients *)

Definition genuine3 (hs hr : list event3) : Prop :=
  forall m auth text, In (Got3 m auth (Some text)) hr -> exists m' text', In (Sent3 m' text') hs /\ same_data3 m' m.

Lemma agree3 ta tb f g m auth m' t t' : c_dh_p C <> 0 -> writes3 ta tb f (fun n => public (g n)) m' t' -> reads3 g (fun n => public (f n)) m auth t ->
  same_data3 m' m -> t = t'.
Proof.
  intros PZ (e1 & k1 & S & E1 & _) (e2 & k2 & R & -> & _) (M1 & M2 & _ & M4 & M5). rewrite M1, M2 in S.
  apply keys3_agree in S; [|assumption]. destruct (recv_keys3_unique _ _ _ _ _ _ _ R S) as [-> ->].
  rewrite <- M4, <- M5, E1. apply aes_crypt_involutive.
Qed.

Lemma texts3_agree ta tb s0 hA A hB B : c_dh_p C <> 0 -> start3 C s0 ->
  run3 C ta tb (cv_a s0) hA A -> run3 C tb ta (cv_b s0) hB B -> genuine3 hA hB -> genuine3 hB hA ->
  forall m auth text m' text', In (Got3 m auth (Some text)) hB -> In (Sent3 m' text') hA -> same_data3 m' m -> text = text'.
Proof.
  intros PZ (xa & xb & ra0 & ra1 & rb0 & rb1 & EA & EB & _) RA RB GB GA.
  pose proof (km_new_wf _ _ _ _ _ _ _ _ EA) as WA. pose proof (km_new_wf _ _ _ _ _ _ _ _ EB) as WB.
  apply km_new_state in EA. apply km_new_state in EB.
  destruct EA as (A1 & A2 & A3 & A4 & (ea & A5) & _). destruct EB as (B1 & B2 & B3 & B4 & (eb & B5) & _).
  destruct (run3_ghost ta tb (cv_a s0) (fun n => if n =? 1 then xa else ea) hA A) as (f & K & _ & _ & FS & _ & FP); [assumption| |assumption|].
  { intros id [-> | ->]; rewrite A1; [exact A3|exact A5]. }
  destruct (run3_ghost tb ta (cv_b s0) (fun n => if n =? 1 then xb else eb) hB B) as (g & K' & _ & _ & GS & _ & GP); [assumption| |assumption|].
  { intros id [-> | ->]; rewrite B1; [exact B3|exact B5]. }
  destruct (FP (fun n => public (g n))) as (_ & FW & _).
  { intros id NZ [-> | I]; rewrite A2 in *; [|lia]. rewrite A4, K' by lia. reflexivity. }
  { intros m auth text I. destruct (GA _ _ _ I) as (m' & t' & I' & M1 & _ & M3 & _). apply GS in I'. rewrite <- M1, <- M3. apply I'. }
  destruct (GP (fun n => public (f n))) as (_ & _ & GR).
  { intros id NZ [-> | I]; rewrite B2 in *; [|lia]. rewrite B4, K by lia. reflexivity. }
  { intros m auth text I. destruct (GB _ _ _ I) as (m' & t' & I' & M1 & _ & M3 & _). apply FS in I'. rewrite <- M1, <- M3. apply I'. }
  intros m auth text m' text' I I' SD. eapply agree3; eauto.
Qed.

End WithCrypto.
