(* What one OTRv3 send or receive does to the key manager. *)
From Coq Require Import Lia ZifyN ZifyNat.
From Verif Require Import Base BaseLemmas Types Crypto CryptoProofs Encoding EncodingProofs Messages
  KeyManager KeyManagerProofs DataV3 SpecData3.
Local Open Scope N_scope.

Section WithCrypto.
Context (C : Crypto).

(** ** Derived keys *)

(* what data_derive computes, for sending and for receiving *)
Definition send_keys3 (x : dh_keypair) (y : N) (enc_key mac_key : bytes) : Prop :=
  let shared := write_mpi (modpow y (dh_private x) (c_dh_p C)) in
  let which := if y <? dh_public x then x01 else x02 in
  dh_public x <> y /\
  enc_key = firstn 16 (sha1 C (which :: shared)) /\ mac_key = sha1 C enc_key.

Lemma data_derive_ok x y d :
  data_derive C (dh_public x) y (write_mpi (dh_shared C x y)) = Ok d ->
  send_keys3 x y (ds_send d) (sender_mac_key C d) /\
  recv_keys3 C x y (ds_recv d) (receiver_mac_key C d).
Proof.
  unfold data_derive. destruct (N.eqb_spec (dh_public x) y) as [|NE]; [discriminate|].
  unfold send_keys3, recv_keys3, sender_mac_key, receiver_mac_key, h1, dh_shared.
  destruct (N.ltb_spec y (dh_public x)) as [L|L]; intros E; injection E as <-; cbn [ds_send ds_recv].
  - destruct (N.ltb_spec (dh_public x) y); [lia|]. auto 10.
  - destruct (N.ltb_spec (dh_public x) y); [|lia]. auto 10.
Qed.

Lemma data_derive_total x y s :
  dh_public x <> y -> exists d, data_derive C (dh_public x) y s = Ok d.
Proof.
  intros NE. unfold data_derive. destruct (N.eqb_spec (dh_public x) y); [contradiction|].
  destruct (_ <? _); eauto.
Qed.

Lemma data_derive_not_err x y s e : data_derive C x y s <> Err e.
Proof. unfold data_derive. destruct (_ =? _); [discriminate|]. destruct (_ <? _); discriminate. Qed.

Lemma send_keys3_unique x y e1 m1 e2 m2 :
  send_keys3 x y e1 m1 -> send_keys3 x y e2 m2 -> e1 = e2 /\ m1 = m2.
Proof. intros (_ & -> & ->) (_ & -> & ->). auto. Qed.
Lemma recv_keys3_unique x y e1 m1 e2 m2 :
  recv_keys3 C x y e1 m1 -> recv_keys3 C x y e2 m2 -> e1 = e2 /\ m1 = m2.
Proof. intros (_ & -> & ->) (_ & -> & ->). auto. Qed.

(* the sender's keys are the receiver's keys *)
Lemma keys3_agree a b e m :
  c_dh_p C <> 0 ->
  send_keys3 (dh_new C a) (dh_public (dh_new C b)) e m ->
  recv_keys3 C (dh_new C b) (dh_public (dh_new C a)) e m.
Proof.
  intros P (NE & E & M). unfold recv_keys3.
  assert (S : modpow (dh_public (dh_new C a)) (dh_private (dh_new C b)) (c_dh_p C)
              = modpow (dh_public (dh_new C b)) (dh_private (dh_new C a)) (c_dh_p C)).
  { cbn. now apply modpow_comm. }
  rewrite S. split; [congruence|]. split; [|assumption]. assumption.
Qed.

(** ** Sending *)

Lemma encrypt3_ok our their k ig text m k' :
  encrypt3 C our their k ig text = Ok (m, k') ->
  exists enc_key mac_key c,
    ctr_take (km_our_ctr k) = Ok c /\
    send_keys3 (kr_slot (km_ours k) (own_id k)) (pr_slot (km_theirs k) (peer_id k)) enc_key mac_key /\
    own_id k <> 4294967295 /\
    k' = mkKM (km_ours k) (km_theirs k) c (km_their_ctr k) (km_used_macs k) [] /\
    d3_ignore_unreadable m = ig /\
    d3_sender_keyid m = own_id k /\ d3_receiver_keyid m = peer_id k /\
    d3_dh_y m = dh_public (kr_slot (km_ours k) (own_id k + 1)) /\
    d3_ctr m = c /\
    d3_encrypted m = aes_crypt C enc_key (nonce_of_ctr c) text /\
    all_zero (d3_encrypted m) = false /\
    d3_authenticator m = hmac_sha1 C mac_key (encode_authenticator_data our their m) /\
    all_zero (d3_authenticator m) = false /\
    d3_revealed m = km_old_macs k.
Proof.
  unfold encrypt3, km_take_counter. intros H.
  destruct (ctr_take (km_our_ctr k)) as [c| |] eqn:T; cbn [bind] in H; try discriminate.
  unfold pr_current, kr_current, kr_next in H. cbn [km_theirs km_ours] in H.
  destruct (u32_succ (kr_ack (km_ours k))) as [n| |] eqn:U; cbn [bind] in H; try discriminate.
  apply u32_succ_ok in U. destruct U as [-> U].
  unfold km_shared_secret, pr_current, kr_current in H. cbn [km_theirs km_ours snd] in H.
  destruct (data_derive C _ _ _) as [d| |] eqn:D; cbn [bind] in H; try discriminate.
  apply data_derive_ok in D. destruct D as [D _].
  destruct (all_zero (aes_crypt C (ds_send d) (nonce_of_ctr c) text)) eqn:Z1; [discriminate|].
  unfold km_get_reveal_macs in H. cbn [km_old_macs km_ours km_theirs km_our_ctr km_their_ctr km_used_macs] in H.
  destruct (negb (Nat.eqb _ 0)) eqn:M20; cbn [bind] in H; [discriminate|].
  destruct (_ && _) eqn:Z2; [discriminate|].
  destruct (all_zero (hmac_sha1 C _ _)) eqn:Z3; [discriminate|].
  injection H as <- <-. cbn [d3_ignore_unreadable d3_sender_keyid d3_receiver_keyid d3_dh_y d3_ctr
    d3_encrypted d3_authenticator d3_revealed].
  exists (ds_send d), (sender_mac_key C d), c. repeat split; auto; try apply D.
Qed.

(** ** Receiving *)

(* the five ways a receive can end without a crash *)
Inductive recv_result3 (k : key_manager) (m : data3) (auth : bytes) (rnd : N)
  : key_manager -> res bytes -> Prop :=
| rr_unauthentic e :
    (forall mk, ~ authentic3 C k m auth mk) ->
    recv_result3 k m auth rnd k (Err e)
| rr_counter mk e :
    authentic3 C k m auth mk ->
    be_val (d3_ctr m) <= be_val (km_their_ctr k) ->
    recv_result3 k m auth rnd (km_register_used_mac k mk) (Err e)
| rr_badkey mk k2 k3 e :
    authentic3 C k m auth mk ->
    be_val (km_their_ctr k) < be_val (d3_ctr m) ->
    length (d3_ctr m) = length (km_their_ctr k) ->
    k2 = mkKM (km_ours k) (km_theirs k) (km_our_ctr k) (d3_ctr m)
              (km_used_macs (km_register_used_mac k mk)) (km_old_macs k) ->
    km_acknowledge_ours C k2 (d3_receiver_keyid m) rnd = Ok k3 ->
    km_register_their_key k3 (d3_sender_keyid m + 1) (d3_dh_y m) = Err e ->
    recv_result3 k m auth rnd k3 (Err e)
| rr_accepted mk enc x y k2 k3 k4 :
    own_key3 k (d3_receiver_keyid m) x -> peer_key3 k (d3_sender_keyid m) y ->
    recv_keys3 C x y enc mk ->
    d3_authenticator m = hmac_sha1 C mk auth -> any_nonzero (d3_authenticator m) = true ->
    be_val (km_their_ctr k) < be_val (d3_ctr m) ->
    length (d3_ctr m) = length (km_their_ctr k) ->
    k2 = mkKM (km_ours k) (km_theirs k) (km_our_ctr k) (d3_ctr m)
              (km_used_macs (km_register_used_mac k mk)) (km_old_macs k) ->
    km_acknowledge_ours C k2 (d3_receiver_keyid m) rnd = Ok k3 ->
    d3_sender_keyid m <> 4294967295 ->
    km_register_their_key k3 (d3_sender_keyid m + 1) (d3_dh_y m) = Ok k4 ->
    recv_result3 k m auth rnd k4 (Ok (aes_crypt C enc (nonce_of_ctr (d3_ctr m)) (d3_encrypted m))).

Lemma kr_select_err r id e : kr_select r id = Err e ->
  id <> 0 -> ~ (id = kr_ack r \/ id = kr_ack r + 1).
Proof.
  unfold kr_select. destruct (N.eqb_spec id 0); [discriminate|].
  destruct (N.eqb_spec (kr_ack r) id); [discriminate|].
  destruct (u32_succ (kr_ack r)) eqn:U; cbn [bind]; try discriminate.
  - apply u32_succ_ok in U. destruct (N.eqb_spec a id); [discriminate|]. intros _ _. lia.
  - intros _. exfalso. now apply u32_succ_not_err in U.
Qed.
Lemma pr_select_err r id e : pr_select r id = Err e ->
  ~ (id = pr_id r \/ id + 1 = pr_id r).
Proof.
  unfold pr_select. destruct (N.eqb_spec id 0); [discriminate|].
  destruct (N.eqb_spec (pr_id r) 0); [discriminate|].
  destruct (N.eqb_spec (pr_id r - 1) id), (N.eqb_spec (pr_id r) id); cbn [orb]; try discriminate.
  intros _. lia.
Qed.

Lemma ct_compare_true a b : ct_compare a b = true <-> a = b /\ any_nonzero a = true.
Proof.
  unfold ct_compare. rewrite !andb_true_iff, bytes_eqb_eq. split; [tauto|].
  intros [-> H]. auto.
Qed.

Lemma any_nonzero_app l : any_nonzero l = true -> all_zero (l ++ repeat x00 8) = false.
Proof.
  unfold any_nonzero, all_zero. rewrite forallb_app. destruct (forallb _ l); [discriminate|reflexivity].
Qed.

Lemma km_register_used_mac_fields k mk :
  km_ours (km_register_used_mac k mk) = km_ours k /\
  km_theirs (km_register_used_mac k mk) = km_theirs k /\
  km_our_ctr (km_register_used_mac k mk) = km_our_ctr k /\
  km_their_ctr (km_register_used_mac k mk) = km_their_ctr k /\
  km_old_macs (km_register_used_mac k mk) = km_old_macs k.
Proof. unfold km_register_used_mac. destruct (existsb _ _); cbn; auto. Qed.

Lemma decrypt3_cases k m auth rnd k' r :
  decrypt3 C k m auth rnd = (k', r) -> r <> Panic -> recv_result3 k m auth rnd k' r.
Proof.
  unfold decrypt3. intros H NP.
  destruct (pr_select (km_theirs k) (d3_sender_keyid m)) as [y|e|] eqn:P; cbn [keep] in H.
  2: { injection H as <- <-. constructor. intros mk (x & y & enc & _ & (_ & W & _) & _).
       apply pr_select_err in P. contradiction. }
  2: { injection H as <- <-. contradiction. }
  apply pr_select_ok in P.
  destruct (kr_select (km_ours k) (d3_receiver_keyid m)) as [x|e|] eqn:K; cbn [keep] in H.
  2: { injection H as <- <-. constructor. intros mk (x & y' & enc & (Z & W & _) & _).
       now apply (kr_select_err _ _ _ K Z). }
  2: { injection H as <- <-. contradiction. }
  apply kr_select_ok in K.
  destruct (data_derive C _ _ _) as [d|e|] eqn:D; cbn [keep] in H.
  2: { exfalso. now apply data_derive_not_err in D. }
  2: { injection H as <- <-. contradiction. }
  apply data_derive_ok in D. destruct D as [_ D].
  destruct (ct_compare _ _) eqn:CT; cbn [of_bool keep] in H.
  2: { injection H as <- <-. constructor. intros mk (x' & y' & enc & KX & PY & RK & A & Z).
       destruct KX as (_ & _ & ->). destruct PY as (_ & _ & ->).
       destruct K as (_ & _ & ->). destruct P as (_ & _ & ->).
       destruct (recv_keys3_unique _ _ _ _ _ _ RK D) as [-> ->].
       assert (X : ct_compare (d3_authenticator m) (hmac_sha1 C (receiver_mac_key C d) auth) = true).
       { apply ct_compare_true. auto. }
       congruence. }
  apply ct_compare_true in CT. destruct CT as [CA CZ].
  assert (AU : authentic3 C k m auth (receiver_mac_key C d)).
  { exists x, y, (ds_recv d). repeat split; try apply K; try apply P; try apply D; auto. }
  set (mk := receiver_mac_key C d) in *.
  destruct (km_register_used_mac_fields k mk) as (F1 & F2 & F3 & F4 & F5).
  unfold km_verify_counter in H. rewrite F1, F2, F3, F4, F5 in H.
  destruct (ctr_verify (km_their_ctr k) (d3_ctr m)) as [c|e|] eqn:V; cbn [bind keep] in H.
  2: { injection H as <- <-. eapply rr_counter; [exact AU|]. now apply ctr_verify_err in V. }
  2: { injection H as <- <-. contradiction. }
  apply ctr_verify_ok in V. destruct V as (-> & V & L).
  assert (NZ : all_zero (nonce_of_ctr (d3_ctr m)) = false).
  { apply any_nonzero_app. unfold any_nonzero. destruct (all_zero (d3_ctr m)) eqn:Z; [|reflexivity].
    apply all_zero_be_val in Z. lia. }
  rewrite NZ in H. cbn [keep] in H.
  set (k2 := mkKM _ _ _ _ _ _) in H.
  destruct (km_acknowledge_ours C k2 (d3_receiver_keyid m) rnd) as [k3|e|] eqn:KA; cbn [keep] in H.
  2: { exfalso. unfold km_acknowledge_ours in KA. subst k2. cbn [km_ours] in KA.
       destruct (kr_acknowledge C (km_ours k) (d3_receiver_keyid m) rnd) as [[o b]|e'|] eqn:E;
         cbn [bind] in KA; [|clear KA|discriminate].
       - destruct b; [|discriminate]. unfold km_rotated in KA. destruct (negb _); discriminate.
       - unfold kr_acknowledge in E. destruct (N.eqb_spec (d3_receiver_keyid m) (kr_ack (km_ours k))); [discriminate|].
         destruct (u32_succ _) eqn:U; cbn [bind] in E; [|now apply u32_succ_not_err in U|discriminate].
         apply u32_succ_ok in U. destruct U as [-> U].
         destruct (N.eqb_spec (d3_receiver_keyid m) (kr_ack (km_ours k) + 1)).
         + unfold dh_generate in E. destruct (rnd =? 0); discriminate.
         + destruct K as (_ & [?|?] & _); contradiction. }
  2: { injection H as <- <-. contradiction. }
  destruct (u32_succ (d3_sender_keyid m)) as [n|e|] eqn:U; cbn [bind] in H.
  2: { exfalso. now apply u32_succ_not_err in U. }
  2: { cbn [keep] in H. injection H as <- <-. contradiction. }
  apply u32_succ_ok in U. destruct U as [-> U].
  destruct (km_register_their_key k3 (d3_sender_keyid m + 1) (d3_dh_y m)) as [k4|e|] eqn:R; cbn [keep] in H.
  2: { injection H as <- <-. eapply rr_badkey; eauto. }
  2: { injection H as <- <-. contradiction. }
  injection H as <- <-. eapply rr_accepted; eauto.
Qed.

(* effect of the two rotation steps on the key manager *)
Lemma km_acknowledge_cases k id rnd k' :
  km_acknowledge_ours C k id rnd = Ok k' ->
  km_theirs k' = km_theirs k /\ own_id k' = id /\
  ((id = own_id k /\ k' = k) \/
   (id = own_id k + 1 /\ rnd <> 0 /\
    kr_slot (km_ours k') id = kr_slot (km_ours k) id /\
    kr_slot (km_ours k') (id + 1) = dh_new C rnd /\
    km_our_ctr k' = COUNTER_INITIAL_VALUE /\ km_their_ctr k' = COUNTER_INITIAL_VALUE /\
    km_used_macs k' = [] /\ km_old_macs k' = km_old_macs k ++ concat (km_used_macs k))).
Proof.
  unfold km_acknowledge_ours. intros H.
  destruct (kr_acknowledge C (km_ours k) id rnd) as [[o b]| |] eqn:E; cbn [bind] in H; try discriminate.
  apply kr_acknowledge_ok in E. destruct E as [EA [(-> & E2 & ->)|(-> & E2 & RN & E3 & E4)]].
  - injection H as <-. split; [reflexivity|]. split; [exact EA|]. left. split; [exact E2|].
    destruct k; reflexivity.
  - apply km_rotated_ok in H. destruct H as [-> _]. cbn.
    split; [reflexivity|]. split; [exact EA|]. right. auto 10.
Qed.

Lemma km_register_cases k id key k' :
  km_register_their_key k id key = Ok k' ->
  km_ours k' = km_ours k /\ peer_id k' = id /\ id <> 0 /\ key <> 0 /\
  pr_slot (km_theirs k') id = key /\
  ((id = peer_id k /\ k' = k) \/
   (id = peer_id k + 1 /\
    pr_slot (km_theirs k') (peer_id k) = pr_slot (km_theirs k) (peer_id k) /\
    km_our_ctr k' = COUNTER_INITIAL_VALUE /\ km_their_ctr k' = COUNTER_INITIAL_VALUE /\
    km_used_macs k' = [] /\ km_old_macs k' = km_old_macs k ++ concat (km_used_macs k))).
Proof.
  unfold km_register_their_key. intros H.
  destruct (pr_register (km_theirs k) id key) as [[t b]| |] eqn:E; cbn [bind] in H; try discriminate.
  apply pr_register_ok in E. destruct E as (NZ & KZ & EI & ES & [(-> & E2 & ->)|(-> & E2 & E3)]).
  - injection H as <-. cbn. repeat (split; [first [reflexivity|assumption]|]). left.
    split; [exact E2|]. destruct k; reflexivity.
  - apply km_rotated_ok in H. destruct H as [-> _]. cbn.
    repeat (split; [first [reflexivity|assumption]|]). right. auto 10.
Qed.

End WithCrypto.
