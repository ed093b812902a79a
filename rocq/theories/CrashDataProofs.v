(* When protecting and unprotecting a data message panics. *)
From Verif Require Import Base BaseLemmas Types Crypto CryptoProofs Encoding EncodingProofs ClientProfile Messages Fragment
  KeyManager KeyManagerProofs DataV3 DataV3Proofs History3Proofs Ratchet DataV4 DataV4Proofs AKE DAKE SMP SMP4 SpecWire
  SpecCurve SpecData3 SpecData4 SpecSMP SpecSMP4 SpecDAKE SpecCrash CrashProofs.
From Coq Require Import Lia ZifyN ZifyNat.
Local Open Scope N_scope.

Lemma ctr_incr_ff l : ctr_incr l = None -> l = repeat xff (length l).
Proof.
  induction l as [|b r IH]; [reflexivity|]. cbn [ctr_incr length repeat]. destruct (ctr_incr r); [discriminate|].
  destruct (byte_eqb b xff) eqn:E; [|discriminate]. apply byte_eqb_eq in E. subst b. intros _. now rewrite <- IH.
Qed.
Lemma ctr_take_panic l : ctr_take l = Panic -> l = repeat xff (length l).
Proof.
  unfold ctr_take. destruct (ctr_incr l) as [c|] eqn:E; [|intros _; now apply ctr_incr_ff].
  destruct (any_nonzero c) eqn:Z0; [discriminate|]. apply ctr_incr_some in E. destruct E as [E _].
  unfold any_nonzero in Z0. apply negb_false_iff, all_zero_be_val in Z0. lia.
Qed.
Lemma ctr_take_not_err l e : ctr_take l <> Err e.
Proof. unfold ctr_take. destruct (ctr_incr l); [|discriminate]. destruct (any_nonzero _); discriminate. Qed.
Lemma u32_succ_panic n : u32_succ n = Panic -> n = LAST32.
Proof. unfold u32_succ. destruct (N.eqb_spec n 4294967295); [auto|discriminate]. Qed.

Section WithCrypto.
Context (C : Crypto).

(** ** OTRv3 *)

Lemma acknowledge_panic k id rnd : km_mac_wf k -> km_acknowledge_ours C k id rnd = Panic ->
  (own_id k = LAST32 /\ id <> LAST32) \/ (id = own_id k + 1 /\ rnd = 0).
Proof.
  intros W. unfold km_acknowledge_ours, kr_acknowledge, own_id. destruct (N.eqb_spec id (kr_ack (km_ours k))) as [->|N0]; [discriminate|].
  destruct (u32_succ _) as [n|x|] eqn:U; cbn [bind]; [|discriminate|].
  - apply u32_succ_ok in U. destruct U as [-> _]. destruct (N.eqb_spec id (kr_ack (km_ours k) + 1)) as [->|N1]; [|discriminate].
    unfold dh_generate. destruct (N.eqb_spec rnd 0) as [->|]; [auto|]. cbn [bind].
    rewrite km_rotated_total by exact W. discriminate.
  - apply u32_succ_panic in U. intros _. left. split; [exact U|congruence].
Qed.
Lemma register_panic k id key : km_mac_wf k -> id <> 0 -> km_register_their_key k id key = Panic ->
  key = 0 \/ (peer_id k = LAST32 /\ id <> LAST32).
Proof.
  intros W NZ. unfold km_register_their_key, pr_register, peer_id. destruct (N.eqb_spec id 0); [contradiction|].
  destruct (N.eqb_spec key 0); [auto|]. destruct (N.eqb_spec (pr_id (km_theirs k)) id) as [E|N0].
  - destruct (_ =? key); discriminate.
  - destruct (u32_succ _) as [m|x|] eqn:U; cbn [bind]; [|discriminate|].
    + destruct (m =? id); [|discriminate]. cbn [bind]. rewrite km_rotated_total by exact W. discriminate.
    + apply u32_succ_panic in U. intros _. right. split; [exact U|congruence].
Qed.

Lemma decrypt3_panic k m auth rnd k' : wf3 k -> d3_sender_keyid m <> 0 -> d3_receiver_keyid m <> 0 ->
  length (d3_ctr m) = 8%nat ->
  decrypt3 C k m auth rnd = (k', Panic) -> read3_peer C k m auth \/ read3_chance C k m auth rnd.
Proof.
  intros W S R L. unfold decrypt3. intros H. unfold read3_peer, read3_chance.
  destruct (pr_select (km_theirs k) (d3_sender_keyid m)) as [y|e|] eqn:P; cbn [keep] in H; [|discriminate|].
  2: { exfalso. unfold pr_select in P. destruct (N.eqb_spec (d3_sender_keyid m) 0); [contradiction|].
       destruct (N.eqb_spec (pr_id (km_theirs k)) 0); [now apply (wf_peer k W)|]. destruct (_ || _); discriminate. }
  apply pr_select_ok in P.
  destruct (kr_select (km_ours k) (d3_receiver_keyid m)) as [x|e|] eqn:K; cbn [keep] in H; [|discriminate|].
  2: { unfold kr_select in K. destruct (N.eqb_spec (d3_receiver_keyid m) 0); [contradiction|].
       destruct (N.eqb_spec (kr_ack (km_ours k)) (d3_receiver_keyid m)); [discriminate|].
       destruct (u32_succ _) as [n1|x|] eqn:U; cbn [bind] in K; [|discriminate|].
       - destruct (n1 =? _); discriminate.
       - apply u32_succ_panic in U. left. right. left. split; [exact U|congruence]. }
  apply kr_select_ok in K.
  destruct (data_derive C _ _ _) as [d|e|] eqn:D; cbn [keep] in H; [|discriminate|].
  2: { left. left. exists x. split; [exact K|]. unfold data_derive in D. destruct (N.eqb_spec (dh_public x) y) as [->|]; [exact P|].
       destruct (_ <? _); discriminate. }
  apply data_derive_ok in D. destruct D as [_ D].
  destruct (ct_compare _ _) eqn:CT; cbn [of_bool keep] in H; [|discriminate].
  apply ct_compare_true in CT. destruct CT as [CA CZ].
  assert (AU : authentic3 C k m auth (receiver_mac_key C d)).
  { exists x, y, (ds_recv d). repeat split; try apply K; try apply P; try apply D; auto. }
  set (mk := receiver_mac_key C d) in *.
  destruct (km_register_used_mac_fields k mk) as (F1 & F2 & F3 & F4 & F5).
  unfold km_verify_counter in H. rewrite F1, F2, F3, F4, F5 in H.
  assert (LC : length (d3_ctr m) = length (km_their_ctr k)) by (rewrite L; symmetry; apply W).
  destruct (ctr_verify (km_their_ctr k) (d3_ctr m)) as [c|e|] eqn:V; cbn [bind keep] in H; [|discriminate|].
  2: { exfalso. destruct (ctr_verify_cases (km_their_ctr k) (d3_ctr m) LC) as [[_ Q]|[_ Q]]; congruence. }
  apply ctr_verify_ok in V. destruct V as (-> & V & _).
  destruct (all_zero (nonce_of_ctr (d3_ctr m))); cbn [keep] in H; [discriminate|].
  set (k2 := mkKM _ _ _ _ _ _) in H.
  assert (W2 : wf3 k2) by (apply (k2_wf k m mk); [now apply authentic3_len in AU|exact LC|exact W]).
  destruct (km_acknowledge_ours C k2 (d3_receiver_keyid m) rnd) as [k3|e|] eqn:KA; cbn [keep] in H; [|discriminate|].
  2: { apply acknowledge_panic in KA; [|apply W2]. unfold own_id in KA. cbn [km_ours k2] in KA.
       destruct KA as [KA|[KA1 KA2]]; [left; right; left; exact KA|]. right. split; [eauto|]. auto. }
  destruct (u32_succ (d3_sender_keyid m)) as [n|e|] eqn:U; cbn [bind] in H; [|discriminate|].
  2: { apply u32_succ_panic in U. left. right. right. exists mk. auto. }
  apply u32_succ_ok in U. destruct U as [-> U].
  destruct (km_register_their_key k3 (d3_sender_keyid m + 1) (d3_dh_y m)) as [k4|e|] eqn:KR; cbn [keep] in H; [discriminate|discriminate|].
  assert (W3 : wf3 k3) by (eapply acknowledge_wf; eassumption).
  apply register_panic in KR; [|apply W3|lia]. left. right. right. exists mk. split; [exact AU|].
  destruct KR as [KR|[KR1 KR2]]; [auto|]. right. exfalso.
  apply km_acknowledge_cases in KA. destruct KA as (T & _). unfold peer_id in KR1. rewrite T in KR1. cbn [k2 km_theirs] in KR1.
  unfold LAST32 in *. destruct P as (_ & [P|P] & _); [apply U; congruence|]. apply KR2. congruence.
Qed.

Lemma encrypt3_panic our their k ig text : wf3 k ->
  encrypt3 C our their k ig text = Panic -> seal3_peer k \/ seal3_chance C our their k ig text.
Proof.
  intros W. unfold encrypt3, km_take_counter. intros H. unfold seal3_peer, seal3_chance.
  destruct (ctr_take (km_our_ctr k)) as [c| |] eqn:T; cbn [bind] in H; [|discriminate|].
  2: { apply ctr_take_panic in T. left. left. rewrite T. f_equal. apply W. }
  apply ctr_take_ok in T. destruct T as [T1 T2].
  unfold pr_current, kr_current, kr_next in H. cbn [km_theirs km_ours] in H.
  destruct (u32_succ (kr_ack (km_ours k))) as [n| |] eqn:U; cbn [bind] in H; [|discriminate|].
  2: { apply u32_succ_panic in U. auto. }
  apply u32_succ_ok in U. destruct U as [-> U].
  unfold km_shared_secret, pr_current, kr_current in H. cbn [km_theirs km_ours snd] in H.
  destruct (data_derive C _ _ _) as [d| |] eqn:D; cbn [bind] in H; [|discriminate|].
  2: { left. right. right. unfold data_derive in D. destruct (N.eqb_spec (dh_public (kr_slot (km_ours k) (kr_ack (km_ours k)))) (pr_slot (km_theirs k) (pr_id (km_theirs k)))) as [E|]; [exact E|].
       destruct (_ <? _); discriminate. }
  apply data_derive_ok in D. destruct D as [D _]. right.
  assert (Q : forall b, all_zero (hmac_sha1 C (sender_mac_key C d) b) = true \/
     all_zero (aes_crypt C (ds_send d) (nonce_of_ctr c) text) = true ->
     b = encode_authenticator_data our their
           (mkData3 ig (own_id k) (peer_id k) (dh_public (kr_slot (km_ours k) (own_id k + 1))) c
              (aes_crypt C (ds_send d) (nonce_of_ctr c) text) [] []) ->
     exists enc_key mac_key ctr,
       send_keys C (kr_slot (km_ours k) (own_id k)) (pr_slot (km_theirs k) (peer_id k)) enc_key mac_key /\
       length ctr = 8%nat /\ be_val ctr = be_val (km_our_ctr k) + 1 /\
       let enc := aes_crypt C enc_key (ctr ++ repeat x00 8) text in
       let m := mkData3 ig (own_id k) (peer_id k) (dh_public (kr_slot (km_ours k) (own_id k + 1))) ctr enc [] [] in
       all_zero enc = true \/ all_zero (hmac_sha1 C mac_key (encode_authenticator_data our their m)) = true).
  { intros b Z0 ->. exists (ds_send d), (sender_mac_key C d), c. split; [exact D|]. split; [rewrite T2; apply W|].
    split; [exact T1|]. cbv zeta. tauto. }
  destruct (all_zero (aes_crypt C (ds_send d) (nonce_of_ctr c) text)) eqn:Z1; [right; apply (Q _ (or_intror eq_refl) eq_refl)|].
  unfold km_get_reveal_macs in H. cbn [km_old_macs km_ours km_theirs km_our_ctr km_their_ctr km_used_macs] in H.
  destruct (wf_macs k W) as [M _]. rewrite M in H. cbn [Nat.eqb negb bind] in H.
  destruct (Nat.eqb_spec (length (km_old_macs k)) 0) as [LE|LE]; cbn [negb andb] in H.
  - destruct (all_zero (hmac_sha1 C _ _)) eqn:Z3; [|discriminate]. right. eapply Q; [left; exact Z3|reflexivity].
  - destruct (all_zero (km_old_macs k)) eqn:Z2.
    + left. split; [|reflexivity]. intros E0. apply LE. now rewrite E0.
    + destruct (all_zero (hmac_sha1 C _ _)) eqn:Z3; [|discriminate]. right. eapply Q; [left; exact Z3|reflexivity].
Qed.

(** ** OTRv4 *)

Record ok4 (d : double_ratchet) : Prop := mkOk4 {
  o4_valid : pt_valid C (mx_public_ecdh (dr_shared d));
  o4_ecdh : pt_verify C (mx_public_ecdh (dr_shared d)) = true;
  o4_dh : dh3_verify C (mx_public_dh (dr_shared d)) = true;
  o4_mod : Nat.modulo (length (dr_reveals d)) 64 = 0%nat;
  o4_sender : dr_next d = SENDER -> dr_reveals d <> [];
  o4_receiver : dr_next d = RECEIVER -> ra_message_id (dr_sender d) <> 0 \/ dr_i d <= 1 }.

Lemma validate4_panic m : data4_validate C m = Panic -> all_zero (d4_authenticator m) = true.
Proof.
  unfold data4_validate. destruct (negb (Bool.eqb _ _)); [discriminate|].
  destruct (d4_dh m) as [v|]; [destruct (dh3_verify C v); cbn [of_bool bind]; [|discriminate]|cbn [bind]];
    (destruct (pt_verify C (d4_ecdh m)); cbn [of_bool bind]; [|discriminate];
     destruct (negb (Nat.eqb _ _)); [discriminate|];
     destruct (_ && _ && _); [discriminate|];
     destruct (all_zero _); [reflexivity|discriminate]).
Qed.

Context (GO : smp4_group C) (G0 : 0 < c_dh3_g C).

Lemma dh3_nonzero v : dh3_verify C v = true -> v <> 0.
Proof.
  unfold dh3_verify. intros H ->. apply N.ltb_lt in G0. rewrite G0 in H. discriminate.
Qed.

Lemma decrypt4_panic d m auth now d' : ok4 d -> data4_validate C m = Ok tt -> pt_valid C (d4_ecdh m) -> d4_j m <= LAST32 ->
  decrypt4 C d m auth now = (d', Panic) -> read4_peer C d m auth \/ read4_chance C d m.
Proof.
  intros W V PV J H. apply validate4_ok in V. destruct V as (V1 & V2 & V3 & V4 & _). unfold decrypt4 in H.
  destruct (speculate4 C d m now) as [s|x|] eqn:S; cbn [bind] in H; [|discriminate|].
  2: { clear H. unfold speculate4 in S. destruct (dr_i d <? d4_i m); [discriminate|].
       destruct (_ || _); [discriminate|]. destruct (N.eqb_spec (d4_i m) (dr_i d)) as [EI|]; [|discriminate].
       destruct (dr_next d) eqn:NX; cbn [selector_eqb negb] in S; [discriminate|].
       rewrite V1 in S. unfold is_some in S. rewrite Bool.eqb_reflx in S. cbn [negb] in S.
       assert (Q : forall v, dh3_verify C v = true -> (dr_i d mod 3 =? 0) = negb (v =? mx_public_dh (dr_shared d)) ->
         dr_rotate_receiver C d (d4_ecdh m) v now = Panic -> read4_peer C d m auth \/ read4_chance C d m).
       { intros v DV TH R. unfold dr_rotate_receiver in R. rewrite NX in R. cbn [selector_eqb negb] in R.
         destruct (N.eqb_spec v 0) as [Z|_]; [now apply dh3_nonzero in DV|].
         rewrite TH, Bool.eqb_reflx in R. cbn [negb] in R. rewrite <- TH in R. unfold mixed_rotate_others in R.
         rewrite TH, Bool.eqb_reflx in R. cbn [negb] in R. rewrite <- TH in R.
         destruct (mixed_next _ _ _ _ _ _ _) as [sh|x|] eqn:M in R; cbn [bind] in R; [|discriminate|].
         - destruct (u32_succ (dr_i d)) as [n|x|] eqn:U; cbn [bind] in R; try discriminate. apply u32_succ_panic in U.
           left. right. left. auto.
         - apply (mixed_next_panic C GO) in M; [|exact PV]. destruct M as [M1 M2]. right. left. split; [|exact M2].
           now apply N.eqb_neq. }
       rewrite EI in V1. destruct (d4_dh m) as [v|].
       - destruct (N.eqb_spec v (mx_public_dh (dr_shared d))) as [|NE]; [discriminate|]. apply (Q v); [now apply V2| |exact S].
         rewrite V1. destruct (N.eqb_spec v (mx_public_dh (dr_shared d))); [contradiction|reflexivity].
       - apply (Q (mx_public_dh (dr_shared d))); [apply W| |exact S]. rewrite V1, N.eqb_refl. reflexivity. }
  assert (RS : exists ck id, dr_receiver s = mkRatchet ck id /\ id <= d4_j m /\
    reads_with4 C d m (chain4 C ck (N.to_nat (d4_j m - id)))).
  { apply speculate4_ok in S. destruct S as [(I & J0 & ->)|(I & NX & TH & DH & RR)].
    - exists (ra_chain_key (dr_receiver d)), (ra_message_id (dr_receiver d)). split; [now destruct (dr_receiver d)|].
      split; [exact J0|]. left. auto.
    - apply rotate_receiver_ok in RR. destruct RR as (sh & _ & EB & X & ->). cbn [dr_receiver].
      eexists _, 0. split; [reflexivity|]. split; [lia|]. right. split; [exact I|]. split; [exact NX|].
      eexists _, sh. split; [reflexivity|]. split; [exact X|]. now rewrite N.sub_0_r. }
  destruct RS as (ck & id & RS & LE & RD). set (ck' := chain4 C ck _) in RD.
  rewrite RS in H. cbn [ra_message_id] in H.
  destruct (fast_forward_total C (N.to_nat (d4_j m - id)) s) as [s2 F]; [rewrite RS; cbn; unfold LAST32 in J; lia|].
  rewrite F in H. cbn [bind] in H. apply fast_forward_ok in F. rewrite RS in F. cbn [ra_chain_key ra_message_id] in F.
  fold ck' in F. assert (RC : dr_receiver s2 = mkRatchet ck' (d4_j m)) by (rewrite F; cbn; f_equal; lia).
  rewrite RC in H. unfold ratchet_keys at 1 in H. cbn [ra_chain_key] in H.
  destruct (all_zero ck') eqn:Z0; [right; right; eauto|]. cbn [bind] in H.
  destruct (ct_compare _ _) eqn:CT; cbn [of_bool bind] in H; [|discriminate].
  apply ct_compare_true in CT. destruct CT as [CA CZ].
  unfold dr_confirm_receiver_keys in H. rewrite RC in H. unfold ratchet_keys in H. cbn [ra_chain_key] in H. rewrite Z0 in H.
  cbn [bind] in H. unfold ratchet_rotate in H. cbn [ra_message_id] in H.
  destruct (u32_succ (d4_j m)) as [n|x|] eqn:U; cbn [bind] in H; try discriminate. apply u32_succ_panic in U.
  left. right. right. exists (mac_key4 C ck'). split; [|exact U]. exists ck'. split; [exact RD|]. split; [reflexivity|].
  split; [symmetry; exact CA|]. now rewrite <- CA.
Qed.

Lemma encrypt4_panic our their d ig text extra rnd : ok4 d -> Nat.modulo (length extra) 64 = 0%nat ->
  encrypt4 C our their d ig text extra rnd = Panic -> seal4_peer d \/ seal4_chance C our their d ig text rnd.
Proof.
  intros W ME. unfold encrypt4. intros H.
  assert (R : (exists d1 rv, sending4 C d rnd d1 /\ dr_next d1 = RECEIVER /\ Nat.modulo (length rv) 64 = 0%nat /\
      (dr_i d1 <= 1 \/ ra_message_id (dr_sender d1) <> 0 \/ rv <> []) /\
      (ra_message_id (dr_sender d1) = LAST32 -> seal4_peer d) /\
     (if selector_eqb (dr_next d) SENDER
      then let '(d, r) := dr_collect_reveals d in
           let* d := dr_rotate_sender C d (sr_ecdh rnd) (sr_dh rnd) (sr_now rnd) in Ok (d, extra ++ r)
      else Ok (d, extra)) = Ok (d1, rv)) \/ seal4_peer d \/ seal4_chance C our their d ig text rnd).
  { destruct (dr_next d) eqn:NX; cbn [selector_eqb] in *.
    - unfold dr_collect_reveals at 1 in H. unfold dr_collect_reveals at 1.
      change (mkDR (dr_created d) (dr_shared d) (dr_root_key d) (dr_sender d) (dr_receiver d) (dr_next d) (dr_i d) (dr_pn d) [])
        with (fst (dr_collect_reveals d)) in *.
      destruct (dr_rotate_sender C (fst (dr_collect_reveals d)) _ _ _) as [d1|x|] eqn:RS; cbn [bind] in *; [| |].
      + left. exists d1, (extra ++ dr_reveals d). split; [right; auto|]. pose proof RS as RS'.
        apply rotate_sender_ok in RS'. destruct RS' as (ec & sh & _ & _ & _ & -> & _). cbn [dr_next dr_sender ra_message_id].
        split; [reflexivity|]. split.
        { rewrite app_length, Nat.add_mod, ME, (o4_mod d W) by lia. reflexivity. }
        split; [right; right; intros Q; apply app_eq_nil in Q; destruct Q as [_ Q]; now apply (o4_sender d W NX)|].
        split; [discriminate|reflexivity].
      + exfalso. apply rotate_sender_not_err in RS; [exact RS|]. apply (ecdh_not_err C).
      + right. apply (rotate_sender_panic C GO) in RS; [|apply W|apply W|apply W|exact NX].
        destruct RS as [RS|[RS|RS]]; [right; left; auto|right; left; auto|left; left; auto].
    - left. exists d, extra. split; [left; auto|]. split; [exact NX|]. split; [exact ME|].
      split; [destruct (o4_receiver d W NX); auto|]. split; [intros Q; right; auto|reflexivity]. }
  destruct R as [(d1 & rv & SD & NX & MR & NE & LI & Q)|R]; [|exact R]. rewrite Q in H. cbn [bind] in H. clear Q.
  set (ck := ra_chain_key (dr_sender d1)) in *. unfold ratchet_keys in H. fold ck in H.
  assert (K : forall P : Prop, P -> (P ->
     let own := mx_ecdh (dr_shared d1) in let own_dh := mx_dh (dr_shared d1) in
     let i := dr_i d1 - 1 in
     let m := mkData4 ig (dr_pn d1) i (ra_message_id (dr_sender d1)) (ec_public own)
               (if i mod 3 =? 0 then Some (dh3_public own_dh) else None)
               (chacha_crypt C (firstn 32 (enc_key4 C ck)) text) [] [] in
     all_zero ck = true \/ pt_verify C (ec_public own) = false \/
     (i mod 3 = 0 /\ dh3_verify C (dh3_public own_dh) = false) \/
     all_zero (kdf2 C 64 USAGE_AUTHENTICATOR (mac_key4 C ck) (encode_authenticator_data4 our their m)) = true) ->
     seal4_peer d \/ seal4_chance C our their d ig text rnd).
  { intros P p F. right. right. exists d1. split; [exact SD|]. exact (F p). }
  destruct (all_zero ck) eqn:Z0; [apply (K True I); auto|]. cbn [bind] in H.
  change (kdf C 64 USAGE_MAC_KEY (kdf C 64 USAGE_MESSAGE_KEY ck)) with (mac_key4 C ck) in H.
  change (kdf C 64 USAGE_MESSAGE_KEY ck) with (enc_key4 C ck) in H.
  destruct (data4_validate C _) as [[]|x|] eqn:V in H; cbn [expect bind] in H.
  - unfold dr_rotate_sender_chainkey in H. rewrite NX in H. cbn [selector_eqb negb] in H. unfold ratchet_rotate in H.
    destruct (u32_succ _) as [n|x|] eqn:U in H; cbn [bind] in H; try discriminate. apply u32_succ_panic in U. left. auto.
  - clear H. unfold data4_validate in V. cbn [d4_i d4_j d4_dh d4_ecdh d4_revealed d4_authenticator] in V.
    assert (B : forall v : option N, v = (if (dr_i d1 - 1) mod 3 =? 0 then Some (dh3_public (mx_dh (dr_shared d1))) else None) ->
      Bool.eqb ((dr_i d1 - 1) mod 3 =? 0) (is_some v) = true)
      by (intros v ->; destruct (_ =? 0); reflexivity).
    rewrite (B _ eq_refl) in V. cbn [negb] in V. clear B.
    assert (V' : (let* _ := of_bool (pt_verify C (ec_public (mx_ecdh (dr_shared d1)))) in
       if negb (Nat.modulo (length rv) 64 =? 0)%nat then Err ProtocolViolation
       else if (0 <? dr_i d1 - 1) && (ra_message_id (dr_sender d1) =? 0) && (Nat.div (length rv) 64 =? 0)%nat then Err ProtocolViolation
       else Ok tt) <> Ok tt \/ ((dr_i d1 - 1) mod 3 = 0 /\ dh3_verify C (dh3_public (mx_dh (dr_shared d1))) = false)).
    { destruct (N.eqb_spec ((dr_i d1 - 1) mod 3) 0) as [M0|M0].
      - destruct (dh3_verify C _) eqn:DV; [|auto]. left. cbn [of_bool bind] in V.
        destruct (pt_verify _ _); cbn [of_bool bind] in *; [|discriminate]. destruct (negb _); [discriminate|].
        destruct (_ && _ && _); [discriminate|]. clear K. destruct (all_zero _) in V; discriminate V.
      - left. cbn [bind] in V.
        destruct (pt_verify _ _); cbn [of_bool bind] in *; [|discriminate]. destruct (negb _); [discriminate|].
        destruct (_ && _ && _); [discriminate|]. clear K. destruct (all_zero _) in V; discriminate V. }
    destruct V' as [V'|V']; [|apply (K _ V'); intros Q; right; right; left; exact Q].
    destruct (pt_verify C (ec_public (mx_ecdh (dr_shared d1)))) eqn:PV; [|apply (K True I); auto]. exfalso. apply V'. cbn [of_bool bind].
    rewrite MR. cbn [Nat.eqb negb]. destruct NE as [NE|[NE|NE]].
    + replace (0 <? dr_i d1 - 1) with false by (symmetry; apply N.ltb_ge; lia). reflexivity.
    + apply N.eqb_neq in NE. rewrite NE, andb_false_r. reflexivity.
    + assert (LR : (Nat.div (length rv) 64 <> 0)%nat).
      { intros Q. apply NE. apply length_zero_iff_nil. rewrite (Nat.div_mod (length rv) 64), Q, MR by lia. reflexivity. }
      apply Nat.eqb_neq in LR. now rewrite LR, andb_false_r.
  - apply validate4_panic in V. cbn [d4_authenticator] in V. apply (K _ V). intros Q. right. right. right. exact Q.
Qed.

Lemma collected_ok4 d : ok4 d -> dr_next d = RECEIVER -> ok4 (fst (dr_collect_reveals d)).
Proof. intros [A B D M S R] NX. constructor; cbn; auto. congruence. Qed.

Lemma final4_panic our their d rnd : ok4 d -> final4 C our their d rnd = Panic ->
  seal4_peer d \/ seal4_chance C our their d true DISCONNECT_CONTENT rnd.
Proof.
  intros W. unfold final4, dr_collect_reveals at 1.
  destruct (dr_next d) eqn:NX.
  - (* a new ratchet: the keys to be revealed are carried in either way *)
    intros H. replace (encrypt4 C our their _ true DISCONNECT_CONTENT (dr_reveals d) rnd)
      with (let* (m, d) := encrypt4 C our their d true DISCONNECT_CONTENT [] rnd in Ok (m, d)) in H.
    + apply encrypt4_panic with (extra := []); [exact W|reflexivity|].
      destruct (encrypt4 C our their d true DISCONNECT_CONTENT [] rnd) as [[m d1]|x|]; cbn [bind] in H; congruence.
    + unfold encrypt4. cbn [dr_next]. rewrite NX. cbn [selector_eqb]. unfold dr_collect_reveals.
      cbn [dr_created dr_shared dr_root_key dr_sender dr_receiver dr_next dr_i dr_pn dr_reveals app].
      rewrite NX, app_nil_r.
      destruct (bind (bind (dr_rotate_sender _ _ _ _ _) _) _) as [[m d1]|x|]; reflexivity.
  - intros H. rewrite <- NX in H.
    change (mkDR (dr_created d) (dr_shared d) (dr_root_key d) (dr_sender d) (dr_receiver d) (dr_next d) (dr_i d) (dr_pn d) [])
        with (fst (dr_collect_reveals d)) in H.
    apply encrypt4_panic in H; [|now apply collected_ok4|apply W].
    destruct H as [H|H]; [left; exact H|]. right.
    destruct H as [H|(d1 & [[_ ->]|[H _]] & K)]; [left; exact H| |cbn in H; congruence].
    right. exists d. split; [left; auto|]. exact K.
Qed.

Lemma decrypt4_ok4 d m auth now d' text : ok4 d -> pt_valid C (d4_ecdh m) -> decrypt4 C d m auth now = (d', Ok text) -> ok4 d'.
Proof.
  intros W PV H. apply decrypt4_ok in H. destruct H as (ck & A & _).
  assert (M : Nat.modulo (length (dr_reveals d ++ mac_key4 C ck)) 64 = 0%nat).
  { rewrite app_length. unfold mac_key4. rewrite kdf_length, Nat.add_mod, (o4_mod d W) by lia. reflexivity. }
  assert (N0 : dr_reveals d ++ mac_key4 C ck <> []).
  { intros Q. apply (f_equal (@length byte)) in Q. rewrite app_length in Q. unfold mac_key4 in Q. rewrite kdf_length in Q.
    cbn [length] in Q. lia. }
  destruct A as [I J K|sh dh I NX DH TH FR X K].
  - constructor; cbn; auto; apply W.
  - apply mixed_next_ok in X. destruct X as (X1 & X2 & _ & _ & X3 & X4 & _).
    constructor; cbn [dr_shared dr_reveals dr_next dr_sender dr_i]; rewrite ?X3, ?X4; auto. discriminate.
Qed.
Lemma encrypt4_ok4 our their d ig text extra rnd m d' : ok4 d -> encrypt4 C our their d ig text extra rnd = Ok (m, d') -> ok4 d'.
Proof.
  intros W H. apply encrypt4_ok in H. destruct H as (d1 & rv & R & NX & _ & _ & -> & _).
  destruct R as [_|d1 SN RS].
  - constructor; cbn; try apply W. intros _. left. lia.
  - apply rotate_sender_ok in RS. destruct RS as (ec & sh & _ & _ & X & -> & _).
    apply mixed_next_ok in X. destruct X as (X1 & X2 & _ & _ & X3 & X4 & _).
    constructor; cbn; rewrite ?X3, ?X4; auto; try apply W; try discriminate. intros _. left. lia.
Qed.

End WithCrypto.
