(* Which secrets leave a session. *)
From Verif Require Import Base BaseLemmas Types Crypto CryptoProofs Encoding Messages Fragment
  KeyManager DataV3 DataV3Proofs Ratchet DataV4 DataV4Proofs AKE DAKE SMP SMP4 Protocol Session SpecData3 SpecData4 SpecSession
  SessionProofs SessionPartyProofs SessionInvProofs SessionSendProofs SessionRecvProofs SpecFollow FollowProofs FollowLemmas NetProofs SpecSecrecy.
From Coq Require Import Lia ZifyN ZifyNat.
Local Open Scope N_scope.

Lemma with_state_sinv s t our their st st2 : sinv s -> state_of s t = st -> party our their st -> party our their st2 -> 
  p_status st = Encrypted -> p_status st2 = Encrypted -> sinv (with_state s t st2).
Proof.
  intros SI S P P2 E E2. unfold with_state. destruct (get_inst t (se_instances s)) as [i|] eqn:G; [|exact SI].
  pose proof (sinv_party s t SI) as PS. rewrite S in PS.
  apply sinv_put; cbn [set_state in_receiver in_state].
  - exact SI.
  - eapply sinv_get; eassumption.
  - intros ->. apply sinv_state_zero in SI. rewrite SI in S. subst st. discriminate E.
  - destruct st; try discriminate E; destruct st2; try discriminate E2; cbn [party] in *; intuition congruence.
Qed.
Lemma with_state_get s t st st2 : state_of s t = st -> p_status st = Encrypted ->
  exists i, get_inst t (se_instances s) = Some i /\ in_state i = st /\ with_state s t st2 = put s t (set_state i st2).
Proof.
  unfold state_of, with_state. destruct (get_inst t (se_instances s)) as [i|]; [eauto|]. intros <-. discriminate.
Qed.
Lemma with_state_state s t st st2 : state_of s t = st -> p_status st = Encrypted -> state_of (with_state s t st2) t = st2.
Proof.
  intros S E. destruct (with_state_get s t st st2 S E) as (i & G & _ & ->).
  unfold state_of, put, with_instances. cbn [se_instances]. now rewrite get_set_same.
Qed.
Lemma with_state_carries C s t st2 p em : carries C s p em -> carries C (with_state s t st2) p em.
Proof.
  intros (b & CO & PA). exists b. split; [|exact PA]. destruct CO as [CO|(f & a & A & B & V & R & AS & M)]; [now left|]. right.
  exists f, a. unfold with_state. destruct (get_inst t (se_instances s)) as [i|] eqn:G; [|auto 7].
  cbn [put with_instances se_details se_instances]. repeat (split; [assumption|]). split; [|assumption]. rewrite <- AS. f_equal.
  unfold entry. destruct (N.eq_dec t (fr_sender f)) as [<-|NE]; [now rewrite get_set_same, G|now rewrite get_set_other].
Qed.

Lemma shown_decrypts C e s p s' out t c x em : sinv s -> receive C e s p = (s', out, Ok (UMConfidential t c x)) -> carries C s p em ->
  exists text, em_sender em = t /\ decrypts C e (state_of s t) em (state_of s' t) text.
Proof.
  intros SI H CE. pose proof (shown_enabled C _ _ _ _ _ _ _ _ H) as EN.
  apply receive_arrives in H; [|assumption|assumption|discriminate].
  inversion H as [r S R |b0 t0 o CO PA S O|b0 t0 q o CO PA S Q O EQ EQ2|vs v o r OF CH S O R
      |em' o r CA VH AL SO HA]; subst.
  - destruct R as [R|(y & R)]; discriminate.
  - destruct (q || _); discriminate.
  - destruct R as [R|(y & R & _)]; discriminate.
  - rewrite (carries_fun C _ _ _ _ CE CA) in *. destruct HA as [(_ & R & _) | [(ig & _ & _ & R & _) | (st1 & text & DE & R & _ & _ & T)]].
    + destruct R as [R|[(R & _)|(y & R)]]; discriminate.
    + destruct ig; discriminate.
    + unfold reported in R. destruct (parse_message text) as [[c' ts|c']|y|] eqn:PM; try discriminate; [|contradiction].
      destruct (existsb _ ts) eqn:EX; [destruct R as [R|[R|[R|(y & R)]]]; discriminate|].
      injection R as -> -> ->. destruct (T c' ts eq_refl EX) as [T1 _]. rewrite T1. eauto.
Qed.

(* the end *)
Lemma end_forgets C e e2 s t st s' out m s2 out2 m2 :
  end_session C e s t = (s', out, Ok m) -> end_session C e2 (with_state s t st) t = (s2, out2, Ok m2) -> s2 = s'.
Proof.
  unfold end_session, on_instance. unfold with_state. destruct (get_inst t (se_instances s)) as [i|] eqn:G; [|discriminate].
  cbn [put with_instances se_instances]. rewrite get_set_same.
  assert (R : forall d e j k o x, inst_reset C d e j = (k, o, Ok x) -> k = set_state j PPlain).
  { unfold inst_reset. intros d e0 j k o x. destruct (p_finish C (in_state j) (ev_send e0)) as [[a|]| |]; try discriminate;
      destruct (status_eqb (in_status j) Plaintext); try discriminate; try congruence.
    unfold injecting. destruct (inject _ _ _ _ _ _); try discriminate; congruence. }
  destruct (inst_reset C (se_details s) e i) as [[i1 o1] [x1| |]] eqn:E1; try discriminate. intros [= <- <- <-].
  match goal with |- match ?r with _ => _ end = _ -> _ => destruct r as [[i2 o2] [x2| |]] eqn:E2 end; try discriminate. intros [= <- <- <-].
  apply R in E1, E2. subst i1 i2. unfold put, with_instances. cbn [se_details se_instances se_tagged]. rewrite set_set. reflexivity.
Qed.

(* OTRv4 *)
Lemma encrypt4_chain C our their d f c rnd m d1 f2 c2 rnd2 m2 d2 ck : dr_next d = RECEIVER ->
  kdf C 64 USAGE_NEXT_CHAIN_KEY ck = kdf C 64 USAGE_NEXT_CHAIN_KEY (ra_chain_key (dr_sender d)) ->
  encrypt4 C our their d f c [] rnd = Ok (m, d1) -> encrypt4 C our their (with_sending d ck) f2 c2 [] rnd2 = Ok (m2, d2) -> d2 = d1.
Proof.
  intros NX CK. unfold encrypt4. cbn [with_sending dr_next dr_sender]. rewrite NX. cbn [selector_eqb bind]. cbv zeta.
  destruct (ratchet_keys C (dr_sender d)) as [[enc mac]| |]; [|discriminate..]. cbn [bind].
  match goal with |- bind ?x _ = _ -> _ => destruct x end; [|discriminate..]. cbn [bind].
  destruct (dr_rotate_sender_chainkey C d) as [d3| |] eqn:R; [|discriminate..]. cbn [bind]. intros [= _ <-].
  destruct (ratchet_keys C (dr_sender (with_sending d ck))) as [[enc2 mac2]| |]; [|discriminate..]. cbn [bind].
  match goal with |- bind ?x _ = _ -> _ => destruct x end; [|discriminate..]. cbn [bind].
  unfold dr_rotate_sender_chainkey, ratchet_rotate in *. cbn [with_sending dr_next dr_sender ra_message_id ra_chain_key dr_created dr_shared dr_root_key dr_receiver dr_i dr_pn dr_reveals] in *.
  rewrite NX in *. cbn [selector_eqb negb] in *. destruct (u32_succ (ra_message_id (dr_sender d))); [|discriminate..]. cbn [bind] in *.
  rewrite CK. congruence.
Qed.
Lemma encrypt4_rotated C our their d f c rnd pair k ck : dr_next d = SENDER ->
  encrypt4 C our their (with_sending (with_shared d pair k) ck) f c [] rnd = encrypt4 C our their d f c [] rnd.
Proof. intros NX. unfold encrypt4. cbn [with_sending with_shared dr_next]. rewrite NX. reflexivity. Qed.
Lemma encrypt4_rotated_dh C our their d f c rnd pair : dr_next d = SENDER -> (dr_i d mod 3 =? 0) = true ->
  encrypt4 C our their (with_dh d pair) f c [] rnd = encrypt4 C our their d f c [] rnd.
Proof.
  intros NX TH. unfold encrypt4. cbn [with_dh dr_next]. rewrite NX. cbn [selector_eqb]. unfold dr_collect_reveals.
  cbn [dr_created dr_shared dr_root_key dr_sender dr_receiver dr_next dr_i dr_pn dr_reveals with_dh]. unfold dr_rotate_sender. cbn [dr_created dr_shared dr_root_key dr_sender dr_receiver dr_next dr_i dr_pn dr_reveals].
  rewrite NX, TH. unfold mixed_rotate_keypairs. reflexivity.
Qed.


Lemma send4_inv C e s t our their d smp c s' out ps : state_of s t = PEnc4 our their d smp ->
  otr_disabled (de_policy (se_details s)) = false -> send C e s t c = (s', out, Ok ps) ->
  exists i m d1, get_inst t (se_instances s) = Some i /\ encrypt4 C our their d false (without_nul c) [] (ev_send e) = Ok (m, d1) /\
    s' = put s t (set_state i (PEnc4 our their d1 smp)).
Proof.
  intros S EN H. destruct (with_state_get s t _ PFin S eq_refl) as (i & G & SI & _). unfold send in H. cbv zeta in H. rewrite EN, G in H.
  unfold in_status in H. rewrite SI in H. cbn [p_status status_eqb] in H. rewrite Bool.andb_false_r in H.
  unfold inst_send in H. rewrite SI in H. cbn [p_prepare] in H. change (drop_by_value c x00) with (without_nul c) in H.
  destruct (encrypt4 C our their d false (without_nul c) [] (ev_send e)) as [[m d1]| |]; [|discriminate H..]. cbn [bind] in H.
  exists i, m, d1. split; [exact G|]. split; [reflexivity|]. cbv iota beta in H.
  match type of H with (match ?r with _ => _ end) = _ => destruct r; [|discriminate H..] end. injection H as <- _ _.
  reflexivity.
Qed.
Lemma put_with s t i st2 j : get_inst t (se_instances s) = Some i -> put (with_state s t st2) t j = put s t j.
Proof. intros G. unfold with_state. rewrite G. unfold put, with_instances. cbn [se_details se_instances se_tagged]. now rewrite set_set. Qed.

Lemma send_forgets4 C e s t our their d smp ck c s' out ps e2 c2 s2 out2 ps2 :
  state_of s t = PEnc4 our their d smp -> otr_disabled (de_policy (se_details s)) = false -> dr_next d = RECEIVER ->
  kdf C 64 USAGE_NEXT_CHAIN_KEY ck = kdf C 64 USAGE_NEXT_CHAIN_KEY (ra_chain_key (dr_sender d)) ->
  send C e s t c = (s', out, Ok ps) ->
  send C e2 (with_state s t (PEnc4 our their (with_sending d ck) smp)) t c2 = (s2, out2, Ok ps2) -> s2 = s'.
Proof.
  intros S EN NX CK H H2. destruct (send4_inv _ _ _ _ _ _ _ _ _ _ _ _ S EN H) as (i & m & d1 & G & E & ->).
  destruct (with_state_get s t _ (PEnc4 our their (with_sending d ck) smp) S eq_refl) as (i0 & G0 & _ & W).
  assert (i0 = i) as -> by congruence.
  apply (send4_inv _ _ _ _ our their (with_sending d ck) smp) in H2.
  - destruct H2 as (i2 & m2 & d2 & G2 & E2 & ->). rewrite (encrypt4_chain _ _ _ _ _ _ _ _ _ _ _ _ _ _ _ NX CK E E2).
    rewrite (put_with _ _ _ _ _ G). rewrite W in G2. unfold put, with_instances in G2. cbn [se_instances] in G2. rewrite get_set_same in G2.
    injection G2 as <-. reflexivity.
  - exact (with_state_state s t _ _ S eq_refl).
  - rewrite W. exact EN.
Qed.

Lemma send_same4 C e s t our their d smp d2 c s' out ps : state_of s t = PEnc4 our their d smp ->
  otr_disabled (de_policy (se_details s)) = false ->
  (forall x, encrypt4 C our their d2 false x [] (ev_send e) = encrypt4 C our their d false x [] (ev_send e)) ->
  send C e s t c = (s', out, Ok ps) -> send C e (with_state s t (PEnc4 our their d2 smp)) t c = (s', out, Ok ps).
Proof.
  intros S EN Q H. destruct (with_state_get s t _ (PEnc4 our their d2 smp) S eq_refl) as (i & G & SI & W). rewrite W.
  rewrite <- H. pose proof H as H0. revert H. unfold send. cbv zeta. cbn [put with_instances se_details se_instances se_tagged]. rewrite EN, G, get_set_same.
  unfold in_status. cbn [set_state in_state]. rewrite SI. cbn [p_status status_eqb]. rewrite Bool.andb_false_r.
  unfold inst_send. cbn [set_state in_state]. rewrite SI. cbn [p_prepare]. rewrite Q.
  destruct (encrypt4 C our their d false _ [] (ev_send e)) as [[m d1]| |]; [|discriminate..]. cbn [bind]. cbv iota beta.
  cbn [set_state in_receiver p_version in_state in_assembler in_ake in_dake].
  match goal with |- (match ?r with _ => _ end) = _ -> _ => destruct r eqn:R; [|discriminate..] end. intros _.
  now rewrite set_set.
Qed.

Lemma reads_fun C k m a b : reads_with4 C k m a -> reads_with4 C k m b -> b = a.
Proof.
  intros [(I & _ & ->)|(I & _ & dh & sh & -> & X & ->)] [(I' & _ & ->)|(I' & _ & dh' & sh' & -> & X' & ->)]; try lia; [reflexivity|].
  assert (sh' = sh) as -> by congruence. reflexivity.
Qed.

(* a text that was read *)
Lemma read_forgets4 C d h s t our their k smp ck e p s' out c x e2 s2 out2 c2 x2 em m ck1 ck2 :
  history C d h s -> state_of s t = PEnc4 our their k smp ->
  receive C e s p = (s', out, Ok (UMConfidential t c x)) ->
  receive C e2 (with_state s t (PEnc4 our their (with_receiving k ck) smp)) p = (s2, out2, Ok (UMConfidential t c2 x2)) ->
  ev_now e2 = ev_now e ->
  carries C s p em -> em_message em = MData4 m ->
  reads_with4 C k m ck1 -> reads_with4 C (with_receiving k ck) m ck2 ->
  kdf C 64 USAGE_NEXT_CHAIN_KEY ck2 = kdf C 64 USAGE_NEXT_CHAIN_KEY ck1 -> mac_key4 C ck2 = mac_key4 C ck1 ->
  state_of s2 t = state_of s' t.
Proof.
  intros HI S H H2 NOW CA M R1 R2 CK MK. apply history_inv in HI. destruct HI as [SI _].
  assert (SI2 : sinv (with_state s t (PEnc4 our their (with_receiving k ck) smp))).
  { eapply (with_state_sinv s t our their _ (PEnc4 our their (with_receiving k ck) smp) SI S); cbn [party p_status]; auto. }
  destruct (shown_decrypts _ _ _ _ _ _ _ _ _ _ SI H CA) as (text & SE & D).
  destruct (shown_decrypts _ _ _ _ _ _ _ _ _ _ SI2 H2 (with_state_carries _ _ _ _ _ _ CA)) as (text2 & _ & D2).
  rewrite (with_state_state s t _ _ S eq_refl) in D2. rewrite S in D. unfold decrypts in D, D2. rewrite M in D, D2. rewrite NOW in D2.
  destruct D as (_ & _ & k1 & -> & D). destruct D2 as (_ & _ & k2 & -> & D2). f_equal.
  apply decrypt4_ok in D, D2. destruct D as (a & A & _). destruct D2 as (b & B & _).
  pose proof (accepted4_reads _ _ _ _ _ _ A) as RA. pose proof (accepted4_reads _ _ _ _ _ _ B) as RB.
  rewrite (reads_fun _ _ _ _ _ R1 RA) in A. rewrite (reads_fun _ _ _ _ _ R2 RB) in B.
  destruct A as [I1 J1 K1|sh dh I1 N1 D1 T1 F1 X1 K1], B as [I2 J2 K2|sh2 dh2 I2 N2 D2 T2 F2 X2 K2]; 
    cbn [with_receiving dr_i dr_receiver ra_message_id ra_chain_key dr_shared dr_next dr_root_key dr_reveals] in *; try lia.
  - rewrite CK, MK. reflexivity.
  - subst dh dh2. assert (sh2 = sh) as -> by congruence. rewrite CK, MK. reflexivity.
Qed.

(* OTRv3 *)
Lemma even_succ n : N.even (n + 1) = negb (N.even n).
Proof. rewrite N.add_1_r, N.even_succ, <- N.negb_even. reflexivity. Qed.
Lemma decrypt3_pair C k x m auth rnd k1 text : d3_receiver_keyid m = kr_ack (km_ours k) + 1 ->
  decrypt3 C k m auth rnd = (k1, Ok text) -> decrypt3 C (with_pair k x) m auth rnd = (k1, Ok text).
Proof.
  intros ID. unfold decrypt3. cbn [with_pair km_theirs km_ours].
  assert (AK : forall r, kr_ack (kr_set r (kr_ack r) x) = kr_ack r) by (intros r; unfold kr_set; destruct (N.even _); reflexivity).
  assert (SL : forall r, kr_slot (kr_set r (kr_ack r) x) (kr_ack r + 1) = kr_slot r (kr_ack r + 1)).
  { intros r. unfold kr_slot, kr_set. rewrite even_succ. destruct (N.even (kr_ack r)); reflexivity. }
  assert (SE : kr_select (kr_set (km_ours k) (kr_ack (km_ours k)) x) (d3_receiver_keyid m) = kr_select (km_ours k) (d3_receiver_keyid m)).
  { unfold kr_select. rewrite AK, ID, SL. reflexivity. }
  rewrite SE. cbv zeta. unfold keep.
  destruct (pr_select (km_theirs k) (d3_sender_keyid m)) as [y| |]; try discriminate.
  destruct (kr_select (km_ours k) (d3_receiver_keyid m)) as [our| |]; try discriminate.
  destruct (data_derive C _ _ _) as [sec| |]; try discriminate.
  destruct (of_bool _); try discriminate.
  set (mk := receiver_mac_key C sec).
  assert (RG : km_register_used_mac (with_pair k x) mk = with_pair (km_register_used_mac k mk) x).
  { unfold km_register_used_mac. cbn [with_pair km_used_macs km_ours km_theirs km_our_ctr km_their_ctr km_old_macs].
    destruct (existsb _ _); reflexivity. }
  assert (OU : km_ours (km_register_used_mac k mk) = km_ours k) by (unfold km_register_used_mac; destruct (existsb _ _); reflexivity).
  change (mkKM (kr_set (km_ours k) (kr_ack (km_ours k)) x) (km_theirs k) (km_our_ctr k) (km_their_ctr k) (km_used_macs k) (km_old_macs k)) with (with_pair k x).
  rewrite RG. revert OU. generalize (km_register_used_mac k mk). intros k0 OU.
  unfold km_verify_counter. cbn [with_pair km_their_ctr km_ours km_theirs km_our_ctr km_used_macs km_old_macs].
  destruct (ctr_verify (km_their_ctr k0) (d3_ctr m)) as [ctr| |]; cbn [bind]; try discriminate.
  destruct (all_zero (nonce_of_ctr (d3_ctr m))); try discriminate.
  assert (AC : forall a b c l o, km_acknowledge_ours C (mkKM (kr_set (km_ours k0) (kr_ack (km_ours k0)) x) a b c l o) (d3_receiver_keyid m) rnd =
    km_acknowledge_ours C (mkKM (km_ours k0) a b c l o) (d3_receiver_keyid m) rnd).
  { intros. unfold km_acknowledge_ours. cbn [km_ours km_theirs km_our_ctr km_their_ctr km_used_macs km_old_macs]. unfold kr_acknowledge.
    rewrite AK, OU, ID. destruct (kr_ack (km_ours k) + 1 =? kr_ack (km_ours k)) eqn:Q; [lia|].
    destruct (u32_succ (kr_ack (km_ours k))) as [n| |]; cbn [bind]; try reflexivity.
    destruct (kr_ack (km_ours k) + 1 =? n); try reflexivity. destruct (dh_generate C rnd); cbn [bind]; try reflexivity.
    unfold kr_set. rewrite !even_succ, Bool.negb_involutive. destruct (N.even (kr_ack (km_ours k))); reflexivity. }
  rewrite AC. destruct (km_acknowledge_ours C _ _ rnd) as [k3| |]; try discriminate. auto.
Qed.
Lemma read_forgets3 C d h s t our their k smp pair e p s' out c x s2 out2 c2 x2 em m :
  history C d h s -> state_of s t = PEnc3 our their k smp ->
  receive C e s p = (s', out, Ok (UMConfidential t c x)) ->
  carries C s p em -> em_message em = MData m -> d3_receiver_keyid m = kr_ack (km_ours k) + 1 ->
  receive C e (with_state s t (PEnc3 our their (with_pair k pair) smp)) p = (s2, out2, Ok (UMConfidential t c2 x2)) ->
  state_of s2 t = state_of s' t.
Proof.
  intros HI S H CA M ID H2. apply history_inv in HI. destruct HI as [SI _].
  assert (SI2 : sinv (with_state s t (PEnc3 our their (with_pair k pair) smp))).
  { eapply (with_state_sinv s t our their _ (PEnc3 our their (with_pair k pair) smp) SI S); cbn [party p_status]; auto. }
  destruct (shown_decrypts _ _ _ _ _ _ _ _ _ _ SI H CA) as (text & SE & D).
  destruct (shown_decrypts _ _ _ _ _ _ _ _ _ _ SI2 H2 (with_state_carries _ _ _ _ _ _ CA)) as (text2 & _ & D2).
  rewrite (with_state_state s t _ _ S eq_refl) in D2. rewrite S in D. unfold decrypts in D, D2. rewrite M in D, D2.
  destruct D as (_ & k1 & -> & D). destruct D2 as (_ & k2 & -> & D2).
  apply (decrypt3_pair C k pair) in D; [|exact ID]. f_equal. congruence.
Qed.
