(* What can be learned from a session's messages and from its state. *)
From Verif Require Import Base BaseLemmas Types Crypto CryptoProofs Encoding Messages Fragment
  KeyManager DataV3 Ratchet DataV4 AKE DAKE SMP SMP4 Protocol Session SpecSession SessionProofs SpecDeny SpecSecrecy.
From Coq Require Import Lia ZifyN ZifyNat.
Local Open Scope N_scope.

Lemma fix_len_same l : fix_len (length l) l = l.
Proof. unfold fix_len. rewrite firstn_app, Nat.sub_diag, firstn_all, firstn_O, app_nil_r. reflexivity. Qed.
Lemma byte_xor_comm x y : byte_xor x y = byte_xor y x.
Proof. unfold byte_xor. now rewrite N.lxor_comm. Qed.
Lemma xor_back a : forall b, length a = length b -> xor_bytes a (xor_bytes a b) = b.
Proof.
  induction a as [|x a IH]; intros [|y b] L; try discriminate; [reflexivity|]. cbn [xor_bytes]. injection L as L. rewrite (IH b L).
  now rewrite (byte_xor_comm x (byte_xor x y)), (byte_xor_comm x y), byte_xor_involutive.
Qed.
Lemma xor_len a b : length a = length b -> length (xor_bytes a b) = length a.
Proof. intros L. apply xor_bytes_length. now rewrite L. Qed.
Lemma crypt_len a ks : length (xor_bytes a (fix_len (length a) ks)) = length a.
Proof. apply xor_bytes_length, fix_len_length. Qed.

(* * Texts *)

Definition other_aes (C : Crypto) (key nonce stream : bytes) : bytes -> bytes -> nat -> bytes :=
  fun k n len => if bytes_eqb k key && bytes_eqb n nonce then stream else c_aes_ctr C k n len.
Definition other_chacha (C : Crypto) (key stream : bytes) : bytes -> nat -> bytes :=
  fun k len => if bytes_eqb k key then stream else c_chacha20 C k len.

Lemma other_aes_else C key nonce stream k n len : k <> key \/ n <> nonce -> other_aes C key nonce stream k n len = c_aes_ctr C k n len.
Proof.
  intros D. unfold other_aes. destruct (bytes_eqb k key) eqn:A; [|reflexivity]. destruct (bytes_eqb n nonce) eqn:B; [|reflexivity].
  apply bytes_eqb_eq in A. apply bytes_eqb_eq in B. tauto.
Qed.
Lemma other_chacha_else C key stream k len : k <> key -> other_chacha C key stream k len = c_chacha20 C k len.
Proof. intros D. unfold other_chacha. destruct (bytes_eqb k key) eqn:A; [|reflexivity]. apply bytes_eqb_eq in A. tauto. Qed.

Lemma encrypt3_hides C our their k flag c c' : length c = length c' ->
  exists key nonce ks, (forall k n len, k <> key \/ n <> nonce -> ks k n len = c_aes_ctr C k n len) /\
    encrypt3 (with_aes C ks) our their k flag c' = encrypt3 C our their k flag c.
Proof.
  intros L.
  unfold encrypt3. cbv beta zeta.
  destruct (km_take_counter k) as [[k1 ctr]| |]; [|exists ([] : bytes), ([] : bytes), (c_aes_ctr C); split; reflexivity..]. cbn [bind].
  destruct (pr_current (km_theirs k1)) as [rid rk]. destruct (kr_current (km_ours k1)) as [oid odh].
  destruct (kr_next (km_ours k1)) as [[nid ndh]| |]; [|exists ([] : bytes), ([] : bytes), (c_aes_ctr C); split; reflexivity..]. cbn [bind].
  destruct (data_derive C (dh_public odh) rk (write_mpi (km_shared_secret C k1))) as [sec| |] eqn:DD.
  2,3: exists ([] : bytes), ([] : bytes), (c_aes_ctr C); (split; [reflexivity|]);
       change (data_derive (with_aes C (c_aes_ctr C)) (dh_public odh) rk (write_mpi (km_shared_secret (with_aes C (c_aes_ctr C)) k1)))
         with (data_derive C (dh_public odh) rk (write_mpi (km_shared_secret C k1))); rewrite DD; reflexivity.
  set (ct := aes_crypt C (ds_send sec) (nonce_of_ctr ctr) c).
  assert (LC : length ct = length c') by (unfold ct, aes_crypt; rewrite crypt_len; exact L).
  exists (ds_send sec), (nonce_of_ctr ctr), (other_aes C (ds_send sec) (nonce_of_ctr ctr) (xor_bytes c' ct)).
  split; [intros; now apply other_aes_else|].
  set (C' := with_aes C _).
  change (data_derive C' (dh_public odh) rk (write_mpi (km_shared_secret C' k1)))
    with (data_derive C (dh_public odh) rk (write_mpi (km_shared_secret C k1))). rewrite DD. cbn [bind].
  assert (E : aes_crypt C' (ds_send sec) (nonce_of_ctr ctr) c' = ct).
  { unfold aes_crypt. cbn [c_aes_ctr C' with_aes]. unfold other_aes. rewrite !bytes_eqb_refl. cbn [andb].
    rewrite <- (xor_len c' ct (eq_sym LC)) at 1. rewrite fix_len_same. apply xor_back. now rewrite LC. }
  rewrite E. reflexivity.
Qed.

Lemma encrypt4_hides C our their d flag c c' rv rnd : length c = length c' ->
  exists key ks, (forall k len, k <> key -> ks k len = c_chacha20 C k len) /\
    encrypt4 (with_chacha C ks) our their d flag c' rv rnd = encrypt4 C our their d flag c rv rnd.
Proof.
  intros L.
  unfold encrypt4. cbv beta zeta.
  set (rot := fun C' : Crypto => if selector_eqb (dr_next d) SENDER
     then let '(d0, r) := dr_collect_reveals d in let* d2 := dr_rotate_sender C' d0 (sr_ecdh rnd) (sr_dh rnd) (sr_now rnd) in Ok (d2, rv ++ r)
     else Ok (d, rv)).
  change (if selector_eqb (dr_next d) SENDER then let '(d0, r) := dr_collect_reveals d in
     let* d2 := dr_rotate_sender C d0 (sr_ecdh rnd) (sr_dh rnd) (sr_now rnd) in Ok (d2, rv ++ r) else Ok (d, rv)) with (rot C).
  assert (R : forall ks, rot (with_chacha C ks) = rot C) by reflexivity.
  destruct (rot C) as [[d1 rv1]| |] eqn:RC.
  2,3: exists ([] : bytes), (c_chacha20 C); split; [reflexivity|]; match goal with |- bind ?x _ = _ => change x with (rot (with_chacha C (c_chacha20 C))) end; rewrite R; reflexivity.
  cbn [bind].
  destruct (ratchet_keys C (dr_sender d1)) as [[enc mac]| |] eqn:RK.
  2,3: exists ([] : bytes), (c_chacha20 C); split; [reflexivity|]; match goal with |- bind ?x _ = _ => change x with (rot (with_chacha C (c_chacha20 C))) end; rewrite R; cbn [bind];
    change (ratchet_keys (with_chacha C (c_chacha20 C)) (dr_sender d1)) with (ratchet_keys C (dr_sender d1)); rewrite RK; reflexivity.
  set (ct := chacha_crypt C (extract_encryption_key enc) c).
  assert (LC : length ct = length c') by (unfold ct, chacha_crypt; rewrite crypt_len; exact L).
  exists (extract_encryption_key enc), (other_chacha C (extract_encryption_key enc) (xor_bytes c' ct)).
  split; [intros; now apply other_chacha_else|].
  set (C' := with_chacha C _).
  match goal with |- bind ?x _ = _ => change x with (rot C') end. unfold C' at 1. rewrite R. cbn [bind].
  change (ratchet_keys C' (dr_sender d1)) with (ratchet_keys C (dr_sender d1)). rewrite RK. cbn [bind].
  assert (E : chacha_crypt C' (extract_encryption_key enc) c' = ct).
  { unfold chacha_crypt. cbn [c_chacha20 C' with_chacha]. unfold other_chacha. rewrite !bytes_eqb_refl.
    rewrite <- (xor_len c' ct (eq_sym LC)) at 1. rewrite fix_len_same. apply xor_back. now rewrite LC. }
  rewrite E. reflexivity.
Qed.

Lemma live s t v : conversation_version s t = Some v -> exists i, get_inst t (se_instances s) = Some i /\
  match v, in_state i with V3, PEnc3 _ _ _ _ | V4, PEnc4 _ _ _ _ => True | _, _ => False end.
Proof.
  unfold conversation_version, state_of. destruct (get_inst t (se_instances s)) as [i|]; [|discriminate].
  intros H. exists i. split; [reflexivity|]. destruct (in_state i); injection H as <- || discriminate H; exact Logic.I.
Qed.

Lemma send_hides3 C e s t c c' : otr_disabled (de_policy (se_details s)) = false -> conversation_version s t = Some V3 ->
  length (without_nul c) = length (without_nul c') ->
  exists key nonce ks, (forall k n len, k <> key \/ n <> nonce -> ks k n len = c_aes_ctr C k n len) /\
    send (with_aes C ks) e s t c' = send C e s t c.
Proof.
  intros EN CV L. destruct (live _ _ _ CV) as (i & G & ST). destruct (in_state i) as [|our their k smp| |] eqn:SI; try contradiction.
  destruct (encrypt3_hides C our their k false _ _ L) as (key & nonce & ks & KS & E). exists key, nonce, ks. split; [exact KS|].
  unfold send. cbv zeta. rewrite EN, G. unfold in_status. rewrite SI. cbn [p_status status_eqb]. rewrite Bool.andb_false_r.
  unfold inst_send. rewrite SI. cbn [p_prepare]. change (drop_by_value c x00) with (without_nul c).
  change (drop_by_value c' x00) with (without_nul c'). rewrite E. reflexivity.
Qed.
Lemma send_hides4 C e s t c c' : otr_disabled (de_policy (se_details s)) = false -> conversation_version s t = Some V4 ->
  length (without_nul c) = length (without_nul c') ->
  exists key ks, (forall k len, k <> key -> ks k len = c_chacha20 C k len) /\ send (with_chacha C ks) e s t c' = send C e s t c.
Proof.
  intros EN CV L. destruct (live _ _ _ CV) as (i & G & ST). destruct (in_state i) as [| |our their d smp|] eqn:SI; try contradiction.
  destruct (encrypt4_hides C our their d false _ _ [] (ev_send e) L) as (key & ks & KS & E). exists key, ks. split; [exact KS|].
  unfold send. cbv zeta. rewrite EN, G. unfold in_status. rewrite SI. cbn [p_status status_eqb]. rewrite Bool.andb_false_r.
  unfold inst_send. rewrite SI. cbn [p_prepare]. change (drop_by_value c x00) with (without_nul c).
  change (drop_by_value c' x00) with (without_nul c'). rewrite E. reflexivity.
Qed.

(* the text does not stay in the state *)
Lemma encrypt3_state C our their k f f' c c' m k1 m' k1' :
  encrypt3 C our their k f c = Ok (m, k1) -> encrypt3 C our their k f' c' = Ok (m', k1') -> k1 = k1'.
Proof.
  unfold encrypt3. cbv beta zeta. destruct (km_take_counter k) as [[k0 ctr]| |]; [|discriminate..]. cbn [bind].
  destruct (pr_current (km_theirs k0)) as [rid rk]. destruct (kr_current (km_ours k0)) as [oid odh].
  destruct (kr_next (km_ours k0)) as [[nid ndh]| |]; [|discriminate..]. cbn [bind].
  destruct (data_derive C (dh_public odh) rk (write_mpi (km_shared_secret C k0))) as [sec| |]; [|discriminate..]. cbn [bind].
  destruct (all_zero _); [discriminate|]. intros H H'. destruct (all_zero _) in H'; [discriminate H'|]. revert H H'.
  destruct (km_get_reveal_macs k0) as [[k2 old]| |]; [|discriminate..]. cbn [bind].
  destruct (negb (length old =? 0)%nat && all_zero old); [discriminate|].
  destruct (all_zero _); [discriminate|]. intros H H'. destruct (all_zero _) in H'; [discriminate H'|]. congruence.
Qed.
Lemma encrypt4_state C our their d f f' c c' rv rnd m d1 m' d1' :
  encrypt4 C our their d f c rv rnd = Ok (m, d1) -> encrypt4 C our their d f' c' rv rnd = Ok (m', d1') -> d1 = d1'.
Proof.
  unfold encrypt4. cbv beta zeta.
  match goal with |- bind ?x _ = _ -> _ => destruct x as [[d0 rv0]| |] end; [|discriminate..]. cbn [bind].
  destruct (ratchet_keys C (dr_sender d0)) as [[enc mac]| |]; [|discriminate..]. cbn [bind].
  match goal with |- bind ?x _ = _ -> _ => destruct x end; [|discriminate..].
  match goal with |- _ -> bind ?x _ = _ -> _ => destruct x end; [|discriminate..]. cbn [bind].
  destruct (dr_rotate_sender_chainkey C d0); [|discriminate..]. cbn [bind]. congruence.
Qed.

Lemma send_forgets C e s t c c' s1 out1 l1 s2 out2 l2 :
  send C e s t c = (s1, out1, Ok l1) -> send C e s t c' = (s2, out2, Ok l2) -> s1 = s2 /\ out1 = out2.
Proof.
  unfold send. cbv zeta. destruct (otr_disabled _); [intros [= <- <- _] [= <- <- _]; auto|].
  destruct (get_inst t (se_instances s)) as [i|]; [|discriminate].
  destruct (require_encryption _ && _).
  { destruct (query s); discriminate. }
  unfold inst_send. generalize (drop_by_value c x00), (drop_by_value c' x00). intros x x'.
  destruct (in_state i) as [|our their k smp|our their d smp|] eqn:SI; cbn [p_prepare].
  - cbn [p_status status_eqb negb].
    destruct (send_whitespace_tag _ && _ && _);
      (destruct (serialize_message _); [|discriminate..]); (destruct (serialize_message _); [|discriminate..]); cbn [bind];
      intros [= <- <- _] [= <- <- _]; auto.
  - destruct (encrypt3 C our their k false x) as [[m k1]| |] eqn:E; [|discriminate..].
    destruct (encrypt3 C our their k false x') as [[m' k1']| |] eqn:E'; [|discriminate..]. cbn [bind].
    pose proof (encrypt3_state _ _ _ _ _ _ _ _ _ _ _ _ E E') as <-. intros H H'.
    cbv iota beta in H, H'. match type of H with (match ?r with _ => _ end) = _ => destruct r; [|discriminate H..] end.
    match type of H' with (match ?r with _ => _ end) = _ => destruct r; [|discriminate H'..] end.
    injection H as <- <- _. injection H' as <- <- _. auto.
  - destruct (encrypt4 C our their d false x [] (ev_send e)) as [[m k1]| |] eqn:E; [|discriminate..].
    destruct (encrypt4 C our their d false x' [] (ev_send e)) as [[m' k1']| |] eqn:E'; [|discriminate..]. cbn [bind].
    pose proof (encrypt4_state _ _ _ _ _ _ _ _ _ _ _ _ _ _ E E') as <-. intros H H'.
    cbv iota beta in H, H'. match type of H with (match ?r with _ => _ end) = _ => destruct r; [|discriminate H..] end.
    match type of H' with (match ?r with _ => _ end) = _ => destruct r; [|discriminate H'..] end.
    injection H as <- <- _. injection H' as <- <- _. auto.
  - discriminate.
Qed.

(* * Secrets *)

Lemma smp_secret_alike C a b x y z : hashed_alike C a b -> smp_secret C x y z a = smp_secret C x y z b.
Proof.
  intros [H _]. unfold smp_secret. rewrite !app_assoc. change (x01 :: ((x ++ y) ++ z) ++ a) with ((x01 :: (x ++ y) ++ z) ++ a).
  change (x01 :: ((x ++ y) ++ z) ++ b) with ((x01 :: (x ++ y) ++ z) ++ b). now rewrite H.
Qed.
Lemma smp4_secret_alike C a b x y z : hashed_alike C a b -> smp4_secret C x y z a = smp4_secret C x y z b.
Proof.
  intros [_ H]. unfold smp4_secret, hwc, kdf. rewrite !app_assoc.
  change (x01 :: ((x ++ y) ++ z) ++ write_data a) with ((x01 :: (x ++ y) ++ z) ++ write_data a).
  change (x01 :: ((x ++ y) ++ z) ++ write_data b) with ((x01 :: (x ++ y) ++ z) ++ write_data b). 
  rewrite !(app_comm_cons _ _ USAGE_SMP_SECRET), !app_assoc. now rewrite H.
Qed.

Lemma start_smp_alike C e s t a b q : hashed_alike C a b -> start_smp C e s t a q = start_smp C e s t b q.
Proof.
  intros A. unfold start_smp, on_instance. destruct (get_inst t (se_instances s)) as [i|]; [|reflexivity].
  replace (inst_start_smp C (se_details s) e i a q) with (inst_start_smp C (se_details s) e i b q); [reflexivity|].
  unfold inst_start_smp. destruct (in_state i) as [|o0 t0 k0 s0|o0 t0 d0 s0|]; try reflexivity.
  - replace (smp_initiate C (ev_smp_host e) (ev_smp e) s0 a q) with (smp_initiate C (ev_smp_host e) (ev_smp e) s0 b q); [reflexivity|].
    unfold smp_initiate. destruct (sm_state s0); try reflexivity. destruct (host_fp _ _); try reflexivity. cbv zeta. now rewrite (smp_secret_alike C a b _ _ _ A).
  - replace (smp4_initiate C (ev_smp4 e) s0 a q) with (smp4_initiate C (ev_smp4 e) s0 b q); [reflexivity|].
    unfold smp4_initiate. now rewrite (smp4_secret_alike C a b _ _ _ A).
Qed.

Lemma smp_handle_alike C k f g rnd c t : answers_alike C f g -> smp_handle C (mkSmpHost k g) rnd c t = smp_handle C (mkSmpHost k f) rnd c t.
Proof.
  intros A. unfold smp_handle. replace (smp_dispatch C (mkSmpHost k g) rnd c t) with (smp_dispatch C (mkSmpHost k f) rnd c t); [reflexivity|].
  unfold smp_dispatch. cbv zeta. destruct (_ || _); [|reflexivity]. unfold smp_message_1.
  destruct (sm_state c); try reflexivity. destruct (smp1_question t) as [q buf]. cbn [sh_answer].
  change (host_fp C (mkSmpHost k g)) with (host_fp C (mkSmpHost k f)).
  pose proof (A q) as Q. destruct (f q) as [x|], (g q) as [y|]; try contradiction; [|reflexivity].
  destruct (host_fp C (mkSmpHost k f)) as [fp| |]; [|reflexivity..]. cbn [bind]. rewrite (smp_secret_alike C x y _ _ _ Q). reflexivity.
Qed.
Lemma smp4_handle_alike C f g rnd c t : answers_alike C f g -> smp4_handle C g rnd c t = smp4_handle C f rnd c t.
Proof.
  intros A. unfold smp4_handle. replace (smp4_dispatch C g rnd c t) with (smp4_dispatch C f rnd c t); [reflexivity|].
  unfold smp4_dispatch. cbv zeta. destruct (_ =? _); [reflexivity|]. destruct (_ =? _); [|reflexivity].
  replace (smp4_message_1 C g rnd c t) with (smp4_message_1 C f rnd c t); [reflexivity|].
  unfold smp4_message_1. destruct (s4_state c); try reflexivity. destruct (read_data (tlv_value t)) as [[q buf]| |]; try reflexivity. cbn [bind].
  pose proof (A q) as Q. destruct (f q) as [x|], (g q) as [y|]; try contradiction; [|reflexivity].
  rewrite (smp4_secret_alike C x y _ _ _ Q). reflexivity.
Qed.

Lemma data3_alike C d e g i a b m : answers_alike C (ev_answer e) g -> inst_data3 C d (with_answers e g) i a b m = inst_data3 C d e i a b m.
Proof.
  intros A. unfold inst_data3. cbv zeta. change (ev_ack (with_answers e g)) with (ev_ack e).
  destruct (p_handle3 C (in_state i) m (encode_authenticator_data a b m) (ev_ack e)) as [s r].
  destruct r as [[c l|c]| |]; [|reflexivity..]. destruct (existsb is_smp3_tlv l); [|reflexivity].
  destruct (single_smp is_smp3_tlv l) as [t| |]; [|reflexivity..]. destruct s; [reflexivity| |reflexivity..].
  change (ev_smp_host (with_answers e g)) with (mkSmpHost (sh_key (ev_smp_host e)) g). change (ev_smp (with_answers e g)) with (ev_smp e).
  rewrite (smp_handle_alike C _ (ev_answer e)) by exact A. reflexivity.
Qed.
Lemma data4_alike C d e g i a b m : answers_alike C (ev_answer e) g -> inst_data4 C d (with_answers e g) i a b m = inst_data4 C d e i a b m.
Proof.
  intros A. unfold inst_data4. cbv zeta. destruct (data4_validate C m) as [u| |]; [|reflexivity..]. change (ev_now (with_answers e g)) with (ev_now e).
  destruct (p_handle4 C (in_state i) m (encode_authenticator_data4 a b m) (ev_now e)) as [s r].
  destruct r as [[c l|c]| |]; [|reflexivity..]. destruct (existsb is_smp4_tlv l); [|reflexivity].
  destruct (single_smp is_smp4_tlv l) as [t| |]; [|reflexivity..]. destruct s; [reflexivity..| |reflexivity].
  change (ev_answer (with_answers e g)) with g. change (ev_smp4 (with_answers e g)) with (ev_smp4 e).
  rewrite (smp4_handle_alike C (ev_answer e)) by exact A. reflexivity.
Qed.
Lemma handle_alike C d e g i em : answers_alike C (ev_answer e) g -> inst_handle C d (with_answers e g) i em = inst_handle C d e i em.
Proof.
  intros A. unfold inst_handle. cbv zeta. destruct (em_version em), (em_message em);
    lazymatch goal with
    | |- inst_data3 _ _ _ _ _ _ _ = _ => now apply data3_alike
    | |- inst_data4 _ _ _ _ _ _ _ = _ => now apply data4_alike
    | _ => reflexivity
    end.
Qed.
Lemma on_entry_ext {A} s t (f g : instance -> effect instance A) : (forall i, f i = g i) -> on_entry s t f = on_entry s t g.
Proof. intros H. unfold on_entry. now rewrite H. Qed.
Lemma receive_alike C e g s p : answers_alike C (ev_answer e) g -> receive C (with_answers e g) s p = receive C e s p.
Proof.
  intros A.
  assert (RE : forall s em, receive_encoded C (with_answers e g) s em = receive_encoded C e s em).
  { intros s0 em. unfold receive_encoded. cbv zeta. destruct (em_sender em =? 0); [reflexivity|].
    destruct (verify_header (se_details s0) em) as [u| |]; [|reflexivity..]. destruct (_ || _); [reflexivity|].
    assert (H : forall i, inst_handle C (se_details s0) (with_answers e g) i em = inst_handle C (se_details s0) e i em) by (intros; now apply handle_alike).
    destruct (em_version em), (em_message em);
      lazymatch goal with
      | |- on_entry _ _ _ = _ => apply on_entry_ext; exact H
      | _ => destruct (get_inst 0 (se_instances s0)) as [z|]; [|reflexivity]
      end.
    - destruct (transfer_ake_context z) as [a|x|]; [| |reflexivity]; apply on_entry_ext; [|exact H].
      intros i. destruct (adopt_ake_context i _); [apply H|reflexivity..].
    - destruct (transfer_dake_context z) as [a|x|]; [| |reflexivity]; apply on_entry_ext; [|exact H].
      intros i. destruct (adopt_dake_context i _); [apply H|reflexivity..]. }
  assert (RM : forall s p, receive_message C (with_answers e g) s p = receive_message C e s p).
  { intros s0 p0. unfold receive_message. cbv zeta. destruct (parse C p0) as [[]| |];
      lazymatch goal with |- receive_encoded _ _ _ _ = _ => apply RE | _ => reflexivity end. }
  unfold receive. cbv zeta. destruct (otr_disabled _); [reflexivity|]. destruct (match_fragment p); [|apply RM].
  destruct (parse_fragment p) as [[f|]| |]; [|reflexivity..]. destruct (negb (verify_fragment f)); [reflexivity|]. destruct (_ && _); [reflexivity|].
  destruct (assemble _ f) as [a r]. destruct r; [|reflexivity..]. destruct (match_fragment _); [reflexivity|]. now rewrite RM.
Qed.

(* starting a comparison tells nothing about the secret *)
Lemma start_smp_blind C e s t a b q s1 out1 s2 out2 :
  start_smp C e s t a q = (s1, out1, Ok tt) -> start_smp C e s t b q = (s2, out2, Ok tt) -> out1 = out2.
Proof.
  assert (O3 : forall c c1 t1 c2 t2, smp_initiate C (ev_smp_host e) (ev_smp e) c a q = (c1, t1) ->
    smp_initiate C (ev_smp_host e) (ev_smp e) c b q = (c2, t2) -> t1 = t2).
  { unfold smp_initiate. intros c c1 t1 c2 t2. destruct (sm_state c); try congruence. destruct (host_fp C (ev_smp_host e)); cbv zeta; congruence. }
  assert (O4 : forall c c1 t1 c2 t2, smp4_initiate C (ev_smp4 e) c a q = (c1, Ok t1) ->
    smp4_initiate C (ev_smp4 e) c b q = (c2, Ok t2) -> t1 = t2).
  { unfold smp4_initiate. intros c c1 t1 c2 t2. cbv zeta. destruct (s4_status c); try congruence;
    (destruct (hash_pt C x01 _); cbn [bind]; [|congruence..]); (destruct (hash_pt C x02 _); cbn [bind]; [|congruence..]);
    (destruct (negb _); [congruence|]); (destruct (negb _); [congruence|]);
    destruct (smp4_secret C _ _ _ a); cbn [bind]; try congruence;
    destruct (smp4_secret C _ _ _ b); cbn [bind]; congruence. }
  unfold start_smp, on_instance. destruct (get_inst t (se_instances s)) as [i|]; [|discriminate].
  unfold inst_start_smp. destruct (in_state i) as [|our their k smp|our their d smp|]; try discriminate.
  - destruct (smp_initiate C (ev_smp_host e) (ev_smp e) smp a q) as [c1 t1] eqn:I1.
    destruct (smp_initiate C (ev_smp_host e) (ev_smp e) smp b q) as [c2 t2] eqn:I2.
    pose proof (O3 _ _ _ _ _ I1 I2) as <-. destruct t1 as [t1| |]; try discriminate. unfold prepare_tlv.
    destruct (write_tlv t1) as [w| |]; cbn [bind]; try discriminate. cbn [p_prepare].
    destruct (encrypt3 C our their k true (x00 :: w)) as [[m k1]| |]; cbn [bind]; try discriminate.
    destruct (inject (se_details s) e i _ _ (MData m)) as [o| |]; unfold injecting; congruence.
  - destruct (smp4_initiate C (ev_smp4 e) smp a q) as [c1 t1] eqn:I1.
    destruct (smp4_initiate C (ev_smp4 e) smp b q) as [c2 t2] eqn:I2.
    destruct t1 as [t1| |]; try discriminate. destruct t2 as [t2| |]; [|intros _; discriminate..]. pose proof (O4 _ _ _ _ _ I1 I2) as <-. unfold prepare_tlv.
    destruct (write_tlv t1) as [w| |]; cbn [bind]; try discriminate. cbn [p_prepare].
    destruct (encrypt4 C our their d true (x00 :: w) [] (ev_send e)) as [[m k1]| |]; cbn [bind]; try discriminate.
    destruct (inject (se_details s) e i _ _ (MData4 m)) as [o| |]; unfold injecting; congruence.
Qed.
