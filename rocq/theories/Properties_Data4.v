(* C21-C24: OTRv4 data messages.  Only statements, references to their proofs, and examples showing that
   the hypotheses are met. *)
From Verif Require Import Base BaseLemmas Types Crypto ToyCrypto Encoding Messages KeyManager DataV3 Ratchet DataV4
  SpecCurve ToyGroup SpecData4 DataV4Proofs History4Proofs Conv4Proofs Data3Examples Data4Examples.
From Coq Require Import Lia ZifyN ZifyNat.
Local Open Scope N_scope.

(** * C21: conversations stay in sync *)

(* Whatever the parties send, and whatever the network drops: what is delivered is what was sent. *)
Theorem C21_delivered_exactly : forall C, groups_ok4 C -> forall ta tb s0 os s a m sent got,
  conversation4 C ta tb s0 os s -> In (Delivered4 a m sent got) os -> got = sent.
Proof. intros C G ta tb s0 os s a m sent got H. exact (proj2 (conversation4_inv C G ta tb s0 os s H) a m sent got). Qed.
Print Assumptions C21_delivered_exactly.

(* Full property: every message that arrives is delivered.  Proved: it is, unless the receiver has
   since entered a later ratchet, or the fresh Diffie-Hellman key in the message equals the old one.
   Missing: these cases, see the refutation below.  A refused message changes nothing. *)
Theorem C21_arrival_partial : forall C, groups_ok4 C -> forall ta tb s0 os s a m text rest now,
  conversation4 C ta tb s0 os s -> sent_by a s = (m, text) :: rest ->
  let receiver := side (negb a) s in
  let auth := encode_authenticator_data4 (tag_of ta tb a) (tag_of ta tb (negb a)) m in
  (exists d, decrypt4 C receiver m auth now = (d, Ok text)) \/
  (d4_i m + 1 < dr_i receiver /\ decrypt4 C receiver m auth now = (receiver, Err UserError)) \/
  (d4_dh m = Some (mx_public_dh (dr_shared receiver)) /\
   decrypt4 C receiver m auth now = (receiver, Err ProtocolViolation)).
Proof. exact arrival4. Qed.
Print Assumptions C21_arrival_partial.

(* When one party speaks at a time, whatever is lost: the next message is read. *)
Theorem C21_one_speaker : forall C, groups_ok4 C -> forall ta tb s0 os s a ignore text rnd m d now,
  conversation4 C ta tb s0 os s -> floor4 a os ->
  encrypt4 C (tag_of ta tb a) (tag_of ta tb (negb a)) (side a s) ignore text [] rnd = Ok (m, d) ->
  let receiver := side (negb a) s in
  let auth := encode_authenticator_data4 (tag_of ta tb a) (tag_of ta tb (negb a)) m in
  d4_dh m <> Some (mx_public_dh (dr_shared receiver)) ->
  exists d', decrypt4 C receiver m auth now = (d', Ok text).
Proof. exact floor_delivers. Qed.
Print Assumptions C21_one_speaker.

(* The full property fails without any loss, when both speak at once. *)
Theorem C21_in_sync_refuted :
  ~ (forall C, groups_ok4 C -> forall ta tb s0 os s,
       conversation4 C ta tb s0 os s -> (forall a, ~ In (Losing4 a) os) ->
       forall a m sent, ~ In (Rejected4 a m sent) os).
Proof.
  intros H. eapply (H toy ex4_groups ex_ta ex_tb _ _ _ ex4_crossing).
  - intros a I. cbn in I. repeat (destruct I as [I|I]; [discriminate|]). exact I.
  - cbn. do 4 right. left. reflexivity.
Qed.
Print Assumptions C21_in_sync_refuted.

Example C21_ex : groups_ok4 toy /\
  conversation4 toy ex_ta ex_tb ex4_c0 ex4_turns (mkConv4 ex4_a3 ex4_b2 [] []) /\ floor4 true ex4_turns /\
  encrypt4 toy ex_ta ex_tb ex4_a3 false ex_yo [] (ex4_rnd x0d) = Ok (ex4_m4, ex4_a4) /\
  d4_dh ex4_m4 <> Some (mx_public_dh (dr_shared ex4_b2)).
Proof.
  split; [exact ex4_groups|]. split; [exact ex4_conv6|]. split; [exact ex4_floor|].
  split; apply ex4_after_loss.
Qed.
Example C21_ex_delivered : In (Delivered4 false ex4_m2 ex_yo ex_yo) ex4_turns.
Proof. cbn. do 3 right. left. reflexivity. Qed.
Example C21_ex_arrival : exists s, conversation4 toy ex_ta ex_tb ex4_c0 (firstn 4 ex4_cross) s /\
  sent_by false s = [(ex4_p2, ex_hi)] /\ sent_by true s = [(ex4_q1, ex_hi)].
Proof.
  eexists. split; [exact ex4_crossing4|]. split; reflexivity.
Qed.

(** * C22: replay *)

(* The positions (ratchet number, message number) of accepted messages strictly increase: no message is
   accepted twice. *)
Theorem C22_accepted_once : forall C our their h d h1 m1 a1 t1 k1 h2 m2 a2 t2 k2 h3,
  history4 C our their h d ->
  h = h1 ++ Took4 m1 a1 t1 k1 :: h2 ++ Took4 m2 a2 t2 k2 :: h3 -> before4 m1 m2.
Proof. exact accepted_once. Qed.
Print Assumptions C22_accepted_once.

(* A message at or before the position of an accepted one is refused without any effect. *)
Theorem C22_stale_refused : forall C our their h d h1 m1 a1 t1 k1 h2 m auth now,
  history4 C our their h d -> h = h1 ++ Took4 m1 a1 t1 k1 :: h2 ->
  ~ before4 m1 m -> decrypt4 C d m auth now = (d, Err UserError).
Proof. exact stale_refused_early. Qed.
Print Assumptions C22_stale_refused.

(* Skipped messages do not matter: any later message of the same ratchet, protected with the key of its
   position, is accepted. *)
Theorem C22_later_accepted : forall C d m1 auth1 now1 d1 t1 ck m2 auth2 now2,
  decrypt4 C d m1 auth1 now1 = (d1, Ok t1) -> reads_with4 C d m1 ck ->
  d4_i m2 = d4_i m1 -> d4_j m1 < d4_j m2 < 4294967295 ->
  let ck2 := chain4 C ck (N.to_nat (d4_j m2 - d4_j m1)) in
  all_zero ck2 = false ->
  d4_authenticator m2 = kdf2 C 64 USAGE_AUTHENTICATOR (mac_key4 C ck2) auth2 ->
  any_nonzero (d4_authenticator m2) = true ->
  exists d2, decrypt4 C d1 m2 auth2 now2
             = (d2, Ok (chacha_crypt C (firstn 32 (enc_key4 C ck2)) (d4_encrypted m2))).
Proof. exact later_accepted. Qed.
Print Assumptions C22_later_accepted.

Example C22_ex : history4 toy ex_tb ex_ta ex4_hist ex4_b5 /\
  ex4_hist = [] ++ Took4 ex4_m1 (ex4_auth_a ex4_m1) ex_hi ex4_mac1 :: [Sent4 ex4_m2 ex_yo]
             ++ Took4 ex4_m3 (ex4_auth_a ex4_m3) ex_hi ex4_mac3
             :: [Took4 ex4_m4 (ex4_auth_a ex4_m4) ex_yo ex4_mac4; Sent4 ex4_m5 ex_yo] /\
  ~ before4 ex4_m3 ex4_m1.
Proof.
  split; [exact ex4_history|]. split; [reflexivity|].
  unfold before4. change (d4_i ex4_m3) with 1. change (d4_i ex4_m1) with 0. lia.
Qed.
Example C22_ex_later :
  decrypt4 toy ex4_b2 ex4_m3 (ex4_auth_a ex4_m3) 100 = (ex4_b3, Ok ex_hi) /\
  reads_with4 toy ex4_b2 ex4_m3 ex4_ck3 /\ d4_i ex4_m4 = d4_i ex4_m3 /\
  d4_j ex4_m3 < d4_j ex4_m4 < 4294967295 /\
  let ck2 := chain4 toy ex4_ck3 (N.to_nat (d4_j ex4_m4 - d4_j ex4_m3)) in
  all_zero ck2 = false /\
  d4_authenticator ex4_m4 = kdf2 toy 64 USAGE_AUTHENTICATOR (mac_key4 toy ck2) (ex4_auth_a ex4_m4) /\
  any_nonzero (d4_authenticator ex4_m4) = true.
Proof.
  split; [vm_compute; reflexivity|]. split; [exact ex4_reads3|]. split; [reflexivity|].
  split; [split; vm_compute; reflexivity|]. repeat apply conj; vm_compute; reflexivity.
Qed.

(** * C23: unauthentic messages, OTRv4 *)

Theorem C23_v4_no_effect : forall C d m auth now d' r,
  decrypt4 C d m auth now = (d', r) -> r <> Panic -> (forall mk, ~ authentic4 C d m auth mk) ->
  d' = d /\ exists e, r = Err e.
Proof. exact unauthentic4_no_effect. Qed.
Print Assumptions C23_v4_no_effect.

(* changed ciphertext *)
Definition ex4_forged : data4 :=
  mkData4 false (d4_pn ex4_m1) (d4_i ex4_m1) (d4_j ex4_m1) (d4_ecdh ex4_m1) (d4_dh ex4_m1)
    [x00; x01] (d4_authenticator ex4_m1) [].
Example C23_v4_ex :
  decrypt4 toy ex4_b0 ex4_forged (ex4_auth_a ex4_forged) 100 = (ex4_b0, Err CryptographicViolation) /\
  forall mk, ~ authentic4 toy ex4_b0 ex4_forged (ex4_auth_a ex4_forged) mk.
Proof.
  split; [vm_compute; reflexivity|].
  intros mk (ck & R & K & A & _). destruct R as [(_ & _ & E)|(Q & _)]; [|discriminate Q].
  rewrite K, E in A. apply (f_equal (fun l => nth 0 l x00)) in A. vm_compute in A. discriminate A.
Qed.

(** * C24: revealing MAC keys *)

(* The keys revealed so far, followed by those still kept, are the MAC keys of all accepted messages,
   each once, in order; the message that ends the session reveals the rest. *)
Theorem C24_each_once : forall C our their h d,
  history4 C our their h d -> revealed4 h ++ dr_reveals d = accepted_macs4 h.
Proof. exact history4_balance. Qed.
Print Assumptions C24_each_once.

Theorem C24_rest_at_end : forall C our their h d rnd m d',
  history4 C our their h d -> final4 C our their d rnd = Ok (m, d') ->
  revealed4 h ++ d4_revealed m = accepted_macs4 h.
Proof. exact final_balance. Qed.
Print Assumptions C24_rest_at_end.

(* Keys are revealed only in the first message of a ratchet ... *)
Theorem C24_first_of_ratchet : forall C our their h d m text,
  history4 C our their h d -> In (Sent4 m text) h -> d4_revealed m <> [] -> d4_j m = 0.
Proof. exact reveals_first. Qed.
Print Assumptions C24_first_of_ratchet.

(* ... and then no message of the ratchets whose keys were revealed is accepted any more. *)
Theorem C24_retired : forall C our their h d h1 m text h2 m1 a1 t1 k1 m2 a2 t2 k2,
  history4 C our their h d -> h = h1 ++ Sent4 m text :: h2 -> d4_revealed m <> [] ->
  In (Took4 m1 a1 t1 k1) h1 -> In (Took4 m2 a2 t2 k2) h2 -> d4_i m1 < d4_i m2.
Proof. exact revealed_retired. Qed.
Print Assumptions C24_retired.

Example C24_ex : history4 toy ex_tb ex_ta ex4_hist ex4_b5 /\
  d4_revealed ex4_m5 = ex4_mac1 ++ ex4_mac3 ++ ex4_mac4 /\ d4_revealed ex4_m2 = [] /\
  exists d, history4 toy ex_tb ex_ta [Took4 ex4_m1 (ex4_auth_a ex4_m1) ex_hi ex4_mac1] d /\
    dr_reveals d = ex4_mac1 /\ exists m d', final4 toy ex_tb ex_ta d (ex4_rnd x19) = Ok (m, d').
Proof.
  split; [exact ex4_history|]. split; [vm_compute; reflexivity|]. split; [reflexivity|].
  exists ex4_b1. split.
  - exists ex4_b0. split; [right; exact ex4_starts_b|].
    apply (r4_accept toy ex_tb ex_ta ex4_b0 [] ex4_b0 ex4_m1 (ex4_auth_a ex4_m1) 100);
      [constructor|vm_compute; reflexivity|].
    eexists. split; [exact ex4_reads1|]. repeat apply conj; vm_compute; reflexivity.
  - split; [reflexivity|]. eexists. eexists. vm_compute. reflexivity.
Qed.
(* an accepted message after a revealing one *)
Definition ex4_m6 : data4 := Eval vm_compute in
  fst (ex4_send ex_ta ex_tb (ex4_recv (ex4_auth_b ex4_m5) ex4_a4 ex4_m5) ex_hi x1d).
Example C24_ex_retired : d4_revealed ex4_m5 <> [] /\ d4_j ex4_m5 = 0 /\
  snd (decrypt4 toy ex4_b5 ex4_m6 (ex4_auth_a ex4_m6) 100) = Ok ex_hi.
Proof. split; [discriminate|]. split; [reflexivity|vm_compute; reflexivity]. Qed.
