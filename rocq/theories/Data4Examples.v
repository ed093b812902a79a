(* Concrete OTRv4 sessions with the toy instance, computed step by step. *)
From Verif Require Import Base BaseLemmas Types Crypto ToyCrypto Encoding Messages KeyManager DataV3 Ratchet DataV4
  SpecCurve ToyGroup SpecData4 Data3Examples.
Local Open Scope N_scope.

Definition ex4_root : bytes := repeat x2a 64.
Definition ex4_nomix : mixed_secret := mkMixed (mkEcdh 0 pt_id) (mkDh3 0 0) pt_id 0 [] [].
Definition ex4_none : double_ratchet :=
  mkDR 0 ex4_nomix [] (mkRatchet [] 0) (mkRatchet [] 0) SENDER 0 0 [].
Definition ex4_nomsg : data4 := mkData4 false 0 0 0 pt_id None [] [] [].

(* key exchange finished *)
Definition ex4_sha : mixed_secret := Eval vm_compute in
  or_else (mixed_new toy (ecdh_of_secret toy 5) (dh3_generate toy 17)
            (ec_public (ecdh_of_secret toy 9)) (dh3_public (dh3_generate toy 29))) ex4_nomix.
Definition ex4_shb : mixed_secret := Eval vm_compute in
  or_else (mixed_new toy (ecdh_of_secret toy 9) (dh3_generate toy 29)
            (ec_public (ecdh_of_secret toy 5)) (dh3_public (dh3_generate toy 17))) ex4_nomix.
Definition ex4_a0 : double_ratchet := Eval vm_compute in dr_initialize toy SENDER ex4_sha ex4_root 100.
Definition ex4_b0 : double_ratchet := Eval vm_compute in
  or_else (dr_rotate_sender toy (dr_initialize toy RECEIVER ex4_shb ex4_root 100) (repeat x31 57) 31 100) ex4_none.

Definition ex4_rnd (n : byte) : send_rnd := mkSendRnd (repeat n 57) (b2n n) 100.
Definition ex4_send (our their : N) (k : double_ratchet) (t : bytes) (n : byte) : data4 * double_ratchet :=
  or_else (encrypt4 toy our their k false t [] (ex4_rnd n)) (ex4_nomsg, ex4_none).
Definition ex4_auth_a (m : data4) : bytes := encode_authenticator_data4 ex_ta ex_tb m.
Definition ex4_auth_b (m : data4) : bytes := encode_authenticator_data4 ex_tb ex_ta m.
Definition ex4_recv (auth : bytes) (k : double_ratchet) (m : data4) : double_ratchet :=
  fst (decrypt4 toy k m auth 100).

(* A says hi in the first ratchet, B accepts; B says yo in its own ratchet, A accepts; A answers in a
   new ratchet, twice; B accepts both *)
Definition ex4_m1 : data4 := Eval vm_compute in fst (ex4_send ex_ta ex_tb ex4_a0 ex_hi x07).
Definition ex4_a1 : double_ratchet := Eval vm_compute in snd (ex4_send ex_ta ex_tb ex4_a0 ex_hi x07).
Definition ex4_b1 : double_ratchet := Eval vm_compute in ex4_recv (ex4_auth_a ex4_m1) ex4_b0 ex4_m1.
Definition ex4_m2 : data4 := Eval vm_compute in fst (ex4_send ex_tb ex_ta ex4_b1 ex_yo x0b).
Definition ex4_b2 : double_ratchet := Eval vm_compute in snd (ex4_send ex_tb ex_ta ex4_b1 ex_yo x0b).
Definition ex4_a2 : double_ratchet := Eval vm_compute in ex4_recv (ex4_auth_b ex4_m2) ex4_a1 ex4_m2.
Definition ex4_m3 : data4 := Eval vm_compute in fst (ex4_send ex_ta ex_tb ex4_a2 ex_hi x0d).
Definition ex4_a3 : double_ratchet := Eval vm_compute in snd (ex4_send ex_ta ex_tb ex4_a2 ex_hi x0d).
Definition ex4_b3 : double_ratchet := Eval vm_compute in ex4_recv (ex4_auth_a ex4_m3) ex4_b2 ex4_m3.
Definition ex4_m4 : data4 := Eval vm_compute in fst (ex4_send ex_ta ex_tb ex4_a3 ex_yo x0d).
Definition ex4_a4 : double_ratchet := Eval vm_compute in snd (ex4_send ex_ta ex_tb ex4_a3 ex_yo x0d).
Definition ex4_b4 : double_ratchet := Eval vm_compute in ex4_recv (ex4_auth_a ex4_m4) ex4_b3 ex4_m4.

Definition ex4_c0 : conv4 := mkConv4 ex4_a0 ex4_b0 [] [].
Definition ex4_turns : list outcome4 :=
  [Sending4 true ex4_m1; Delivered4 true ex4_m1 ex_hi ex_hi;
   Sending4 false ex4_m2; Delivered4 false ex4_m2 ex_yo ex_yo;
   Sending4 true ex4_m3; Losing4 true].

Lemma ex4_start : start4 toy ex4_c0.
Proof.
  exists 5%Z, 17, 9%Z, 29, ex4_root, ex4_sha, ex4_shb, 100, 100, 100, (repeat x31 57), 31.
  split; [vm_compute; reflexivity|]. split; [vm_compute; reflexivity|]. split; [vm_compute; reflexivity|].
  split; [vm_compute; reflexivity|]. split; reflexivity.
Qed.

Lemma ex4_groups : groups_ok4 toy.
Proof. split; [exact toy_curve_ok|]. split; discriminate. Qed.

Lemma ex4_conv4 : conversation4 toy ex_ta ex_tb ex4_c0 (firstn 4 ex4_turns) (mkConv4 ex4_a2 ex4_b2 [] []).
Proof.
  apply (c4_step toy ex_ta ex_tb ex4_c0 (firstn 3 ex4_turns) (mkConv4 ex4_a1 ex4_b2 [] [(ex4_m2, ex_yo)])).
  2: { apply (s4_deliver_b toy ex_ta ex_tb (mkConv4 ex4_a1 ex4_b2 [] [(ex4_m2, ex_yo)]) ex4_m2 ex_yo [] 100);
       [reflexivity|vm_compute; reflexivity]. }
  apply (c4_step toy ex_ta ex_tb ex4_c0 (firstn 2 ex4_turns) (mkConv4 ex4_a1 ex4_b1 [] [])).
  2: { apply (s4_send_b toy ex_ta ex_tb (mkConv4 ex4_a1 ex4_b1 [] []) false ex_yo (ex4_rnd x0b)).
       vm_compute. reflexivity. }
  apply (c4_step toy ex_ta ex_tb ex4_c0 (firstn 1 ex4_turns) (mkConv4 ex4_a1 ex4_b0 [(ex4_m1, ex_hi)] [])).
  2: { apply (s4_deliver_a toy ex_ta ex_tb (mkConv4 ex4_a1 ex4_b0 [(ex4_m1, ex_hi)] []) ex4_m1 ex_hi [] 100);
       [reflexivity|vm_compute; reflexivity]. }
  apply (c4_step toy ex_ta ex_tb ex4_c0 [] ex4_c0); [constructor; exact ex4_start|].
  apply (s4_send_a toy ex_ta ex_tb ex4_c0 false ex_hi (ex4_rnd x07)). vm_compute. reflexivity.
Qed.
Lemma ex4_conv6 : conversation4 toy ex_ta ex_tb ex4_c0 ex4_turns (mkConv4 ex4_a3 ex4_b2 [] []).
Proof.
  apply (c4_step toy ex_ta ex_tb ex4_c0 (firstn 5 ex4_turns) (mkConv4 ex4_a3 ex4_b2 [(ex4_m3, ex_hi)] [])).
  2: { apply (s4_lose_a toy ex_ta ex_tb (mkConv4 ex4_a3 ex4_b2 [(ex4_m3, ex_hi)] []) (ex4_m3, ex_hi) []). reflexivity. }
  apply (c4_step toy ex_ta ex_tb ex4_c0 (firstn 4 ex4_turns) (mkConv4 ex4_a2 ex4_b2 [] [])); [exact ex4_conv4|].
  apply (s4_send_a toy ex_ta ex_tb (mkConv4 ex4_a2 ex4_b2 [] []) false ex_hi (ex4_rnd x0d)).
  vm_compute. reflexivity.
Qed.
Lemma ex4_floor : floor4 true ex4_turns.
Proof.
  apply (f4_lost true (firstn 4 ex4_turns) ex4_m3).
  apply (f4_change false (firstn 3 ex4_turns) ex4_m2 ex_yo ex_yo).
  apply (f4_delivered false (firstn 2 ex4_turns) ex4_m2 ex_yo ex_yo).
  apply (f4_change true (firstn 1 ex4_turns) ex4_m1 ex_hi ex_hi).
  apply (f4_delivered true [] ex4_m1 ex_hi ex_hi). constructor.
Qed.
(* after the loss A sends once more and B reads it *)
Lemma ex4_after_loss : encrypt4 toy ex_ta ex_tb ex4_a3 false ex_yo [] (ex4_rnd x0d) = Ok (ex4_m4, ex4_a4) /\
  d4_dh ex4_m4 <> Some (mx_public_dh (dr_shared ex4_b2)) /\
  snd (decrypt4 toy ex4_b2 ex4_m4 (ex4_auth_a ex4_m4) 100) = Ok ex_yo.
Proof. split; [vm_compute; reflexivity|]. split; [discriminate|vm_compute; reflexivity]. Qed.

(* Cross traffic, nothing lost: B says yo, A accepts and answers, while B says something more before
   that answer arrives: A refuses it. *)
Definition ex4_p1 : data4 := Eval vm_compute in fst (ex4_send ex_tb ex_ta ex4_b0 ex_yo x11).
Definition ex4_pb1 : double_ratchet := Eval vm_compute in snd (ex4_send ex_tb ex_ta ex4_b0 ex_yo x11).
Definition ex4_pa1 : double_ratchet := Eval vm_compute in ex4_recv (ex4_auth_b ex4_p1) ex4_a0 ex4_p1.
Definition ex4_q1 : data4 := Eval vm_compute in fst (ex4_send ex_ta ex_tb ex4_pa1 ex_hi x13).
Definition ex4_pa2 : double_ratchet := Eval vm_compute in snd (ex4_send ex_ta ex_tb ex4_pa1 ex_hi x13).
Definition ex4_p2 : data4 := Eval vm_compute in fst (ex4_send ex_tb ex_ta ex4_pb1 ex_hi x17).
Definition ex4_pb2 : double_ratchet := Eval vm_compute in snd (ex4_send ex_tb ex_ta ex4_pb1 ex_hi x17).
Definition ex4_cross : list outcome4 :=
  [Sending4 false ex4_p1; Delivered4 false ex4_p1 ex_yo ex_yo; Sending4 true ex4_q1;
   Sending4 false ex4_p2; Rejected4 false ex4_p2 ex_hi].
Lemma ex4_crossing4 : conversation4 toy ex_ta ex_tb ex4_c0 (firstn 4 ex4_cross)
  (mkConv4 ex4_pa2 ex4_pb2 [(ex4_q1, ex_hi)] [(ex4_p2, ex_hi)]).
Proof.
  apply (c4_step toy ex_ta ex_tb ex4_c0 (firstn 3 ex4_cross) (mkConv4 ex4_pa2 ex4_pb1 [(ex4_q1, ex_hi)] [])).
  2: { apply (s4_send_b toy ex_ta ex_tb (mkConv4 ex4_pa2 ex4_pb1 [(ex4_q1, ex_hi)] []) false ex_hi (ex4_rnd x17)).
       vm_compute. reflexivity. }
  apply (c4_step toy ex_ta ex_tb ex4_c0 (firstn 2 ex4_cross) (mkConv4 ex4_pa1 ex4_pb1 [] [])).
  2: { apply (s4_send_a toy ex_ta ex_tb (mkConv4 ex4_pa1 ex4_pb1 [] []) false ex_hi (ex4_rnd x13)).
       vm_compute. reflexivity. }
  apply (c4_step toy ex_ta ex_tb ex4_c0 (firstn 1 ex4_cross) (mkConv4 ex4_a0 ex4_pb1 [] [(ex4_p1, ex_yo)])).
  2: { apply (s4_deliver_b toy ex_ta ex_tb (mkConv4 ex4_a0 ex4_pb1 [] [(ex4_p1, ex_yo)]) ex4_p1 ex_yo [] 100);
       [reflexivity|vm_compute; reflexivity]. }
  apply (c4_step toy ex_ta ex_tb ex4_c0 [] ex4_c0); [constructor; exact ex4_start|].
  apply (s4_send_b toy ex_ta ex_tb ex4_c0 false ex_yo (ex4_rnd x11)). vm_compute. reflexivity.
Qed.
Lemma ex4_crossing : conversation4 toy ex_ta ex_tb ex4_c0 ex4_cross
  (mkConv4 ex4_pa2 ex4_pb2 [(ex4_q1, ex_hi)] []).
Proof.
  apply (c4_step toy ex_ta ex_tb ex4_c0 (firstn 4 ex4_cross)
           (mkConv4 ex4_pa2 ex4_pb2 [(ex4_q1, ex_hi)] [(ex4_p2, ex_hi)])).
  2: { apply (s4_reject_b toy ex_ta ex_tb (mkConv4 ex4_pa2 ex4_pb2 [(ex4_q1, ex_hi)] [(ex4_p2, ex_hi)])
                ex4_p2 ex_hi [] 100 ex4_pa2 UserError); [reflexivity|vm_compute; reflexivity]. }
  exact ex4_crossing4.
Qed.

(** ** One client's history: A sends, accepts, sends twice *)

Lemma ex4_starts_a : starts_sender4 toy ex4_a0.
Proof.
  exists (ecdh_of_secret toy 5), (dh3_generate toy 17), (ec_public (ecdh_of_secret toy 9)),
    (dh3_public (dh3_generate toy 29)), ex4_root, 100, ex4_sha. split; vm_compute; reflexivity.
Qed.
Lemma ex4_starts_b : starts_receiver4 toy ex4_b0.
Proof.
  exists (ecdh_of_secret toy 9), (dh3_generate toy 29), (ec_public (ecdh_of_secret toy 5)),
    (dh3_public (dh3_generate toy 17)), ex4_root, 100, ex4_shb, (repeat x31 57), 31, 100.
  split; vm_compute; reflexivity.
Qed.

(* the MAC keys of the messages that B accepts *)
Definition ex4_mac1 : bytes := Eval vm_compute in mac_key4 toy (ra_chain_key (dr_receiver ex4_b0)).
Definition ex4_ck3 : bytes := Eval vm_compute in ra_chain_key (dr_sender (or_else
  (dr_rotate_sender toy ex4_a2 (repeat x0d 57) 13 100) ex4_none)).
Definition ex4_mac3 : bytes := Eval vm_compute in mac_key4 toy ex4_ck3.
Definition ex4_ck4 : bytes := Eval vm_compute in ra_chain_key (dr_receiver ex4_b3).
Definition ex4_mac4 : bytes := Eval vm_compute in mac_key4 toy ex4_ck4.
Definition ex4_m5 : data4 := Eval vm_compute in fst (ex4_send ex_tb ex_ta ex4_b4 ex_yo x19).
Definition ex4_b5 : double_ratchet := Eval vm_compute in snd (ex4_send ex_tb ex_ta ex4_b4 ex_yo x19).

Definition ex4_hist : list event4 :=
  [Took4 ex4_m1 (ex4_auth_a ex4_m1) ex_hi ex4_mac1; Sent4 ex4_m2 ex_yo;
   Took4 ex4_m3 (ex4_auth_a ex4_m3) ex_hi ex4_mac3; Took4 ex4_m4 (ex4_auth_a ex4_m4) ex_yo ex4_mac4;
   Sent4 ex4_m5 ex_yo].
Lemma ex4_reads1 : reads_with4 toy ex4_b0 ex4_m1 (ra_chain_key (dr_receiver ex4_b0)).
Proof. left. repeat split. vm_compute. discriminate. Qed.
Lemma ex4_reads3 : reads_with4 toy ex4_b2 ex4_m3 ex4_ck3.
Proof.
  right. split; [reflexivity|]. split; [reflexivity|]. eexists. eexists. split; [reflexivity|].
  split; vm_compute; reflexivity.
Qed.
Lemma ex4_reads4 : reads_with4 toy ex4_b3 ex4_m4 ex4_ck4.
Proof. left. repeat split. vm_compute. discriminate. Qed.
Lemma ex4_run : run4 toy ex_tb ex_ta ex4_b0 ex4_hist ex4_b5.
Proof.
  apply (r4_send toy ex_tb ex_ta ex4_b0 (firstn 4 ex4_hist) ex4_b4 false ex_yo (ex4_rnd x19)); [|vm_compute; reflexivity].
  apply (r4_accept toy ex_tb ex_ta ex4_b0 (firstn 3 ex4_hist) ex4_b3 ex4_m4 (ex4_auth_a ex4_m4) 100).
  2: vm_compute; reflexivity.
  2: { exists ex4_ck4. split; [exact ex4_reads4|]. repeat apply conj; vm_compute; reflexivity. }
  apply (r4_accept toy ex_tb ex_ta ex4_b0 (firstn 2 ex4_hist) ex4_b2 ex4_m3 (ex4_auth_a ex4_m3) 100).
  2: vm_compute; reflexivity.
  2: { exists ex4_ck3. split; [exact ex4_reads3|]. repeat apply conj; vm_compute; reflexivity. }
  apply (r4_send toy ex_tb ex_ta ex4_b0 (firstn 1 ex4_hist) ex4_b1 false ex_yo (ex4_rnd x0b)); [|vm_compute; reflexivity].
  apply (r4_accept toy ex_tb ex_ta ex4_b0 [] ex4_b0 ex4_m1 (ex4_auth_a ex4_m1) 100).
  - constructor.
  - vm_compute. reflexivity.
  - eexists. split; [exact ex4_reads1|]. repeat apply conj; vm_compute; reflexivity.
Qed.
Lemma ex4_history : history4 toy ex_tb ex_ta ex4_hist ex4_b5.
Proof. exists ex4_b0. split; [right; exact ex4_starts_b|exact ex4_run]. Qed.
