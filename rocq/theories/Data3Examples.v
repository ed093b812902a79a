(* A concrete OTRv3 session with the toy instance, computed step by step. *)
From Verif Require Import Base Types Crypto ToyCrypto Encoding Messages KeyManager DataV3 SpecData3.
Local Open Scope N_scope.

Definition ex_ta : N := 256.
Definition ex_tb : N := 257.
Definition ex_hi : bytes := [x68; x69].
Definition ex_yo : bytes := [x79; x6f; x21].

Definition or_else {A} (r : res A) (d : A) : A := match r with Ok a => a | _ => d end.
Definition ex_none : key_manager :=
  mkKM (mkKR (mkDh 0 0) (mkDh 0 0) 0) (mkPR 0 0 0) [] [] [] [].
Definition ex_nomsg : data3 := mkData3 false 0 0 0 [] [] [] [].

(* key exchange finished *)
Definition ex_a0 : key_manager := Eval vm_compute in
  or_else (km_new toy 1 (dh_new toy 17) 1 (dh_public (dh_new toy 29)) 5 7) ex_none.
Definition ex_b0 : key_manager := Eval vm_compute in
  or_else (km_new toy 1 (dh_new toy 29) 1 (dh_public (dh_new toy 17)) 11 13) ex_none.

Definition ex_send (our their : N) (k : key_manager) (t : bytes) : data3 * key_manager :=
  or_else (encrypt3 toy our their k false t) (ex_nomsg, ex_none).
Definition ex_recv (from to : N) (k : key_manager) (m : data3) (rnd : N) : key_manager :=
  fst (decrypt3 toy k m (encode_authenticator_data from to m) rnd).

(* A says hi; B accepts *)
Definition ex_m1 : data3 := Eval vm_compute in fst (ex_send ex_ta ex_tb ex_a0 ex_hi).
Definition ex_a1 : key_manager := Eval vm_compute in snd (ex_send ex_ta ex_tb ex_a0 ex_hi).
Definition ex_b1 : key_manager := Eval vm_compute in ex_recv ex_ta ex_tb ex_b0 ex_m1 19.
(* B says yo; A accepts, both of A's keys rotate *)
Definition ex_m2 : data3 := Eval vm_compute in fst (ex_send ex_tb ex_ta ex_b1 ex_yo).
Definition ex_b2 : key_manager := Eval vm_compute in snd (ex_send ex_tb ex_ta ex_b1 ex_yo).
Definition ex_a2 : key_manager := Eval vm_compute in ex_recv ex_tb ex_ta ex_a1 ex_m2 23.

(* A answers, revealing the key that verified B's message *)
Definition ex_m3 : data3 := Eval vm_compute in fst (ex_send ex_ta ex_tb ex_a2 ex_hi).
Definition ex_a3 : key_manager := Eval vm_compute in snd (ex_send ex_ta ex_tb ex_a2 ex_hi).
(* B's message arrives at A a second time *)
Definition ex_a4 : key_manager := Eval vm_compute in ex_recv ex_tb ex_ta ex_a3 ex_m2 31.
(* B goes on: another round; the first of two messages is lost (it would be refused: the repeated
   message has used up its counter) *)
Definition ex_b3 : key_manager := Eval vm_compute in ex_recv ex_ta ex_tb ex_b2 ex_m3 37.
Definition ex_b3' : key_manager := Eval vm_compute in snd (ex_send ex_tb ex_ta ex_b3 ex_yo).
Definition ex_m4 : data3 := Eval vm_compute in fst (ex_send ex_tb ex_ta ex_b3' ex_yo).
Definition ex_a5 : key_manager := Eval vm_compute in ex_recv ex_tb ex_ta ex_a4 ex_m4 41.
Definition ex_m5 : data3 := Eval vm_compute in fst (ex_send ex_ta ex_tb ex_a5 ex_hi).
Definition ex_a6 : key_manager := Eval vm_compute in snd (ex_send ex_ta ex_tb ex_a5 ex_hi).

Definition ex_auth_b (m : data3) : bytes := encode_authenticator_data ex_tb ex_ta m.

Definition ex_run : list event3 :=
  [Sent3 ex_m1 ex_hi; Got3 ex_m2 (ex_auth_b ex_m2) (Some ex_yo); Sent3 ex_m3 ex_hi;
   Got3 ex_m2 (ex_auth_b ex_m2) (Some ex_yo); Got3 ex_m4 (ex_auth_b ex_m4) (Some ex_yo); Sent3 ex_m5 ex_hi].

Lemma ex_start : km_new toy 1 (dh_new toy 17) 1 (dh_public (dh_new toy 29)) 5 7 = Ok ex_a0.
Proof. vm_compute. reflexivity. Qed.
Lemma ex_run3_2 : run3 toy ex_ta ex_tb ex_a0 [Sent3 ex_m1 ex_hi] ex_a1.
Proof. apply (r3_send toy ex_ta ex_tb ex_a0 [] ex_a0 false ex_hi); [constructor|vm_compute; reflexivity]. Qed.
Lemma ex_accept2 : decrypt3 toy ex_a1 ex_m2 (ex_auth_b ex_m2) 23 = (ex_a2, Ok ex_yo).
Proof. vm_compute. reflexivity. Qed.
Lemma ex_reply3 : encrypt3 toy ex_ta ex_tb ex_a2 false ex_hi = Ok (ex_m3, ex_a3).
Proof. vm_compute. reflexivity. Qed.
Lemma ex_accept2_again : decrypt3 toy ex_a3 ex_m2 (ex_auth_b ex_m2) 31 = (ex_a4, Ok ex_yo).
Proof. vm_compute. reflexivity. Qed.
Lemma ex_run3 : run3 toy ex_ta ex_tb ex_a0 ex_run ex_a6.
Proof.
  apply (r3_send toy ex_ta ex_tb ex_a0 (firstn 5 ex_run) ex_a5 false ex_hi); [|vm_compute; reflexivity].
  apply (r3_accept toy ex_ta ex_tb ex_a0 (firstn 4 ex_run) ex_a4 _ _ 41); [|vm_compute; reflexivity].
  apply (r3_accept toy ex_ta ex_tb ex_a0 (firstn 3 ex_run) ex_a3 _ _ 31); [|exact ex_accept2_again].
  apply (r3_send toy ex_ta ex_tb ex_a0 (firstn 2 ex_run) ex_a2 false ex_hi); [|exact ex_reply3].
  apply (r3_accept toy ex_ta ex_tb ex_a0 (firstn 1 ex_run) ex_a1 _ _ 23); [|exact ex_accept2].
  exact ex_run3_2.
Qed.
Lemma ex_history : history3 toy ex_ta ex_tb ex_run ex_a6.
Proof. exists 1, (dh_new toy 17), 1, (dh_public (dh_new toy 29)), 5, 7, ex_a0. split; [exact ex_start|exact ex_run3]. Qed.
Lemma ex_history1 : history3 toy ex_ta ex_tb [Sent3 ex_m1 ex_hi] ex_a1.
Proof. exists 1, (dh_new toy 17), 1, (dh_public (dh_new toy 29)), 5, 7, ex_a0. split; [exact ex_start|exact ex_run3_2]. Qed.

(* The key that verified B's message; A reveals it twice. *)
Definition ex_mac : bytes := Eval vm_compute in d3_revealed ex_m3.
Definition ex_mac2 : bytes := Eval vm_compute in skipn 20 (d3_revealed ex_m5).
Lemma ex_revealed_twice : reveals3 ex_m3 [ex_mac] /\ reveals3 ex_m5 [ex_mac; ex_mac2].
Proof. split; (split; [vm_compute; reflexivity|repeat constructor]). Qed.

(** A conversation without losses in which a message is refused: A sends twice, B answers, A sends. *)
Definition ex_p1 : data3 := ex_m1.
Definition ex_p2 : data3 := Eval vm_compute in fst (ex_send ex_ta ex_tb ex_a1 ex_yo).
Definition ex_ca2 : key_manager := Eval vm_compute in snd (ex_send ex_ta ex_tb ex_a1 ex_yo).
Definition ex_cb2 : key_manager := Eval vm_compute in ex_recv ex_ta ex_tb ex_b1 ex_p2 43.
Definition ex_r1 : data3 := Eval vm_compute in fst (ex_send ex_tb ex_ta ex_cb2 ex_yo).
Definition ex_cb3 : key_manager := Eval vm_compute in snd (ex_send ex_tb ex_ta ex_cb2 ex_yo).
Definition ex_ca3 : key_manager := Eval vm_compute in ex_recv ex_tb ex_ta ex_ca2 ex_r1 47.
Definition ex_p3 : data3 := Eval vm_compute in fst (ex_send ex_ta ex_tb ex_ca3 ex_hi).
Definition ex_ca4 : key_manager := Eval vm_compute in snd (ex_send ex_ta ex_tb ex_ca3 ex_hi).
Definition ex_cb4 : key_manager := Eval vm_compute in ex_recv ex_ta ex_tb ex_cb3 ex_p3 53.

Definition ex_conv : list outcome3 :=
  [Sending true ex_p1; Sending true ex_p2; Delivered true ex_p1 ex_hi ex_hi;
   Delivered true ex_p2 ex_yo ex_yo; Sending false ex_r1; Delivered false ex_r1 ex_yo ex_yo;
   Sending true ex_p3; Rejected true ex_p3 ex_hi].
Definition ex_c0 : conv3 := mkConv3 ex_a0 ex_b0 [] [].

Lemma ex_start3 : start3 toy ex_c0.
Proof. exists 17, 29, 5, 7, 11, 13. repeat apply conj; vm_compute; reflexivity. Qed.

Lemma ex_conversation : conversation3 toy ex_ta ex_tb ex_c0 ex_conv (mkConv3 ex_ca4 ex_cb4 [] []).
Proof.
  apply (c3_step toy ex_ta ex_tb ex_c0 (firstn 7 ex_conv) (mkConv3 ex_ca4 ex_cb3 [(ex_p3, ex_hi)] [])).
  2: { apply (s3_reject_a toy ex_ta ex_tb (mkConv3 ex_ca4 ex_cb3 [(ex_p3, ex_hi)] []) ex_p3 ex_hi [] 53 ex_cb4 ProtocolViolation);
       [reflexivity|vm_compute; reflexivity]. }
  apply (c3_step toy ex_ta ex_tb ex_c0 (firstn 6 ex_conv) (mkConv3 ex_ca3 ex_cb3 [] [])).
  2: { apply (s3_send_a toy ex_ta ex_tb (mkConv3 ex_ca3 ex_cb3 [] []) false ex_hi). vm_compute. reflexivity. }
  apply (c3_step toy ex_ta ex_tb ex_c0 (firstn 5 ex_conv) (mkConv3 ex_ca2 ex_cb3 [] [(ex_r1, ex_yo)])).
  2: { apply (s3_deliver_b toy ex_ta ex_tb (mkConv3 ex_ca2 ex_cb3 [] [(ex_r1, ex_yo)]) ex_r1 ex_yo [] 47);
       [reflexivity|vm_compute; reflexivity]. }
  apply (c3_step toy ex_ta ex_tb ex_c0 (firstn 4 ex_conv) (mkConv3 ex_ca2 ex_cb2 [] [])).
  2: { apply (s3_send_b toy ex_ta ex_tb (mkConv3 ex_ca2 ex_cb2 [] []) false ex_yo). vm_compute. reflexivity. }
  apply (c3_step toy ex_ta ex_tb ex_c0 (firstn 3 ex_conv) (mkConv3 ex_ca2 ex_b1 [(ex_p2, ex_yo)] [])).
  2: { apply (s3_deliver_a toy ex_ta ex_tb (mkConv3 ex_ca2 ex_b1 [(ex_p2, ex_yo)] []) ex_p2 ex_yo [] 43);
       [reflexivity|vm_compute; reflexivity]. }
  apply (c3_step toy ex_ta ex_tb ex_c0 (firstn 2 ex_conv) (mkConv3 ex_ca2 ex_b0 [(ex_p1, ex_hi); (ex_p2, ex_yo)] [])).
  2: { apply (s3_deliver_a toy ex_ta ex_tb (mkConv3 ex_ca2 ex_b0 [(ex_p1, ex_hi); (ex_p2, ex_yo)] []) ex_p1 ex_hi [(ex_p2, ex_yo)] 19);
       [reflexivity|vm_compute; reflexivity]. }
  apply (c3_step toy ex_ta ex_tb ex_c0 (firstn 1 ex_conv) (mkConv3 ex_a1 ex_b0 [(ex_p1, ex_hi)] [])).
  2: { apply (s3_send_a toy ex_ta ex_tb (mkConv3 ex_a1 ex_b0 [(ex_p1, ex_hi)] []) false ex_yo). vm_compute. reflexivity. }
  apply (c3_step toy ex_ta ex_tb ex_c0 [] ex_c0).
  2: { apply (s3_send_a toy ex_ta ex_tb ex_c0 false ex_hi). vm_compute. reflexivity. }
  apply c3_nil. exact ex_start3.
Qed.

(* taking turns: A, B, A *)
Definition ex_turns : list outcome3 :=
  [Sending true ex_m1; Delivered true ex_m1 ex_hi ex_hi; Sending false ex_m2; Delivered false ex_m2 ex_yo ex_yo;
   Sending true ex_m3; Delivered true ex_m3 ex_hi ex_hi].
Lemma ex_turns3 : turns3 false ex_turns.
Proof.
  apply (t3_delivered true (firstn 4 ex_turns) ex_m3 ex_hi ex_hi).
  apply (t3_delivered false (firstn 2 ex_turns) ex_m2 ex_yo ex_yo).
  apply (t3_delivered true [] ex_m1 ex_hi ex_hi). constructor.
Qed.
Lemma ex_turns_conversation : conversation3 toy ex_ta ex_tb ex_c0 ex_turns (mkConv3 ex_a3 ex_b3 [] []).
Proof.
  apply (c3_step toy ex_ta ex_tb ex_c0 (firstn 5 ex_turns) (mkConv3 ex_a3 ex_b2 [(ex_m3, ex_hi)] [])).
  2: { apply (s3_deliver_a toy ex_ta ex_tb (mkConv3 ex_a3 ex_b2 [(ex_m3, ex_hi)] []) ex_m3 ex_hi [] 37);
       [reflexivity|vm_compute; reflexivity]. }
  apply (c3_step toy ex_ta ex_tb ex_c0 (firstn 4 ex_turns) (mkConv3 ex_a2 ex_b2 [] [])).
  2: { apply (s3_send_a toy ex_ta ex_tb (mkConv3 ex_a2 ex_b2 [] []) false ex_hi). vm_compute. reflexivity. }
  apply (c3_step toy ex_ta ex_tb ex_c0 (firstn 3 ex_turns) (mkConv3 ex_a1 ex_b2 [] [(ex_m2, ex_yo)])).
  2: { apply (s3_deliver_b toy ex_ta ex_tb (mkConv3 ex_a1 ex_b2 [] [(ex_m2, ex_yo)]) ex_m2 ex_yo [] 23);
       [reflexivity|vm_compute; reflexivity]. }
  apply (c3_step toy ex_ta ex_tb ex_c0 (firstn 2 ex_turns) (mkConv3 ex_a1 ex_b1 [] [])).
  2: { apply (s3_send_b toy ex_ta ex_tb (mkConv3 ex_a1 ex_b1 [] []) false ex_yo). vm_compute. reflexivity. }
  apply (c3_step toy ex_ta ex_tb ex_c0 (firstn 1 ex_turns) (mkConv3 ex_a1 ex_b0 [(ex_m1, ex_hi)] [])).
  2: { apply (s3_deliver_a toy ex_ta ex_tb (mkConv3 ex_a1 ex_b0 [(ex_m1, ex_hi)] []) ex_m1 ex_hi [] 19);
       [reflexivity|vm_compute; reflexivity]. }
  apply (c3_step toy ex_ta ex_tb ex_c0 [] ex_c0).
  2: { apply (s3_send_a toy ex_ta ex_tb ex_c0 false ex_hi). vm_compute. reflexivity. }
  apply c3_nil. exact ex_start3.
Qed.
