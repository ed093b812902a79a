(* Verifications between two sessions of the toy instance. *)
From Verif Require Import Base BaseLemmas Types Crypto ToyCrypto Encoding ClientProfile Messages Fragment KeyManager SpecFragment FragmentLemmas
  DataV3 Ratchet DataV4 SpecCurve ToyGroup AKE AKELemmas DAKE DAKEExamples SMP SMP4 SpecSMP SMPLemmas SpecSMP4 SMP4Lemmas Protocol Session SpecWire
  SpecSession SessionExamples SpecNet NetExamples Net4Examples SpecVerify.
From Coq Require Import Lia.
Local Open Scope N_scope.

(* with other random values for the verification, and another answer of the user *)
Definition vx (e : env) (reply : bytes) (n : N) : env :=
  mkEnv (ev_message_size e) (ev_dsa e) (ev_profile e) (ev_identity e) (fun _ => Some reply) (ev_dh e) (ev_r e) (ev_nonce e) (ev_km0 e) (ev_km1 e)
    (ev_ack e) (ev_dake e) (ev_ring e) (ev_send e) (ex_rnd n) (ex4_rnd (Z.of_N n)) (ev_fragment e).
Definition v3_small (e : env) : env :=
  mkEnv (N.to_nat 100) (ev_dsa e) (ev_profile e) (ev_identity e) (ev_answer e) (ev_dh e) (ev_r e) (ev_nonce e) (ev_km0 e) (ev_km1 e)
    (ev_ack e) (ev_dake e) (ev_ring e) (ev_send e) (ev_smp e) (ev_smp4 e) (ev_fragment e).
Definition v3_question : bytes := [x77; x68; x6f].
Definition v3_secret : bytes := [x73].


Lemma net_run_snoc C ta tb l0 hs h l : net_run C ta tb l0 (hs ++ [h]) l -> exists l1, net_run C ta tb l0 hs l1 /\ net_step C ta tb l1 h l.
Proof.
  intros H. inversion H as [E|hs' l1 h' l' R S E1 E2]; subst.
  - destruct hs; discriminate.
  - apply app_inj_tail in E1. destruct E1 as [-> ->]. eauto.
Qed.
Ltac no_panic := cbn; intros I; repeat (destruct I as [I|I]; [discriminate|]); exact I.
Ltac carried := repeat (apply Forall_cons || apply Forall_nil);
  (split; [vm_compute; discriminate|]); intros L; try (exfalso; revert L; vm_compute; lia);
  repeat (apply Forall_cons || apply Forall_nil); vm_compute; discriminate.

(** ** OTRv3: after "hi" and "y\0o" Alice verifies Bob *)
Lemma v3_course : course3 toy 301 400 ns_x true ns_l4.
Proof.
  pose proof ns_run as R. change ns_hs with ([Sends true xs_hi; Arrives true xs_hi (snd ns_conv2) []; Sends false ns_yo] ++ [Arrives false ns_yo (snd ns_conv4) []]) in R.
  apply net_run_snoc in R. destruct R as (l3 & R & S4).
  change [Sends true xs_hi; Arrives true xs_hi (snd ns_conv2) []; Sends false ns_yo] with ([Sends true xs_hi; Arrives true xs_hi (snd ns_conv2) []] ++ [Sends false ns_yo]) in R.
  apply net_run_snoc in R. destruct R as (l2 & R & S3).
  change [Sends true xs_hi; Arrives true xs_hi (snd ns_conv2) []] with ([Sends true xs_hi] ++ [Arrives true xs_hi (snd ns_conv2) []]) in R.
  apply net_run_snoc in R. destruct R as (l1 & R & S2).
  change [Sends true xs_hi] with ([] ++ [Sends true xs_hi]) in R. apply net_run_snoc in R. destruct R as (l0 & R & S1).
  inversion R as [E|hs' ? h' ? ? ? E1 E2]; [subst l0|destruct hs'; discriminate].
  eapply (co3_turn toy 301 400 ns_x false); [|exact S3|exact S4].
  eapply (co3_turn toy 301 400 ns_x true); [|exact S1|exact S2]. apply co3_start.
Qed.

Definition v3_s1 := Eval vm_compute in start_smp toy (vx (v3_small (xs_ea x31 0)) [] 1) (li_a ns_l4) 400 v3_secret v3_question.
Lemma v3_step1 : start_smp toy (vx (v3_small (xs_ea x31 0)) [] 1) (li_a ns_l4) 400 v3_secret v3_question = v3_s1.
Proof. vm_compute. reflexivity. Qed.
Definition v3_same_s2 := Eval vm_compute in receive_all toy (vx (xs_eb x32 0) [x73] 2) (li_b ns_l4) (snd (fst v3_s1)).
Lemma v3_same_step2 : receive_all toy (vx (xs_eb x32 0) [x73] 2) (li_b ns_l4) (snd (fst v3_s1)) = v3_same_s2.
Proof. vm_compute. reflexivity. Qed.
Definition v3_same_s3 := Eval vm_compute in receive_all toy (vx (xs_ea x33 0) [] 3) (fst (fst v3_s1)) (snd (fst v3_same_s2)).
Lemma v3_same_step3 : receive_all toy (vx (xs_ea x33 0) [] 3) (fst (fst v3_s1)) (snd (fst v3_same_s2)) = v3_same_s3.
Proof. vm_compute. reflexivity. Qed.
Definition v3_same_s4 := Eval vm_compute in receive_all toy (vx (xs_eb x34 0) [x73] 4) (fst (fst v3_same_s2)) (snd (fst v3_same_s3)).
Lemma v3_same_step4 : receive_all toy (vx (xs_eb x34 0) [x73] 4) (fst (fst v3_same_s2)) (snd (fst v3_same_s3)) = v3_same_s4.
Proof. vm_compute. reflexivity. Qed.
Definition v3_same_s5 := Eval vm_compute in receive_all toy (vx (xs_ea x35 0) [] 5) (fst (fst v3_same_s3)) (snd (fst v3_same_s4)).
Lemma v3_same_step5 : receive_all toy (vx (xs_ea x35 0) [] 5) (fst (fst v3_same_s3)) (snd (fst v3_same_s4)) = v3_same_s5.
Proof. vm_compute. reflexivity. Qed.
Definition v3_same : verification toy 301 400 (li_a ns_l4) (li_b ns_l4) v3_secret v3_question.
Proof.
  refine (mkVerification toy 301 400 (li_a ns_l4) (li_b ns_l4) v3_secret v3_question (vx (v3_small (xs_ea x31 0)) [] 1) (vx (xs_eb x32 0) [x73] 2) (vx (xs_ea x33 0) [] 3) (vx (xs_eb x34 0) [x73] 4) (vx (xs_ea x35 0) [] 5)
    (fst (fst v3_s1)) (fst (fst v3_same_s3)) (fst (fst v3_same_s5)) (fst (fst v3_same_s2)) (fst (fst v3_same_s4))
    (snd (fst v3_s1)) (snd (fst v3_same_s2)) (snd (fst v3_same_s3)) (snd (fst v3_same_s4)) (snd (fst v3_same_s5))
    (snd v3_s1) (snd v3_same_s2) (snd v3_same_s3) (snd v3_same_s4) (snd v3_same_s5)
    v3_step1 v3_same_step2 v3_same_step3 v3_same_step4 v3_same_step5 _ _ _).
  - split; [discriminate|no_panic].
  - carried.
  - repeat (apply Forall_cons || apply Forall_nil); reflexivity.
Defined.
Definition v3_other_s2 := Eval vm_compute in receive_all toy (vx (xs_eb x32 0) [x74] 2) (li_b ns_l4) (snd (fst v3_s1)).
Lemma v3_other_step2 : receive_all toy (vx (xs_eb x32 0) [x74] 2) (li_b ns_l4) (snd (fst v3_s1)) = v3_other_s2.
Proof. vm_compute. reflexivity. Qed.
Definition v3_other_s3 := Eval vm_compute in receive_all toy (vx (xs_ea x33 0) [] 3) (fst (fst v3_s1)) (snd (fst v3_other_s2)).
Lemma v3_other_step3 : receive_all toy (vx (xs_ea x33 0) [] 3) (fst (fst v3_s1)) (snd (fst v3_other_s2)) = v3_other_s3.
Proof. vm_compute. reflexivity. Qed.
Definition v3_other_s4 := Eval vm_compute in receive_all toy (vx (xs_eb x34 0) [x74] 4) (fst (fst v3_other_s2)) (snd (fst v3_other_s3)).
Lemma v3_other_step4 : receive_all toy (vx (xs_eb x34 0) [x74] 4) (fst (fst v3_other_s2)) (snd (fst v3_other_s3)) = v3_other_s4.
Proof. vm_compute. reflexivity. Qed.
Definition v3_other_s5 := Eval vm_compute in receive_all toy (vx (xs_ea x35 0) [] 5) (fst (fst v3_other_s3)) (snd (fst v3_other_s4)).
Lemma v3_other_step5 : receive_all toy (vx (xs_ea x35 0) [] 5) (fst (fst v3_other_s3)) (snd (fst v3_other_s4)) = v3_other_s5.
Proof. vm_compute. reflexivity. Qed.
Definition v3_other : verification toy 301 400 (li_a ns_l4) (li_b ns_l4) v3_secret v3_question.
Proof.
  refine (mkVerification toy 301 400 (li_a ns_l4) (li_b ns_l4) v3_secret v3_question (vx (v3_small (xs_ea x31 0)) [] 1) (vx (xs_eb x32 0) [x74] 2) (vx (xs_ea x33 0) [] 3) (vx (xs_eb x34 0) [x74] 4) (vx (xs_ea x35 0) [] 5)
    (fst (fst v3_s1)) (fst (fst v3_other_s3)) (fst (fst v3_other_s5)) (fst (fst v3_other_s2)) (fst (fst v3_other_s4))
    (snd (fst v3_s1)) (snd (fst v3_other_s2)) (snd (fst v3_other_s3)) (snd (fst v3_other_s4)) (snd (fst v3_other_s5))
    (snd v3_s1) (snd v3_other_s2) (snd v3_other_s3) (snd v3_other_s4) (snd v3_other_s5)
    v3_step1 v3_other_step2 v3_other_step3 v3_other_step4 v3_other_step5 _ _ _).
  - split; [discriminate|no_panic].
  - carried.
  - repeat (apply Forall_cons || apply Forall_nil); reflexivity.
Defined.

Ltac legal3 := 
  intros o1 o2 k1 x o3 o4 k2 y A B x1 t1 R1; vm_compute in A, B; injection A as _ _ _ <-; injection B as _ _ _ <-;
  vm_compute in R1; injection R1 as <- <-; split; [legal|];
  intros y1 t2 R2; vm_compute in R2; injection R2 as <- <-; split; [legal|];
  intros x2 t3 R3; vm_compute in R3; injection R3 as <- <-; split; [legal|];
  intros y2 t4 R4; vm_compute in R4; injection R4 as <- <-; legal.
Lemma v3_same_ready : ready3 (ev_dsa (x_e3 ns_x)) (ev_dsa (x_e2 ns_x)) v3_same.
Proof.
  split; [cbn; intros I; repeat (destruct I as [I|I]; [discriminate|]); exact I|]. split; [discriminate|].
  split; [split; repeat (apply Forall_cons || apply Forall_nil); split; reflexivity|]. unfold legal3. legal3.
Qed.
Lemma v3_other_ready : ready3 (ev_dsa (x_e3 ns_x)) (ev_dsa (x_e2 ns_x)) v3_other.
Proof.
  split; [cbn; intros I; repeat (destruct I as [I|I]; [discriminate|]); exact I|]. split; [discriminate|].
  split; [split; repeat (apply Forall_cons || apply Forall_nil); split; reflexivity|]. unfold legal3. legal3.
Qed.

(** ** OTRv4: after "hi" Bob verifies Alice *)
Definition v4_question : bytes := [x77; x00; x6f].
Lemma v4_course : course4 toy 301 400 nf_x false nf_l2.
Proof.
  pose proof nf_run as R. change nf_hs with ([Sends true xs_hi] ++ [Arrives true xs_hi (snd nf_conv2) []]) in R.
  apply net_run_snoc in R. destruct R as (l1 & R & S2).
  change [Sends true xs_hi] with ([] ++ [Sends true xs_hi]) in R. apply net_run_snoc in R. destruct R as (l0 & R & S1).
  inversion R as [E|hs' ? h' ? ? ? E1 E2]; [subst l0|destruct hs'; discriminate].
  eapply (co4_change toy 301 400 nf_x true); [apply co4_start|exact S1|exact S2|].
  exists 1%nat. split; vm_compute; reflexivity.
Qed.
Definition v4_s1 := Eval vm_compute in start_smp toy (vx (xs_eb x31 0) [] 4) (li_b nf_l2) 301 v3_secret v4_question.
Lemma v4_step1 : start_smp toy (vx (xs_eb x31 0) [] 4) (li_b nf_l2) 301 v3_secret v4_question = v4_s1.
Proof. vm_compute. reflexivity. Qed.
Definition v4_same_s2 := Eval vm_compute in receive_all toy (vx (xs_ea x33 0) [x73] 5) (li_a nf_l2) (snd (fst v4_s1)).
Lemma v4_same_step2 : receive_all toy (vx (xs_ea x33 0) [x73] 5) (li_a nf_l2) (snd (fst v4_s1)) = v4_same_s2.
Proof. vm_compute. reflexivity. Qed.
Definition v4_same_s3 := Eval vm_compute in receive_all toy (vx (xs_eb x34 0) [] 6) (fst (fst v4_s1)) (snd (fst v4_same_s2)).
Lemma v4_same_step3 : receive_all toy (vx (xs_eb x34 0) [] 6) (fst (fst v4_s1)) (snd (fst v4_same_s2)) = v4_same_s3.
Proof. vm_compute. reflexivity. Qed.
Definition v4_same_s4 := Eval vm_compute in receive_all toy (vx (xs_ea x35 0) [x73] 7) (fst (fst v4_same_s2)) (snd (fst v4_same_s3)).
Lemma v4_same_step4 : receive_all toy (vx (xs_ea x35 0) [x73] 7) (fst (fst v4_same_s2)) (snd (fst v4_same_s3)) = v4_same_s4.
Proof. vm_compute. reflexivity. Qed.
Definition v4_same_s5 := Eval vm_compute in receive_all toy (vx (xs_eb x36 0) [] 8) (fst (fst v4_same_s3)) (snd (fst v4_same_s4)).
Lemma v4_same_step5 : receive_all toy (vx (xs_eb x36 0) [] 8) (fst (fst v4_same_s3)) (snd (fst v4_same_s4)) = v4_same_s5.
Proof. vm_compute. reflexivity. Qed.
Definition v4_same : verification toy 400 301 (li_b nf_l2) (li_a nf_l2) v3_secret v4_question.
Proof.
  refine (mkVerification toy 400 301 (li_b nf_l2) (li_a nf_l2) v3_secret v4_question (vx (xs_eb x31 0) [] 4) (vx (xs_ea x33 0) [x73] 5) (vx (xs_eb x34 0) [] 6) (vx (xs_ea x35 0) [x73] 7) (vx (xs_eb x36 0) [] 8)
    (fst (fst v4_s1)) (fst (fst v4_same_s3)) (fst (fst v4_same_s5)) (fst (fst v4_same_s2)) (fst (fst v4_same_s4))
    (snd (fst v4_s1)) (snd (fst v4_same_s2)) (snd (fst v4_same_s3)) (snd (fst v4_same_s4)) (snd (fst v4_same_s5))
    (snd v4_s1) (snd v4_same_s2) (snd v4_same_s3) (snd v4_same_s4) (snd v4_same_s5)
    v4_step1 v4_same_step2 v4_same_step3 v4_same_step4 v4_same_step5 _ _ _).
  - split; [discriminate|no_panic].
  - carried.
  - repeat (apply Forall_cons || apply Forall_nil); reflexivity.
Defined.
Definition v4_other_s2 := Eval vm_compute in receive_all toy (vx (xs_ea x33 0) [x76] 5) (li_a nf_l2) (snd (fst v4_s1)).
Lemma v4_other_step2 : receive_all toy (vx (xs_ea x33 0) [x76] 5) (li_a nf_l2) (snd (fst v4_s1)) = v4_other_s2.
Proof. vm_compute. reflexivity. Qed.
Definition v4_other_s3 := Eval vm_compute in receive_all toy (vx (xs_eb x34 0) [] 6) (fst (fst v4_s1)) (snd (fst v4_other_s2)).
Lemma v4_other_step3 : receive_all toy (vx (xs_eb x34 0) [] 6) (fst (fst v4_s1)) (snd (fst v4_other_s2)) = v4_other_s3.
Proof. vm_compute. reflexivity. Qed.
Definition v4_other_s4 := Eval vm_compute in receive_all toy (vx (xs_ea x35 0) [x76] 7) (fst (fst v4_other_s2)) (snd (fst v4_other_s3)).
Lemma v4_other_step4 : receive_all toy (vx (xs_ea x35 0) [x76] 7) (fst (fst v4_other_s2)) (snd (fst v4_other_s3)) = v4_other_s4.
Proof. vm_compute. reflexivity. Qed.
Definition v4_other_s5 := Eval vm_compute in receive_all toy (vx (xs_eb x36 0) [] 8) (fst (fst v4_other_s3)) (snd (fst v4_other_s4)).
Lemma v4_other_step5 : receive_all toy (vx (xs_eb x36 0) [] 8) (fst (fst v4_other_s3)) (snd (fst v4_other_s4)) = v4_other_s5.
Proof. vm_compute. reflexivity. Qed.
Definition v4_other : verification toy 400 301 (li_b nf_l2) (li_a nf_l2) v3_secret v4_question.
Proof.
  refine (mkVerification toy 400 301 (li_b nf_l2) (li_a nf_l2) v3_secret v4_question (vx (xs_eb x31 0) [] 4) (vx (xs_ea x33 0) [x76] 5) (vx (xs_eb x34 0) [] 6) (vx (xs_ea x35 0) [x76] 7) (vx (xs_eb x36 0) [] 8)
    (fst (fst v4_s1)) (fst (fst v4_other_s3)) (fst (fst v4_other_s5)) (fst (fst v4_other_s2)) (fst (fst v4_other_s4))
    (snd (fst v4_s1)) (snd (fst v4_other_s2)) (snd (fst v4_other_s3)) (snd (fst v4_other_s4)) (snd (fst v4_other_s5))
    (snd v4_s1) (snd v4_other_s2) (snd v4_other_s3) (snd v4_other_s4) (snd v4_other_s5)
    v4_step1 v4_other_step2 v4_other_step3 v4_other_step4 v4_other_step5 _ _ _).
  - split; [discriminate|no_panic].
  - carried.
  - repeat (apply Forall_cons || apply Forall_nil); reflexivity.
Defined.

Definition v4_number (secret : bytes) : Z :=
  match state_of (li_b nf_l2) 301 with
  | PEnc4 _ _ _ c => match smp4_secret toy (s4_us c) (s4_them c) (s4_ssid c) secret with Ok n => n | _ => 0%Z end
  | _ => 0%Z
  end.
Lemma v4_number_is secret : match state_of (li_b nf_l2) 301 with
  | PEnc4 _ _ _ c => match smp4_secret toy (s4_us c) (s4_them c) (s4_ssid c) secret with Ok _ => True | _ => False end
  | _ => False end ->
  @number4 toy 301 (li_b nf_l2) secret (v4_number secret).
Proof.
  unfold number4, v4_number. destruct (state_of (li_b nf_l2) 301) as [| |our their dr c|]; try contradiction.
  intros H. exists our, their, dr, c. split; [reflexivity|]. destruct (smp4_secret _ _ _ _ _); [reflexivity|contradiction..].
Qed.
Lemma one_piece s t p : 
  match em_message (ns_parsed p), state_of s t with
  | MData4 m, PEnc4 _ _ dr _ => match d4_dh m with Some k => k <> mx_public_dh (dr_shared dr) | None => True end
  | _, _ => True end ->
  (exists x, parse toy p = Ok (MsgEncoded x)) -> ~ repeats_key toy s t [p].
Proof.
  intros H (x & P) (d & e & m & k & our & their & dr & smp & S & D & ST & E). apply (sent_as_single _ _ _ _ _ _ x) in S; [|assumption].
  unfold ns_parsed in H. rewrite P in H. rewrite <- S, ST, D in H. contradiction.
Qed.
Ltac not_again := 
  match goal with |- ~ repeats_key _ ?s ?t (snd (fst ?x)) =>
    let p := eval vm_compute in (hd [] (snd (fst x))) in change (snd (fst x)) with [p]
  end; apply one_piece; [vm_compute; try exact I; discriminate|eexists; vm_compute; reflexivity].
Lemma v4_same_ready : ready4 v4_same.
Proof.
  split; [|repeat split; cbn [v4_same v_p1 v_p2 v_p3 v_p4 v_sx1 v_sx2 v_sy1]; not_again].
  exists [x73], (v4_number [x73]), (v4_number [x73]). split; [reflexivity|].
  split; [apply v4_number_is; vm_compute; exact I|]. split; [apply v4_number_is; vm_compute; exact I|].
  unfold usual_choices, usual_1, usual_2, usual_3, usual_4. usual.
Qed.
Lemma v4_other_ready : ready4 v4_other.
Proof.
  split; [|repeat split; cbn [v4_other v_p1 v_p2 v_p3 v_p4 v_sx1 v_sx2 v_sy1]; not_again].
  exists [x76], (v4_number [x73]), (v4_number [x76]). split; [reflexivity|].
  split; [apply v4_number_is; vm_compute; exact I|]. split; [apply v4_number_is; vm_compute; exact I|].
  unfold usual_choices, usual_1, usual_2, usual_3, usual_4. usual.
Qed.
