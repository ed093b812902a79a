(* Toy data for the theorems of Properties_Secrecy. *)
From Verif Require Import Base BaseLemmas Types Crypto ToyCrypto Encoding Messages Fragment KeyManager DataV3 Ratchet DataV4 SMP SMP4
  Protocol Session SpecData3 SpecData4 SpecSession SessionExamples NetExamples StartExamples FollowExamples ReportExamples SpecDeny SpecSecrecy.
From Coq Require Import Lia.
Local Open Scope N_scope.

(** ** Two secrets with the same hashes *)
Definition sy_a : bytes := [x01; x00].
Definition sy_b : bytes := [x00; x1f].
Lemma sy_step n a b : ((n mod 65521) * 31 + a + b) mod 65521 = (n * 31 + a + b) mod 65521.
Proof. rewrite <- !N.add_assoc, N.add_mod, N.mul_mod_idemp_l, <- N.add_mod by discriminate. reflexivity. Qed.
Lemma sy_sum p : toy_sum (p ++ sy_a) = toy_sum (p ++ sy_b).
Proof.
  unfold toy_sum. rewrite !fold_left_app. generalize (fold_left (fun a b => (a * 31 + b2n b + 7) mod 65521) p 5). intros n.
  unfold sy_a, sy_b. cbn [fold_left]. rewrite !sy_step. change (b2n x01) with 1. change (b2n x00) with 0. change (b2n x1f) with 31. f_equal. lia.
Qed.
Lemma sy_alike : hashed_alike toy sy_a sy_b.
Proof.
  split; intros.
  - unfold sha256. cbn [toy c_sha256]. unfold toy_hash. now rewrite sy_sum.
  - unfold shake256. cbn [toy c_shake256]. unfold toy_shake, toy_hash.
    assert (S : toy_sum (p ++ write_data sy_a) = toy_sum (p ++ write_data sy_b)).
    { unfold write_data. change (length sy_b) with (length sy_a). now rewrite !app_assoc, sy_sum. }
    assert (H : hd x00 (p ++ write_data sy_a) = hd x00 (p ++ write_data sy_b)) by (destruct p; reflexivity).
    assert (L : length (p ++ write_data sy_a) = length (p ++ write_data sy_b)) by (now rewrite !app_length).
    now rewrite S, H, L.
Qed.
Definition sy_env (e : env) (a : bytes) : env := with_answers e (fun _ => Some a).
Lemma sy_answers e : answers_alike toy (ev_answer (sy_env e sy_a)) (fun _ => Some sy_b).
Proof. intros q. exact sy_alike. Qed.
Definition sy_started3 := Eval vm_compute in start_smp toy (xr_ea x41 0) ya_s 400 sy_a xr_question.
Definition sy_started4 := Eval vm_compute in start_smp toy (xr_ea x41 0) za_s 400 sy_a xr_question.
Definition sy_other3 := Eval vm_compute in start_smp toy (xr_ea x41 0) ya_s 400 xr_secret xr_question.
Definition sy_other4 := Eval vm_compute in start_smp toy (xr_ea x41 0) za_s 400 xr_secret xr_question.
Lemma sy_start : start_smp toy (xr_ea x41 0) ya_s 400 sy_a xr_question = (fst (fst sy_started3), [hd [] (snd (fst sy_started3))], Ok tt) /\
  start_smp toy (xr_ea x41 0) za_s 400 sy_a xr_question = (fst (fst sy_started4), [hd [] (snd (fst sy_started4))], Ok tt) /\
  start_smp toy (xr_ea x41 0) ya_s 400 xr_secret xr_question = (fst (fst sy_other3), [hd [] (snd (fst sy_started3))], Ok tt) /\
  start_smp toy (xr_ea x41 0) za_s 400 xr_secret xr_question = (fst (fst sy_other4), [hd [] (snd (fst sy_started4))], Ok tt).
Proof. repeat apply conj; vm_compute; reflexivity. Qed.
Definition sy_answer3 := Eval vm_compute in receive toy (sy_env (xr_eb x42 0) sy_a) yb_s xr3_1.
Definition sy_answer4 := Eval vm_compute in receive toy (sy_env (xr_eb x42 0) sy_a) zb_s xr4_1.
Lemma sy_answered : receive toy (sy_env (xr_eb x42 0) sy_a) yb_s xr3_1 = (fst (fst sy_answer3), [hd [] (snd (fst sy_answer3))], Ok UMNone) /\
  receive toy (sy_env (xr_eb x42 0) sy_a) zb_s xr4_1 = (fst (fst sy_answer4), [hd [] (snd (fst sy_answer4))], Ok UMNone).
Proof. split; vm_compute; reflexivity. Qed.

(** ** Texts *)
Definition sy_no : bytes := [x6e; x6f].
Definition sy_sent3 := Eval vm_compute in send toy (xs_ea x26 0) ya_s 400 sy_no.
Definition sy_sent4 := Eval vm_compute in send toy (xs_ea x26 0) za_s 400 sy_no.
Definition sy_hi3 := Eval vm_compute in send toy (xs_ea x26 0) ya_s 400 xs_hi.
Definition sy_hi4 := Eval vm_compute in send toy (xs_ea x26 0) za_s 400 xs_hi.
Lemma sy_sends : send toy (xs_ea x26 0) ya_s 400 sy_no = (fst (fst sy_sent3), [], Ok (paid sy_sent3)) /\
  send toy (xs_ea x26 0) za_s 400 sy_no = (fst (fst sy_sent4), [], Ok (paid sy_sent4)) /\
  send toy (xs_ea x26 0) ya_s 400 xs_hi = (fst (fst sy_hi3), [], Ok (paid sy_hi3)) /\
  send toy (xs_ea x26 0) za_s 400 xs_hi = (fst (fst sy_hi4), [], Ok (paid sy_hi4)).
Proof. repeat apply conj; vm_compute; reflexivity. Qed.
Lemma sy_versions : conversation_version ya_s 400 = Some V3 /\ conversation_version za_s 400 = Some V4.
Proof. split; vm_compute; reflexivity. Qed.

(** ** Erased keys *)
(* another key with the same hash *)
Fixpoint sy_collide (l : bytes) : bytes :=
  match l with
  | a :: ((b :: r) as l') => if (1 <=? b2n a) && (b2n b <=? 224) then n2b (b2n a - 1) :: n2b (b2n b + 31) :: r else a :: sy_collide l'
  | l => l
  end.
Definition sy_dr (s : session) (t : N) : double_ratchet :=
  match state_of s t with
  | PEnc4 _ _ d _ => d
  | _ => mkDR 0 (mkMixed (mkEcdh 0 (mkPoint 0 0)) (mkDh3 0 0) (mkPoint 0 0) 0 [] []) [] (mkRatchet [] 0) (mkRatchet [] 0) SENDER 0 0 []
  end.
Definition sy_km (s : session) (t : N) : option key_manager := match state_of s t with PEnc3 _ _ k _ => Some k | _ => None end.

(* OTRv4: Alice sends a second text *)
Definition sy_ck := Eval vm_compute in sy_collide (ra_chain_key (dr_sender (sy_dr za_s1 400))).
Definition sy_alice : pstate := Eval vm_compute in match state_of za_s1 400 with PEnc4 o t d m => PEnc4 o t (with_sending d sy_ck) m | x => x end.
Definition sy_again := Eval vm_compute in send toy (xs_ea x31 400) (with_state za_s1 400 sy_alice) 400 sy_no.
Lemma sy_chain : dr_next (sy_dr za_s1 400) = RECEIVER /\ sy_ck <> ra_chain_key (dr_sender (sy_dr za_s1 400)) /\
  kdf toy 64 USAGE_NEXT_CHAIN_KEY sy_ck = kdf toy 64 USAGE_NEXT_CHAIN_KEY (ra_chain_key (dr_sender (sy_dr za_s1 400))).
Proof. split; [vm_compute; reflexivity|]. split; [vm_compute; discriminate|vm_compute; reflexivity]. Qed.
Lemma sy_again_is : send toy (xs_ea x31 400) (with_state za_s1 400 sy_alice) 400 sy_no = (fst (fst sy_again), [], Ok (paid sy_again)).
Proof. vm_compute. reflexivity. Qed.
(* and Bob reads her second text *)
Definition sy_rk := Eval vm_compute in sy_collide (ra_chain_key (dr_receiver (sy_dr zb_s1 301))).
Definition sy_bob : pstate := Eval vm_compute in match state_of zb_s1 301 with PEnc4 o t d m => PEnc4 o t (with_receiving d sy_rk) m | x => x end.
Definition sy_read := Eval vm_compute in receive toy (xs_eb x33 0) (with_state zb_s1 301 sy_bob) fa_text4.
Definition sy_m4 : data4 := Eval vm_compute in match fm4 fa_text4 with MData4 m => m | _ => mkData4 false 0 0 0 (mkPoint 0 0) None [] [] [] end.
Lemma sy_read_is : receive toy (xs_eb x33 0) (with_state zb_s1 301 sy_bob) fa_text4 = (fst (fst sy_read), [], Ok (UMConfidential 301 xs_hi [])).
Proof. vm_compute. reflexivity. Qed.
Lemma sy_reads : reads_with4 toy (sy_dr zb_s1 301) sy_m4 (ra_chain_key (dr_receiver (sy_dr zb_s1 301))) /\
  reads_with4 toy (with_receiving (sy_dr zb_s1 301) sy_rk) sy_m4 sy_rk /\ sy_rk <> ra_chain_key (dr_receiver (sy_dr zb_s1 301)) /\
  kdf toy 64 USAGE_NEXT_CHAIN_KEY sy_rk = kdf toy 64 USAGE_NEXT_CHAIN_KEY (ra_chain_key (dr_receiver (sy_dr zb_s1 301))) /\
  mac_key4 toy sy_rk = mac_key4 toy (ra_chain_key (dr_receiver (sy_dr zb_s1 301))).
Proof.
  split; [left; split; [vm_compute; reflexivity|split; [vm_compute; discriminate|vm_compute; reflexivity]]|].
  split; [left; split; [vm_compute; reflexivity|split; [vm_compute; discriminate|vm_compute; reflexivity]]|].
  split; [vm_compute; discriminate|]. split; vm_compute; reflexivity.
Qed.
(* Bob answers, with new keys; then Alice, then Bob again, with a new 3072-bit key *)
Definition sy_b1 := Eval vm_compute in send toy (xs_eb x61 0) zb_s1 301 xs_hi.
Definition sy_a2 := Eval vm_compute in receive toy (xs_ea x33 0) za_s1 (hd [] (paid sy_b1)).
Definition sy_a3 := Eval vm_compute in send toy (xs_ea x34 0) (fst (fst sy_a2)) 400 xs_hi.
Definition sy_b3 := Eval vm_compute in receive toy (xs_eb x35 0) (fst (fst sy_b1)) (hd [] (paid sy_a3)).
Definition sy_b4 := Eval vm_compute in send toy (xs_eb x36 0) (fst (fst sy_b3)) 301 xs_hi.
Lemma sy_rotates : dr_next (sy_dr zb_s1 301) = SENDER /\ send toy (xs_eb x61 0) zb_s1 301 xs_hi = (fst (fst sy_b1), [], Ok (paid sy_b1)) /\
  dr_next (sy_dr (fst (fst sy_b3)) 301) = SENDER /\ dr_i (sy_dr (fst (fst sy_b3)) 301) = 3 /\
  send toy (xs_eb x36 0) (fst (fst sy_b3)) 301 xs_hi = (fst (fst sy_b4), [], Ok (paid sy_b4)).
Proof. repeat apply conj; vm_compute; reflexivity. Qed.

(* OTRv3: Bob's answer acknowledges Alice's second key *)
Definition sy_y1 := Eval vm_compute in send toy (xs_eb x61 0) yb_s1 301 xs_hi.
Definition sy_yp := Eval vm_compute in hd [] (paid sy_y1).
Definition sy_y2 := Eval vm_compute in receive toy (xs_ea x33 0) ya_s1 sy_yp.
Definition sy_pair : dh_keypair := mkDh 9 9.
Definition sy_old : pstate := Eval vm_compute in match state_of ya_s1 400 with PEnc3 o t k m => PEnc3 o t (with_pair k sy_pair) m | x => x end.
Definition sy_y3 := Eval vm_compute in receive toy (xs_ea x33 0) (with_state ya_s1 400 sy_old) sy_yp.
Lemma sy_acked : receive toy (xs_ea x33 0) ya_s1 sy_yp = (fst (fst sy_y2), [], Ok (UMConfidential 400 xs_hi [])) /\
  receive toy (xs_ea x33 0) (with_state ya_s1 400 sy_old) sy_yp = (fst (fst sy_y3), [], Ok (UMConfidential 400 xs_hi [])) /\
  carries toy ya_s1 sy_yp (ns_parsed sy_yp) /\
  option_map (fun k => kr_ack (km_ours k) + 1) (sy_km ya_s1 400) = Some (d3_receiver_keyid (fm3 sy_yp)).
Proof.
  split; [vm_compute; reflexivity|]. split; [vm_compute; reflexivity|]. split; [|vm_compute; reflexivity].
  exists sy_yp. split; [left; split; vm_compute; reflexivity|vm_compute; reflexivity].
Qed.

(** ** Texts shown again after the end *)
Definition se_calls4 : list ((N -> env) * op) := [(xs_eb x27, OpReceive za_text); (xs_eb x28, OpEnd 301)].
Definition se_more4 : list ((N -> env) * op) := [(xs_eb x29, OpReceive auth_i); (xs_eb x30, OpReceive za_text)].
Definition se_end4 := Eval vm_compute in xs_end (replay toy zb_s zb_h se_calls4).
Definition se_again4 := Eval vm_compute in xs_end (replay toy (snd se_end4) [] se_more4).
Lemma se_run4 : history toy xs_bob (fst se_end4) (snd se_end4) /\ status_of (snd se_end4) 301 = Plaintext /\
  run toy (snd se_end4) (fst se_again4) (snd se_again4).
Proof.
  split; [apply (replay_run toy xs_b0 se_calls4 zb_s zb_h); [exact zb_run|vm_compute; reflexivity]|]. split; [vm_compute; reflexivity|].
  apply (replay_run toy (snd se_end4) se_more4 (snd se_end4) []); [constructor|vm_compute; reflexivity].
Qed.
Definition se_calls3 : list ((N -> env) * op) := [(xs_ea x38, OpReceive ft_text); (xs_ea x39, OpEnd 400)].
Definition se_more3 : list ((N -> env) * op) := [(xs_ea x71, OpReceive dh_key); (xs_ea x72, OpReceive signature); (xs_ea x3a, OpReceive ft_text)].
Definition se_end3 := Eval vm_compute in xs_end (replay toy ya_s ya_h se_calls3).
Definition se_again3 := Eval vm_compute in xs_end (replay toy (snd se_end3) [] se_more3).
Lemma se_run3 : history toy xs_alice (fst se_end3) (snd se_end3) /\ status_of (snd se_end3) 400 = Plaintext /\
  run toy (snd se_end3) (fst se_again3) (snd se_again3).
Proof.
  split; [apply (replay_run toy xs_a0 se_calls3 ya_s ya_h); [exact ya_run|vm_compute; reflexivity]|]. split; [vm_compute; reflexivity|].
  apply (replay_run toy (snd se_end3) se_more3 (snd se_end3) []); [constructor|vm_compute; reflexivity].
Qed.
Lemma se_recorded4 : Forall (recorded (fst se_end4)) (fst se_again4).
Proof.
  assert (M : forall p, existsb (fun ev => match ev_op ev with OpReceive q => bytes_eqb q p | _ => false end) (fst se_end4) = true ->
    forall o r, recorded (fst se_end4) (mkEvent (OpReceive p) o r)).
  { intros p H o r. apply existsb_exists in H. destruct H as (ev & IN & Q). destruct (ev_op ev) as [|q| | | | | |] eqn:O; try discriminate Q;
      try (apply bytes_eqb_eq in Q; subst; exists ev, p; auto). }
  unfold se_again4. cbn [fst]. constructor; [apply M; vm_compute; reflexivity|]. constructor; [apply M; vm_compute; reflexivity|constructor].
Qed.
Lemma se_recorded3 : Forall (recorded (fst se_end3)) (fst se_again3).
Proof.
  assert (M : forall p, existsb (fun ev => match ev_op ev with OpReceive q => bytes_eqb q p | _ => false end) (fst se_end3) = true ->
    forall o r, recorded (fst se_end3) (mkEvent (OpReceive p) o r)).
  { intros p H o r. apply existsb_exists in H. destruct H as (ev & IN & Q). destruct (ev_op ev) as [|q| | | | | |] eqn:O; try discriminate Q;
      try (apply bytes_eqb_eq in Q; subst; exists ev, p; auto). }
  unfold se_again3. cbn [fst]. repeat (constructor; [apply M; vm_compute; reflexivity|]). constructor.
Qed.
Lemma se_shown4 : Exists (shows_text toy V4 301) (fst se_again4).
Proof.
  apply Exists_cons_tl, Exists_cons_hd. exists za_text, (ns_parsed za_text), xs_hi, []. split; [vm_compute; reflexivity|].
  split; [vm_compute; reflexivity|]. split; [vm_compute; reflexivity|]. split; vm_compute; reflexivity.
Qed.
Lemma se_shown3 : Exists (shows_text toy V3 400) (fst se_again3).
Proof.
  apply Exists_cons_tl, Exists_cons_tl, Exists_cons_hd. exists ft_text, (ns_parsed ft_text), xs_hi, []. split; [vm_compute; reflexivity|].
  split; [vm_compute; reflexivity|]. split; [vm_compute; reflexivity|]. split; vm_compute; reflexivity.
Qed.

(** ** How the states of the examples are reached *)
Lemma sy_bob_run : history toy xs_bob (zb_h ++ [mkEvent (OpReceive za_text) [] (Ok (AnMessage (UMConfidential 301 xs_hi [])))]) zb_s1.
Proof.
  apply (run_call toy xs_b0 zb_h zb_s (xs_eb x27)); [exact zb_run| |discriminate]. unfold call, answering. now rewrite zb_reads.
Qed.
Lemma sy_alice_run3 : history toy xs_alice (ya_h ++ [mkEvent (OpSend 400 xs_hi) [] (Ok (AnPayloads [ya_text]))]) ya_s1.
Proof.
  apply (run_call toy xs_a0 ya_h ya_s (xs_ea x26)); [exact ya_run| |discriminate]. unfold call, answering. now rewrite ya_sends.
Qed.
Lemma sy_carried s : carries toy s fa_text4 (ns_parsed fa_text4) /\ em_message (ns_parsed fa_text4) = MData4 sy_m4.
Proof. split; [apply carries_whole; vm_compute; reflexivity|vm_compute; reflexivity]. Qed.
Definition sy_ends := Eval vm_compute in end_session toy (xs_ea x39 0) ya_s1 400.
Definition sy_ends2 := Eval vm_compute in end_session toy (xs_ea x3a 0) (with_state ya_s1 400 sy_old) 400.
