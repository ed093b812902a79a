(* Repeated key exchanges between the two clients of the toy instance. *)
From Verif Require Import Base BaseLemmas Types Crypto ToyCrypto Encoding ClientProfile Messages Fragment KeyManager
  DataV3 Ratchet DataV4 SpecCurve ToyGroup AKE AKELemmas DAKE DAKEExamples SMP SMP4 Protocol Session SpecAKE SpecDAKE SpecData4 Data4Examples
  SpecSession SessionExamples SpecNet NetExamples Net4Examples SpecStart StartProofs StartLemmas.
Local Open Scope N_scope.

(** ** Both start at once, in OTRv3 *)
(* the messages of the round are small enough, and none is cut into pieces *)
Local Ltac carried :=
  split; [split; [vm_compute; discriminate|intros X; vm_compute in X; inversion X as [|? Y]; inversion Y]|];
  split; [split; [vm_compute; discriminate|intros X; vm_compute in X; inversion X as [|? Y]; inversion Y]|].
Definition rc_q := Eval vm_compute in snd (fst (ses_query ns_a0)).
Definition ra1 := Eval vm_compute in receive_all toy (xs_ea x21 0) ns_a0 rc_q.
Definition rb1 := Eval vm_compute in receive_all toy (xs_eb x22 0) ns_b0 rc_q.
Definition ra2 := Eval vm_compute in receive_all toy (xs_ea x23 0) (fst (fst ra1)) (snd (fst rb1)).
Definition rb2 := Eval vm_compute in receive_all toy (xs_eb x24 0) (fst (fst rb1)) (snd (fst ra1)).
Definition ra3 := Eval vm_compute in receive_all toy (xs_ea x25 0) (fst (fst ra2)) (snd (fst rb2)).
Definition rb3 := Eval vm_compute in receive_all toy (xs_eb x26 0) (fst (fst rb2)) (snd (fst ra2)).
Definition ra4 := Eval vm_compute in receive_all toy (xs_ea x27 0) (fst (fst ra3)) (snd (fst rb3)).
Definition rb4 := Eval vm_compute in receive_all toy (xs_eb x28 0) (fst (fst rb3)) (snd (fst ra3)).

Lemma r_start : both_start toy (working3 toy tk_a) (working3 toy tk_b) ns_a0 ns_b0 (fst (fst ra4)) (fst (fst rb4)).
Proof.
  exists rc_q, rc_q. split; [vm_compute; reflexivity|]. split; [vm_compute; reflexivity|].
  apply (rounds_S toy _ _ _ (xs_ea x27 0) (xs_eb x28 0) (mkCrossed (fst (fst ra3)) (fst (fst rb3)) (snd (fst rb3)) (snd (fst ra3))));
    [|repeat split; vm_compute; discriminate|repeat split; vm_compute; discriminate
     |carried; exists (snd ra4), (snd rb4); split; [vm_compute; reflexivity|]; split; [vm_compute; reflexivity|]; intros [X|[X|[]]]; discriminate].
  apply (rounds_S toy _ _ _ (xs_ea x25 0) (xs_eb x26 0) (mkCrossed (fst (fst ra2)) (fst (fst rb2)) (snd (fst rb2)) (snd (fst ra2))));
    [|repeat split; vm_compute; discriminate|repeat split; vm_compute; discriminate
     |carried; exists (snd ra3), (snd rb3); split; [vm_compute; reflexivity|]; split; [vm_compute; reflexivity|]; intros [X|[X|[]]]; discriminate].
  apply (rounds_S toy _ _ _ (xs_ea x23 0) (xs_eb x24 0) (mkCrossed (fst (fst ra1)) (fst (fst rb1)) (snd (fst rb1)) (snd (fst ra1))));
    [|repeat split; vm_compute; discriminate|repeat split; vm_compute; discriminate
     |carried; exists (snd ra2), (snd rb2); split; [vm_compute; reflexivity|]; split; [vm_compute; reflexivity|]; intros [X|[X|[]]]; discriminate].
  apply (rounds_S toy _ _ _ (xs_ea x21 0) (xs_eb x22 0) (mkCrossed ns_a0 ns_b0 rc_q rc_q));
    [constructor|repeat split; vm_compute; discriminate|repeat split; vm_compute; discriminate
     |carried; exists (snd ra1), (snd rb1); split; [vm_compute; reflexivity|]; split; [vm_compute; reflexivity|]; intros [X|[X|[]]]; discriminate].
Qed.
Lemma r_apart : ~ connected (fst (fst ra4)) (fst (fst rb4)).
Proof. intros (A & _). vm_compute in A. discriminate. Qed.

(** ** and in OTRv4 *)
Definition qc_q := Eval vm_compute in snd (fst (ses_query xs_a0)).
Definition qa1 := Eval vm_compute in receive_all toy (xs_ea x14 0) xs_a0 qc_q.
Definition qb1 := Eval vm_compute in receive_all toy (xs_eb x54 0) xs_b0 qc_q.
Definition qa2 := Eval vm_compute in receive_all toy (xs_ea x44 0) (fst (fst qa1)) (snd (fst qb1)).
Definition qb2 := Eval vm_compute in receive_all toy (xs_eb x54 0) (fst (fst qb1)) (snd (fst qa1)).
Definition qa3 := Eval vm_compute in receive_all toy (xs_ea x45 0) (fst (fst qa2)) (snd (fst qb2)).
Definition qb3 := Eval vm_compute in receive_all toy (xs_eb x26 0) (fst (fst qb2)) (snd (fst qa2)).
Definition qa4 := Eval vm_compute in receive_all toy (xs_ea x27 0) (fst (fst qa3)) (snd (fst qb3)).
Definition qb4 := Eval vm_compute in receive_all toy (xs_eb x28 0) (fst (fst qb3)) (snd (fst qa3)).

Lemma q_start : both_start toy (working4 toy xd_ha) (working4 toy xd_hb) xs_a0 xs_b0 (fst (fst qa4)) (fst (fst qb4)).
Proof.
  assert (A : forall n, working4 toy xd_ha (xs_ea n 0)) by (intros n; split; [reflexivity|]; split; [exact xd_rnd1|reflexivity]).
  assert (B : forall n, working4 toy xd_hb (xs_eb n 0)) by (intros n; split; [reflexivity|]; split; [exact xd_rnd2|reflexivity]).
  exists qc_q, qc_q. split; [vm_compute; reflexivity|]. split; [vm_compute; reflexivity|].
  apply (rounds_S toy _ _ _ (xs_ea x27 0) (xs_eb x28 0) (mkCrossed (fst (fst qa3)) (fst (fst qb3)) (snd (fst qb3)) (snd (fst qa3)))); [|apply A|apply B
     |carried; exists (snd qa4), (snd qb4); split; [vm_compute; reflexivity|]; split; [vm_compute; reflexivity|]; intros [X|[X|[]]]; discriminate].
  apply (rounds_S toy _ _ _ (xs_ea x45 0) (xs_eb x26 0) (mkCrossed (fst (fst qa2)) (fst (fst qb2)) (snd (fst qb2)) (snd (fst qa2)))); [|apply A|apply B
     |carried; exists (snd qa3), (snd qb3); split; [vm_compute; reflexivity|]; split; [vm_compute; reflexivity|]; intros [X|[X|[]]]; discriminate].
  apply (rounds_S toy _ _ _ (xs_ea x44 0) (xs_eb x54 0) (mkCrossed (fst (fst qa1)) (fst (fst qb1)) (snd (fst qb1)) (snd (fst qa1)))); [|apply A|apply B
     |carried; exists (snd qa2), (snd qb2); split; [vm_compute; reflexivity|]; split; [vm_compute; reflexivity|]; intros [X|[X|[]]]; discriminate].
  apply (rounds_S toy _ _ _ (xs_ea x14 0) (xs_eb x54 0) (mkCrossed xs_a0 xs_b0 qc_q qc_q)); [constructor|apply A|apply B
     |carried; exists (snd qa1), (snd qb1); split; [vm_compute; reflexivity|]; split; [vm_compute; reflexivity|]; intros [X|[X|[]]]; discriminate].
Qed.
(* both believe to be in an encrypted session, but not in the same *)
Lemma q_apart : status_of (fst (fst qa4)) 400 = Encrypted /\ status_of (fst (fst qb4)) 301 = Encrypted /\
  ~ connected (fst (fst qa4)) (fst (fst qb4)).
Proof. split; [vm_compute; reflexivity|]. split; [vm_compute; reflexivity|]. intros (_ & _ & A). vm_compute in A. discriminate. Qed.

(** ** Queries *)
(* nothing was injected *)
Lemma nothing_sent d e t v m : ~ transported d e t v m [].
Proof.
  intros (b & _ & [(_ & H)|(L & fs & F & A)]); [discriminate|]. inversion A; subst. unfold fragment_content in F.
  destruct b as [|x b]; [cbn in L; inversion L|].
  destruct v; try discriminate;
    (destruct (Nat.leb _ _); [discriminate|]; destruct (Nat.leb _ _); [discriminate|]; destruct (_ <? _); [|discriminate];
     cbn [length chunks number_fragments] in F; discriminate).
Qed.
Lemma query4 : queries toy xs_alice xs_query4 V4 /\ queries toy xs_bob xs_query4 V4.
Proof. split; (split; [reflexivity|exists [V4]; split; [reflexivity|left; repeat split; now left]]). Qed.
Lemma query3 : queries toy xs_alice xs_query3 V3 /\ queries toy xs_bob xs_query3 V3.
Proof.
  split; (split; [reflexivity|exists [V3]; split; [reflexivity|right]]);
  (split; [intros ([X|[]] & _); discriminate|]; repeat split; now left).
Qed.
Definition za_q : event := hd (mkEvent (OpReceive []) [] Panic) za_h.
Lemma za_answered : In za_q za_h /\ answered_query toy xs_alice V4 za_q.
Proof. split; [now left|]. exists xs_query4. split; [reflexivity|]. split; [apply query4|reflexivity]. Qed.
Definition za_identity := Eval vm_compute in receive toy (xs_ea x14 0) xs_a0 xs_query4.
Lemma za_first : receive toy (xs_ea x14 0) (session_new xs_alice) xs_query4 =
  (fst (fst za_identity), [xs_injected za_identity], Ok UMNone).
Proof. vm_compute. reflexivity. Qed.
Definition ya_q : event := hd (mkEvent (OpReceive []) [] Panic) ya_h.
Lemma ya_answered : In ya_q ya_h /\ answered_query toy xs_alice V3 ya_q.
Proof. split; [now left|]. exists xs_query3. split; [reflexivity|]. split; [apply query3|reflexivity]. Qed.
(* Bob exchanged texts only *)
Definition tb_calls : list ((N -> env) * op) := [(xs_eb x22, OpReceive xs_hi); (xs_eb x24, OpSend 0 xs_hi)].
Definition tb_end := Eval vm_compute in xs_end (replay toy xs_b0 [] tb_calls).
Lemma tb_run : history toy xs_bob (fst tb_end) (snd tb_end).
Proof. apply (replay_run toy xs_b0 tb_calls xs_b0 []); [constructor|]. vm_compute. reflexivity. Qed.
Lemma tb_fresh : no_new_start4 xs_bob (fst tb_end).
Proof. intros ev e m I. destruct I as [<-|[<-|[]]]; apply nothing_sent. Qed.

(** ** Replays *)
Lemma carries_whole s p em : match_fragment p = false -> parse toy p = Ok (MsgEncoded em) -> carries toy s p em.
Proof. intros M P. exists p. split; [left; auto|exact P]. Qed.
(* Bob and the Auth-I message *)
Definition zb_calls1 : list ((N -> env) * op) := [(xs_eb x54, OpReceive (xs_out zs_x1))].
Definition zb_end1 := Eval vm_compute in xs_end (replay toy xs_b0 [] zb_calls1).
Lemma zb_run1 : history toy xs_bob (fst zb_end1) (snd zb_end1).
Proof. apply (replay_run toy xs_b0 zb_calls1 xs_b0 []); [constructor|]. vm_compute. reflexivity. Qed.
Definition auth_i := Eval vm_compute in xs_out zs_x3.
Definition auth_i_em := Eval vm_compute in ns_parsed auth_i.
Lemma auth_i_is : em_version auth_i_em = V4 /\ em_sender auth_i_em = 301 /\ exists m, em_message auth_i_em = MAuthI m.
Proof. split; [reflexivity|]. split; [reflexivity|]. eexists. reflexivity. Qed.
Lemma zb_starts : starts toy (xs_eb x54 0) (snd zb_end1) auth_i auth_i_em zb_s.
Proof. split; [apply carries_whole; vm_compute; reflexivity|]. exists []. vm_compute. reflexivity. Qed.
Definition bs1 := Eval vm_compute in send toy (xs_eb x61 0) zb_s 301 xs_hi.
Definition bs2 := Eval vm_compute in receive toy (xs_eb x62 0) (fst (fst bs1)) auth_i.
Definition bs3 := Eval vm_compute in send toy (xs_eb x63 0) (fst (fst bs2)) 301 [x6e; x6f].
Definition paid {A B} (x : A * B * res (list bytes)) : list bytes := match snd x with Ok l => l | _ => [] end.
Lemma bs1_is : send toy (xs_eb x61 0) zb_s 301 xs_hi = (fst (fst bs1), [], Ok (paid bs1)). Proof. vm_compute. reflexivity. Qed.
Lemma bs2_is : receive toy (xs_eb x62 0) (fst (fst bs1)) auth_i = (fst (fst bs2), [], Ok (UMSessionStarted 301)). Proof. vm_compute. reflexivity. Qed.
Lemma bs3_is : send toy (xs_eb x63 0) (fst (fst bs2)) 301 [x6e; x6f] = (fst (fst bs3), [], Ok (paid bs3)). Proof. vm_compute. reflexivity. Qed.
Lemma bs_carries s : carries toy s auth_i auth_i_em.
Proof. apply carries_whole; vm_compute; reflexivity. Qed.
Lemma bs_quiet : quiet_run toy 301 zb_s [mkEvent (OpSend 301 xs_hi) [] (Ok (AnPayloads (paid bs1)))] (fst (fst bs1)).
Proof.
  change [?x] with ([] ++ [x]). apply (q_call toy 301 zb_s [] zb_s (xs_eb x61)); [constructor|exact I| |discriminate]. vm_compute. reflexivity.
Qed.
Definition bs_calls : list ((N -> env) * op) :=
  [(xs_eb x61, OpSend 301 xs_hi); (xs_eb x62, OpReceive auth_i); (xs_eb x63, OpSend 301 [x6e; x6f])].
Definition bs_end := Eval vm_compute in xs_end (replay toy (snd zb_end1) (fst zb_end1) ((xs_eb x54, OpReceive auth_i) :: bs_calls)).
Lemma bs_run : history toy xs_bob (fst bs_end) (snd bs_end).
Proof.
  apply (replay_run toy xs_b0 ((xs_eb x54, OpReceive auth_i) :: bs_calls) (snd zb_end1) (fst zb_end1)); [exact zb_run1|]. vm_compute. reflexivity.
Qed.
(* Alice and the Auth-R message *)
Definition za_calls1 : list ((N -> env) * op) := [(xs_ea x14, OpReceive xs_query4)].
Definition za_end1 := Eval vm_compute in xs_end (replay toy xs_a0 [] za_calls1).
Lemma za_run1 : history toy xs_alice (fst za_end1) (snd za_end1).
Proof. apply (replay_run toy xs_a0 za_calls1 xs_a0 []); [constructor|]. vm_compute. reflexivity. Qed.
Definition auth_r := Eval vm_compute in xs_out zs_x2.
Definition auth_r_em := Eval vm_compute in ns_parsed auth_r.
Lemma auth_r_is : em_version auth_r_em = V4 /\ em_sender auth_r_em = 400 /\ exists m, em_message auth_r_em = MAuthR m.
Proof. split; [reflexivity|]. split; [reflexivity|]. eexists. reflexivity. Qed.
Lemma auth_r_carried s : carries toy s auth_r auth_r_em.
Proof. apply carries_whole; vm_compute; reflexivity. Qed.
Lemma za_answered1 : In za_q (fst za_end1) /\ answered_query toy xs_alice V4 za_q.
Proof. split; [now left|]. apply za_answered. Qed.
Lemma za_starts : receive toy (xs_ea x44 0) (snd za_end1) auth_r = (za_s, [auth_i], Ok (UMSessionStarted 400)).
Proof. vm_compute. reflexivity. Qed.
Lemma za_sent_run : run toy za_s [mkEvent (OpSend 400 xs_hi) [] (Ok (AnPayloads [za_text]))] za_s1.
Proof.
  change [?x] with ([] ++ [x]). apply (run_call toy za_s [] za_s (xs_ea x26)); [constructor| |discriminate].
  unfold call, answering. now rewrite za_sends.
Qed.
(* Alice and the last messages of the OTRv3 exchange *)
Definition ya_calls1 : list ((N -> env) * op) := [(xs_ea x21, OpReceive xs_query3)].
Definition ya_end1 := Eval vm_compute in xs_end (replay toy xs_a0 [] ya_calls1).
Lemma ya_run1 : history toy xs_alice (fst ya_end1) (snd ya_end1).
Proof. apply (replay_run toy xs_a0 ya_calls1 xs_a0 []); [constructor|]. vm_compute. reflexivity. Qed.
Lemma ya_answered1 : In ya_q (fst ya_end1) /\ answered_query toy xs_alice V3 ya_q.
Proof. split; [now left|]. apply ya_answered. Qed.
Definition dh_key := Eval vm_compute in xs_out ys_x2.
Definition dh_key_em := Eval vm_compute in ns_parsed dh_key.
Definition signature := Eval vm_compute in xs_out ys_x4.
Definition signature_em := Eval vm_compute in ns_parsed signature.
Lemma dh_key_is : is_dh_key 400 dh_key_em. Proof. split; [reflexivity|]. split; [reflexivity|]. eexists. reflexivity. Qed.
Lemma signature_is : is_signature 400 signature_em. Proof. split; [reflexivity|]. split; [reflexivity|]. eexists. reflexivity. Qed.
Lemma ya_last : last_messages3 toy 400 dh_key_em signature_em (snd ya_end1) ya_s (Ok UMNone) (Ok (UMSessionStarted 400)).
Proof.
  exists (xs_ea x23 0), dh_key. eexists. eexists. exists []. eexists. exists (xs_ea x25 0), signature, [].
  split; [apply carries_whole; vm_compute; reflexivity|]. split; [vm_compute; reflexivity|]. split; [discriminate|].
  split; [constructor|]. split; [intros ev e m []|].
  split; [apply carries_whole; vm_compute; reflexivity|]. split; [vm_compute; reflexivity|]. discriminate.
Qed.
Lemma ya_sent_run : run toy ya_s [mkEvent (OpSend 400 xs_hi) [] (Ok (AnPayloads [ya_text]))] ya_s1.
Proof.
  change [?x] with ([] ++ [x]). apply (run_call toy ya_s [] ya_s (xs_ea x26)); [constructor| |discriminate].
  unfold call, answering. now rewrite ya_sends.
Qed.
Lemma ya_sent_quiet : quiet_run toy 400 ya_s [mkEvent (OpSend 400 xs_hi) [] (Ok (AnPayloads [ya_text]))] ya_s1.
Proof.
  change [?x] with ([] ++ [x]). apply (q_call toy 400 ya_s [] ya_s (xs_ea x26)); [constructor|exact I| |discriminate].
  unfold call, answering. now rewrite ya_sends.
Qed.
Definition yr1 := Eval vm_compute in receive toy (xs_ea x71 0) ya_s1 dh_key.
Definition yr2 := Eval vm_compute in receive toy (xs_ea x72 0) (fst (fst yr1)) signature.
Definition yr3 := Eval vm_compute in send toy (xs_ea x73 0) (fst (fst yr2)) 400 [x6e; x6f].
Lemma yr_last : last_messages3 toy 400 dh_key_em signature_em ya_s1 (fst (fst yr2)) (Ok UMNone) (Ok (UMSessionStarted 400)).
Proof.
  exists (xs_ea x71 0), dh_key. eexists. eexists. exists []. eexists. exists (xs_ea x72 0), signature, [].
  split; [apply carries_whole; vm_compute; reflexivity|]. split; [vm_compute; reflexivity|]. split; [discriminate|].
  split; [constructor|]. split; [intros ev e m []|].
  split; [apply carries_whole; vm_compute; reflexivity|]. split; [vm_compute; reflexivity|]. discriminate.
Qed.
Lemma yr3_is : send toy (xs_ea x73 0) (fst (fst yr2)) 400 [x6e; x6f] = (fst (fst yr3), [], Ok (paid yr3)). Proof. vm_compute. reflexivity. Qed.
Lemma one_sent d o r : no_new_start3 d [mkEvent o [] r].
Proof. intros ev e m [<-|[]]. apply nothing_sent. Qed.

(* the two starts, and the two texts, in Bob's history *)
Lemma bs_starts : exists x ev1 y ev2 z, fst bs_end = [x] ++ ev1 :: [y] ++ ev2 :: z /\ ev_op ev1 = OpReceive auth_i /\ ev_op ev2 = OpReceive auth_i /\
  started_with 301 ev1 /\ started_with 301 ev2.
Proof. unfold bs_end. cbn [fst]. do 5 eexists. split; [reflexivity|]. repeat split. Qed.
Lemma bs_texts : exists x y ev1 z ev2, fst bs_end = [x; y] ++ ev1 :: [z] ++ ev2 :: [] /\ ev_op ev1 = OpSend 301 xs_hi /\ ev_op ev2 = OpSend 301 [x6e; x6f] /\
  ev_result ev1 = Ok (AnPayloads (paid bs1)) /\ ev_result ev2 = Ok (AnPayloads (paid bs3)).
Proof. unfold bs_end. cbn [fst]. do 5 eexists. split; [reflexivity|]. repeat split. Qed.

(* and in Alice's history in OTRv3 *)
Definition yr_calls : list ((N -> env) * op) :=
  [(xs_ea x23, OpReceive dh_key); (xs_ea x25, OpReceive signature); (xs_ea x26, OpSend 400 xs_hi);
   (xs_ea x71, OpReceive dh_key); (xs_ea x72, OpReceive signature); (xs_ea x73, OpSend 400 [x6e; x6f])].
Definition yr_end := Eval vm_compute in xs_end (replay toy (snd ya_end1) (fst ya_end1) yr_calls).
Lemma yr_run : history toy xs_alice (fst yr_end) (snd yr_end).
Proof. apply (replay_run toy xs_a0 yr_calls (snd ya_end1) (fst ya_end1)); [exact ya_run1|]. vm_compute. reflexivity. Qed.
Lemma yr_texts : exists x y ev1 z ev2, fst yr_end = x ++ ev1 :: y ++ ev2 :: z /\ ev_op ev1 = OpSend 400 xs_hi /\ ev_op ev2 = OpSend 400 [x6e; x6f] /\
  ev_result ev1 = Ok (AnPayloads [ya_text]) /\ ev_result ev2 = Ok (AnPayloads (paid yr3)).
Proof.
  exists (firstn 3 (fst yr_end)), (firstn 2 (skipn 4 (fst yr_end))). unfold yr_end. cbn [fst firstn skipn app].
  do 3 eexists. split; [reflexivity|]. repeat split.
Qed.
