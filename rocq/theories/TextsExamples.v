(* Conversations of the toy instance over a network that repeats, reorders and loses messages. *)
From Verif Require Import Base BaseLemmas Types Crypto ToyCrypto Encoding Messages Fragment KeyManager DataV3 DataV3Proofs Ratchet DataV4 DataV4Proofs
  SMP SMP4 Protocol Session SpecData3 SpecData4 SpecSession SessionExamples SpecNet NetExamples Net4Examples StartExamples SpecFollow FollowProofs SpecTexts.
Local Open Scope N_scope.
Notation Sends := SpecFollow.Sends.

(** ** Accounts computed *)

Definition follows (C : Crypto) (st : pstate) (x : did) (e : env) (st' : pstate) : Prop :=
  match x with
  | Sends m text => p_status st = Encrypted /\ p_prepare C st false text (ev_send e) = Ok (st', m)
  | Reads em text =>
      match st, em_message em, st' with
      | PEnc3 our their k _, MData m, PEnc3 our' their' k' _ =>
          our' = our /\ their' = their /\
          decrypt3 C k m (encode_authenticator_data (em_sender em) (em_receiver em) m) (ev_ack e) = (k', Ok text)
      | PEnc4 our their k _, MData4 m, PEnc4 our' their' k' _ =>
          our' = our /\ their' = their /\
          decrypt4 C k m (encode_authenticator_data4 (em_sender em) (em_receiver em) m) (ev_now e) = (k', Ok text)
      | _, _, _ => False
      end
  | Refuses em =>
      match st, em_message em, st' with
      | PEnc4 our their k _, MData4 m, PEnc4 our' their' k' _ =>
          our' = our /\ their' = their /\
          exists y, decrypt4 C k m (encode_authenticator_data4 (em_sender em) (em_receiver em) m) (ev_now e) = (k', Err y)
      | _, _, _ => False
      end
  end.
Lemma follows_steps C st x e st' : follows C st x e st' -> steps C st [x] st'.
Proof.
  destruct x as [m text|em text|em]; cbn [follows].
  - intros (SE & H). destruct st as [|our their k smp|our their k smp|]; try discriminate; cbn [p_prepare] in H.
    + destruct (encrypt3 C our their k false text) as [[m' k']|y|] eqn:E; try discriminate. cbn in H. injection H as <- <-.
      split; [reflexivity|]. split; [reflexivity|]. exists [Sent3 m' text]. split; [repeat constructor|].
      apply (r3_send C our their k [] k false text m' k'); [constructor|exact E].
    + destruct (encrypt4 C our their k false text [] (ev_send e)) as [[m' k']|y|] eqn:E; try discriminate. cbn in H. injection H as <- <-.
      split; [reflexivity|]. split; [reflexivity|]. exists [Sent4 m' text]. split; [repeat constructor|].
      apply (r4_send C our their k [] k false text (ev_send e) m' k'); [constructor|exact E].
  - destruct st as [|our their k smp|our their k smp|]; try contradiction; destruct (em_message em) as [| | | | |m| | | |m] eqn:M; try contradiction;
      destruct st' as [|our' their' k' smp'|our' their' k' smp'|]; try contradiction; intros (-> & -> & D).
    + split; [reflexivity|]. split; [reflexivity|]. eexists [Got3 m _ (Some text)]. split.
      * constructor; [|constructor]. split; [exact M|]. split; reflexivity.
      * apply (r3_accept C our their k [] k m _ (ev_ack e) k' text); [constructor|exact D].
    + split; [reflexivity|]. split; [reflexivity|]. destruct (decrypt4_authentic _ _ _ _ _ _ _ D) as (mk & A).
      eexists [Took4 m _ text mk]. split.
      * constructor; [|constructor]. split; [exact M|]. split; reflexivity.
      * apply (r4_accept C our their k [] k m _ (ev_now e) k' text); [constructor|exact D|exact A].
  - destruct st as [|our their k smp|our their k smp|]; try contradiction; destruct (em_message em) as [| | | | |m| | | |m] eqn:M; try contradiction;
      destruct st' as [|our' their' k' smp'|our' their' k' smp'|]; try contradiction; intros (-> & -> & y & D).
    split; [reflexivity|]. split; [reflexivity|]. eexists [Refused4 m _]. split.
    * constructor; [|constructor]. split; [exact M|reflexivity].
    * apply (r4_refuse C our their k [] k m _ (ev_now e) k' y); [constructor|exact D].
Qed.
Lemma last_next {A} (l : list A) : forall x d, last (x :: l) d = last l x.
Proof. induction l as [|y l IH]; intros x d; [reflexivity|]. change (last (x :: y :: l) d) with (last (y :: l) d). now rewrite !IH. Qed.
Fixpoint follows_all (C : Crypto) (st : pstate) (l : list (did * env * pstate)) : Prop :=
  match l with [] => True | (x, e, st') :: l => follows C st x e st' /\ follows_all C st' l end.
Lemma follows_all_steps C l : forall st, p_status st = Encrypted -> follows_all C st l ->
  steps C st (map (fun x => fst (fst x)) l) (last (map snd l) st).
Proof.
  induction l as [|[[x e] st'] l IH]; intros st SE H; cbn [map fst snd].
  - now apply steps_refl.
  - destruct H as [H1 H2]. apply follows_steps in H1. apply (steps_trans C _ [x] st'); [assumption|].
    rewrite last_next. apply IH; [|assumption]. apply steps_status in H1. apply H1.
Qed.

(* the states of client t after each of the calls *)
Fixpoint states (C : Crypto) (s : session) (t : N) (l : list ((N -> env) * op)) : list pstate :=
  match l with [] => [] | (es, o) :: l => let s' := fst (fst (call C es s o)) in state_of s' t :: states C s' t l end.

(** ** OTRv3: Alice says "hi" and "y\0o", Bob answers "hi".  The network delivers Alice's first message twice. *)
Definition ts_1 := Eval vm_compute in send toy (xs_ea x26 400) (x_sa2 ns_x) 400 xs_hi.
Definition ts_2 := Eval vm_compute in send toy (xs_ea x31 400) (fst (fst ts_1)) 400 ns_yo.
Definition ts_p1 := Eval vm_compute in hd [] (paid ts_1).
Definition ts_p2 := Eval vm_compute in hd [] (paid ts_2).
Definition ts_bcalls0 : list ((N -> env) * op) :=
  [(xs_eb x27, OpReceive ts_p1); (xs_eb x35, OpReceive ts_p1); (xs_eb x33, OpReceive ts_p2)].
Definition ts_b0 := Eval vm_compute in xs_end (replay toy (x_sb3 ns_x) [] ts_bcalls0).
Definition ts_3 := Eval vm_compute in send toy (xs_eb x28 301) (snd ts_b0) 301 xs_hi.
Definition ts_p3 := Eval vm_compute in hd [] (paid ts_3).
Definition ts_bcalls : list ((N -> env) * op) := ts_bcalls0 ++ [(xs_eb x28, OpSend 301 xs_hi)].
Definition ts_acalls : list ((N -> env) * op) :=
  [(xs_ea x26, OpSend 400 xs_hi); (xs_ea x31, OpSend 400 ns_yo); (xs_ea x29, OpReceive ts_p3)].
Definition ts_a := Eval vm_compute in xs_end (replay toy (x_sa2 ns_x) [] ts_acalls).
Definition ts_b := Eval vm_compute in xs_end (replay toy (x_sb3 ns_x) [] ts_bcalls).
Definition ts_yo : bytes := [x79; x6f].
Definition ts_ga : list did := [Sends (em_message (ns_parsed ts_p1)) xs_hi; Sends (em_message (ns_parsed ts_p2)) ts_yo; Reads (ns_parsed ts_p3) xs_hi].
Definition ts_gb : list did :=
  [Reads (ns_parsed ts_p1) xs_hi; Reads (ns_parsed ts_p1) xs_hi; Reads (ns_parsed ts_p2) ts_yo; Sends (em_message (ns_parsed ts_p3)) xs_hi].

Definition each {A} (l : list A) : list (list A) := map (fun x => [x]) l.
Lemma concat_each {A} (l : list A) : concat (each l) = l.
Proof. induction l as [|x l IH]; [reflexivity|]. cbn. now rewrite <- IH at 2. Qed.
Definition steps_of (C : Crypto) (s : session) (t : N) (calls : list ((N -> env) * op)) (g : list did) : list (did * env * pstate) :=
  combine (combine g (map (fun c => fst c 0) calls)) (states C s t calls).
Lemma computed_account C t s h s' calls g st l : replay C s [] calls = Some (h, s') -> state_of s t = st -> p_status st = Encrypted ->
  Forall2 (did_in C (se_details s) t) h (each g) -> follows_all C st l ->
  map (fun x => fst (fst x)) l = g -> state_of s' t = last (map snd l) st -> account C t s h s' (each g).
Proof.
  intros R <- SE F FO M L. split; [apply (replay_run C s calls s [] h s'); [constructor|exact R]|]. split; [exact F|].
  rewrite concat_each, L, <- M. now apply follows_all_steps.
Qed.

(* one call of an account *)
Lemma did_send C d t c p e m v : encode_message v (de_tag d) t m = Ok p -> (length p <=? ev_message_size e)%nat = true ->
  forall out, did_in C d t (mkEvent (OpSend t c) out (Ok (AnPayloads [p]))) [Sends m (without_nul c)].
Proof.
  intros E L out. right. split; [reflexivity|]. exists m, v, e. split; [reflexivity|]. exists p. split; [exact E|]. left.
  split; [now apply PeanoNat.Nat.leb_le|reflexivity].
Qed.
Lemma did_show C d t p em c out : ~ In x00 c -> em_sender em = t -> parse C p = Ok (MsgEncoded em) ->
  did_in C d t (mkEvent (OpReceive p) out (Ok (AnMessage (UMConfidential t c [])))) [Reads em c].
Proof.
  intros NI ES PA. split.
  - right. exists em. split; [assumption|]. split; [eauto|]. right. exists c. now left.
  - intros c' x E. cbn [ev_result] in E. injection E as <- <-. exists em, c. split; [reflexivity|]. split; [|reflexivity].
    exists []. split; [|split; [constructor|reflexivity]]. split; [assumption|]. split; [constructor|]. now left.
Qed.
Lemma did_refuse C d t p em r out : em_sender em = t -> parse C p = Ok (MsgEncoded em) ->
  did_in C d t (mkEvent (OpReceive p) out (Err r)) [Refuses em].
Proof.
  intros ES PA. split; [|discriminate]. right. exists em. split; [assumption|]. split; [eauto|]. now left.
Qed.
Ltac no_nul := let I := fresh in cbn; intros I; repeat (destruct I as [I|I]; [discriminate|]); exact I.
Definition ts_sta := Eval vm_compute in state_of (x_sa2 ns_x) 400.
Definition ts_la := Eval vm_compute in steps_of toy (x_sa2 ns_x) 400 ts_acalls ts_ga.
Lemma ts_follows_a : follows_all toy ts_sta ts_la.
Proof. vm_compute. repeat split. Qed.
Lemma ts_account_a : account toy 400 (x_sa2 ns_x) (fst ts_a) (snd ts_a) (each ts_ga).
Proof.
  apply (computed_account _ _ _ _ _ ts_acalls _ ts_sta ts_la);
    [vm_compute; reflexivity|vm_compute; reflexivity|reflexivity| |exact ts_follows_a|vm_compute; reflexivity|vm_compute; reflexivity].
  apply Forall2_cons; [|apply Forall2_cons; [|apply Forall2_cons; [|constructor]]].
  + apply (did_send toy _ 400 xs_hi ts_p1 (xs_ea x26 0) _ V3); vm_compute; reflexivity.
  + apply (did_send toy _ 400 ns_yo ts_p2 (xs_ea x31 0) _ V3); vm_compute; reflexivity.
  + apply did_show; [no_nul|vm_compute; reflexivity..].
Qed.
Definition ts_stb := Eval vm_compute in state_of (x_sb3 ns_x) 301.
Definition ts_lb := Eval vm_compute in steps_of toy (x_sb3 ns_x) 301 ts_bcalls ts_gb.
Lemma ts_follows_b : follows_all toy ts_stb ts_lb.
Proof. vm_compute. repeat split. Qed.
Lemma ts_account_b : account toy 301 (x_sb3 ns_x) (fst ts_b) (snd ts_b) (each ts_gb).
Proof.
  apply (computed_account _ _ _ _ _ ts_bcalls _ ts_stb ts_lb);
    [vm_compute; reflexivity|vm_compute; reflexivity|reflexivity| |exact ts_follows_b|vm_compute; reflexivity|vm_compute; reflexivity].
  apply Forall2_cons; [|apply Forall2_cons; [|apply Forall2_cons; [|apply Forall2_cons; [|constructor]]]].
  1-3: apply did_show; [no_nul|vm_compute; reflexivity..].
  apply (did_send toy _ 301 xs_hi ts_p3 (xs_eb x28 0) _ V3); vm_compute; reflexivity.
Qed.
(* every message read is one of those sent *)
Lemma genuine_listed gs gr : (forall em text, In (Reads em text) gr -> (exists text', In (Sends (em_message em) text') gs) /\
  same_data (em_message em) (em_message em)) -> genuine (concat (each gs)) (concat (each gr)).
Proof.
  intros H em text I. rewrite concat_each in *. destruct (H _ _ I) as ((text' & J) & S). exists (em_message em), text'. auto.
Qed.
Ltac listed := apply genuine_listed; intros em text I; repeat (destruct I as [I|I]; [first [discriminate I | injection I as <- <-; split; [|assumption];
  eexists; cbn [In]; solve [repeat first [left; reflexivity | right]]] |]); destruct I.
Lemma ts_genuine : genuine (concat (each ts_ga)) (concat (each ts_gb)) /\ genuine (concat (each ts_gb)) (concat (each ts_ga)).
Proof.
  assert (S1 : same_data (em_message (ns_parsed ts_p1)) (em_message (ns_parsed ts_p1))) by (vm_compute; repeat split).
  assert (S2 : same_data (em_message (ns_parsed ts_p2)) (em_message (ns_parsed ts_p2))) by (vm_compute; repeat split).
  assert (S3 : same_data (em_message (ns_parsed ts_p3)) (em_message (ns_parsed ts_p3))) by (vm_compute; repeat split).
  unfold ts_ga, ts_gb. revert S1 S2 S3. generalize (ns_parsed ts_p1) (ns_parsed ts_p2) (ns_parsed ts_p3). intros a b c S1 S2 S3.
  split; listed.
Qed.

(** ** OTRv4: Alice says "hi", "y\0o" and "hi".  The second message arrives after the third, and the first one twice. *)
Definition tf_1 := Eval vm_compute in send toy (xs_ea x26 400) (x_sa2 nf_x) 400 xs_hi.
Definition tf_2 := Eval vm_compute in send toy (xs_ea x31 400) (fst (fst tf_1)) 400 ns_yo.
Definition tf_3 := Eval vm_compute in send toy (xs_ea x33 400) (fst (fst tf_2)) 400 xs_hi.
Definition tf_p1 := Eval vm_compute in hd [] (paid tf_1).
Definition tf_p2 := Eval vm_compute in hd [] (paid tf_2).
Definition tf_p3 := Eval vm_compute in hd [] (paid tf_3).
Definition tf_bcalls0 : list ((N -> env) * op) :=
  [(xs_eb x27, OpReceive tf_p1); (xs_eb x35, OpReceive tf_p1); (xs_eb x33, OpReceive tf_p3); (xs_eb x34, OpReceive tf_p2)].
Definition tf_b0 := Eval vm_compute in xs_end (replay toy (x_sb3 nf_x) [] tf_bcalls0).
Definition tf_4 := Eval vm_compute in send toy (xs_eb x28 301) (snd tf_b0) 301 xs_hi.
Definition tf_p4 := Eval vm_compute in hd [] (paid tf_4).
Definition tf_bcalls : list ((N -> env) * op) := tf_bcalls0 ++ [(xs_eb x28, OpSend 301 xs_hi)].
Definition tf_acalls : list ((N -> env) * op) :=
  [(xs_ea x26, OpSend 400 xs_hi); (xs_ea x31, OpSend 400 ns_yo); (xs_ea x33, OpSend 400 xs_hi); (xs_ea x29, OpReceive tf_p4)].
Definition tf_a := Eval vm_compute in xs_end (replay toy (x_sa2 nf_x) [] tf_acalls).
Definition tf_b := Eval vm_compute in xs_end (replay toy (x_sb3 nf_x) [] tf_bcalls).
Definition tf_ga : list did := [Sends (em_message (ns_parsed tf_p1)) xs_hi; Sends (em_message (ns_parsed tf_p2)) ts_yo;
  Sends (em_message (ns_parsed tf_p3)) xs_hi; Reads (ns_parsed tf_p4) xs_hi].
Definition tf_gb : list did :=
  [Reads (ns_parsed tf_p1) xs_hi; Refuses (ns_parsed tf_p1); Reads (ns_parsed tf_p3) xs_hi; Refuses (ns_parsed tf_p2); Sends (em_message (ns_parsed tf_p4)) xs_hi].
Definition tf_sta := Eval vm_compute in state_of (x_sa2 nf_x) 400.
Definition tf_la := Eval vm_compute in steps_of toy (x_sa2 nf_x) 400 tf_acalls tf_ga.
Lemma tf_follows_a : follows_all toy tf_sta tf_la.
Proof. vm_compute. repeat split. Qed.
Lemma tf_account_a : account toy 400 (x_sa2 nf_x) (fst tf_a) (snd tf_a) (each tf_ga).
Proof.
  apply (computed_account _ _ _ _ _ tf_acalls _ tf_sta tf_la);
    [vm_compute; reflexivity|vm_compute; reflexivity|reflexivity| |exact tf_follows_a|vm_compute; reflexivity|vm_compute; reflexivity].
  apply Forall2_cons; [|apply Forall2_cons; [|apply Forall2_cons; [|apply Forall2_cons; [|constructor]]]].
  + apply (did_send toy _ 400 xs_hi tf_p1 (xs_ea x26 0) _ V4); vm_compute; reflexivity.
  + apply (did_send toy _ 400 ns_yo tf_p2 (xs_ea x31 0) _ V4); vm_compute; reflexivity.
  + apply (did_send toy _ 400 xs_hi tf_p3 (xs_ea x33 0) _ V4); vm_compute; reflexivity.
  + apply did_show; [no_nul|vm_compute; reflexivity..].
Qed.
Definition tf_stb := Eval vm_compute in state_of (x_sb3 nf_x) 301.
Definition tf_lb := Eval vm_compute in steps_of toy (x_sb3 nf_x) 301 tf_bcalls tf_gb.
Lemma tf_follows_b : follows_all toy tf_stb tf_lb.
Proof. vm_compute. repeat split; eexists; reflexivity. Qed.
Lemma tf_account_b : account toy 301 (x_sb3 nf_x) (fst tf_b) (snd tf_b) (each tf_gb).
Proof.
  apply (computed_account _ _ _ _ _ tf_bcalls _ tf_stb tf_lb);
    [vm_compute; reflexivity|vm_compute; reflexivity|reflexivity| |exact tf_follows_b|vm_compute; reflexivity|vm_compute; reflexivity].
  apply Forall2_cons; [|apply Forall2_cons; [|apply Forall2_cons; [|apply Forall2_cons; [|apply Forall2_cons; [|constructor]]]]].
  1,3: apply did_show; [no_nul|vm_compute; reflexivity..].
  1,2: apply did_refuse; vm_compute; reflexivity.
  apply (did_send toy _ 301 xs_hi tf_p4 (xs_eb x28 0) _ V4); vm_compute; reflexivity.
Qed.
Lemma tf_genuine : genuine (concat (each tf_ga)) (concat (each tf_gb)) /\ genuine (concat (each tf_gb)) (concat (each tf_ga)).
Proof.
  assert (S1 : same_data (em_message (ns_parsed tf_p1)) (em_message (ns_parsed tf_p1))) by (vm_compute; repeat split).
  assert (S2 : same_data (em_message (ns_parsed tf_p2)) (em_message (ns_parsed tf_p2))) by (vm_compute; repeat split).
  assert (S3 : same_data (em_message (ns_parsed tf_p3)) (em_message (ns_parsed tf_p3))) by (vm_compute; repeat split).
  assert (S4 : same_data (em_message (ns_parsed tf_p4)) (em_message (ns_parsed tf_p4))) by (vm_compute; repeat split).
  unfold tf_ga, tf_gb. revert S1 S2 S3 S4. generalize (ns_parsed tf_p1) (ns_parsed tf_p2) (ns_parsed tf_p3) (ns_parsed tf_p4).
  intros a b c d S1 S2 S3 S4. split; listed.
Qed.
