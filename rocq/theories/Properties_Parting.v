(* C72: how a private conversation ends. *)
From Verif Require Import Base Types Crypto ToyCrypto Encoding Messages SpecData3 Protocol Session SpecSession SessionExamples SpecNet
  Data3Lemmas NetExamples Net4Examples SpecParting PartingLemmas PartingExamples.
Local Open Scope N_scope.

(** ** C72 When one user ends the conversation, both sides leave it *)

(* OTRv3.  The user who ends it is told, and the session is in plaintext from then on. *)
Theorem C72_v3_ends : forall C da db sa sb x hs l (a : bool) e s' ps r,
  let tb := if a then de_tag db else de_tag da in
  start_net3 C da db sa sb x -> dh_group_ok C -> net_run C (de_tag da) (de_tag db) (mkLink (x_sa2 x) (x_sb3 x) [] []) hs l ->
  end_session C e (if a then li_a l else li_b l) tb = (s', ps, Ok r) -> env_ok e -> transportable ps ->
  r = UMReset tb /\ status_of s' tb = Plaintext.
Proof. intros. eapply (net3_parting C da db sa sb x hs l a e s' ps r); eassumption. Qed.
Print Assumptions C72_v3_ends.

(* Full property: when the farewell arrives, the peer's user is told and the peer's session leaves the encrypted
   state.  Proved: so it is, or the farewell is unreadable, which the peer's user does not learn.  Missing: that the
   latter cannot happen (it can, see below). *)
Theorem C72_v3_told_partial : forall C da db sa sb x hs l (a : bool) e s' ps r,
  let ta := if a then de_tag da else de_tag db in let tb := if a then de_tag db else de_tag da in
  start_net3 C da db sa sb x -> dh_group_ok C -> net_run C (de_tag da) (de_tag db) (mkLink (x_sa2 x) (x_sb3 x) [] []) hs l ->
  end_session C e (if a then li_a l else li_b l) tb = (s', ps, Ok r) -> env_ok e -> transportable ps ->
  told_or_unnoticed C ta (if a then li_b l else li_a l) (if a then li_ab l else li_ba l) ps.
Proof. intros. eapply (net3_parting C da db sa sb x hs l a e s' ps r); eassumption. Qed.
Print Assumptions C72_v3_told_partial.

(* When the users have taken turns, the peer's user is told. *)
Theorem C72_v3_turns : forall C da db sa sb x hs l (a b : bool) e s' ps r,
  let ta := if a then de_tag da else de_tag db in let tb := if a then de_tag db else de_tag da in
  start_net3 C da db sa sb x -> dh_group_ok C -> net_run C (de_tag da) (de_tag db) (mkLink (x_sa2 x) (x_sb3 x) [] []) hs l ->
  end_session C e (if a then li_a l else li_b l) tb = (s', ps, Ok r) -> env_ok e -> transportable ps -> alternating b hs ->
  surely_told C ta (if a then li_b l else li_a l) ps.
Proof. intros. eapply (net3_parting C da db sa sb x hs l a e s' ps r); eassumption. Qed.
Print Assumptions C72_v3_turns.

(* Alice says "hi" and leaves at once, while Bob writes something. *)
Example C72_ex3 : start_net3 toy ns_alice ns_bob ns_a0 ns_b0 ns_x /\ dh_group_ok toy /\
  net_run toy 301 400 (mkLink (x_sa2 ns_x) (x_sb3 ns_x) [] []) [Sends true xs_hi] pt_l1 /\
  end_session toy (xs_ea x33 0) (li_a pt_l1) 400 = (fst (fst pt_c1), snd (fst pt_c1), Ok (UMReset 400)) /\
  env_ok (xs_ea x33 0) /\ transportable (snd (fst pt_c1)) /\
  parting_run toy 301 (mkParting (li_b pt_l1) (with_farewell (li_ab pt_l1) (snd (fst pt_c1)))) (mkParting (pa_session pt_p2) [(snd (fst pt_c1), None)]) /\
  receive_all toy (xs_eb x27 0) (pa_session pt_p2) (snd (fst pt_c1)) = (fst (fst pt_d3), [], [Ok (UMSessionFinished 301 [])]).
Proof.
  split; [exact ns_start|]. split; [exact toy_group_ok|]. split; [exact pt_run1|]. split; [exact pt_leaves|]. split; [reflexivity|].
  split; [carried|]. split; [exact pt_parting|exact pt_told].
Qed.
Definition pt_e4 := Eval vm_compute in end_session toy (xs_ea x33 0) (li_a ns_l4) 400.
Example C72_ex_turns : net_run toy 301 400 (mkLink (x_sa2 ns_x) (x_sb3 ns_x) [] []) ns_hs ns_l4 /\ alternating true ns_hs /\
  end_session toy (xs_ea x33 0) (li_a ns_l4) 400 = (fst (fst pt_e4), snd (fst pt_e4), Ok (UMReset 400)) /\ transportable (snd (fst pt_e4)).
Proof. split; [exact ns_run|]. split; [exact ns_turns|]. split; [vm_compute; reflexivity|carried]. Qed.

(* The full property fails although no message is lost, changed or overtaken: A sends twice, B answers, A ends the
   conversation, the farewell arrives; B's user is told nothing and goes on in what looks like a private conversation. *)
Theorem C72_v3_refuted : ~ (forall C da db sa sb x hs l (a : bool) e s' ps r,
  let ta := if a then de_tag da else de_tag db in let tb := if a then de_tag db else de_tag da in
  start_net3 C da db sa sb x -> dh_group_ok C -> net_run C (de_tag da) (de_tag db) (mkLink (x_sa2 x) (x_sb3 x) [] []) hs l ->
  end_session C e (if a then li_a l else li_b l) tb = (s', ps, Ok r) -> env_ok e -> transportable ps ->
  (if a then li_ab l else li_ba l) = [] -> (if a then li_ba l else li_ab l) = [] ->
  surely_told C ta (if a then li_b l else li_a l) ps).
Proof.
  intros H. destruct pt_run as (hs & R).
  specialize (H toy _ _ _ _ _ hs pt_l6 true _ _ _ _ ns_start toy_group_ok R pt_ends eq_refl pt_transportable eq_refl eq_refl).
  destruct (H _ _ _ _ pt_unread) as [_ E].
  - intros [I|[]]. discriminate I.
  - change (status_of (fst (fst pt_b4)) 301 = Finished) in E. rewrite pt_still in E. discriminate E.
Qed.
Print Assumptions C72_v3_refuted.

(* OTRv4: likewise. *)
Theorem C72_v4_ends : forall C da db sa sb x hs l (a : bool) e s' ps r,
  let tb := if a then de_tag db else de_tag da in
  start_net4 C da db sa sb x -> net_run C (de_tag da) (de_tag db) (mkLink (x_sa2 x) (x_sb3 x) [] []) hs l ->
  end_session C e (if a then li_a l else li_b l) tb = (s', ps, Ok r) -> env_ok e -> transportable ps ->
  r = UMReset tb /\ status_of s' tb = Plaintext.
Proof. intros C da db sa sb x hs l a e s' ps r tb S R E EO TP. exact (proj1 (proj1 (net4_parting C da db sa sb x hs l a S R) _ _ _ _ E EO TP)). Qed.
Print Assumptions C72_v4_ends.

Theorem C72_v4_told_partial : forall C da db sa sb x hs l (a : bool) e s' ps r,
  let ta := if a then de_tag da else de_tag db in let tb := if a then de_tag db else de_tag da in
  start_net4 C da db sa sb x -> net_run C (de_tag da) (de_tag db) (mkLink (x_sa2 x) (x_sb3 x) [] []) hs l ->
  end_session C e (if a then li_a l else li_b l) tb = (s', ps, Ok r) -> env_ok e -> transportable ps ->
  told_or_unnoticed C ta (if a then li_b l else li_a l) (if a then li_ab l else li_ba l) ps.
Proof.
  intros C da db sa sb x hs l a e s' ps r ta tb S R E EO TP.
  exact (proj1 (proj2 (proj1 (net4_parting C da db sa sb x hs l a S R) _ _ _ _ E EO TP))).
Qed.
Print Assumptions C72_v4_told_partial.

(* When the user who ends the conversation is the one to speak, the peer's user is told, unless the farewell brings a
   fresh key that happens to be the sender's last one. *)
Theorem C72_v4_speaker : forall C da db sa sb x hs l (a : bool) e s' ps r,
  let ta := if a then de_tag da else de_tag db in let tb := if a then de_tag db else de_tag da in
  start_net4 C da db sa sb x -> net_run C (de_tag da) (de_tag db) (mkLink (x_sa2 x) (x_sb3 x) [] []) hs l ->
  end_session C e (if a then li_a l else li_b l) tb = (s', ps, Ok r) -> env_ok e -> transportable ps ->
  speaking (de_tag da) (de_tag db) a hs -> ~ repeats_key C (if a then li_b l else li_a l) ta ps ->
  surely_told C ta (if a then li_b l else li_a l) ps.
Proof.
  intros C da db sa sb x hs l a e s' ps r ta tb S R E EO TP.
  exact (proj2 (proj2 (proj1 (net4_parting C da db sa sb x hs l a S R) _ _ _ _ E EO TP))).
Qed.
Print Assumptions C72_v4_speaker.

(* The same holds for a conversation that the client ends because it was idle: its farewell is part of what goes
   out. *)
Theorem C72_v4_expiry_partial : forall C da db sa sb x hs l (a : bool) es timeout s' out,
  let dA := if a then da else db in let sA := if a then li_a l else li_b l in
  let ta := if a then de_tag da else de_tag db in let tb := if a then de_tag db else de_tag da in
  start_net4 C da db sa sb x -> net_run C (de_tag da) (de_tag db) (mkLink (x_sa2 x) (x_sb3 x) [] []) hs l ->
  expire C es sA timeout = (s', out, Ok tt) -> status_of s' tb = Finished -> env_ok (es tb) ->
  exists pre ps post m, out = pre ++ ps ++ post /\ goodbye C (ev_send (es tb)) (state_of sA tb) V4 m /\ transported dA (es tb) tb V4 m ps /\
    (transportable ps -> told_or_unnoticed C ta (if a then li_b l else li_a l) (if a then li_ab l else li_ba l) ps /\
      (speaking (de_tag da) (de_tag db) a hs -> ~ repeats_key C (if a then li_b l else li_a l) ta ps ->
       surely_told C ta (if a then li_b l else li_a l) ps)).
Proof. intros C da db sa sb x hs l a es timeout s' out dA sA ta tb S R. exact (proj2 (net4_parting C da db sa sb x hs l a S R) es timeout s' out). Qed.
Print Assumptions C72_v4_expiry_partial.

Example C72_ex4 : start_net4 toy xs_alice xs_bob xs_a0 xs_b0 nf_x /\
  net_run toy 301 400 (mkLink (x_sa2 nf_x) (x_sb3 nf_x) [] []) pf_hs6 pf_l6 /\ speaking 301 400 true pf_hs6 /\
  end_session toy (xs_ea x33 0) (li_a pf_l6) 400 = (fst (fst pf_a2), pf_bye, Ok (UMReset 400)) /\
  env_ok (xs_ea x33 0) /\ transportable pf_bye /\ ~ repeats_key toy (li_b pf_l6) 301 pf_bye /\
  receive_all toy (xs_eb x27 0) (li_b pf_l6) pf_bye = (fst (fst pf_c1), [], [Ok (UMSessionFinished 301 [])]) /\
  expire toy (fun t => xs_ea x33 t) (li_a pf_l6) 0 = (fst (fst pf_late), snd (fst pf_late), Ok tt) /\
  status_of (fst (fst pf_late)) 400 = Finished.
Proof.
  split; [exact nf_start|]. split; [exact pf_run6|]. split; [exact pf_speaking|]. split; [exact pf_ends|]. split; [reflexivity|].
  split; [exact pf_transportable|]. split; [apply pf_fresh|]. split; [exact pf_told|]. split; [exact pf_expires|exact pf_expired].
Qed.

(* The full property fails when the peer has written something in the meantime. *)
Theorem C72_v4_refuted : ~ (forall C da db sa sb x hs l (a : bool) e s' ps r,
  let ta := if a then de_tag da else de_tag db in let tb := if a then de_tag db else de_tag da in
  start_net4 C da db sa sb x -> net_run C (de_tag da) (de_tag db) (mkLink (x_sa2 x) (x_sb3 x) [] []) hs l ->
  end_session C e (if a then li_a l else li_b l) tb = (s', ps, Ok r) -> env_ok e -> transportable ps ->
  (if a then li_ab l else li_ba l) = [] -> ~ repeats_key C (if a then li_b l else li_a l) ta ps -> surely_told C ta (if a then li_b l else li_a l) ps).
Proof.
  intros H. specialize (H toy _ _ _ _ _ _ pf_l7 true _ _ _ _ nf_start pf_run pf_ends eq_refl pf_transportable eq_refl (pf_fresh _)).
  destruct (H _ _ _ _ pf_unread) as [_ E].
  - intros [I|[]]. discriminate I.
  - change (status_of (fst (fst pf_b3)) 301 = Finished) in E. rewrite pf_still in E. discriminate E.
Qed.
Print Assumptions C72_v4_refuted.
