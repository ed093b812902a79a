(* Two clients of the toy instance: their sessions, through the API. *)
From Verif Require Import Base BaseLemmas Types Crypto ToyCrypto Encoding ClientProfile Messages Fragment KeyManager
  DataV3 Ratchet DataV4 SpecCurve ToyGroup AKE AKELemmas DAKE DAKEExamples SMP SMP4 Protocol Session SpecSession.
Local Open Scope N_scope.

(* a run computed *)
Fixpoint replay (C : Crypto) (s : session) (h : list event) (l : list ((N -> env) * op)) : option (list event * session) :=
  match l with
  | [] => Some (h, s)
  | (es, o) :: l =>
      match call C es s o with
      | (_, _, Panic) => None
      | (s', out, r) => replay C s' (h ++ [mkEvent o out r]) l
      end
  end.
Lemma replay_run C s0 l : forall s h h' s', run C s0 h s -> replay C s h l = Some (h', s') -> run C s0 h' s'.
Proof.
  induction l as [|[es o] l IH]; intros s h h' s' R H; cbn [replay] in H; [congruence|].
  destruct (call C es s o) as [[s1 out] r] eqn:E. destruct r as [a|x|]; [| |discriminate].
  - eapply IH; [|exact H]. eapply run_call; [exact R|exact E|discriminate].
  - eapply IH; [|exact H]. eapply run_call; [exact R|exact E|discriminate].
Qed.

Definition xs_policy : policy := mkPolicy true true false true true true.
Definition xs_alice : details := mkDetails xs_policy 301 [x61] [x62].
Definition xs_bob : details := mkDetails xs_policy 400 [x62] [x61].
(* the answers of the hosts, with random values from n *)
Definition xs_env (k : dsa_keypair) (p : bytes) (id : eddsa_keypair) (rr : ring_rnd) (n : byte) (now : N) : env :=
  mkEnv (N.to_nat 4000) (Some k) p id (fun _ => Some [x73])
    (b2n n) (repeat n 16) [n] (b2n n + 1) (b2n n + 2) (b2n n + 3)
    (mkDakeRnd [n; x01] (b2n n + 4) [n; x02] (b2n n + 5)) rr (mkSendRnd [n; x03] (b2n n + 6) now)
    (mkSmpRnd 3 4 5 6 7 8 9 10) (mkSmp4Rnd 3 4 5 6 7 8 9 10) [x01; x02; x03; x04].
Definition xs_ea (n : byte) : N -> env := fun _ => xs_env tk_a (write_payload xd_pa) xd_ka xd_r1 n xd_now.
Definition xs_eb (n : byte) : N -> env := fun _ => xs_env tk_b (write_payload xd_pb) xd_kb xd_r2 n xd_now.

(* what one call does *)
Definition xs_out (x : effect session answer) : bytes := let '(_, out, _) := x in hd [] out.
Definition xs_next (x : effect session answer) : session := let '(s, _, _) := x in s.
Definition xs_payload (x : effect session (list bytes)) : bytes :=
  match x with (_, _, Ok l) => hd [] l | _ => [] end.
Definition xs_injected {A} (x : effect session A) : bytes := let '(_, out, _) := x in hd [] out.
Definition xs_after {A} (x : effect session A) : session := let '(s, _, _) := x in s.
Definition xs_end (x : option (list event * session)) : list event * session :=
  match x with Some y => y | None => ([], session_new (mkDetails (mkPolicy false false false false false false) 0 [] [])) end.

(* "?OTRv4?" and "?OTRv3?", and a text *)
Definition xs_query4 : bytes := [x3f; x4f; x54; x52; x76; x34; x3f].
Definition xs_query3 : bytes := [x3f; x4f; x54; x52; x76; x33; x3f].
Definition xs_hi : bytes := [x68; x69].
Definition xs_a0 := session_new xs_alice.
Definition xs_b0 := session_new xs_bob.

(** ** OTRv3: the exchange, a message, the end *)
Definition ys_x1 := Eval vm_compute in call toy (xs_ea x21) xs_a0 (OpReceive xs_query3).
Definition ys_x2 := Eval vm_compute in call toy (xs_eb x22) xs_b0 (OpReceive (xs_out ys_x1)).
Definition ys_x3 := Eval vm_compute in call toy (xs_ea x23) (xs_next ys_x1) (OpReceive (xs_out ys_x2)).
Definition ys_x4 := Eval vm_compute in call toy (xs_eb x24) (xs_next ys_x2) (OpReceive (xs_out ys_x3)).
Definition ya_calls : list ((N -> env) * op) :=
  [(xs_ea x21, OpReceive xs_query3); (xs_ea x23, OpReceive (xs_out ys_x2)); (xs_ea x25, OpReceive (xs_out ys_x4))].
Definition yb_calls : list ((N -> env) * op) :=
  [(xs_eb x22, OpReceive (xs_out ys_x1)); (xs_eb x24, OpReceive (xs_out ys_x3))].
Definition ya_end := Eval vm_compute in xs_end (replay toy xs_a0 [] ya_calls).
Definition yb_end := Eval vm_compute in xs_end (replay toy xs_b0 [] yb_calls).
Definition ya_h := Eval cbv beta iota delta [ya_end fst] in fst ya_end.
Definition ya_s := Eval cbv beta iota delta [ya_end snd] in snd ya_end.
Definition yb_h := Eval cbv beta iota delta [yb_end fst] in fst yb_end.
Definition yb_s := Eval cbv beta iota delta [yb_end snd] in snd yb_end.
(* Alice sends "hi"; Bob reads it and ends the session *)
Definition ya_text := Eval vm_compute in xs_payload (send toy (xs_ea x26 400) ya_s 400 xs_hi).
Definition yb_s1 := Eval vm_compute in xs_after (receive toy (xs_eb x27 0) yb_s ya_text).
Definition yb_bye := Eval vm_compute in xs_injected (end_session toy (xs_eb x28 301) yb_s1 301).
Definition ya_s1 := Eval vm_compute in xs_after (send toy (xs_ea x26 400) ya_s 400 xs_hi).
Definition ya_s2 := Eval vm_compute in xs_after (receive toy (xs_ea x29 0) ya_s1 yb_bye).

(** ** OTRv4, the same *)
Definition zs_x1 := Eval vm_compute in call toy (xs_ea x14) xs_a0 (OpReceive xs_query4).
Definition zs_x2 := Eval vm_compute in call toy (xs_eb x54) xs_b0 (OpReceive (xs_out zs_x1)).
Definition zs_x3 := Eval vm_compute in call toy (xs_ea x44) (xs_next zs_x1) (OpReceive (xs_out zs_x2)).
Definition za_calls : list ((N -> env) * op) :=
  [(xs_ea x14, OpReceive xs_query4); (xs_ea x44, OpReceive (xs_out zs_x2))].
Definition zb_calls : list ((N -> env) * op) :=
  [(xs_eb x54, OpReceive (xs_out zs_x1)); (xs_eb x54, OpReceive (xs_out zs_x3))].
Definition za_end := Eval vm_compute in xs_end (replay toy xs_a0 [] za_calls).
Definition zb_end := Eval vm_compute in xs_end (replay toy xs_b0 [] zb_calls).
Definition za_h := Eval cbv beta iota delta [za_end fst] in fst za_end.
Definition za_s := Eval cbv beta iota delta [za_end snd] in snd za_end.
Definition zb_h := Eval cbv beta iota delta [zb_end fst] in fst zb_end.
Definition zb_s := Eval cbv beta iota delta [zb_end snd] in snd zb_end.
Definition za_text := Eval vm_compute in xs_payload (send toy (xs_ea x26 400) za_s 400 xs_hi).
Definition zb_s1 := Eval vm_compute in xs_after (receive toy (xs_eb x27 0) zb_s za_text).
Definition zb_bye := Eval vm_compute in xs_injected (end_session toy (xs_eb x28 301) zb_s1 301).
Definition za_s1 := Eval vm_compute in xs_after (send toy (xs_ea x26 400) za_s 400 xs_hi).
Definition za_s2 := Eval vm_compute in xs_after (receive toy (xs_ea x29 0) za_s1 zb_bye).


(** ** An OTRv3 exchange in the middle of the OTRv4 session *)
Definition ws_x1 := Eval vm_compute in call toy (xs_ea x21) za_s (OpReceive xs_query3).
Definition ws_x2 := Eval vm_compute in call toy (xs_eb x22) xs_b0 (OpReceive (xs_out ws_x1)).
Definition ws_x3 := Eval vm_compute in call toy (xs_ea x23) (xs_next ws_x1) (OpReceive (xs_out ws_x2)).
Definition ws_x4 := Eval vm_compute in call toy (xs_eb x24) (xs_next ws_x2) (OpReceive (xs_out ws_x3)).
Definition wa_calls : list ((N -> env) * op) :=
  [(xs_ea x21, OpReceive xs_query3); (xs_ea x23, OpReceive (xs_out ws_x2))].
Definition wa_end := Eval vm_compute in xs_end (replay toy za_s za_h wa_calls).
Definition wa_h := Eval cbv beta iota delta [wa_end fst] in fst wa_end.
Definition wa_s := Eval cbv beta iota delta [wa_end snd] in snd wa_end.
Definition wa_signature := Eval vm_compute in xs_out ws_x4.


Lemma ya_run : history toy xs_alice ya_h ya_s.
Proof. apply (replay_run toy xs_a0 ya_calls xs_a0 []); [constructor|]. vm_compute. reflexivity. Qed.
Lemma yb_run : history toy xs_bob yb_h yb_s.
Proof. apply (replay_run toy xs_b0 yb_calls xs_b0 []); [constructor|]. vm_compute. reflexivity. Qed.
Lemma za_run : history toy xs_alice za_h za_s.
Proof. apply (replay_run toy xs_a0 za_calls xs_a0 []); [constructor|]. vm_compute. reflexivity. Qed.
Lemma zb_run : history toy xs_bob zb_h zb_s.
Proof. apply (replay_run toy xs_b0 zb_calls xs_b0 []); [constructor|]. vm_compute. reflexivity. Qed.
Lemma wa_run : history toy xs_alice wa_h wa_s.
Proof. apply (replay_run toy xs_a0 wa_calls za_s za_h); [exact za_run|]. vm_compute. reflexivity. Qed.
Lemma xs_enabled : enabled xs_alice /\ enabled xs_bob.
Proof. split; right; reflexivity. Qed.

Lemma ya_sends : send toy (xs_ea x26 400) ya_s 400 xs_hi = (ya_s1, [], Ok [ya_text]).
Proof. vm_compute. reflexivity. Qed.
Lemma yb_reads : receive toy (xs_eb x27 0) yb_s ya_text = (yb_s1, [], Ok (UMConfidential 301 xs_hi [])).
Proof. vm_compute. reflexivity. Qed.
Lemma ya_ended : receive toy (xs_ea x29 0) ya_s1 yb_bye = (ya_s2, [], Ok (UMSessionFinished 400 [])).
Proof. vm_compute. reflexivity. Qed.
Lemma za_sends : send toy (xs_ea x26 400) za_s 400 xs_hi = (za_s1, [], Ok [za_text]).
Proof. vm_compute. reflexivity. Qed.
Lemma zb_reads : receive toy (xs_eb x27 0) zb_s za_text = (zb_s1, [], Ok (UMConfidential 301 xs_hi [])).
Proof. vm_compute. reflexivity. Qed.
Lemma za_ended : receive toy (xs_ea x29 0) za_s1 zb_bye = (za_s2, [], Ok (UMSessionFinished 400 [])).
Proof. vm_compute. reflexivity. Qed.
