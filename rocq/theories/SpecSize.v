(* Two transports that differ only in how long a message may be.  Definitions only. *)
From Verif Require Import Base Types Crypto Encoding Messages Fragment DAKE SMP SMP4 Ratchet Protocol Session SpecSession SpecLongTerm.
Local Open Scope N_scope.

(* the same host, time and random values; only the longest message the transport takes, and the random identifier that is
   drawn for the fragments of a message, differ *)
Record same_but_size (e1 e2 : env) : Prop := mkSameButSize {
  sz_dsa : ev_dsa e1 = ev_dsa e2; sz_profile : ev_profile e1 = ev_profile e2; sz_identity : ev_identity e1 = ev_identity e2;
  sz_answer : ev_answer e1 = ev_answer e2;
  sz_dh : ev_dh e1 = ev_dh e2; sz_r : ev_r e1 = ev_r e2; sz_nonce : ev_nonce e1 = ev_nonce e2;
  sz_km0 : ev_km0 e1 = ev_km0 e2; sz_km1 : ev_km1 e1 = ev_km1 e2; sz_ack : ev_ack e1 = ev_ack e2;
  sz_dake : ev_dake e1 = ev_dake e2; sz_ring : ev_ring e1 = ev_ring e2; sz_send : ev_send e1 = ev_send e2;
  sz_smp : ev_smp e1 = ev_smp e2; sz_smp4 : ev_smp4 e1 = ev_smp4 e2 }.

(* the text w goes to a client as the messages ps: in one piece if it is short enough, else in fragments *)
Definition sent_as (d : details) (e : env) (v : version) (receiver : N) (w : bytes) (ps : list bytes) : Prop :=
  ((length w <= ev_message_size e)%nat /\ ps = [w])
  \/ ((ev_message_size e < length w)%nat /\
      exists fs, fragment_content (ev_message_size e) v (de_tag d) receiver (ev_fragment e) w = Ok fs /\
        Forall2 (fun f p => encode_fragment f = Ok p) fs ps).

(* the messages l1 and l2 are the same texts in the same order, each going out in one piece or in fragments *)
Inductive same_texts (d : details) (es1 es2 : N -> env) : list bytes -> list bytes -> Prop :=
| st_nil : same_texts d es1 es2 [] []
| st_whole w l1 l2 : same_texts d es1 es2 l1 l2 -> same_texts d es1 es2 (w :: l1) (w :: l2)
| st_sent t v receiver w ps1 ps2 l1 l2 : sent_as d (es1 t) v receiver w ps1 -> sent_as d (es2 t) v receiver w ps2 ->
    same_texts d es1 es2 l1 l2 -> same_texts d es1 es2 (ps1 ++ l1) (ps2 ++ l2).

(* the same result; where it consists of messages for the transport, the same texts *)
Definition same_answer (d : details) (es1 es2 : N -> env) (r1 r2 : res answer) : Prop :=
  r1 = r2 \/ exists l1 l2, r1 = Ok (AnPayloads l1) /\ r2 = Ok (AnPayloads l2) /\ same_texts d es1 es2 l1 l2.

(* the messages ps are a text that goes out with the second limit, but cannot be sent with the first *)
Definition too_long (d : details) (es1 es2 : N -> env) (ps : list bytes) : Prop :=
  exists t v receiver w, sent_as d (es2 t) v receiver w ps /\ forall ps1, ~ sent_as d (es1 t) v receiver w ps1.

(* several calls, one after the other, each for two transports; what was handed to the network and returned *)
Fixpoint alike (d : details) (l : list ((N -> env) * (N -> env) * op)) (xs ys : list (list bytes * res answer)) : Prop :=
  match l, xs, ys with
  | [], [], [] => True
  | (es1, es2, _) :: l, (out1, r1) :: xs, (out2, r2) :: ys =>
      same_texts d es1 es2 out1 out2 /\ same_answer d es1 es2 r1 r2 /\ alike d l xs ys
  | _, _, _ => False
  end.
Definition left_calls (l : list ((N -> env) * (N -> env) * op)) : list ((N -> env) * op) := map (fun '(es1, _, o) => (es1, o)) l.
Definition right_calls (l : list ((N -> env) * (N -> env) * op)) : list ((N -> env) * op) := map (fun '(_, es2, o) => (es2, o)) l.
(* no call crashes *)
Fixpoint crashless (C : Crypto) (l : list ((N -> env) * op)) (s : session) : Prop :=
  match l with
  | [] => True
  | (es, o) :: r => snd (call C es s o) <> Panic /\ crashless C r (fst (fst (call C es s o)))
  end.
