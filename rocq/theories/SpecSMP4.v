(* Vocabulary for the properties of the OTRv4 Socialist Millionaire Protocol. *)
From Verif Require Import Base Types Crypto Encoding SpecCurve SMP SMP4.
From Coq Require Import Znumtheory.
Local Open Scope Z_scope.

Section WithCrypto.
Context (C : Crypto).

Local Notation G := (c_ed_g C).
Local Notation q := (c_ed_q C).

(* A curve like Ed448: its prime is 3 modulo 4 and has at most 448 bits, the generator has odd prime order. *)
Definition smp4_group : Prop :=
  curve_ok C /\ c_ed_p C mod 4 = 3 /\ c_ed_p C <= 2 ^ 448 /\ prime q /\ 2 < q /\ q <= 2 ^ 448 /\ G <> pt_id.

(** ** Honest runs *)

Definition scalars (r : smp4_rnd) : Prop :=
  Forall (fun s => 0 <= s < q) [s4_2 r; s4_3 r; s4_r2 r; s4_r3 r; s4_r4 r; s4_r5 r; s4_r6 r; s4_r7 r].

(* Random choices are degenerate when a number that has to be sent is zero; the chance is negligible. *)
Definition ne (z : Z) : Prop := z mod q <> 0.
(* A zero knowledge proof with commitment [pts] in which no number is zero: [c] is the challenge, and
   each pair is a random scalar and the secret scalar it hides. *)
Definition proof_ok (usage : byte) (pts : list point) (rs : list (Z * Z)) : Prop :=
  exists c, hash_to_scalar C usage (concat (map pt_encode pts)) = Ok c /\ c <> 0 /\
    Forall (fun p => ne (fst p - snd p * c)) rs.
Definition at_g (k : Z) : point := pt_mul C G (k mod q).

Definition usual_1 (ra1 : smp4_rnd) : Prop :=
  ne (s4_2 ra1) /\ ne (s4_3 ra1) /\
  proof_ok x01 [at_g (s4_r2 ra1)] [(s4_r2 ra1, s4_2 ra1)] /\
  proof_ok x02 [at_g (s4_r3 ra1)] [(s4_r3 ra1, s4_3 ra1)].
Definition usual_2 (ra1 rb1 : smp4_rnd) (y : Z) : Prop :=
  let k2 := s4_2 ra1 * s4_2 rb1 in let k3 := s4_3 ra1 * s4_3 rb1 in
  ne (s4_2 rb1) /\ ne (s4_3 rb1) /\ ne (s4_r4 rb1) /\ ne (s4_r4 rb1 + k2 * y) /\
  proof_ok x03 [at_g (s4_r2 rb1)] [(s4_r2 rb1, s4_2 rb1)] /\
  proof_ok x04 [at_g (s4_r3 rb1)] [(s4_r3 rb1, s4_3 rb1)] /\
  proof_ok x05 [at_g (k3 * s4_r5 rb1); at_g (s4_r5 rb1 + k2 * s4_r6 rb1)]
    [(s4_r5 rb1, s4_r4 rb1); (s4_r6 rb1, y)].
(* the logarithm of Qa - Qb *)
Definition log_q (ra1 rb1 ra2 : smp4_rnd) (x y : Z) : Z :=
  let k2 := s4_2 ra1 * s4_2 rb1 in s4_r4 ra2 + k2 * x - (s4_r4 rb1 + k2 * y).
Definition usual_3 (ra1 rb1 ra2 : smp4_rnd) (x y : Z) : Prop :=
  let k2 := s4_2 ra1 * s4_2 rb1 in let k3 := s4_3 ra1 * s4_3 rb1 in
  let D := log_q ra1 rb1 ra2 x y in
  ne (s4_r4 ra2) /\ ne (s4_r4 ra2 + k2 * x) /\ ne D /\
  proof_ok x06 [at_g (k3 * s4_r5 ra2); at_g (s4_r5 ra2 + k2 * s4_r6 ra2)]
    [(s4_r5 ra2, s4_r4 ra2); (s4_r6 ra2, x)] /\
  proof_ok x07 [at_g (s4_r7 ra2); at_g (D * s4_r7 ra2)] [(s4_r7 ra2, s4_3 ra1)].
Definition usual_4 (ra1 rb1 ra2 rb2 : smp4_rnd) (x y : Z) : Prop :=
  let D := log_q ra1 rb1 ra2 x y in
  proof_ok x08 [at_g (s4_r7 rb2); at_g (D * s4_r7 rb2)] [(s4_r7 rb2, s4_3 rb1)].
Definition usual_choices (ra1 rb1 ra2 rb2 : smp4_rnd) (x y : Z) : Prop :=
  scalars ra1 /\ scalars rb1 /\ scalars ra2 /\ scalars rb2 /\
  usual_1 ra1 /\ usual_2 ra1 rb1 y /\ usual_3 ra1 rb1 ra2 x y /\ usual_4 ra1 rb1 ra2 rb2 x y.

Definition idle4 (c : smp4_context) : Prop := s4_state c = Expect4_1.
(* The two clients belong to one session. *)
Definition smp4_peers (a b : smp4_context) : Prop :=
  s4_us a = s4_them b /\ s4_them a = s4_us b /\ s4_ssid a = s4_ssid b.

(* Alice starts with [secret] and the question, Bob is asked it; every message is delivered. *)
Definition honest_run4 (ans_a ans_b : bytes -> option bytes) (a b : smp4_context) (secret question : bytes)
    (ra1 rb1 ra2 rb2 ra3 : smp4_rnd) (verdict_a verdict_b : smp4_status) : Prop :=
  exists a1 t1 b1 t2 a2 t3 b2 t4 a3,
    smp4_initiate C ra1 a secret question = (a1, Ok t1) /\
    smp4_handle C ans_b rb1 b t1 = (b1, Ok (Some t2)) /\
    smp4_handle C ans_a ra2 a1 t2 = (a2, Ok (Some t3)) /\
    smp4_handle C ans_b rb2 b1 t3 = (b2, Ok (Some t4)) /\
    smp4_handle C ans_a ra3 a2 t4 = (a3, Ok None) /\
    s4_status b1 = S4InProgress /\ s4_status a2 = S4InProgress /\
    s4_status b2 = verdict_b /\ s4_status a3 = verdict_a.

(** ** What happened to a client, latest first *)

Inductive smp4_event : Type :=
| Started4 (secret question : bytes) (sent : tlv)
| Received4 (answer : bytes -> option bytes) (t : tlv) (reply : option tlv)
| Stopped4.
Inductive smp4_hist (us them ssid : bytes) : list smp4_event -> smp4_context -> Prop :=
| hist4_new : smp4_hist us them ssid [] (smp4_new us them ssid)
| hist4_start evs c rnd secret question c' t :
    smp4_hist us them ssid evs c -> smp4_initiate C rnd c secret question = (c', Ok t) ->
    smp4_hist us them ssid (Started4 secret question t :: evs) c'
| hist4_refused evs c rnd secret question c' e :
    smp4_hist us them ssid evs c -> smp4_initiate C rnd c secret question = (c', Err e) ->
    smp4_hist us them ssid evs c'
| hist4_handle evs c answer rnd t c' r :
    smp4_hist us them ssid evs c -> smp4_handle C answer rnd c t = (c', Ok r) ->
    smp4_hist us them ssid (Received4 answer t r :: evs) c'
| hist4_abort evs c c' t :
    smp4_hist us them ssid evs c -> smp4_abort c = (c', t) -> smp4_hist us them ssid (Stopped4 :: evs) c'.

(* the contents of a message: points and scalars *)
Inductive item : Type := Pt (a : point) | Sc (s : Z).
Fixpoint read_items (points : list bool) (buf : bytes) : res (list item * bytes) :=
  match points with
  | [] => Ok ([], buf)
  | true :: shape =>
      let* (a, buf) := read_ed448_point C buf in
      let* (l, buf) := read_items shape buf in Ok (Pt a :: l, buf)
  | false :: shape =>
      let* (s, buf) := read_ed448_scalar C buf in
      let* (l, buf) := read_items shape buf in Ok (Sc s :: l, buf)
  end.

Local Infix "+p" := (pt_add C) (at level 50, left associativity).
Local Infix "*p" := (pt_mul C) (at level 40, left associativity).

(* The zero knowledge proofs: knowledge of a logarithm; of the exponents of P and Q; equal logarithms. *)
Definition knows4 (usage : byte) (d : Z) (X : point) (c : Z) : Prop :=
  c <> 0 /\ hash_to_scalar C usage (pt_encode (G *p d +p X *p c)) = Ok c.
Definition knows4_pq (usage : byte) (G2 G3 : point) (d5 d6 : Z) (P Q : point) (c : Z) : Prop :=
  c <> 0 /\
  hash_to_scalar C usage (pt_encode (G3 *p d5 +p P *p c) ++ pt_encode (G *p d5 +p G2 *p d6 +p Q *p c)) = Ok c.
Definition same_log4 (usage : byte) (d : Z) (X B R : point) (c : Z) : Prop :=
  c <> 0 /\ hash_to_scalar C usage (pt_encode (G *p d +p X *p c) ++ pt_encode (B *p d +p R *p c)) = Ok c.

Definition checked4_1 (t : tlv) (question : bytes) (G2a G3a : point) : Prop :=
  exists rest c2 d2 c3 d3, read_data (tlv_value t) = Ok (question, rest) /\
    read_items [true; false; false; true; false; false] rest = Ok ([Pt G2a; Sc c2; Sc d2; Pt G3a; Sc c3; Sc d3], []) /\
    pt_verify C G2a = true /\ pt_verify C G3a = true /\ knows4 x01 d2 G2a c2 /\ knows4 x02 d3 G3a c3.
Definition checked4_2 (t : tlv) (G2 G3 G2b G3b Pb Qb : point) : Prop :=
  exists c2 d2 c3 d3 cp d5 d6,
    read_items [true; false; false; true; false; false; true; true; false; false; false] (tlv_value t)
      = Ok ([Pt G2b; Sc c2; Sc d2; Pt G3b; Sc c3; Sc d3; Pt Pb; Pt Qb; Sc cp; Sc d5; Sc d6], []) /\
    pt_verify C G2b = true /\ pt_verify C G3b = true /\ pt_verify C G2 = true /\ pt_verify C G3 = true /\
    knows4 x03 d2 G2b c2 /\ knows4 x04 d3 G3b c3 /\ knows4_pq x05 G2 G3 d5 d6 Pb Qb cp.

Definition starter_success4 (us them ssid : bytes) (evs : list smp4_event) : Prop :=
  exists secret question t1 ans2 t2 t3 ans4 t4 before,
    evs = Received4 ans4 t4 None :: Received4 ans2 t2 (Some t3) :: Started4 secret question t1 :: before /\
    tlv_type t2 = 3%N /\ tlv_type t4 = 5%N /\
    exists x a2 a3 G2b G3b Pb Qb r4, smp4_secret C us them ssid secret = Ok x /\
      let G2 := G2b *p a2 in let G3 := G3b *p a3 in
      let Pa := G3 *p r4 in let Qa := G *p r4 +p G2 *p (x mod q) in
      checked4_2 t2 G2 G3 G2b G3b Pb Qb /\
      exists Rb cr d7,
        read_items [true; false; false] (tlv_value t4) = Ok ([Pt Rb; Sc cr; Sc d7], []) /\ pt_verify C Rb = true /\
        same_log4 x08 d7 G3b (Qa +p pt_neg C Qb) Rb cr /\
        pt_encode (Rb *p a3) = pt_encode (Pa +p pt_neg C Pb).
Definition answerer_success4 (us them ssid : bytes) (evs : list smp4_event) : Prop :=
  exists ans t1 t2 ans3 t3 t4 before question secret,
    evs = Received4 ans3 t3 (Some t4) :: Received4 ans t1 (Some t2) :: before /\
    tlv_type t1 = 2%N /\ tlv_type t3 = 4%N /\ ans question = Some secret /\
    exists y G2a G3a b2 b3 r4, smp4_secret C them us ssid secret = Ok y /\ checked4_1 t1 question G2a G3a /\
      let G2 := G2a *p b2 in let G3 := G3a *p b3 in
      let Pb := G3 *p r4 in let Qb := G *p r4 +p G2 *p y in
      pt_verify C G2 = true /\ pt_verify C G3 = true /\ pt_verify C Pb = true /\ pt_verify C Qb = true /\
      exists Pa Qa cp d5 d6 Ra cr d7,
        read_items [true; true; false; false; false; true; false; false] (tlv_value t3)
          = Ok ([Pt Pa; Pt Qa; Sc cp; Sc d5; Sc d6; Pt Ra; Sc cr; Sc d7], []) /\
        pt_verify C Pa = true /\ pt_verify C Qa = true /\ pt_verify C Ra = true /\
        knows4_pq x06 G2 G3 d5 d6 Pa Qa cp /\
        same_log4 x07 d7 G3a (Qa +p pt_neg C Qb) Ra cr /\
        pt_encode (Ra *p b3) = pt_encode (Pa +p pt_neg C Pb).

Definition expects4 (st : smp4_state) (typ : N) : bool :=
  match st with
  | Expect4_1 => typ =? 2
  | Expect4_2 _ _ _ => typ =? 3
  | Expect4_3 _ _ _ _ _ _ => typ =? 4
  | Expect4_4 _ _ _ _ => typ =? 5
  end%N.

(* The message [t] travels to [b], the answer back to [a], and so on: there is an answer [n] times. *)
Fixpoint keeps_replying (n : nat) (a b : smp4_context) (t : tlv) : Prop :=
  match n with
  | O => True
  | S n => forall answer rnd, exists b' t',
      smp4_handle C answer rnd b t = (b', Ok (Some t')) /\ keeps_replying n b' a t'
  end.

End WithCrypto.
