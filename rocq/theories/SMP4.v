(* src/smp4.rs: the Socialist Millionaire Protocol of OTRv4.  The scalars drawn by `random_in_Zq` are
   explicit arguments; so is the user's answer to a question.  The destructors (smp4.rs:33-37, 535-563)
   are not modelled. *)
From Verif Require Import Base Types Crypto Encoding SMP.
Local Open Scope Z_scope.

(* src/smp4.rs:15-21 `is_smp_tlv`; the types are those of OTRv3 (smp4.rs:40-44), without 1Q *)
Definition is_smp4_tlv (t : tlv) : bool :=
  existsb (N.eqb (tlv_type t)) [TLV_SMP_1; TLV_SMP_2; TLV_SMP_3; TLV_SMP_4; TLV_SMP_ABORT].

(* The explanation inside `SMP4Status::Aborted`; the texts are at smp4.rs:126, 415, 475 *)
Inductive abort4_reason : Type := Error4 | Differ4 | User4.
(* src/smp4.rs:499-509 `SMP4Status` *)
Inductive smp4_status : Type := S4Initial | S4InProgress | S4Aborted (r : abort4_reason) | S4Completed.

(* src/smp4.rs:511-533 `State` *)
Inductive smp4_state : Type :=
| Expect4_1
| Expect4_2 (x a2 a3 : Z)
| Expect4_3 (G3a G2 G3 : point) (b3 : Z) (Pb Qb : point)
| Expect4_4 (G3b DeltaP DeltaQ : point) (a3 : Z).

(* src/smp4.rs:24-31 `SMP4Context`; the host is an argument of the functions that use it *)
Record smp4_context : Type := mkSmp4 {
  s4_status : smp4_status; s4_state : smp4_state; s4_us : bytes; s4_them : bytes; s4_ssid : bytes }.

(* The random scalars of one call *)
Record smp4_rnd : Type := mkSmp4Rnd {
  s4_2 : Z; s4_3 : Z; s4_r2 : Z; s4_r3 : Z; s4_r4 : Z; s4_r5 : Z; s4_r6 : Z; s4_r7 : Z }.

Section WithCrypto.
Context (C : Crypto).

Local Notation G := (c_ed_g C).
Local Notation q := (c_ed_q C).

(* src/smp4.rs:49-63 `new` *)
Definition smp4_new (us them ssid : bytes) : smp4_context := mkSmp4 S4Initial Expect4_1 us them ssid.

(* src/smp4.rs:479-495 `compute_secret`; `prune` panics on an all-zero hash *)
Definition smp4_secret (initiator responder ssid secret : bytes) : res Z :=
  let* digest := prune (hwc C 57 USAGE_SMP_SECRET
                          (x01 :: initiator ++ responder ++ ssid ++ write_data secret)) in
  Ok (Z.of_N (le_val digest)).

(* src/crypto.rs:1302-1312 `hash_point_to_scalar`, `hash_point_to_scalar2` *)
Definition hash_pt (usage : byte) (a : point) : res Z := hash_to_scalar C usage (pt_encode a).
Definition hash_pt2 (usage : byte) (a b : point) : res Z := hash_to_scalar C usage (pt_encode a ++ pt_encode b).

(* the repeated expression `(r - (a * c).mod_floor(q)).mod_floor(q)`, e.g. smp4.rs:89 *)
Definition smp4_d (r a c : Z) : Z := (r - (a * c) mod q) mod q.

Local Infix "+p" := (pt_add C) (at level 50, left associativity).
Local Infix "*p" := (pt_mul C) (at level 40, left associativity).

(* `compare_scalars_distinct(..).map_err(CryptographicViolation)?`, e.g. smp4.rs:175; src/crypto.rs:1951-1956 *)
Definition same_scalar (a b : Z) : res unit := let* e := compare_scalars a b in of_bool e.
(* src/crypto.rs:1966-1972 `compare_points_distinct` *)
Definition same_pt (a b : point) : bool := ct_compare (pt_encode a) (pt_encode b).
(* `a + -b`, e.g. smp4.rs:302 *)
Definition pt_sub (a b : point) : point := a +p pt_neg C b.

Definition wp (a : point) : bytes := write_ed448_point a.
Definition ws (s : Z) : bytes := write_ed448_scalar s.

(* src/smp4.rs:74-116 `initiate`, `initiate0` *)
Definition smp4_initiate (rnd : smp4_rnd) (c : smp4_context) (secret question : bytes)
  : smp4_context * res tlv :=
  match s4_status c with
  | S4InProgress => (c, Err SMPInProgress)
  | _ =>
      let a2 := s4_2 rnd in let a3 := s4_3 rnd in
      let r2 := s4_r2 rnd in let r3 := s4_r3 rnd in
      let made :=
        let* c2 := hash_pt x01 (G *p r2) in
        let d2 := smp4_d r2 a2 c2 in
        let* c3 := hash_pt x02 (G *p r3) in
        let d3 := smp4_d r3 a3 c3 in
        let G2a := G *p a2 in let G3a := G *p a3 in
        if negb (pt_verify C G2a) then Panic
        else if negb (pt_verify C G3a) then Panic
        else
          let smp1 := write_data question ++ wp G2a ++ ws c2 ++ ws d2 ++ wp G3a ++ ws c3 ++ ws d3 in
          let* x := smp4_secret (s4_us c) (s4_them c) (s4_ssid c) secret in
          Ok (Expect4_2 x a2 a3, mkTlv TLV_SMP_1 smp1) in
      match made with
      | Ok (st, t) => (mkSmp4 S4InProgress st (s4_us c) (s4_them c) (s4_ssid c), Ok t)
      | Err e => (c, Err e)
      | Panic => (c, Panic)
      end
  end.

(* src/smp4.rs:151-237 `handle_message_1` *)
Definition smp4_message_1 (answer : bytes -> option bytes) (rnd : smp4_rnd) (c : smp4_context) (t : tlv)
  : res (smp4_state * tlv) :=
  match s4_state c with
  | Expect4_1 =>
      let* (question, buf) := read_data (tlv_value t) in
      let* (G2a, buf) := read_ed448_point C buf in
      let* _ := of_bool (pt_verify C G2a) in
      let* (c2, buf) := read_ed448_scalar C buf in
      let* (d2, buf) := read_ed448_scalar C buf in
      let* (G3a, buf) := read_ed448_point C buf in
      let* _ := of_bool (pt_verify C G3a) in
      let* (c3, buf) := read_ed448_scalar C buf in
      let* (d3, buf) := read_ed448_scalar C buf in
      let* _ := done buf in
      let* c2_expected := hash_pt x01 (G *p d2 +p G2a *p c2) in
      let* _ := same_scalar c2_expected c2 in
      let* c3_expected := hash_pt x02 (G *p d3 +p G3a *p c3) in
      let* _ := same_scalar c3_expected c3 in
      match answer question with
      | None => Err UserError (* SMPAborted; every error is dropped by `handle` *)
      | Some secret =>
          let b2 := s4_2 rnd in let b3 := s4_3 rnd in
          let r2 := s4_r2 rnd in let r3 := s4_r3 rnd in let r4 := s4_r4 rnd in
          let r5 := s4_r5 rnd in let r6 := s4_r6 rnd in
          let G2b := G *p b2 in let G3b := G *p b3 in
          let* c2 := hash_pt x03 (G *p r2) in
          let d2 := smp4_d r2 b2 c2 in
          let* c3 := hash_pt x04 (G *p r3) in
          let d3 := smp4_d r3 b3 c3 in
          let G2 := G2a *p b2 in
          let* _ := of_bool (pt_verify C G2) in
          let G3 := G3a *p b3 in
          let* _ := of_bool (pt_verify C G3) in
          let* y := smp4_secret (s4_them c) (s4_us c) (s4_ssid c) secret in
          let Pb := G3 *p r4 in
          let* _ := of_bool (pt_verify C Pb) in
          let Qb := G *p r4 +p G2 *p y in
          let* _ := of_bool (pt_verify C Qb) in
          let* cp := hash_pt2 x05 (G3 *p r5) (G *p r5 +p G2 *p r6) in
          let d5 := smp4_d r5 r4 cp in
          let d6 := smp4_d r6 y cp in
          let smp2 := wp G2b ++ ws c2 ++ ws d2 ++ wp G3b ++ ws c3 ++ ws d3 ++ wp Pb ++ wp Qb
                      ++ ws cp ++ ws d5 ++ ws d6 in
          Ok (Expect4_3 G3a G2 G3 b3 Pb Qb, mkTlv TLV_SMP_2 smp2)
      end
  | _ => Err ProtocolViolation
  end.

(* src/smp4.rs:240-333 `handle_message_2` *)
Definition smp4_message_2 (rnd : smp4_rnd) (c : smp4_context) (t : tlv) : res (smp4_state * tlv) :=
  match s4_state c with
  | Expect4_2 x0 a2 a3 =>
      let x := x0 mod q in
      let* (G2b, buf) := read_ed448_point C (tlv_value t) in
      let* (c2, buf) := read_ed448_scalar C buf in
      let* (d2, buf) := read_ed448_scalar C buf in
      let* (G3b, buf) := read_ed448_point C buf in
      let* (c3, buf) := read_ed448_scalar C buf in
      let* (d3, buf) := read_ed448_scalar C buf in
      let* (Pb, buf) := read_ed448_point C buf in
      let* (Qb, buf) := read_ed448_point C buf in
      let* (cp, buf) := read_ed448_scalar C buf in
      let* (d5, buf) := read_ed448_scalar C buf in
      let* (d6, buf) := read_ed448_scalar C buf in
      let* _ := done buf in
      let* _ := of_bool (pt_verify C G2b) in
      let* _ := of_bool (pt_verify C G3b) in
      let* h2 := hash_pt x03 (G *p d2 +p G2b *p c2) in
      let* _ := same_scalar c2 h2 in
      let* h3 := hash_pt x04 (G *p d3 +p G3b *p c3) in
      let* _ := same_scalar c3 h3 in
      let G2 := G2b *p a2 in
      let* _ := of_bool (pt_verify C G2) in
      let G3 := G3b *p a3 in
      let* _ := of_bool (pt_verify C G3) in
      let* hp := hash_pt2 x05 (G3 *p d5 +p Pb *p cp) (G *p d5 +p G2 *p d6 +p Qb *p cp) in
      let* _ := same_scalar cp hp in
      let r4 := s4_r4 rnd in let r5 := s4_r5 rnd in let r6 := s4_r6 rnd in let r7 := s4_r7 rnd in
      let Pa := G3 *p r4 in
      let DeltaP := pt_sub Pa Pb in
      let Qa := G *p r4 +p G2 *p x in
      let DeltaQ := pt_sub Qa Qb in
      let* cp := hash_pt2 x06 (G3 *p r5) (G *p r5 +p G2 *p r6) in
      let d5 := smp4_d r5 r4 cp in
      let d6 := smp4_d r6 x cp in
      let Ra := DeltaQ *p a3 in
      let* cr := hash_pt2 x07 (G *p r7) (DeltaQ *p r7) in
      let d7 := smp4_d r7 a3 cr in
      let smp3 := wp Pa ++ wp Qa ++ ws cp ++ ws d5 ++ ws d6 ++ wp Ra ++ ws cr ++ ws d7 in
      Ok (Expect4_4 G3b DeltaP DeltaQ a3, mkTlv TLV_SMP_3 smp3)
  | _ => Err ProtocolViolation
  end.

(* src/smp4.rs:338-420 `handle_message_3`; the result says whether the secrets are equal *)
Definition smp4_message_3 (rnd : smp4_rnd) (c : smp4_context) (t : tlv) : res (bool * tlv) :=
  match s4_state c with
  | Expect4_3 G3a G2 G3 b3 Pb Qb =>
      let* (Pa, buf) := read_ed448_point C (tlv_value t) in
      let* (Qa, buf) := read_ed448_point C buf in
      let* (cp, buf) := read_ed448_scalar C buf in
      let* (d5, buf) := read_ed448_scalar C buf in
      let* (d6, buf) := read_ed448_scalar C buf in
      let* (Ra, buf) := read_ed448_point C buf in
      let* (cr, buf) := read_ed448_scalar C buf in
      let* (d7, buf) := read_ed448_scalar C buf in
      let* _ := done buf in
      let* _ := of_bool (pt_verify C Pa) in
      let* _ := of_bool (pt_verify C Qa) in
      let* _ := of_bool (pt_verify C Ra) in
      let* hp := hash_pt2 x06 (G3 *p d5 +p Pa *p cp) (G *p d5 +p G2 *p d6 +p Qa *p cp) in
      let* _ := same_scalar cp hp in
      let DeltaQ := pt_sub Qa Qb in
      let* hr := hash_pt2 x07 (G *p d7 +p G3a *p cr) (DeltaQ *p d7 +p Ra *p cr) in
      let* _ := same_scalar cr hr in
      let r7 := s4_r7 rnd in
      let Rb := DeltaQ *p b3 in
      let* cr := hash_pt2 x08 (G *p r7) (DeltaQ *p r7) in
      let d7 := smp4_d r7 b3 cr in
      let smp4 := wp Rb ++ ws cr ++ ws d7 in
      Ok (same_pt (Ra *p b3) (pt_sub Pa Pb), mkTlv TLV_SMP_4 smp4)
  | _ => Err ProtocolViolation
  end.

(* src/smp4.rs:424-470 `handle_message_4` *)
Definition smp4_message_4 (c : smp4_context) (t : tlv) : res unit :=
  match s4_state c with
  | Expect4_4 G3b DeltaP DeltaQ a3 =>
      let* (Rb, buf) := read_ed448_point C (tlv_value t) in
      let* (cr, buf) := read_ed448_scalar C buf in
      let* (d7, buf) := read_ed448_scalar C buf in
      let* _ := done buf in
      let* _ := of_bool (pt_verify C Rb) in
      let* hr := hash_pt2 x08 (G *p d7 +p G3b *p cr) (DeltaQ *p d7 +p Rb *p cr) in
      let* _ := same_scalar cr hr in
      of_bool (same_pt (Rb *p a3) DeltaP)
  | _ => Err ProtocolViolation
  end.

(* src/smp4.rs:473-477 `abort` *)
Definition smp4_abort (c : smp4_context) : smp4_context * tlv :=
  (mkSmp4 (S4Aborted User4) Expect4_1 (s4_us c) (s4_them c) (s4_ssid c), abort_tlv).

(* src/smp4.rs:134-148 `dispatch`: the context and the answer after a message that is no error *)
Definition smp4_dispatch (answer : bytes -> option bytes) (rnd : smp4_rnd) (c : smp4_context) (t : tlv)
  : res (smp4_context * option tlv) :=
  let ctx status state := mkSmp4 status state (s4_us c) (s4_them c) (s4_ssid c) in
  let typ := tlv_type t in
  if (typ =? TLV_SMP_ABORT)%N then let '(c', a) := smp4_abort c in Ok (c', Some a)
  else if (typ =? TLV_SMP_1)%N then
    let* (st, r) := smp4_message_1 answer rnd c t in Ok (ctx S4InProgress st, Some r)
  else if (typ =? TLV_SMP_2)%N then
    let* (st, r) := smp4_message_2 rnd c t in Ok (ctx S4InProgress st, Some r)
  else if (typ =? TLV_SMP_3)%N then
    let* (same, r) := smp4_message_3 rnd c t in
    Ok (ctx (if same : bool then S4Completed else S4Aborted Differ4) Expect4_1, Some r)
  else if (typ =? TLV_SMP_4)%N then
    let* _ := smp4_message_4 c t in Ok (ctx S4Completed Expect4_1, None)
  else Panic.

(* src/smp4.rs:120-132 `handle`.  A panic leaves the context unspecified; here it is unchanged. *)
Definition smp4_handle (answer : bytes -> option bytes) (rnd : smp4_rnd) (c : smp4_context) (t : tlv)
  : smp4_context * res (option tlv) :=
  match smp4_dispatch answer rnd c t with
  | Ok (c', r) => (c', Ok r)
  | Err _ => (mkSmp4 (S4Aborted Error4) Expect4_1 (s4_us c) (s4_them c) (s4_ssid c), Ok None)
  | Panic => (c, Panic)
  end.

End WithCrypto.
