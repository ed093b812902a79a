(* src/smp.rs: the Socialist Millionaire Protocol of OTRv3.  Random exponents are explicit arguments;
   so are the public key of the host and the user's answer to a question.  The destructors that wipe
   memory (smp.rs:40-44, 693-729) are not modelled. *)
From Verif Require Import Base Types Crypto Encoding.
Local Open Scope N_scope.

(* src/smp.rs:26-33 *)
Definition TLV_SMP_1 : N := 2.
Definition TLV_SMP_2 : N := 3.
Definition TLV_SMP_3 : N := 4.
Definition TLV_SMP_4 : N := 5.
Definition TLV_SMP_ABORT : N := 6.
Definition TLV_SMP_1Q : N := 7.

(* src/smp.rs:16-23 `is_smp_tlv` *)
Definition is_smp3_tlv (t : tlv) : bool :=
  existsb (N.eqb (tlv_type t)) [TLV_SMP_1; TLV_SMP_1Q; TLV_SMP_2; TLV_SMP_3; TLV_SMP_4; TLV_SMP_ABORT].

(* The explanation inside `SMPStatus::Aborted`; the texts are at smp.rs:137, 143, 146, 152, 158, 165. *)
Inductive abort_reason : Type :=
| SecretsDiffer | AbortedByUser | AbortReceived | AbortViolation | AbortMalformed | AbortCrypto.
(* src/smp.rs:732-742 `SMPStatus` *)
Inductive smp_status : Type :=
| SmpInitial | SmpInProgress | SmpAbortedFor (r : abort_reason) | SmpCompleted.

(* src/smp.rs:669-691 `SMPState` *)
Inductive smp_state : Type :=
| Expect1
| Expect2 (x a2 a3 : N)
| Expect3 (g3a g2 g3 b3 Pb Qb : N)
| Expect4 (g3b PadivPb QadivQb a3 : N).

(* src/smp.rs:34-39 `SMPContext`; the host is an argument of the functions that use it *)
Record smp_context : Type := mkSmp {
  sm_status : smp_status; sm_state : smp_state; sm_ssid : bytes; sm_their_fp : bytes }.

(* The random numbers of one call: the two exponents for new generators, and r2 ... r7. *)
Record smp_rnd : Type := mkSmpRnd {
  sr_2 : N; sr_3 : N; sr_r2 : N; sr_r3 : N; sr_r4 : N; sr_r5 : N; sr_r6 : N; sr_r7 : N }.

(* What the host supplies: its DSA public key, and the user's answer to a question. *)
Record smp_host : Type := mkSmpHost { sh_key : option dsa_pub; sh_answer : bytes -> option bytes }.

(* How a message handler ends: a reply, or one of the errors smp.rs:130-149 used for control flow. *)
Inductive smp_outcome : Type :=
| SmpReply (st : smp_state) (t : tlv)
| SmpSuccess (response : option tlv)
| SmpFailed (response : option tlv)
| SmpAborted (needs_abort_tlv : bool).

Section WithCrypto.
Context (C : Crypto).

(* src/smp.rs:49-57 `new` *)
Definition smp_new (ssid their_fp : bytes) : smp_context := mkSmp SmpInitial Expect1 ssid their_fp.

(* src/smp.rs:746-764 `compute_secret`, SMP_VERSION at 743 *)
Definition smp_secret (initiator responder ssid secret : bytes) : N :=
  be_val (sha256 C (x01 :: initiator ++ responder ++ ssid ++ secret)).
(* src/smp.rs:766-772 `random`; the argument is the 192-byte random number *)
Definition smp_random (r : N) : N := r mod dh_q C.
(* src/smp.rs:774-788 `hash_1_mpi`, `hash_2_mpi` *)
Definition hash_1_mpi (v : byte) (m : N) : N := be_val (sha256 C (v :: write_mpi m)).
Definition hash_2_mpi (v : byte) (m1 m2 : N) : N := be_val (sha256 C (v :: write_mpi m1 ++ write_mpi m2)).

(* `modpow` and `mod_floor` with the modulus of the 1536-bit group *)
Definition pw (b e : N) : N := modpow b e (c_dh_p C).
Definition mm (a : N) : N := a mod c_dh_p C.
(* the repeated expression `(r + q - (a * c).mod_floor(q)).mod_floor(q)`, e.g. smp.rs:98 *)
Definition smp_d (r a c : N) : N := (r + dh_q C - (a * c) mod dh_q C) mod dh_q C.
(* src/crypto.rs:319-321 `otr::mod_inv` with this modulus; not invertible panics *)
Definition dh_inv (v : N) : res N :=
  match mod_inverse (Z.of_N v) (Z.of_N (c_dh_p C)) with Some i => Ok (Z.to_N i) | None => Panic end.
(* src/crypto.rs:168-180 `dh::verify` followed by `map_err(CryptographicViolation)?` *)
Definition dh_same (expected actual : N) : res unit := of_bool (expected =? actual).

(* smp.rs:79-86, 279-286: the fingerprint of the host's key, which must exist *)
Definition host_fp (h : smp_host) : res bytes :=
  match sh_key h with Some k => Ok (otr3_fingerprint C k) | None => Panic end.

(* src/smp.rs:69-117 `initiate` *)
Definition smp_initiate (h : smp_host) (rnd : smp_rnd) (c : smp_context) (secret question : bytes)
  : smp_context * res tlv :=
  match sm_state c with
  | Expect1 =>
      let c1 := mkSmp SmpInProgress (sm_state c) (sm_ssid c) (sm_their_fp c) in
      match host_fp h with
      | Ok fp =>
          let x := smp_secret fp (sm_their_fp c) (sm_ssid c) secret in
          let g1 := c_dh_g C in
          let a2 := smp_random (sr_2 rnd) in let a3 := smp_random (sr_3 rnd) in
          let g2a := pw g1 a2 in let g3a := pw g1 a3 in
          let r2 := smp_random (sr_r2 rnd) in let r3 := smp_random (sr_r3 rnd) in
          let c2 := hash_1_mpi x01 (pw g1 r2) in
          let D2 := smp_d r2 a2 c2 in
          let c3 := hash_1_mpi x02 (pw g1 r3) in
          let D3 := smp_d r3 a3 c3 in
          let mpis := write_mpi_sequence [g2a; c2; D2; g3a; c3; D3] in
          let t := match question with
                   | [] => mkTlv TLV_SMP_1 mpis
                   | _ => mkTlv TLV_SMP_1Q (write_bytes_null_terminated question ++ mpis)
                   end in
          (mkSmp SmpInProgress (Expect2 x a2 a3) (sm_ssid c) (sm_their_fp c), Ok t)
      | Err e => (c1, Err e)
      | Panic => (c1, Panic)
      end
  | _ => (c, Err SMPInProgress)
  end.

(* src/smp.rs:216-225: the question of a message 1, if any, and the rest of the value *)
Definition smp1_question (t : tlv) : bytes * bytes :=
  if tlv_type t =? TLV_SMP_1Q then read_bytes_null_terminated (tlv_value t) else ([], tlv_value t).

(* src/smp.rs:203-329 `handle_message_1` *)
Definition smp_message_1 (h : smp_host) (rnd : smp_rnd) (c : smp_context) (t : tlv) : res smp_outcome :=
  match sm_state c with
  | Expect1 =>
      let '(question, buf) := smp1_question t in
      let* (mpis, rest) := read_mpi_sequence buf in
      match mpis with
      | [g2a; c2; D2; g3a; c3; D3] =>
          let* _ := done rest in
          let* _ := of_bool (dh_verify_exponent C D2) in
          let* _ := of_bool (dh_verify_exponent C D3) in
          let* _ := of_bool (dh_verify_public_key C g2a) in
          let* _ := of_bool (dh_verify_public_key C g3a) in
          let g1 := c_dh_g C in
          let* _ := dh_same (hash_1_mpi x01 (mm (pw g1 D2 * pw g2a c2))) c2 in
          let* _ := dh_same (hash_1_mpi x02 (mm (pw g1 D3 * pw g3a c3))) c3 in
          match sh_answer h question with
          | None => Ok (SmpAborted true)
          | Some secret =>
              let* fp := host_fp h in
              let y := smp_secret (sm_their_fp c) fp (sm_ssid c) secret in
              let b2 := smp_random (sr_2 rnd) in let b3 := smp_random (sr_3 rnd) in
              let r2 := smp_random (sr_r2 rnd) in let r3 := smp_random (sr_r3 rnd) in
              let r4 := smp_random (sr_r4 rnd) in let r5 := smp_random (sr_r5 rnd) in
              let r6 := smp_random (sr_r6 rnd) in
              let g2b := pw g1 b2 in let g3b := pw g1 b3 in
              let c2 := hash_1_mpi x03 (pw g1 r2) in
              let D2 := smp_d r2 b2 c2 in
              let c3 := hash_1_mpi x04 (pw g1 r3) in
              let D3 := smp_d r3 b3 c3 in
              let g2 := pw g2a b2 in let g3 := pw g3a b3 in
              let Pb := pw g3 r4 in
              let Qb := mm (pw g1 r4 * pw g2 y) in
              let cP := hash_2_mpi x05 (pw g3 r5) (mm (pw g1 r5 * pw g2 r6)) in
              let D5 := smp_d r5 r4 cP in
              let D6 := smp_d r6 y cP in
              Ok (SmpReply (Expect3 g3a g2 g3 b3 Pb Qb)
                    (mkTlv TLV_SMP_2
                       (write_mpi_sequence [g2b; c2; D2; g3b; c3; D3; Pb; Qb; cP; D5; D6])))
          end
      | _ => Err ProtocolViolation
      end
  | _ => Err ProtocolViolation
  end.

(* src/smp.rs:331-471 `handle_message_2`; bytes behind the numbers are not checked *)
Definition smp_message_2 (rnd : smp_rnd) (c : smp_context) (t : tlv) : res smp_outcome :=
  match sm_state c with
  | Expect2 x a2 a3 =>
      let* (mpis, _) := read_mpi_sequence (tlv_value t) in
      match mpis with
      | [g2b; c2; D2; g3b; c3; D3; Pb; Qb; cP; D5; D6] =>
          let* _ := of_bool (dh_verify_exponent C D2) in
          let* _ := of_bool (dh_verify_exponent C D3) in
          let* _ := of_bool (dh_verify_exponent C D5) in
          let* _ := of_bool (dh_verify_exponent C D6) in
          let* _ := of_bool (dh_verify_public_key C g2b) in
          let* _ := of_bool (dh_verify_public_key C g3b) in
          let* _ := of_bool (dh_verify_public_key C Pb) in
          let* _ := of_bool (dh_verify_public_key C Qb) in
          let g1 := c_dh_g C in
          let* _ := dh_same (hash_1_mpi x03 (mm (pw g1 D2 * pw g2b c2))) c2 in
          let* _ := dh_same (hash_1_mpi x04 (mm (pw g1 D3 * pw g3b c3))) c3 in
          let g2 := pw g2b a2 in let g3 := pw g3b a3 in
          let* _ := dh_same (hash_2_mpi x05 (mm (pw g3 D5 * pw Pb cP))
                                            (mm (pw g1 D5 * pw g2 D6 * pw Qb cP))) cP in
          let r4 := smp_random (sr_r4 rnd) in let r5 := smp_random (sr_r5 rnd) in
          let r6 := smp_random (sr_r6 rnd) in let r7 := smp_random (sr_r7 rnd) in
          let Pa := pw g3 r4 in
          let Qa := mm (pw g1 r4 * pw g2 x) in
          let cP := hash_2_mpi x06 (pw g3 r5) (mm (pw g1 r5 * pw g2 r6)) in
          let D5 := smp_d r5 r4 cP in
          let D6 := smp_d r6 x cP in
          let* Qb_inv := dh_inv Qb in
          let QadivQb := mm (Qa * Qb_inv) in
          let Ra := pw QadivQb a3 in
          let cR := hash_2_mpi x07 (pw g1 r7) (pw QadivQb r7) in
          let D7 := smp_d r7 a3 cR in
          let* Pb_inv := dh_inv Pb in
          let PadivPb := mm (Pa * Pb_inv) in
          Ok (SmpReply (Expect4 g3b PadivPb QadivQb a3)
                (mkTlv TLV_SMP_3 (write_mpi_sequence [Pa; Qa; cP; D5; D6; Ra; cR; D7])))
      | _ => Err ProtocolViolation
      end
  | _ => Err ProtocolViolation
  end.

(* src/smp.rs:473-589 `handle_message_3` *)
Definition smp_message_3 (rnd : smp_rnd) (c : smp_context) (t : tlv) : res smp_outcome :=
  match sm_state c with
  | Expect3 g3a g2 g3 b3 Pb Qb =>
      let* (mpis, _) := read_mpi_sequence (tlv_value t) in
      match mpis with
      | [Pa; Qa; cP; D5; D6; Ra; cR; D7] =>
          let* _ := of_bool (dh_verify_exponent C D5) in
          let* _ := of_bool (dh_verify_exponent C D6) in
          let* _ := of_bool (dh_verify_exponent C D7) in
          let* _ := of_bool (dh_verify_public_key C Pa) in
          let* _ := of_bool (dh_verify_public_key C Qa) in
          let* _ := of_bool (dh_verify_public_key C Ra) in
          let g1 := c_dh_g C in
          let* _ := dh_same cP (hash_2_mpi x06 (mm (pw g3 D5 * pw Pa cP))
                                               (mm (pw g1 D5 * pw g2 D6 * pw Qa cP))) in
          let* Qb_inv := dh_inv Qb in
          let QadivQb := mm (Qa * Qb_inv) in
          let* _ := dh_same cR (hash_2_mpi x07 (mm (pw g1 D7 * pw g3a cR))
                                               (mm (pw QadivQb D7 * pw Ra cR))) in
          let r7 := smp_random (sr_r7 rnd) in
          let Rb := pw QadivQb b3 in
          let cR := hash_2_mpi x08 (pw g1 r7) (pw QadivQb r7) in
          let D7 := smp_d r7 b3 cR in
          let Rab := pw Ra b3 in
          let* Pb_inv := dh_inv Pb in
          let PadivPb := mm (Pa * Pb_inv) in
          let reply := Some (mkTlv TLV_SMP_4 (write_mpi_sequence [Rb; cR; D7])) in
          Ok (if PadivPb =? Rab then SmpSuccess reply else SmpFailed reply)
      | _ => Err ProtocolViolation
      end
  | _ => Err ProtocolViolation
  end.

(* src/smp.rs:595-659 `handle_message_4` *)
Definition smp_message_4 (c : smp_context) (t : tlv) : res smp_outcome :=
  match sm_state c with
  | Expect4 g3b PadivPb QadivQb a3 =>
      let* (mpis, _) := read_mpi_sequence (tlv_value t) in
      match mpis with
      | [Rb; cR; D7] =>
          let* _ := of_bool (dh_verify_exponent C D7) in
          let g1 := c_dh_g C in
          let* _ := of_bool (dh_verify_public_key C Rb) in
          let* _ := dh_same (hash_2_mpi x08 (mm (pw g1 D7 * pw g3b cR)) (mm (pw QadivQb D7 * pw Rb cR))) cR in
          let Rab := pw Rb a3 in
          Ok (if PadivPb =? Rab then SmpSuccess None else SmpFailed None)
      | _ => Err ProtocolViolation
      end
  | _ => Err ProtocolViolation
  end.

(* src/smp.rs:181-200 `dispatch` *)
Definition smp_dispatch (h : smp_host) (rnd : smp_rnd) (c : smp_context) (t : tlv) : res smp_outcome :=
  let typ := tlv_type t in
  if (typ =? TLV_SMP_1) || (typ =? TLV_SMP_1Q) then smp_message_1 h rnd c t
  else if typ =? TLV_SMP_2 then smp_message_2 rnd c t
  else if typ =? TLV_SMP_3 then smp_message_3 rnd c t
  else if typ =? TLV_SMP_4 then smp_message_4 c t
  else if typ =? TLV_SMP_ABORT then Ok (SmpAborted false)
  else Panic.

Definition abort_tlv : tlv := mkTlv TLV_SMP_ABORT [].

(* src/smp.rs:127-179 `handle`; the status after a reply: message 1 sets it to InProgress (206), the
   other messages leave it.  A panic leaves the context unspecified; here it is unchanged. *)
Definition smp_handle (h : smp_host) (rnd : smp_rnd) (c : smp_context) (t : tlv)
  : smp_context * res (option tlv) :=
  let reset status := mkSmp status Expect1 (sm_ssid c) (sm_their_fp c) in
  match smp_dispatch h rnd c t with
  | Ok (SmpReply st r) =>
      let status := if (tlv_type t =? TLV_SMP_1) || (tlv_type t =? TLV_SMP_1Q)
                    then SmpInProgress else sm_status c in
      (mkSmp status st (sm_ssid c) (sm_their_fp c), Ok (Some r))
  | Ok (SmpSuccess r) => (reset SmpCompleted, Ok r)
  | Ok (SmpFailed r) => (reset (SmpAbortedFor SecretsDiffer), Ok r)
  | Ok (SmpAborted true) => (reset (SmpAbortedFor AbortedByUser), Ok (Some abort_tlv))
  | Ok (SmpAborted false) => (reset (SmpAbortedFor AbortReceived), Ok None)
  | Err ProtocolViolation => (reset (SmpAbortedFor AbortViolation), Ok (Some abort_tlv))
  | Err IncompleteMessage => (reset (SmpAbortedFor AbortMalformed), Ok (Some abort_tlv))
  | Err CryptographicViolation => (reset (SmpAbortedFor AbortCrypto), Ok (Some abort_tlv))
  | Err _ => (c, Panic)
  | Panic => (c, Panic)
  end.

(* src/smp.rs:662-666 `abort` *)
Definition smp_abort (c : smp_context) : smp_context * tlv :=
  (mkSmp (SmpAbortedFor AbortedByUser) Expect1 (sm_ssid c) (sm_their_fp c), abort_tlv).

End WithCrypto.
