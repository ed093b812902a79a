(* Shared vocabulary of the model: bytes, results with an explicit panic value,
   big/little-endian number representations.  No proofs here. *)
From Coq Require Export List Bool Arith NArith ZArith.
From Coq Require Export Strings.Byte.
Export ListNotations.

Notation bytes := (list byte).

(* Numeric value of a byte and the byte with a given value (reduced mod 256, as an `as u8` cast). *)
Definition b2n (b : byte) : N := Byte.to_N b.
Definition n2b (n : N) : byte :=
  match Byte.of_N (n mod 256) with Some b => b | None => x00 end.

Definition byte_eqb (a b : byte) : bool := Byte.eqb a b.

Fixpoint bytes_eqb (a b : bytes) : bool :=
  match a, b with
  | [], [] => true
  | x :: a', y :: b' => byte_eqb x y && bytes_eqb a' b'
  | _, _ => false
  end.

(* src/lib.rs:111-146 `enum OTRError`.  The static explanation strings are dropped (they are only
   for display); payloads that the control flow inspects are kept by the callers that use them. *)
Inductive otr_error : Type :=
| ProtocolViolation
| IncompleteMessage
| UnreadableMessage (tag : N)
| MessageForOtherInstance
| UnknownInstance (tag : N)
| UnsupportedVersion (v : N)
| IncorrectState
| CryptographicViolation
| PolicyRestriction
| AuthenticationError          (* src/ake.rs AKEError, reason dropped *)
| SMPInProgress
| UserError.

(* Result<A, OTRError> with a third outcome for a Rust panic. *)
Inductive res (A : Type) : Type :=
| Ok (a : A)
| Err (e : otr_error)
| Panic.
Arguments Ok {A} a.
Arguments Err {A} e.
Arguments Panic {A}.

Definition bind {A B} (r : res A) (f : A -> res B) : res B :=
  match r with Ok a => f a | Err e => Err e | Panic => Panic end.

Notation "'let*' x ':=' e 'in' k" := (bind e (fun x => k))
  (at level 200, x pattern, e at level 100, k at level 200, right associativity).

(* Big-endian representation in exactly k bytes (uN::to_be_bytes), and its value. *)
Fixpoint be_bytes (k : nat) (n : N) : bytes :=
  match k with
  | O => []
  | S k' => be_bytes k' (n / 256) ++ [n2b n]
  end.

Definition be_val (l : bytes) : N := fold_left (fun acc b => acc * 256 + b2n b)%N l 0%N.

(* Little-endian representation in exactly k bytes, and its value. *)
Fixpoint le_bytes (k : nat) (n : N) : bytes :=
  match k with
  | O => []
  | S k' => n2b n :: le_bytes k' (n / 256)
  end.

Fixpoint le_val (l : bytes) : N :=
  match l with
  | [] => 0
  | b :: l' => b2n b + 256 * le_val l'
  end%N.

(* Number of bytes of the minimal representation; 0 for 0. *)
Definition byte_len (n : N) : nat := N.to_nat ((N.size n + 7) / 8).

(* num-bigint `BigUint::to_bytes_be` / `to_bytes_le`: minimal length, and [0] for zero. *)
Definition biguint_to_bytes_be (n : N) : bytes :=
  if (n =? 0)%N then [x00] else be_bytes (byte_len n) n.
Definition biguint_to_bytes_le (n : N) : bytes :=
  if (n =? 0)%N then [x00] else le_bytes (byte_len n) n.

(* src/utils.rs:24-36 `any_nonzero`, `all_zero`. *)
Definition all_zero (l : bytes) : bool := forallb (fun b => byte_eqb b x00) l.
Definition any_nonzero (l : bytes) : bool := negb (all_zero l).

(* src/utils.rs:39-45 `drop_by_value`. *)
Definition drop_by_value (l : bytes) (v : byte) : bytes := filter (fun b => negb (byte_eqb b v)) l.

(* src/utils.rs:53-67 `bytes::cmp`: None models the failing length assertion. *)
Fixpoint bytes_cmp_same_len (a b : bytes) : comparison :=
  match a, b with
  | x :: a', y :: b' =>
      match N.compare (b2n x) (b2n y) with
      | Eq => bytes_cmp_same_len a' b'
      | c => c
      end
  | _, _ => Eq
  end.
Definition bytes_cmp (a b : bytes) : option comparison :=
  if Nat.eqb (length a) (length b) then Some (bytes_cmp_same_len a b) else None.

(* `&data[..n]` and `&data[n..]` after the length check. *)
Definition take_bytes (n : nat) (l : bytes) : res (bytes * bytes) :=
  if Nat.ltb (length l) n then Err IncompleteMessage else Ok (firstn n l, skipn n l).

(* ASCII helpers *)
Definition bstr (s : list N) : bytes := map n2b s.
Fixpoint starts_with (p l : bytes) : bool :=
  match p, l with
  | [], _ => true
  | x :: p', y :: l' => byte_eqb x y && starts_with p' l'
  | _ :: _, [] => false
  end.
Definition ends_with (s l : bytes) : bool := starts_with (rev s) (rev l).
