(* The `base64` crate 0.13 with its default (STANDARD) configuration, as used at
   src/messages.rs:62 (`base64::decode`) and src/messages.rs:507 (`base64::encode`).
   The crate itself is a dependency, modelled from its documented behaviour: padding is written, is
   optional when reading, and non-zero trailing bits are refused. *)
From Verif Require Import Base.
Local Open Scope N_scope.

(* Symbol of a 6-bit value: A-Z a-z 0-9 + / *)
Definition b64_sym (v : N) : byte :=
  n2b (if v <? 26 then v + 65
       else if v <? 52 then v + 71
       else if v <? 62 then v - 4
       else if v =? 62 then 43 else 47).

Definition b64_val (b : byte) : option N :=
  let c := b2n b in
  if (65 <=? c) && (c <=? 90) then Some (c - 65)
  else if (97 <=? c) && (c <=? 122) then Some (c - 71)
  else if (48 <=? c) && (c <=? 57) then Some (c + 4)
  else if c =? 43 then Some 62
  else if c =? 47 then Some 63
  else None.

Definition PAD : byte := x3d.

Fixpoint b64_encode (l : bytes) : bytes :=
  match l with
  | [] => []
  | [a] =>
      [b64_sym (b2n a / 4); b64_sym (b2n a mod 4 * 16); PAD; PAD]
  | [a; b] =>
      [b64_sym (b2n a / 4); b64_sym (b2n a mod 4 * 16 + b2n b / 16);
       b64_sym (b2n b mod 16 * 4); PAD]
  | a :: b :: c :: rest =>
      b64_sym (b2n a / 4) :: b64_sym (b2n a mod 4 * 16 + b2n b / 16)
      :: b64_sym (b2n b mod 16 * 4 + b2n c / 64) :: b64_sym (b2n c mod 64)
      :: b64_encode rest
  end.

(* Final group with two significant symbols: one byte; the low four bits must be zero. *)
Definition b64_last2 (a b : byte) : option bytes :=
  match b64_val a, b64_val b with
  | Some x, Some y => if y mod 16 =? 0 then Some [n2b (x * 4 + y / 16)] else None
  | _, _ => None
  end.
(* Final group with three significant symbols: two bytes; the low two bits must be zero. *)
Definition b64_last3 (a b c : byte) : option bytes :=
  match b64_val a, b64_val b, b64_val c with
  | Some x, Some y, Some z =>
      if z mod 4 =? 0 then Some [n2b (x * 4 + y / 16); n2b (y mod 16 * 16 + z / 4)] else None
  | _, _, _ => None
  end.
Definition b64_full (a b c d : byte) : option bytes :=
  match b64_val a, b64_val b, b64_val c, b64_val d with
  | Some x, Some y, Some z, Some w =>
      Some [n2b (x * 4 + y / 16); n2b (y mod 16 * 16 + z / 4); n2b (z mod 4 * 64 + w)]
  | _, _, _, _ => None
  end.

Fixpoint b64_decode (l : bytes) : option bytes :=
  match l with
  | [] => Some []
  | [_] => None
  | [a; b] => b64_last2 a b
  | [a; b; c] => if byte_eqb c PAD then b64_last2 a b else b64_last3 a b c
  | a :: b :: c :: d :: rest =>
      match rest with
      | [] =>
          if byte_eqb d PAD
          then if byte_eqb c PAD then b64_last2 a b else b64_last3 a b c
          else b64_full a b c d
      | _ :: _ =>
          match b64_full a b c d, b64_decode rest with
          | Some x, Some y => Some (x ++ y)
          | _, _ => None
          end
      end
  end.
