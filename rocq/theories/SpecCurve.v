(* What the curve is supposed to be. *)
From Verif Require Import Base Crypto.
From Coq Require Import ZArith Znumtheory.
Local Open Scope Z_scope.

Section WithCrypto.
Context (C : Crypto).

(* Coordinates in range and on the curve x^2 + y^2 = 1 + d x^2 y^2 modulo p. *)
Definition pt_valid (a : point) : Prop :=
  0 <= px a < c_ed_p C /\ 0 <= py a < c_ed_p C /\
  (px a * px a + py a * py a) mod c_ed_p C
  = (1 + c_ed_d C * px a * px a * py a * py a) mod c_ed_p C.

(* p is an odd prime, d is not a square modulo p, the base point is on the curve and its order divides
   the positive number q. *)
Definition curve_ok : Prop :=
  prime (c_ed_p C) /\ 2 < c_ed_p C /\ (forall x, (x * x) mod c_ed_p C <> c_ed_d C mod c_ed_p C) /\
  pt_valid (c_ed_g C) /\ 0 < c_ed_q C /\ pt_mul C (c_ed_g C) (c_ed_q C) = pt_id.

End WithCrypto.
