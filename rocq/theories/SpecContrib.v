(* What an own key contributes to a secret: with a public key of the peer, different own keys give different secrets, so who
   does not know the own key does not know the secret either. *)
From Coq Require Import ZArith Znumtheory.
From Verif Require Import Base Types Crypto SpecSchedule.
Local Open Scope N_scope.

Section WithCrypto.
Context (C : Crypto).

(* OTRv3: own keys x and x' which differ modulo q = (p - 1) / 2 give different secrets with the peer's key y. *)
Definition contributes3 (y : N) : Prop :=
  forall x x', modpow y x (c_dh_p C) = modpow y x' (c_dh_p C) -> x mod ((c_dh_p C - 1) / 2) = x' mod ((c_dh_p C - 1) / 2).

(* OTRv4: the same for the point and for the number. *)
Definition contributes4 (u : turn) : Prop :=
  (forall x x', (0 <= x)%Z -> (0 <= x')%Z -> pt_mul C (tu_their_ecdh u) x = pt_mul C (tu_their_ecdh u) x' ->
     (x mod c_ed_q C = x' mod c_ed_q C)%Z) /\
  (forall x x', modpow (tu_their_dh u) x (c_dh3_p C) = modpow (tu_their_dh u) x' (c_dh3_p C) -> x mod c_dh3_q C = x' mod c_dh3_q C).

(* The groups: p = 2 q + 1 with primes p and q; groups of prime order. *)
Definition safe_prime : Prop :=
  prime (Z.of_N (c_dh_p C)) /\ prime (Z.of_N ((c_dh_p C - 1) / 2)) /\ 1 < c_dh_g C.
Definition prime_orders : Prop :=
  prime (c_ed_q C) /\ prime (Z.of_N (c_dh3_q C)) /\ 1 < c_dh3_g C.
End WithCrypto.
