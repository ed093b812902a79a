(* Property C79: the numbers that the library is built with. *)
From Verif Require Import Base Crypto ToyCrypto SpecWire SpecCurve SpecAKE SpecData3 SpecData4 SpecSMP SpecSMP4 SpecCrash SpecParams ParamsProofs.
From Coq Require Import ZArith Znumtheory Lia.
Local Open Scope Z_scope.

(** * C79 The built-in groups are what the protocols need *)

(* Without any assumption: both moduli are 2 q + 1 for the q used, the generators are in range and that of OTRv3 is a square;
   the prime of the curve has the form 2^448 - 2^224 - 1, which is 3 modulo 4, and the base point is on the curve and not neutral. *)
Theorem C79_numbers C : built_in C ->
  (c_dh_p C = 2 * dh_q C + 1 /\ 2 ^ 1535 < c_dh_p C < 2 ^ 1536 /\ c_dh_g C = 2 /\ (exists r, (r * r) mod c_dh_p C = c_dh_g C) /\
   c_dh3_p C = 2 * c_dh3_q C + 1 /\ 2 ^ 3071 < c_dh3_p C < 2 ^ 3072 /\ c_dh3_g C = 2)%N /\
  c_ed_p C = 2 ^ 448 - 2 ^ 224 - 1 /\ c_ed_p C mod 4 = 3 /\ 2 ^ 445 < c_ed_q C < 2 ^ 446 /\ pt_valid C (c_ed_g C) /\ c_ed_g C <> pt_id.
Proof. apply built_numbers. Qed.
Print Assumptions C79_numbers.

(* If the numbers that have to be primes are primes, and the order of the base point is the number in the code, then every condition on
   the groups that the other theorems have is met. *)
Theorem C79_groups_partial C : built_in C -> primes -> base_order C ->
  dh_params_ok C /\ dh_group_ok C /\ smp_group C /\ curve_ok C /\ groups_ok4 C /\ smp4_group C /\ groups_sound C.
Proof.
  intros B P O. split; [now apply built_dh_params|]. split; [now apply built_dh_group|]. split; [now apply built_smp|].
  split; [now apply built_curve|]. split; [now apply built_groups4|]. split; [now apply built_smp4|]. now apply built_sound.
Qed.
Print Assumptions C79_groups_partial.

(* In particular the generator of OTRv3 has order q, and d is not a square. *)
Theorem C79_order_partial C : built_in C -> primes ->
  ((c_dh_g C ^ dh_q C) mod c_dh_p C = 1)%N /\ forall x, (x * x) mod c_ed_p C <> c_ed_d C mod c_ed_p C.
Proof.
  intros B P. split; [apply (built_smp C B P)|]. intros x. destruct B as (_ & _ & _ & _ & _ & -> & _ & -> & _). now apply d_no_square.
Qed.
Print Assumptions C79_order_partial.

(* The toy hash functions, ciphers and signatures with the built-in numbers. *)
Example C79_ex : exists C, built_in C /\ c_sha256 C [x41] = c_sha256 toy [x41].
Proof.
  exists (mkCrypto (c_sha1 toy) (c_sha256 toy) (c_hmac_sha1 toy) (c_hmac_sha256 toy) (c_shake256 toy) (c_aes_ctr toy) (c_chacha20 toy)
    (c_dsa_components_ok toy) (c_dsa_sig_ok toy) (c_dsa_sign toy) (c_dsa_verify toy)
    modulus_1536 2 modulus_3072 order_3072 2 ed448_p ed448_q (-39081) ed448_g).
  split; [|reflexivity]. repeat apply conj; reflexivity.
Qed.
