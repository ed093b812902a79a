(* When an Ed448 signature is good (RFC 8032).  Definitions only. *)
From Verif Require Import Base Types Crypto SpecCurve.
Local Open Scope Z_scope.

(* the second half of a signature as a number, and the number that a signature, a key and a text are hashed to *)
Definition ed_scalar (sg : ed_sig) : Z := Z.of_N (le_val (edsig_s sg)).
Definition ed_challenge (C : Crypto) (pk : point) (sg : ed_sig) (m : bytes) : Z :=
  Z.of_N (le_val (shake256 C 114 (DOM4 ++ edsig_R sg ++ pt_encode pk ++ m))).
(* The first half is a point R of the group, other than the neutral element; the second half is a number s above zero and below the
   order of the group; and s G = R + k A for the key A and the hash k. *)
Definition good_signature (C : Crypto) (pk : point) (sg : ed_sig) (m : bytes) : Prop :=
  exists R, pt_decode C (edsig_R sg) = Some R /\ R <> pt_id /\ pt_mul C R (c_ed_q C) = pt_id /\
    0 < ed_scalar sg < c_ed_q C /\
    pt_mul C (c_ed_g C) (ed_scalar sg) = pt_add C R (pt_mul C pk (ed_challenge C pk sg m)).
