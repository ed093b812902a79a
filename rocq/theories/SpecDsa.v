(* What a DSA signature of OTRv3 is a signature of.  Definitions only. *)
From Verif Require Import Base Types Crypto.
Local Open Scope N_scope.

(* h are the twenty bytes of the text m, read as a big-endian number, modulo q *)
Definition signed_number (q : N) (m h : bytes) : Prop := length h = 20%nat /\ be_val h = be_val m mod q.
