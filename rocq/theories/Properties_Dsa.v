(* DSA signatures of OTRv3. *)
From Verif Require Import Base BaseLemmas Types Crypto ToyCrypto Encoding EncodingProofs SpecDsa DsaProofs.
Local Open Scope N_scope.

(** * C97 A DSA signature is about the whole text, as a number modulo the order *)

(* A signature of a text is accepted exactly if DSA verifies it for the text, read as a number, modulo the order; the text is
   neither cut nor hashed again. *)
Theorem C97_covers : forall C pk sg m, N.size (dsa_q pk) = 160 ->
  (dsa_validate C pk sg m = Ok tt <-> exists h, signed_number (dsa_q pk) m h /\ c_dsa_verify C pk h sg = true).
Proof. exact dsa_covers. Qed.
Print Assumptions C97_covers.
(* The same number is signed. *)
Theorem C97_signs : forall C k nonce m h, N.size (dsa_q (dsa_pk k)) = 160 -> signed_number (dsa_q (dsa_pk k)) m h ->
  dsa_sign C k nonce m = c_dsa_sign C k nonce h.
Proof. exact dsa_signs. Qed.
Print Assumptions C97_signs.
(* So a signature of a text is one of every text that is the same number modulo the order. *)
Theorem C97_congruent : forall C pk sg m m', be_val m mod dsa_q pk = be_val m' mod dsa_q pk ->
  dsa_validate C pk sg m = dsa_validate C pk sg m'.
Proof. exact dsa_other. Qed.
Print Assumptions C97_congruent.
(* Every key that is received has an order of this size. *)
Theorem C97_received_key : forall C b pk rest, read_public_key C b = Ok (pk, rest) -> N.size (dsa_q pk) = 160.
Proof. exact dsa_key_size. Qed.
Print Assumptions C97_received_key.

(* A text of 32 bytes, its signature, and the same with one bit changed at either end. *)
Definition ds_text (a b : byte) : bytes := a :: repeat x07 30 ++ [b].
Example C97_ex : let k := toy_dsa 5 in let sg := dsa_sign toy k [] (ds_text x01 x02) in
  N.size (dsa_q (dsa_pk k)) = 160 /\ (exists rest, read_public_key toy (write_public_key (dsa_pk k)) = Ok (dsa_pk k, rest)) /\
  (exists h, signed_number (dsa_q (dsa_pk k)) (ds_text x01 x02) h) /\
  dsa_validate toy (dsa_pk k) sg (ds_text x01 x02) = Ok tt /\
  dsa_validate toy (dsa_pk k) sg (ds_text x00 x02) = Err CryptographicViolation /\
  dsa_validate toy (dsa_pk k) sg (ds_text x01 x03) = Err CryptographicViolation.
Proof.
  cbv zeta. split; [vm_compute; reflexivity|]. split; [exists []; vm_compute; reflexivity|].
  split; [exists (dsa_prehash (ds_text x01 x02) (dsa_q (dsa_pk (toy_dsa 5)))); split; vm_compute; reflexivity|].
  repeat split; vm_compute; reflexivity.
Qed.
Example C97_ex_congruent : be_val [x05] mod dsa_q (dsa_pk (toy_dsa 5)) = be_val (be_bytes 32 (dsa_q (dsa_pk (toy_dsa 5)) + 5)) mod dsa_q (dsa_pk (toy_dsa 5)).
Proof. vm_compute. reflexivity. Qed.
