(* Vocabulary for the key numbers of OTRv3: each party of a key exchange announces the number of its key. *)
From Verif Require Import Base Types Crypto Encoding Messages AKE Session SpecAKE SpecSession.
Local Open Scope N_scope.

(* The encrypted proof of the party that owns the DSA key pk announces key number n, under the shared secret sec. *)
Definition announced (C : Crypto) (responder : bool) (sec : N) (pk : dsa_pub) (ciphertext : bytes) (n : N) : Prop :=
  exists sg rest, read_public_key C (aes_crypt C (enc_key3 C responder sec) (repeat x00 16) ciphertext)
                  = Ok (pk, write_u32 n ++ write_dsa_signature sg ++ rest) /\ 0 < n < 4294967296.
(* Session s waits for the Signature message of client t, em is this message, and t announces key number n in it. *)
Definition announces (C : Crypto) (s : session) (em : encoded_message) (n : N) : Prop :=
  exists our gy sec prev m pk,
    in_ake (entry (em_sender em) (se_instances s)) = AkeAwaitingSig our gy sec prev /\
    em_version em = V3 /\ em_message em = MSignature m /\ announced C true sec pk (sg_signature_encrypted m) n.
(* the payloads carry an OTRv3 data message from key number [from] to key number [to] *)
Definition under_numbers (d : details) (e : env) (t : N) (ps : list bytes) (from to : N) : Prop :=
  exists m, transported d e t V3 (MData m) ps /\ d3_sender_keyid m = from /\ d3_receiver_keyid m = to.
