(* A small instance of [Crypto], only used to show that hypotheses are satisfiable and to exhibit
   concrete runs: tiny groups, checksum-like hash functions, a signature scheme with no security. *)
From Verif Require Import Base Crypto.
Local Open Scope N_scope.

Definition toy_sum (d : bytes) : N := fold_left (fun a b => (a * 31 + b2n b + 7) mod 65521) d 5.
Definition toy_stream (n : nat) (h : N) : bytes :=
  map (fun i => n2b ((h + 3) * (N.of_nat i + 1) + h / 256 + 1)) (seq 0 n).
Definition toy_hash (n : nat) (salt : N) (d : bytes) : bytes := toy_stream n (toy_sum d + salt).
(* The scalars that EdDSA and ECDH take from hash values are kept small (up to a multiple of the order of the
   group), which saves time: the hash of a message to be signed, which begins with S, and the hash of a random
   number from which a private key is made. *)
Definition toy_shake (n : nat) (d : bytes) : bytes :=
  let h := toy_hash n 5 d in
  if b2n (hd x00 d) =? 83 then le_bytes n (le_val h mod 53)
  else if Nat.eqb n 114 && Nat.eqb (length d) 1 && (2 <? b2n (hd x00 d)) then
    match prune h with
    | Ok v => le_bytes n (4 * (53 + (le_val v - 2 ^ 447) * 40 mod 53))
    | _ => h
    end
  else h.

Definition toy : Crypto := {|
  c_sha1 := toy_hash 20 1;
  c_sha256 := toy_hash 32 2;
  c_hmac_sha1 := fun k d => toy_hash 20 3 (k ++ d);
  c_hmac_sha256 := fun k d => toy_hash 32 4 (k ++ d);
  c_shake256 := toy_shake;
  c_aes_ctr := fun k iv n => toy_hash n 6 (k ++ iv);
  c_chacha20 := fun k n => toy_hash n 7 k;
  c_dsa_components_ok := fun _ => true;
  c_dsa_sig_ok := fun s => negb (sig_r s =? 0) && negb (sig_s s =? 0);
  c_dsa_sign := fun k _ h => mkDsaSig (be_val h mod 65521 + 1) (dsa_y (dsa_pk k) + 1);
  c_dsa_verify := fun k h s => (sig_r s =? be_val h mod 65521 + 1) && (sig_s s =? dsa_y k + 1);
  c_dh_p := 503;
  c_dh_g := 2;
  c_dh3_p := 503;
  c_dh3_q := 251;
  c_dh3_g := 2;
  c_ed_p := 211%Z;
  c_ed_q := 53%Z;
  c_ed_d := (-1)%Z;
  c_ed_g := mkPoint 2 45
|}.

(* A DSA key pair for the toy instance; q has exactly 160 bits. *)
Definition toy_dsa (x : N) : dsa_keypair :=
  mkDsaKeypair x (mkDsaPub 1013 (2 ^ 159 + 7) 3 (x * 3 + 1)).
