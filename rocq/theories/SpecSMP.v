(* Vocabulary for the properties of the OTRv3 Socialist Millionaire Protocol.  Alice starts it with a
   secret, Bob is asked for his. *)
From Verif Require Import Base Types Crypto Encoding SpecWire SMP.
From Coq Require Import Znumtheory.
Local Open Scope N_scope.

Section WithCrypto.
Context (C : Crypto).

Local Notation p := (c_dh_p C).
Local Notation q := (dh_q C).
Local Notation g := (c_dh_g C).

(* The group of the protocol: modulus and (p - 1) / 2 are prime and the generator has that order. *)
Definition smp_group : Prop :=
  prime (Z.of_N p) /\ prime (Z.of_N q) /\ 1 < g < p /\ (g ^ q) mod p = 1 /\ mpi_range p.

(* What OTRv3 asks of the numbers in a message: group elements between g and p - 2, exponents of
   proofs between 1 and q - 1.  A number outside is a degenerate random choice. *)
Definition elem (v : N) : Prop := g <= v <= p - 2.
Definition expo (v : N) : Prop := 1 <= v < q.

(* The numbers in a message, behind the question if there is one. *)
Definition smp_numbers (t : tlv) : list N :=
  match read_mpi_sequence (snd (smp1_question t)) with Ok (l, []) => l | _ => [] end.
Definition legal_1 (t : tlv) : Prop :=
  match smp_numbers t with
  | [g2a; c2; D2; g3a; c3; D3] => elem g2a /\ expo D2 /\ elem g3a /\ expo D3
  | _ => False
  end.
Definition legal_2 (t : tlv) : Prop :=
  match smp_numbers t with
  | [g2b; c2; D2; g3b; c3; D3; Pb; Qb; cP; D5; D6] =>
      elem g2b /\ expo D2 /\ elem g3b /\ expo D3 /\ elem Pb /\ elem Qb /\ expo D5 /\ expo D6
  | _ => False
  end.
Definition legal_3 (t : tlv) : Prop :=
  match smp_numbers t with
  | [Pa; Qa; cP; D5; D6; Ra; cR; D7] => elem Pa /\ elem Qa /\ expo D5 /\ expo D6 /\ elem Ra /\ expo D7
  | _ => False
  end.
Definition legal_4 (t : tlv) : Prop :=
  match smp_numbers t with
  | [Rb; cR; D7] => elem Rb /\ expo D7
  | _ => False
  end.

(* An honest run between two clients [a] and [b] that are not running the protocol: Alice starts with
   [secret_a] and the question, Bob answers it with [secret_b]; every message is delivered.  As long as
   the numbers sent are legal, the run goes on, and both sides end with the given status and have none
   before. *)
Definition honest_run (ha hb : smp_host) (a b : smp_context) (secret_a question : bytes)
    (ra1 ra2 rb1 rb2 ra3 : smp_rnd) (verdict : smp_status) : Prop :=
  exists a1 t1, smp_initiate C ha ra1 a secret_a question = (a1, Ok t1) /\ (legal_1 t1 ->
  exists b1 t2, smp_handle C hb rb1 b t1 = (b1, Ok (Some t2)) /\ sm_status b1 = SmpInProgress /\ (legal_2 t2 ->
  exists a2 t3, smp_handle C ha ra2 a1 t2 = (a2, Ok (Some t3)) /\ sm_status a2 = SmpInProgress /\ (legal_3 t3 ->
  exists b2 t4, smp_handle C hb rb2 b1 t3 = (b2, Ok (Some t4)) /\ sm_status b2 = verdict /\ (legal_4 t4 ->
  exists a3, smp_handle C ha ra3 a2 t4 = (a3, Ok None) /\ sm_status a3 = verdict)))).

(* The two clients belong to one session: same session id, each knows the other's key. *)
Definition smp_peers (ha hb : smp_host) (a b : smp_context) : Prop :=
  exists ka kb, sh_key ha = Some ka /\ sh_key hb = Some kb /\
    sm_their_fp a = otr3_fingerprint C kb /\ sm_their_fp b = otr3_fingerprint C ka /\
    sm_ssid a = sm_ssid b.

(* The number that stands for a secret: SHA-256 of version, both fingerprints, session id, secret. *)
Definition secret_number (ha hb : smp_host) (ssid secret : bytes) : option N :=
  match sh_key ha, sh_key hb with
  | Some ka, Some kb =>
      Some (be_val (sha256 C (x01 :: otr3_fingerprint C ka ++ otr3_fingerprint C kb ++ ssid ++ secret)))
  | _, _ => None
  end.

(* The zero knowledge proofs.  [knows v D X c]: knowledge of the logarithm of X. *)
Definition knows (v : byte) (D X c : N) : Prop :=
  c = be_val (sha256 C (v :: write_mpi ((g ^ D * X ^ c) mod p))).
(* P = g3^r and Q = g^r g2^s for known r, s *)
Definition knows_pq (v : byte) (g2 g3 D5 D6 P Q c : N) : Prop :=
  c = be_val (sha256 C (v :: write_mpi ((g3 ^ D5 * P ^ c) mod p)
                          ++ write_mpi ((g ^ D5 * g2 ^ D6 * Q ^ c) mod p))).
(* the logarithm of X to base g is that of R to base B *)
Definition same_log (v : byte) (D X B R c : N) : Prop :=
  c = be_val (sha256 C (v :: write_mpi ((g ^ D * X ^ c) mod p) ++ write_mpi ((B ^ D * R ^ c) mod p))).

(* What a client that waits for a message has in its state. *)
Definition state_ok (c : smp_context) : Prop :=
  match sm_state c with
  | Expect1 => True
  | Expect2 x a2 a3 => exists fp secret, x = smp_secret C fp (sm_their_fp c) (sm_ssid c) secret
  | Expect3 g3a g2 g3 b3 Pb Qb =>
      exists g2a b2 r4 fp secret, elem g2a /\ elem g3a /\
        g2 = (g2a ^ b2) mod p /\ g3 = (g3a ^ b3) mod p /\ Pb = (g3 ^ r4) mod p /\
        Qb = (g ^ r4 * g2 ^ smp_secret C (sm_their_fp c) fp (sm_ssid c) secret) mod p
  | Expect4 g3b PadivPb QadivQb a3 =>
      exists g2b a2 r4 fp secret Pb Qb, elem g2b /\ elem g3b /\ elem Pb /\ elem Qb /\
        (PadivPb * Pb) mod p = (((g3b ^ a3) mod p) ^ r4) mod p /\
        (QadivQb * Qb) mod p
        = (g ^ r4 * ((g2b ^ a2) mod p) ^ smp_secret C fp (sm_their_fp c) (sm_ssid c) secret) mod p
  end.

(* The contexts a client can get into, whatever it receives. *)
Inductive smp_reach (ssid fp : bytes) : smp_context -> Prop :=
| reach_new : smp_reach ssid fp (smp_new ssid fp)
| reach_initiate c h rnd secret question c' r :
    smp_reach ssid fp c -> smp_initiate C h rnd c secret question = (c', r) -> r <> Panic ->
    smp_reach ssid fp c'
| reach_handle c h rnd t c' r :
    smp_reach ssid fp c -> smp_handle C h rnd c t = (c', r) -> r <> Panic -> smp_reach ssid fp c'
| reach_abort c c' t :
    smp_reach ssid fp c -> smp_abort c = (c', t) -> smp_reach ssid fp c'.

(* the last message proves that the sender and the receiver have the same secret *)
Definition verified_3 (c : smp_context) (t : tlv) : Prop :=
  exists g3a g2 g3 b3 Pb Qb Pa Qa cP D5 D6 Ra cR D7 rest quot,
    sm_state c = Expect3 g3a g2 g3 b3 Pb Qb /\ tlv_type t = 4 /\
    read_mpi_sequence (tlv_value t) = Ok ([Pa; Qa; cP; D5; D6; Ra; cR; D7], rest) /\
    elem Pa /\ elem Qa /\ elem Ra /\ expo D5 /\ expo D6 /\ expo D7 /\
    knows_pq x06 g2 g3 D5 D6 Pa Qa cP /\
    (quot * Qb) mod p = Qa /\ same_log x07 D7 g3a quot Ra cR /\
    (Ra ^ b3 * Pb) mod p = Pa.
Definition verified_4 (c : smp_context) (t : tlv) : Prop :=
  exists g3b PadivPb QadivQb a3 Rb cR D7 rest,
    sm_state c = Expect4 g3b PadivPb QadivQb a3 /\ tlv_type t = 5 /\
    read_mpi_sequence (tlv_value t) = Ok ([Rb; cR; D7], rest) /\
    elem Rb /\ expo D7 /\ same_log x08 D7 g3b QadivQb Rb cR /\ (Rb ^ a3) mod p = PadivPb.

(* What happened to a client, latest first. *)
Inductive smp_event : Type :=
| Started (h : smp_host) (secret question : bytes) (sent : tlv)
| Received (h : smp_host) (t : tlv) (reply : option tlv)
| Stopped.
Inductive smp_hist (ssid fp : bytes) : list smp_event -> smp_context -> Prop :=
| hist_new : smp_hist ssid fp [] (smp_new ssid fp)
| hist_start evs c h rnd secret question c' t :
    smp_hist ssid fp evs c -> smp_initiate C h rnd c secret question = (c', Ok t) ->
    smp_hist ssid fp (Started h secret question t :: evs) c'
| hist_refused evs c h rnd secret question c' e :
    smp_hist ssid fp evs c -> smp_initiate C h rnd c secret question = (c', Err e) ->
    smp_hist ssid fp evs c'
| hist_handle evs c h rnd t c' r :
    smp_hist ssid fp evs c -> smp_handle C h rnd c t = (c', Ok r) ->
    smp_hist ssid fp (Received h t r :: evs) c'
| hist_abort evs c c' t :
    smp_hist ssid fp evs c -> smp_abort c = (c', t) -> smp_hist ssid fp (Stopped :: evs) c'.

(* message 1 with its two proofs, message 2 with its three *)
Definition checked_1 (t : tlv) (g2a g3a : N) : Prop :=
  exists c2 D2 c3 D3,
    read_mpi_sequence (snd (smp1_question t)) = Ok ([g2a; c2; D2; g3a; c3; D3], []) /\
    elem g2a /\ elem g3a /\ expo D2 /\ expo D3 /\ knows x01 D2 g2a c2 /\ knows x02 D3 g3a c3.
Definition checked_2 (t : tlv) (g2 g3 g2b g3b Pb Qb : N) : Prop :=
  exists c2 D2 c3 D3 cP D5 D6 rest,
    read_mpi_sequence (tlv_value t) = Ok ([g2b; c2; D2; g3b; c3; D3; Pb; Qb; cP; D5; D6], rest) /\
    elem g2b /\ elem g3b /\ elem Pb /\ elem Qb /\ expo D2 /\ expo D3 /\ expo D5 /\ expo D6 /\
    knows x03 D2 g2b c2 /\ knows x04 D3 g3b c3 /\ knows_pq x05 g2 g3 D5 D6 Pb Qb cP.
Definition own_fp (h : smp_host) (fp : bytes) : Prop := exists k, sh_key h = Some k /\ fp = otr3_fingerprint C k.

(* The last three things that happened: we started with a secret, got a message 2, got a message 4, all
   proofs were good, and the last comparison is between values made from that secret and theirs. *)
Definition starter_success (ssid fp : bytes) (evs : list smp_event) : Prop :=
  exists h secret question t1 h2 t2 t3 h4 t4 before,
    evs = Received h4 t4 None :: Received h2 t2 (Some t3) :: Started h secret question t1 :: before /\
    tlv_type t2 = 3 /\ tlv_type t4 = 5 /\
    exists mine a2 a3 g2b g3b Pb Qb r4, own_fp h mine /\
      let x := smp_secret C mine fp ssid secret in
      let g2 := (g2b ^ a2) mod p in let g3 := (g3b ^ a3) mod p in
      let Pa := (g3 ^ r4) mod p in let Qa := (g ^ r4 * g2 ^ x) mod p in
      checked_2 t2 g2 g3 g2b g3b Pb Qb /\
      exists Rb cR D7 rest quot,
        read_mpi_sequence (tlv_value t4) = Ok ([Rb; cR; D7], rest) /\ elem Rb /\ expo D7 /\
        (quot * Qb) mod p = Qa /\ same_log x08 D7 g3b quot Rb cR /\ (Rb ^ a3 * Pb) mod p = Pa.
(* The last two: we got a message 1, answered its question with a secret, and got a message 3. *)
Definition answerer_success (ssid fp : bytes) (evs : list smp_event) : Prop :=
  exists h t1 t2 h3 t3 t4 before secret,
    evs = Received h3 t3 (Some t4) :: Received h t1 (Some t2) :: before /\
    (tlv_type t1 = 2 \/ tlv_type t1 = 7) /\ tlv_type t3 = 4 /\
    sh_answer h (fst (smp1_question t1)) = Some secret /\
    exists mine g2a g3a b2 b3 r4, own_fp h mine /\ checked_1 t1 g2a g3a /\
      let y := smp_secret C fp mine ssid secret in
      let g2 := (g2a ^ b2) mod p in let g3 := (g3a ^ b3) mod p in
      let Pb := (g3 ^ r4) mod p in let Qb := (g ^ r4 * g2 ^ y) mod p in
      exists Pa Qa cP D5 D6 Ra cR D7 rest quot,
        read_mpi_sequence (tlv_value t3) = Ok ([Pa; Qa; cP; D5; D6; Ra; cR; D7], rest) /\
        elem Pa /\ elem Qa /\ elem Ra /\ expo D5 /\ expo D6 /\ expo D7 /\
        knows_pq x06 g2 g3 D5 D6 Pa Qa cP /\
        (quot * Qb) mod p = Qa /\ same_log x07 D7 g3a quot Ra cR /\ (Ra ^ b3 * Pb) mod p = Pa.

(* the message a state waits for, and the state after it *)
Definition expects (st : smp_state) (typ : N) : bool :=
  match st with
  | Expect1 => (typ =? 2) || (typ =? 7)
  | Expect2 _ _ _ => typ =? 3
  | Expect3 _ _ _ _ _ _ => typ =? 4
  | Expect4 _ _ _ _ => typ =? 5
  end.
Definition idle (c : smp_context) : Prop := sm_state c = Expect1.
Definition is_aborted (s : smp_status) : Prop := exists r, s = SmpAbortedFor r.

End WithCrypto.
