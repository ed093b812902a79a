(* Vocabulary for the properties of OTRv4 data messages: histories of one client, and conversations of
   two clients over a network that loses messages. *)
From Verif Require Import Base Types Crypto Encoding Messages KeyManager DataV3 Ratchet DataV4 SpecCurve.
Local Open Scope N_scope.

(** ** Keys *)

(* The n-th key of the hash chain that starts with [base]. *)
Fixpoint chain4 (C : Crypto) (base : bytes) (n : nat) : bytes :=
  match n with O => base | S n => kdf C 64 USAGE_NEXT_CHAIN_KEY (chain4 C base n) end.
(* Encryption and MAC key of a message protected with chain key [ck]. *)
Definition enc_key4 (C : Crypto) (ck : bytes) : bytes := kdf C 64 USAGE_MESSAGE_KEY ck.
Definition mac_key4 (C : Crypto) (ck : bytes) : bytes := kdf C 64 USAGE_MAC_KEY (enc_key4 C ck).

(* The position of a message: number of the ratchet, and number within the ratchet. *)
Definition before4 (a b : data4) : Prop :=
  d4_i a < d4_i b \/ (d4_i a = d4_i b /\ d4_j a < d4_j b).

(* [ck] is the chain key with which a client in state [d] reads message [m]: the ratchet that it
   receives in now, or, if it is the peer's turn to start a ratchet, the one that the keys in the
   message lead to. *)
Definition reads_with4 (C : Crypto) (d : double_ratchet) (m : data4) (ck : bytes) : Prop :=
  (d4_i m + 1 = dr_i d /\ ra_message_id (dr_receiver d) <= d4_j m /\
   ck = chain4 C (ra_chain_key (dr_receiver d)) (N.to_nat (d4_j m - ra_message_id (dr_receiver d)))) \/
  (d4_i m = dr_i d /\ dr_next d = RECEIVER /\
   exists dh shared,
     dh = match d4_dh m with Some v => v | None => mx_public_dh (dr_shared d) end /\
     mixed_next C (mx_ecdh (dr_shared d)) (mx_dh (dr_shared d)) (d4_ecdh m) dh
       (dr_i d mod 3 =? 0) (mx_brace_key (dr_shared d)) = Ok shared /\
     ck = chain4 C (kdf2 C 64 USAGE_CHAIN_KEY (dr_root_key d) (mx_k shared)) (N.to_nat (d4_j m))).

(* The message verifies: [mk] is the MAC key with which a client in state [d] checks it. *)
Definition authentic4 (C : Crypto) (d : double_ratchet) (m : data4) (auth mk : bytes) : Prop :=
  exists ck, reads_with4 C d m ck /\ mk = mac_key4 C ck /\
    d4_authenticator m = kdf2 C 64 USAGE_AUTHENTICATOR mk auth /\
    any_nonzero (d4_authenticator m) = true.

(** ** One client *)

(* An accepted message is recorded with the MAC key that verified it. *)
Inductive event4 : Type :=
| Sent4 (m : data4) (text : bytes)
| Took4 (m : data4) (auth text mk : bytes)
| Refused4 (m : data4) (auth : bytes).

(* [run4 C our their d0 h d]: a client holding [d0] goes through the events [h], oldest first, and
   then holds [d].  Received messages, their authenticated bytes, random numbers and clock readings
   are arbitrary.  A crash ends the run. *)
Inductive run4 (C : Crypto) (our their : N) (d0 : double_ratchet) : list event4 -> double_ratchet -> Prop :=
| r4_nil : run4 C our their d0 [] d0
| r4_send h d ignore text rnd m d' :
    run4 C our their d0 h d ->
    encrypt4 C our their d ignore text [] rnd = Ok (m, d') ->
    run4 C our their d0 (h ++ [Sent4 m text]) d'
| r4_accept h d m auth now d' text mk :
    run4 C our their d0 h d ->
    decrypt4 C d m auth now = (d', Ok text) -> authentic4 C d m auth mk ->
    run4 C our their d0 (h ++ [Took4 m auth text mk]) d'
| r4_refuse h d m auth now d' e :
    run4 C our their d0 h d ->
    decrypt4 C d m auth now = (d', Err e) ->
    run4 C our their d0 (h ++ [Refused4 m auth]) d'.

(* What the key exchange hands over: the party that received Auth-I gets the first ratchet (dake.rs:
   466-472); the party that received Auth-R sets up the same ratchet as its receiving one and at once
   starts its own (dake.rs:360-371). *)
Definition starts_sender4 (C : Crypto) (d : double_ratchet) : Prop :=
  exists ecdh dh y b root now shared,
    mixed_new C ecdh dh y b = Ok shared /\ d = dr_initialize C SENDER shared root now.
Definition starts_receiver4 (C : Crypto) (d : double_ratchet) : Prop :=
  exists ecdh dh y b root now shared ecdh_rnd dh_rnd now',
    mixed_new C ecdh dh y b = Ok shared /\
    dr_rotate_sender C (dr_initialize C RECEIVER shared root now) ecdh_rnd dh_rnd now' = Ok d.

Definition history4 (C : Crypto) (our their : N) (h : list event4) (d : double_ratchet) : Prop :=
  exists d0, (starts_sender4 C d0 \/ starts_receiver4 C d0) /\ run4 C our their d0 h d.

(* all revealed MAC keys, and the MAC keys of all accepted messages, in order *)
Definition revealed4 (h : list event4) : bytes :=
  concat (map (fun e => match e with Sent4 m _ => d4_revealed m | _ => [] end) h).
Definition accepted_macs4 (h : list event4) : bytes :=
  concat (map (fun e => match e with Took4 _ _ _ mk => mk | _ => [] end) h).

(** ** Two clients *)

Record conv4 : Type := mkConv4 {
  cw_a : double_ratchet; cw_b : double_ratchet;
  cw_ab : list (data4 * bytes); cw_ba : list (data4 * bytes) }.

(* What a step did; [a] says that the message is A's. *)
Inductive outcome4 : Type :=
| Sending4 (a : bool) (m : data4)
| Losing4 (a : bool)
| Delivered4 (a : bool) (m : data4) (sent : bytes) (got : bytes)
| Rejected4 (a : bool) (m : data4) (sent : bytes).

Section Conversation.
Context (C : Crypto) (ta tb : N).   (* instance tags of A and B *)

(* Either side sends; the network drops or delivers the oldest message of a direction.  A delivered
   message is authenticated with the bytes the receiver computes from what arrived. *)
Inductive step4 : conv4 -> outcome4 -> conv4 -> Prop :=
| s4_send_a s ignore text rnd m k :
    encrypt4 C ta tb (cw_a s) ignore text [] rnd = Ok (m, k) ->
    step4 s (Sending4 true m) (mkConv4 k (cw_b s) (cw_ab s ++ [(m, text)]) (cw_ba s))
| s4_send_b s ignore text rnd m k :
    encrypt4 C tb ta (cw_b s) ignore text [] rnd = Ok (m, k) ->
    step4 s (Sending4 false m) (mkConv4 (cw_a s) k (cw_ab s) (cw_ba s ++ [(m, text)]))
| s4_lose_a s x r :
    cw_ab s = x :: r -> step4 s (Losing4 true) (mkConv4 (cw_a s) (cw_b s) r (cw_ba s))
| s4_lose_b s x r :
    cw_ba s = x :: r -> step4 s (Losing4 false) (mkConv4 (cw_a s) (cw_b s) (cw_ab s) r)
| s4_deliver_a s m text r now k got :
    cw_ab s = (m, text) :: r ->
    decrypt4 C (cw_b s) m (encode_authenticator_data4 ta tb m) now = (k, Ok got) ->
    step4 s (Delivered4 true m text got) (mkConv4 (cw_a s) k r (cw_ba s))
| s4_deliver_b s m text r now k got :
    cw_ba s = (m, text) :: r ->
    decrypt4 C (cw_a s) m (encode_authenticator_data4 tb ta m) now = (k, Ok got) ->
    step4 s (Delivered4 false m text got) (mkConv4 k (cw_b s) (cw_ab s) r)
| s4_reject_a s m text r now k e :
    cw_ab s = (m, text) :: r ->
    decrypt4 C (cw_b s) m (encode_authenticator_data4 ta tb m) now = (k, Err e) ->
    step4 s (Rejected4 true m text) (mkConv4 (cw_a s) k r (cw_ba s))
| s4_reject_b s m text r now k e :
    cw_ba s = (m, text) :: r ->
    decrypt4 C (cw_a s) m (encode_authenticator_data4 tb ta m) now = (k, Err e) ->
    step4 s (Rejected4 false m text) (mkConv4 k (cw_b s) (cw_ab s) r).

(* The start: A sent Auth-R and received Auth-I, B sent Auth-I.  Both hold the same root key, their own
   key pairs and the public halves of the other's. *)
Definition start4 (s : conv4) : Prop :=
  exists ea da eb db root sha shb na nb nb' ecdh_rnd dh_rnd,
    let xa := ecdh_of_secret C ea in let ya := dh3_generate C da in
    let xb := ecdh_of_secret C eb in let yb := dh3_generate C db in
    mixed_new C xa ya (ec_public xb) (dh3_public yb) = Ok sha /\
    mixed_new C xb yb (ec_public xa) (dh3_public ya) = Ok shb /\
    cw_a s = dr_initialize C SENDER sha root na /\
    dr_rotate_sender C (dr_initialize C RECEIVER shb root nb) ecdh_rnd dh_rnd nb' = Ok (cw_b s) /\
    cw_ab s = [] /\ cw_ba s = [].

Inductive conversation4 : conv4 -> list outcome4 -> conv4 -> Prop :=
| c4_nil s : start4 s -> conversation4 s [] s
| c4_step s0 os s o s' :
    conversation4 s0 os s -> step4 s o s' -> conversation4 s0 (os ++ [o]) s'.

(* One party speaks at a time, [a] says whether it is A.  Each message is lost or arrives before the
   next is sent.  The floor changes only right after a message was delivered. *)
Inductive floor4 : bool -> list outcome4 -> Prop :=
| f4_start a : floor4 a []
| f4_delivered a os m sent got :
    floor4 a os -> floor4 a (os ++ [Sending4 a m; Delivered4 a m sent got])
| f4_rejected a os m sent :
    floor4 a os -> floor4 a (os ++ [Sending4 a m; Rejected4 a m sent])
| f4_lost a os m :
    floor4 a os -> floor4 a (os ++ [Sending4 a m; Losing4 a])
| f4_change a os m sent got :
    floor4 a (os ++ [Delivered4 a m sent got]) -> floor4 (negb a) (os ++ [Delivered4 a m sent got]).

End Conversation.

(* What is asked of the groups: the curve is sound; the modulus and the generator of the 3072-bit group
   are not zero. *)
Definition groups_ok4 (C : Crypto) : Prop :=
  curve_ok C /\ c_dh3_p C <> 0 /\ c_dh3_g C <> 0.

(* The ratchet of party [a], its instance tag, its messages under way. *)
Definition tag_of (ta tb : N) (a : bool) : N := if a then ta else tb.
Definition side (a : bool) (s : conv4) : double_ratchet := if a then cw_a s else cw_b s.
Definition sent_by (a : bool) (s : conv4) : list (data4 * bytes) := if a then cw_ab s else cw_ba s.
