(* Vocabulary for the properties of OTRv3 data messages: histories of one client, and conversations of
   two clients over a network that loses messages. *)
From Verif Require Import Base Types Crypto Encoding Messages KeyManager DataV3.
Local Open Scope N_scope.

(** ** One client: what it sent and what it received *)

Inductive event3 : Type :=
| Sent3 (m : data3) (text : bytes)
| Got3 (m : data3) (auth : bytes) (text : option bytes).   (* None: the message was refused *)

(* [run3 C our their k h k']: a client holding [k] goes through the events [h], oldest first, and then
   holds [k'].  The received messages, their authenticated bytes and all random numbers are
   arbitrary.  A crash ends the run. *)
Inductive run3 (C : Crypto) (our their : N) (k0 : key_manager) : list event3 -> key_manager -> Prop :=
| r3_nil : run3 C our their k0 [] k0
| r3_send h k ignore text m k' :
    run3 C our their k0 h k ->
    encrypt3 C our their k ignore text = Ok (m, k') ->
    run3 C our their k0 (h ++ [Sent3 m text]) k'
| r3_accept h k m auth rnd k' text :
    run3 C our their k0 h k ->
    decrypt3 C k m auth rnd = (k', Ok text) ->
    run3 C our their k0 (h ++ [Got3 m auth (Some text)]) k'
| r3_refuse h k m auth rnd k' e :
    run3 C our their k0 h k ->
    decrypt3 C k m auth rnd = (k', Err e) ->
    run3 C our their k0 (h ++ [Got3 m auth None]) k'.

(* A session starts with the client's own first key and the peer's first key. *)
Definition history3 (C : Crypto) (our their : N) (h : list event3) (k : key_manager) : Prop :=
  exists o key t tkey r0 r1 k0, km_new C o key t tkey r0 r1 = Ok k0 /\ run3 C our their k0 h k.

(* src/protocol.rs:336: in a conversation both first keys have number 1. *)
Definition begun3 (C : Crypto) (our their : N) (h : list event3) (k : key_manager) : Prop :=
  exists key tkey r0 r1 k0, km_new C 1 key 1 tkey r0 r1 = Ok k0 /\ run3 C our their k0 h k.

(* the two messages were protected under the same pair of key identifiers *)
Definition same_keys3 (a b : data3) : Prop :=
  d3_sender_keyid a = d3_sender_keyid b /\ d3_receiver_keyid a = d3_receiver_keyid b.

Definition ctr3 (m : data3) : N := be_val (d3_ctr m).

(* [y] is the peer's public key that the client knows under number [id]; the client knows the latest
   key and the one before. *)
Definition peer_key3 (k : key_manager) (id y : N) : Prop :=
  id <> 0 /\ (id = pr_id (km_theirs k) \/ id + 1 = pr_id (km_theirs k)) /\ y = pr_slot (km_theirs k) id.
(* [x] is the client's own key pair number [id]; it holds the one in use and the next. *)
Definition own_key3 (k : key_manager) (id : N) (x : dh_keypair) : Prop :=
  id <> 0 /\ (id = kr_ack (km_ours k) \/ id = kr_ack (km_ours k) + 1) /\ x = kr_slot (km_ours k) id.

(* The keys that protect a message from the peer's key number s to our key number r: which half of
   the hash is used follows from the comparison of the public keys. *)
Definition recv_keys3 (C : Crypto) (x : dh_keypair) (y : N) (enc_key mac_key : bytes) : Prop :=
  let shared := write_mpi (modpow y (dh_private x) (c_dh_p C)) in
  let which := if dh_public x <? y then x01 else x02 in
  dh_public x <> y /\
  enc_key = firstn 16 (sha1 C (which :: shared)) /\ mac_key = sha1 C enc_key.

(* The message verifies: [mac_key] is the receiving MAC key for the key numbers it names. *)
Definition authentic3 (C : Crypto) (k : key_manager) (m : data3) (auth mac_key : bytes) : Prop :=
  exists x y enc_key,
    own_key3 k (d3_receiver_keyid m) x /\ peer_key3 k (d3_sender_keyid m) y /\
    recv_keys3 C x y enc_key mac_key /\
    d3_authenticator m = hmac_sha1 C mac_key auth /\ any_nonzero (d3_authenticator m) = true.

(* key identifiers that the next message sent carries *)
Definition own_id (k : key_manager) : N := kr_ack (km_ours k).
Definition peer_id (k : key_manager) : N := pr_id (km_theirs k).

(* list of the MAC keys (20 bytes each) revealed in a message *)
Definition reveals3 (m : data3) (keys : list bytes) : Prop :=
  d3_revealed m = concat keys /\ Forall (fun k => length k = 20%nat) keys.

(* Nothing more is asked of the Diffie-Hellman group than that the generator is a unit. *)
Definition dh_group_ok (C : Crypto) : Prop := 1 < c_dh_p C /\ N.gcd (c_dh_g C) (c_dh_p C) = 1.

(** ** Two clients *)

(* The state of a conversation: both key managers, and the messages under way in each direction
   (oldest first) with the text each one carries. *)
Record conv3 : Type := mkConv3 {
  cv_a : key_manager; cv_b : key_manager;
  cv_ab : list (data3 * bytes); cv_ba : list (data3 * bytes) }.

(* What a step did; [a] says that the message is A's. *)
Inductive outcome3 : Type :=
| Sending (a : bool) (m : data3)
| Losing (a : bool)
| Delivered (a : bool) (m : data3) (sent : bytes) (got : bytes)
| Rejected (a : bool) (m : data3) (sent : bytes).

Section Conversation.
Context (C : Crypto) (ta tb : N).   (* instance tags of A and B *)

(* Either side sends; the network drops or delivers the oldest message of a direction.  A delivered
   message is authenticated with the bytes the receiver computes from what arrived. *)
Inductive step3 : conv3 -> outcome3 -> conv3 -> Prop :=
| s3_send_a s ignore text m k :
    encrypt3 C ta tb (cv_a s) ignore text = Ok (m, k) ->
    step3 s (Sending true m) (mkConv3 k (cv_b s) (cv_ab s ++ [(m, text)]) (cv_ba s))
| s3_send_b s ignore text m k :
    encrypt3 C tb ta (cv_b s) ignore text = Ok (m, k) ->
    step3 s (Sending false m) (mkConv3 (cv_a s) k (cv_ab s) (cv_ba s ++ [(m, text)]))
| s3_lose_a s x r :
    cv_ab s = x :: r -> step3 s (Losing true) (mkConv3 (cv_a s) (cv_b s) r (cv_ba s))
| s3_lose_b s x r :
    cv_ba s = x :: r -> step3 s (Losing false) (mkConv3 (cv_a s) (cv_b s) (cv_ab s) r)
| s3_deliver_a s m text r rnd k got :
    cv_ab s = (m, text) :: r ->
    decrypt3 C (cv_b s) m (encode_authenticator_data ta tb m) rnd = (k, Ok got) ->
    step3 s (Delivered true m text got) (mkConv3 (cv_a s) k r (cv_ba s))
| s3_deliver_b s m text r rnd k got :
    cv_ba s = (m, text) :: r ->
    decrypt3 C (cv_a s) m (encode_authenticator_data tb ta m) rnd = (k, Ok got) ->
    step3 s (Delivered false m text got) (mkConv3 k (cv_b s) (cv_ab s) r)
| s3_reject_a s m text r rnd k e :
    cv_ab s = (m, text) :: r ->
    decrypt3 C (cv_b s) m (encode_authenticator_data ta tb m) rnd = (k, Err e) ->
    step3 s (Rejected true m text) (mkConv3 (cv_a s) k r (cv_ba s))
| s3_reject_b s m text r rnd k e :
    cv_ba s = (m, text) :: r ->
    decrypt3 C (cv_a s) m (encode_authenticator_data tb ta m) rnd = (k, Err e) ->
    step3 s (Rejected false m text) (mkConv3 k (cv_b s) (cv_ab s) r).

(* The start: what the key exchange hands over.  Each side has its own first key pair and the public
   half of the other's, both numbered 1. *)
Definition start3 (s : conv3) : Prop :=
  exists xa xb ra0 ra1 rb0 rb1,
    km_new C 1 (dh_new C xa) 1 (dh_public (dh_new C xb)) ra0 ra1 = Ok (cv_a s) /\
    km_new C 1 (dh_new C xb) 1 (dh_public (dh_new C xa)) rb0 rb1 = Ok (cv_b s) /\
    cv_ab s = [] /\ cv_ba s = [].

Inductive conversation3 : conv3 -> list outcome3 -> conv3 -> Prop :=
| c3_nil s : start3 s -> conversation3 s [] s
| c3_step s0 os s o s' :
    conversation3 s0 os s -> step3 s o s' -> conversation3 s0 (os ++ [o]) s'.

(* The parties take turns: one message each, delivered before the other party answers.  [a] says that
   it is A's turn. *)
Inductive turns3 : bool -> list outcome3 -> Prop :=
| t3_start a : turns3 a []
| t3_delivered a os m sent got :
    turns3 a os -> turns3 (negb a) (os ++ [Sending a m; Delivered a m sent got])
| t3_rejected a os m sent :
    turns3 a os -> turns3 (negb a) (os ++ [Sending a m; Rejected a m sent]).

End Conversation.
