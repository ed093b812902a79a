(* Vocabulary for the messages that clients send only because they received one. *)
From Verif Require Import Base Types Crypto Encoding Messages Fragment KeyManager DataV3 Ratchet DataV4
  AKE DAKE SMP SMP4 Protocol Session SpecWire SpecSession SpecFollow.
Local Open Scope N_scope.

(* A message as its author knows it: a data message together with the plaintext inside. *)
Record utterance : Type := mkUtterance { ut_message : message_type; ut_inside : bytes }.

Definition is_data_type (m : encoded_type) : Prop := match m with MData _ | MData4 _ => True | _ => False end.

(* Message x becomes available to session s when the payload p arrives.  If s can decrypt it, s reads in it
   what is inside. *)
Definition hears (C : Crypto) (s : session) (p : bytes) (x : utterance) : Prop :=
  exists b, completes s p b /\ parse C b = Ok (ut_message x) /\
    forall em text, ut_message x = MsgEncoded em -> opens C (state_of s (em_sender em)) em text -> ut_inside x = text.

(* What the session sends after hearing x, [out], is exactly the message y: an OTR error message, a query
   message, or an encoded message, in one piece or in fragments.  The keys of the conversation were used for x
   and for y, and for nothing else. *)
Definition answers_with (C : Crypto) (s : session) (x : utterance) (s' : session) (out : list bytes) (y : utterance) : Prop :=
  match ut_message y with
  | MsgError error => out = [OTR_ERROR_PREFIX ++ error]
  | MsgQuery vs => exists v, vs = [v] /\ preferred (se_details s) v /\ out = [query_message v]
  | MsgEncoded em' =>
      em_sender em' = de_tag (se_details s) /\
      (exists e, transported (se_details s) e (em_receiver em') (em_version em') (em_message em') out) /\
      (is_data_type (em_message em') ->
       exists em, ut_message x = MsgEncoded em /\ em_receiver em' = em_sender em /\
         steps C (state_of s (em_sender em)) [Reads em (ut_inside x); SpecFollow.Sends (em_message em') (ut_inside y)]
           (state_of s' (em_sender em)))
  | _ => False
  end.

(** ** The order of answers *)

(* the plaintext contains exactly one record of the Socialist Millionaire Protocol *)
Definition one_record (v : version) (plaintext : bytes) (r : tlv) : Prop :=
  exists text tlvs, shows plaintext text tlvs /\ filter (smp_record v) tlvs = [r].
(* no text, and just this record *)
Definition just (r : tlv) (plaintext : bytes) : Prop := tlv_range r /\ plaintext = x00 :: tlv_bytes r.
(* The records of the Socialist Millionaire Protocol: message 1 (types 2, and 7 with a question), 2, 3, 4 (types
   3, 4, 5), and abort (6).  The next message follows, or an abort, and nothing follows an abort. *)
Definition next_record (a b : N) : Prop :=
  ((a = 2 \/ a = 7) /\ b = 3) \/ (a = 3 /\ b = 4) \/ (a = 4 /\ b = 5) \/ (a <> 6 /\ b = 6).

(* [next C x y]: message y is the next step after message x. *)
Definition next (C : Crypto) (x y : utterance) : Prop :=
  match ut_message x, ut_message y with
  | MsgError _, MsgQuery _ => True
  | (MsgQuery _ | MsgTagged _ _), MsgEncoded em' =>
      match em_message em' with MDHCommit _ | MIdentity _ => True | _ => False end
  | MsgEncoded em, MsgError _ => is_data_type (em_message em)
  | MsgEncoded em, MsgEncoded em' =>
      match em_message em, em_message em' with
      (* two D-H Commit messages that crossed: the one with the higher hash is repeated *)
      | MDHCommit m, MDHCommit m' =>
          be_val (dc_gx_hashed m) < be_val (dc_gx_hashed m') /\ exists g, dc_gx_hashed m' = sha256 C g
      | MDHCommit _, MDHKey _ | MDHKey _, MRevealSig _ | MRevealSig _, MSignature _ => True
      | MIdentity m, MIdentity m' => hashed_b C (id_b m) < hashed_b C (id_b m')
      | MIdentity _, MAuthR _ | MAuthR _, MAuthI _ => True
      | MData _, MData _ =>
          exists a b, one_record V3 (ut_inside x) a /\ just b (ut_inside y) /\ next_record (tlv_type a) (tlv_type b)
      (* OTRv4 does not answer with an abort *)
      | MData4 _, MData4 _ =>
          exists a b, one_record V4 (ut_inside x) a /\ just b (ut_inside y) /\ next_record (tlv_type a) (tlv_type b) /\
            tlv_type b <> 6
      | _, _ => False
      end
  | _, _ => False
  end.

(* an abort of the Socialist Millionaire Protocol in OTRv4 *)
Definition abort4 (x : utterance) : Prop :=
  exists em m a, ut_message x = MsgEncoded em /\ em_message em = MData4 m /\ one_record V4 (ut_inside x) a /\ tlv_type a = 6.

(* Whichever client hears the message, whatever happened to that client before: it answers with nothing, or with
   one message for which the same holds.  (The definition is inductive: this comes to an end.) *)
Inductive dies_out (C : Crypto) : utterance -> Prop :=
| dies x :
    (forall d h s e p s' out r, history C d h s -> hears C s p x -> receive C e s p = (s', out, r) -> r <> Panic ->
       out = [] \/ exists y, answers_with C s x s' out y /\ dies_out C y) ->
    dies_out C x.
