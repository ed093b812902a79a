(* Property C80: the bytes on the network. *)
From Coq Require Import String.
From Verif Require Import Base Types Crypto ToyCrypto Encoding Messages Fragment Protocol Session SpecFragment SpecSession SpecFormat FormatProofs SpecSent SentProofs
  SessionExamples NetExamples StartExamples ReportExamples.
Import ListNotations SpecSession.
Local Open Scope N_scope.

(** * C80 Everything a session sends is in the documented layout *)

(* Messages, fragments and the records inside data messages are laid out as SpecFormat.v describes, *)
Theorem C80_message v sender receiver m p : encode_message v sender receiver m = Ok p -> ENCODED v sender receiver m p.
Proof. apply encoded_ok. Qed.
Print Assumptions C80_message.
Theorem C80_fragment f p : encode_fragment f = Ok p -> FRAGMENT f p.
Proof. apply fragment_ok. Qed.
Print Assumptions C80_fragment.
Theorem C80_record t b : write_tlv t = Ok b -> RECORD t b.
Proof. apply record_ok. Qed.
Print Assumptions C80_record.
(* and these descriptions leave nothing open: there is only one text for each. *)
Theorem C80_determined v sender receiver m f t :
  (forall p q, ENCODED v sender receiver m p -> ENCODED v sender receiver m q -> p = q) /\
  (forall p q, FRAGMENT f p -> FRAGMENT f q -> p = q) /\
  (forall b c, RECORD t b -> RECORD t c -> b = c).
Proof. split; [apply encoded_det|]. split; [apply fragment_det|apply record_det]. Qed.
Print Assumptions C80_determined.

(* Whatever the user calls and whatever arrives, a session hands only these to the transport: the text that asks for a
   conversation, the complaint about an unreadable message, and messages from its own tag in that layout, whole or in
   numbered pieces.  The only other thing a user gets to send is the user's own text outside a private conversation,
   as it is (without NULs) or behind the mark that offers a version. *)
Theorem C80_session C d h s es o s' out r : history C d h s -> enabled d -> call C es s o = (s', out, r) -> r <> Panic ->
  WIRE d out /\
  (forall ps, r = Ok (AnPayloads ps) ->
     exists t c, o = OpSend t c /\ (status_of s t = Plaintext /\ require_encryption (de_policy d) = false /\ CLEAR d c ps \/
                                    status_of s t = Encrypted /\ WIRE d ps)).
Proof. apply on_the_wire. Qed.
Print Assumptions C80_session.

(* a D-H Key message with the number 5 from 0x12d to 0x190, a piece of a text in each version, a record; and a session whose
   user sends a text, in more than five pieces *)
Example C80_ex :
  encode_message V3 0x12d 0x190 (MDHKey (mkDHKey 5)) = Ok (text "?OTR:AAMKAAABLQAAAZAAAAABBQ==.") /\
  encode_fragment (mkFragment V3 [x00; x00; x00; x00] 0x12d 0x190 1 20 (text "?OTR:AAMK")) =
    Ok (text "?OTR|0000012d|00000190,00001,00020,?OTR:AAMK,") /\
  encode_fragment (mkFragment V4 [x00; x0a; xbc; xff] 0x12d 0 2 3 (text "AAAB")) = Ok (text "?OTR|000abcff|0000012d|00000000,00002,00003,AAAB,") /\
  write_tlv (mkTlv 7 (text "ab")) = Ok [x00; x07; x00; x02; x61; x62] /\
  history toy xs_alice ya_h ya_s /\ enabled xs_alice /\ status_of ya_s 400 = Encrypted /\
  call toy (xr_small x46) ya_s (OpSend 400 xr_hello) = (fst (fst xr_private), [], snd xr_private) /\
  (match snd xr_private with Ok (AnPayloads ps) => (5 <? List.length ps)%nat | _ => false end) = true.
Proof.
  do 4 (split; [vm_compute; reflexivity|]). split; [exact ya_run|]. split; [apply xs_enabled|]. split; [vm_compute; reflexivity|]. exact xr_private_is.
Qed.
