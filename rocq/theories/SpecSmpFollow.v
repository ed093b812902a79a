(* Vocabulary for following the Socialist Millionaire Protocol (SMP) through the calls of a session: what a call
   did with the protocol of one private conversation. *)
From Verif Require Import Base Types Crypto Encoding Messages Fragment KeyManager DataV3 Ratchet DataV4
  AKE DAKE SMP SMP4 Protocol Session SpecData3 SpecData4 SpecSMP SpecSMP4 SpecSession SpecFollow.
Local Open Scope N_scope.

(* The user starts the protocol, and a record is made for the peer; a record of the peer is handled, with the
   user's function that answers questions, and may have a record as reply; the user stops the protocol. *)
Inductive smp_did : Type :=
| SmpStarts (secret question : bytes) (sent : tlv)
| SmpHandles (answer : bytes -> option bytes) (record : tlv) (reply : option tlv)
| SmpStops.

(* the same, as an event of the OTRv3 protocol and as an event of the OTRv4 protocol *)
Definition smp_is3 (x : smp_did) (y : smp_event) : Prop :=
  match x, y with
  | SmpStarts s q t, Started _ s' q' t' => s' = s /\ q' = q /\ t' = t
  | SmpHandles a t r, Received h t' r' => sh_answer h = a /\ t' = t /\ r' = r
  | SmpStops, Stopped => True
  | _, _ => False
  end.
Definition smp_is4 (x : smp_did) (y : smp4_event) : Prop :=
  match x, y with
  | SmpStarts s q t, Started4 s' q' t' => s' = s /\ q' = q /\ t' = t
  | SmpHandles a t r, Received4 a' t' r' => a' = a /\ t' = t /\ r' = r
  | SmpStops, Stopped4 => True
  | _, _ => False
  end.

(* The list, oldest first, is everything that happened to the protocol of the conversation since it began. *)
Definition smp_followed (C : Crypto) (xs : list smp_did) (st : pstate) : Prop :=
  match st with
  | PEnc3 _ _ _ c => exists ys, Forall2 smp_is3 xs ys /\ smp_hist C (sm_ssid c) (sm_their_fp c) (rev ys) c
  | PEnc4 _ _ _ c => exists ys, Forall2 smp_is4 xs ys /\ smp4_hist C (s4_us c) (s4_them c) (s4_ssid c) (rev ys) c
  | _ => False
  end.

(* The last things that happened are a complete run, started by the user with a secret or answered by the user
   with a secret, in which all zero knowledge proofs were good and the values made from both secrets agree. *)
Definition smp_proved (C : Crypto) (xs : list smp_did) (st : pstate) : Prop :=
  match st with
  | PEnc3 _ _ _ c => exists ys, Forall2 smp_is3 xs ys /\
      (starter_success C (sm_ssid c) (sm_their_fp c) (rev ys) \/ answerer_success C (sm_ssid c) (sm_their_fp c) (rev ys))
  | PEnc4 _ _ _ c => exists ys, Forall2 smp_is4 xs ys /\
      (starter_success4 C (s4_us c) (s4_them c) (s4_ssid c) (rev ys) \/
       answerer_success4 C (s4_us c) (s4_them c) (s4_ssid c) (rev ys))
  | _ => False
  end.

(* [smp_in t ev g x]: what the call did with the protocol, judging by the call, by what it did with data messages
   of the conversation with t, and by its answer.  A record is handled if it is the only one in a message that
   was read. *)
Definition smp_in (t : N) (ev : event) (g : list did) (x : list smp_did) : Prop :=
  match ev_op ev with
  | OpReceive _ =>
      (x = [] \/ exists em text content tlvs rest answer record reply,
         g = Reads em text :: rest /\ shows text content tlvs /\ filter (smp_record (em_version em)) tlvs = [record] /\
         x = [SmpHandles answer record reply] /\ (reply = None -> rest = [])) /\
      (ev_result ev = Ok (AnMessage (UMSmpSucceeded t)) \/ ev_result ev = Ok (AnMessage (UMSmpFailed t)) -> x <> [])
  | OpStartSmp u secret question =>
      (x = [] \/ (u = t /\ exists sent, x = [SmpStarts secret question sent])) /\
      (u = t -> ev_result ev = Ok AnDone -> x <> [])
  | OpAbortSmp u => (x = [] \/ (u = t /\ x = [SmpStops])) /\ (u = t -> ev_result ev = Ok AnDone -> x <> [])
  | _ => x = []
  end.
(* both *)
Definition talk_in (C : Crypto) (d : details) (t : N) (ev : event) (gx : list did * list smp_did) : Prop :=
  did_in C d t ev (fst gx) /\ smp_in t ev (fst gx) (snd gx).
