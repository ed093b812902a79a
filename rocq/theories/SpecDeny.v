(* Vocabulary for deniability: which keys a session publishes, so that everybody could have made the messages that
   it accepted. *)
From Verif Require Import Base Types Crypto Encoding Messages Fragment KeyManager DataV3 Ratchet DataV4
  AKE DAKE SMP SMP4 Protocol Session SpecSession SpecFollow.
Local Open Scope N_scope.

(* whoever knows mk can compute the authenticator of message em *)
Definition makes (C : Crypto) (mk : bytes) (em : encoded_message) : Prop :=
  match em_message em with
  | MData m => d3_authenticator m = hmac_sha1 C mk (encode_authenticator_data (em_sender em) (em_receiver em) m)
  | MData4 m => d4_authenticator m = kdf2 C 64 USAGE_AUTHENTICATOR mk (encode_authenticator_data4 (em_sender em) (em_receiver em) m)
  | _ => False
  end.

(* the messages that were accepted, and those that were sent, in order *)
Definition accepted (g : list did) : list encoded_message :=
  flat_map (fun x => match x with Reads em _ => [em] | _ => [] end) g.
Definition sent (g : list did) : list encoded_type :=
  flat_map (fun x => match x with Sends m _ => [m] | _ => [] end) g.
(* the MAC keys that a message publishes, one after the other *)
Definition published (m : encoded_type) : bytes :=
  match m with MData m => d3_revealed m | MData4 m => d4_revealed m | _ => [] end.

(* the conversation with client t that session s is in, and what was done with its data messages since it began *)
Definition conversation_of (C : Crypto) (d : details) (h : list event) (s : session) (t : N) (g : list did) : Prop :=
  exists ev h1 gs, latest_start t h ev h1 /\ Forall2 (did_in C d t) h1 gs /\ g = concat gs /\ keys_followed C d t g (state_of s t).

(* the version of the private conversation with client t *)
Definition conversation_version (s : session) (t : N) : option version :=
  match state_of s t with PEnc3 _ _ _ _ => Some V3 | PEnc4 _ _ _ _ => Some V4 | _ => None end.
