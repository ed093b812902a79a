(* Theorems about crashes: which calls can end the process, and who brings that about. *)
From Verif Require Import Base Types Crypto ToyCrypto Encoding ClientProfile Messages Fragment KeyManager DataV3 DataV4 AKE DAKE SMP SMP4
  Protocol Session SpecWire SpecCurve SpecData3 SpecData4 SpecSMP SpecSMP4 SpecDAKE SpecSession SessionExamples NetExamples StartExamples
  SpecCrash SpecCallCrash WireLemmas CrashSessionProofs CrashPeerProofs CrashCallProofs CrashExamples.
From Verif Require SpecFragment FragmentLemmas.
From Coq Require Import Lia.
Local Open Scope N_scope.

(** * C66: what a received payload can do *)

(* In every session, whatever happened before: if a payload crashes the process, then either it is one of the listed
   payloads that a peer can make, or a random value or a hash came out as one of the listed exceptional values, or the
   host could not provide a key or a large enough message size. *)
Theorem C66_causes : forall C, groups_sound C -> forall d h s e p, history C d h s -> 256 <= de_tag d ->
  pt_valid C (ed_public (ev_identity e)) -> snd (receive C e s p) = Panic ->
  peer_crashes C e s p \/ chance_crashes C e s p \/ host_crashes C e s p.
Proof. exact receive_crash. Qed.
Print Assumptions C66_causes.

(* The listed payloads do crash: everyone can make a fragment with a number of five digits above 65535, *)
Theorem C66_fragment : forall C d h s e f, history C d h s -> enabled d -> (fr_version f = V3 \/ fr_version f = V4) ->
  fr_payload f <> [] -> Forall SpecFragment.fragment_char (fr_payload f) -> fr_part f < 100000 -> fr_total f < 100000 ->
  65536 <= fr_part f \/ 65536 <= fr_total f -> snd (receive C e s (fragment_text f)) = Panic.
Proof. exact fragment_crashes. Qed.
Print Assumptions C66_fragment.

(* the texts "?OTR?" and "?OTR?v2" and the whitespace tag without versions, followed by "hi", *)
Theorem C66_text : forall C d h s e p, history C d h s -> enabled d ->
  p = [x3f; x4f; x54; x52; x3f] \/ p = [x3f; x4f; x54; x52; x3f; x76; x32] \/ p = WHITESPACE_PREFIX ++ [x68; x69] ->
  snd (receive C e s p) = Panic.
Proof.
  intros C d h s e p H E P. destruct (parse_can_crash C) as (_ & P1 & P2 & P3 & _).
  apply (text_crashes C d h s e p H E); destruct P as [-> | [-> | ->]]; try assumption; vm_compute; reflexivity.
Qed.
Print Assumptions C66_text.

(* a data message of OTRv4 which would be in order but for its authenticator, which is all zero, *)
Theorem C66_authenticator : forall C d h s e p em m, history C d h s -> carries C s p em -> addressed d em ->
  allowed d V4 -> em_version em = V4 -> em_message em = MData4 m ->
  data4_validate C (mkData4 (d4_ignore_unreadable m) (d4_pn m) (d4_i m) (d4_j m) (d4_ecdh m) (d4_dh m) (d4_encrypted m)
     (repeat xff 64) (d4_revealed m)) = Ok tt ->
  all_zero (d4_authenticator m) = true -> snd (receive C e s p) = Panic.
Proof. exact authenticator_crashes. Qed.
Print Assumptions C66_authenticator.

(* an Identity message whose ephemeral key, or the forging key of whose profile, is the client's own identity key, *)
Theorem C66_own_key : forall C, groups_sound C -> forall d h s e p em m bob own alice, history C d h s -> carries C s p em ->
  addressed d em -> allowed d V4 -> em_version em = V4 -> em_message em = MIdentity m ->
  offer_ok C (id_profile m) bob (id_y m) (id_b m) (id_ecdh0 m) (id_dh0 m) ->
  answers4 C (in_dake (entry (em_sender em) (se_instances s))) m ->
  decode_profile C (ev_profile e) = Ok own -> payload_accepted C own alice ->
  pt_valid C (ed_public (ev_identity e)) -> pt_verify C (ed_public (ev_identity e)) = true ->
  pt_verify C (cp_forging bob) = true ->
  id_y m = ed_public (ev_identity e) \/ cp_forging bob = ed_public (ev_identity e) ->
  snd (receive C e s p) = Panic.
Proof. exact own_key_crashes. Qed.
Print Assumptions C66_own_key.

(* an Auth-I message whose three challenges add up to zero, while the client waits for one, *)
Theorem C66_zero_challenge : forall C d h s e p em m w bob alice, history C d h s -> carries C s p em -> addressed d em ->
  allowed d V4 -> em_version em = V4 -> em_message em = MAuthI m ->
  in_dake (entry (em_sender em) (se_instances s)) = DakeAwaitingAuthI w ->
  payload_accepted C (wi_profile_bob w) bob -> payload_accepted C (wi_profile_alice w) alice ->
  ring_peer C (ai_sigma m) ->
  ~ ring_chance C (ai_sigma m) (cp_identity bob) (cp_forging alice) (wi_x w)
      (auth_i_text C (alice_view w bob alice (de_account d) (de_address d))) ->
  snd (receive C e s p) = Panic.
Proof. exact zero_challenge_crashes. Qed.
Print Assumptions C66_zero_challenge.

(* the end of an OTRv3 key exchange while there is an OTRv4 conversation, *)
Theorem C66_second_start : forall C d h s e p em m our gy sh previous mat, history C d h s -> carries C s p em -> addressed d em ->
  allowed d V3 -> em_version em = V3 -> em_message em = MSignature m ->
  (exists o t k smp, state_of s (em_sender em) = PEnc4 o t k smp) ->
  in_ake (entry (em_sender em) (se_instances s)) = AkeAwaitingSig our gy sh previous ->
  signature_result C our gy sh m = Ok mat -> snd (receive C e s p) = Panic.
Proof. exact second_start_crashes. Qed.
Print Assumptions C66_second_start.

(* any OTRv3 data message that names an own key and a key of the peer which are equal. *)
Theorem C66_equal_keys : forall C d h s e p em m our their k smp x, history C d h s -> carries C s p em -> addressed d em ->
  allowed d V3 -> em_version em = V3 -> em_message em = MData m ->
  state_of s (em_sender em) = PEnc3 our their k smp ->
  own_key3 k (d3_receiver_keyid m) x -> peer_key3 k (d3_sender_keyid m) (dh_public x) ->
  kr_ack (km_ours k) < LAST32 -> snd (receive C e s p) = Panic.
Proof. exact equal_keys_crash. Qed.
Print Assumptions C66_equal_keys.

(* All hypotheses can be met. *)
Example C66_ex_groups : groups_sound toy /\ (forall n t, pt_valid toy (ed_public (ev_identity (xs_ea n t)))) /\ 256 <= de_tag xs_alice.
Proof. split; [exact toy_groups_sound|]. split; [exact xs_identity_valid|vm_compute; discriminate]. Qed.
Example C66_ex_fragment : history toy xs_alice za_h za_s /\ enabled xs_alice /\
  snd (receive toy (xs_ea x50 0) za_s (fragment_text kc_fragment)) = Panic /\
  peer_crashes toy (xs_ea x50 0) za_s (fragment_text kc_fragment).
Proof.
  split; [exact za_run|]. split; [apply (proj1 xs_enabled)|]. split.
  - apply (C66_fragment toy xs_alice za_h za_s).
    + exact za_run.
    + apply (proj1 xs_enabled).
    + right. reflexivity.
    + discriminate.
    + constructor; [|constructor]. left. vm_compute. split; discriminate.
    + vm_compute. reflexivity.
    + vm_compute. reflexivity.
    + left. vm_compute. discriminate.
  - left. split; [vm_compute; reflexivity|]. split; [vm_compute; reflexivity|].
    exists (firstn 32 (fragment_text kc_fragment)), (firstn 5 (skipn 32 (fragment_text kc_fragment))),
      (skipn 37 (fragment_text kc_fragment)).
    split; [vm_compute; reflexivity|]. split; [reflexivity|]. split; [vm_compute; reflexivity|]. vm_compute. discriminate.
Qed.
Example C66_ex_text : history toy xs_alice za_h za_s /\ enabled xs_alice /\ snd (receive toy (xs_ea x50 0) za_s kc_query) = Panic.
Proof. split; [exact za_run|]. split; [apply (proj1 xs_enabled)|]. apply (C66_text toy xs_alice za_h za_s); [exact za_run|apply (proj1 xs_enabled)|auto]. Qed.
Example C66_ex_authenticator : snd (receive toy (xs_ea x50 0) za_s kc_zero) = Panic.
Proof.
  apply (C66_authenticator toy xs_alice za_h za_s _ kc_zero kc_zero_em kc_data4); try reflexivity; [exact za_run|apply kc_zero_carried|].
  vm_compute. repeat split; discriminate.
Qed.
Example C66_ex_own_key : snd (receive toy (xs_ea x50 0) za_s ki_p) = Panic.
Proof.
  destruct ki_offer as (bob & O & F). destruct (ki_profile x50 0) as (own & alice & D & P).
  apply (C66_own_key toy toy_groups_sound xs_alice za_h za_s _ ki_p ki_em ki_m bob own alice); try reflexivity; try assumption;
    [exact za_run|apply ki_carried| |apply xs_identity_valid|left; reflexivity].
  vm_compute. repeat split; discriminate.
Qed.
Example C66_ex_zero_challenge : snd (receive toy (xs_eb x50 0) (snd zb_end1) kz_p) = Panic.
Proof.
  destruct kz_challenge as (w & bob & alice & K1 & K2 & K3 & K4 & K5).
  apply (C66_zero_challenge toy xs_bob (fst zb_end1) (snd zb_end1) _ kz_p kz_em kz_m w bob alice); try reflexivity; try assumption;
    [exact zb_run1|apply kz_carried|].
  vm_compute. repeat split; discriminate.
Qed.
Example C66_ex_second_start : snd (receive toy (xs_ea x50 0) wa_s wa_signature) = Panic.
Proof.
  destruct kc_sig as (our & gy & sh & previous & mat & m & M & K & R & S).
  apply (C66_second_start toy xs_alice wa_h wa_s _ wa_signature kc_sig_em m our gy sh previous mat); try reflexivity; try assumption;
    [exact wa_run|apply kc_sig_carried|].
  vm_compute. repeat split; discriminate.
Qed.
Example C66_ex_equal_keys : snd (receive toy (xs_ea x50 0) (snd ks_end) ks_p) = Panic.
Proof.
  destruct ks_keys as (our & their & k & smp & x & S & O & P & L).
  apply (C66_equal_keys toy xs_alice (fst ks_end) (snd ks_end) _ ks_p ks_em ks_data our their k smp x); try reflexivity; try assumption;
    [exact ks_run|apply ks_carried|].
  vm_compute. repeat split; discriminate.
Qed.

(** * C67: what any call of the host can do *)

(* The same for all calls.  Besides receiving, only an exhausted conversation, chance and mistakes of the host crash the
   process. *)
Theorem C67_causes : forall C, groups_sound C -> forall d h s es o, history C d h s -> 256 <= de_tag d ->
  (forall t, pt_valid C (ed_public (ev_identity (es t)))) -> snd (call C es s o) = Panic ->
  call_peer C es s o \/ call_chance C es s o \/ call_host C es s o.
Proof. exact call_crash. Qed.
Print Assumptions C67_causes.

(* The mistakes do crash: an empty text, or one of NULs only, in an OTRv3 conversation, *)
Theorem C67_empty_text : forall C d h s es t content our their k smp, history C d h s -> enabled d ->
  state_of s t = PEnc3 our their k smp -> without_nul content = [] -> snd (call C es s (OpSend t content)) = Panic.
Proof. exact empty_text_crashes. Qed.
Print Assumptions C67_empty_text.

(* another version than 3 and 4, *)
Theorem C67_version : forall C s es v t, v <> V3 -> v <> V4 -> snd (call C es s (OpInitiate v t)) = Panic.
Proof. exact version_crashes. Qed.
Print Assumptions C67_version.

(* a question of more than 65535 bytes. *)
Theorem C67_question : forall C, groups_sound C -> forall d h s es t secret question, history C d h s -> status_of s t = Encrypted ->
  (forall our their k smp, state_of s t = PEnc3 our their k smp -> sm_state smp = Expect1) ->
  (forall our their k smp, state_of s t = PEnc4 our their k smp -> s4_status smp <> S4InProgress) ->
  65536 <= N.of_nat (length question) -> snd (call C es s (OpStartSmp t secret question)) = Panic.
Proof. exact question_crashes. Qed.
Print Assumptions C67_question.

Example C67_ex_empty : history toy xs_alice ya_h ya_s /\ enabled xs_alice /\
  (exists our their k smp, state_of ya_s 400 = PEnc3 our their k smp) /\ without_nul [x00] = [] /\
  snd (call toy (xs_ea x50) ya_s (OpSend 400 [x00])) = Panic /\ call_host toy (xs_ea x50) ya_s (OpSend 400 [x00]).
Proof.
  assert (E : exists our their k smp, state_of ya_s 400 = PEnc3 our their k smp) by (eexists _, _, _, _; vm_compute; reflexivity).
  split; [exact ya_run|]. split; [exact (proj1 xs_enabled)|]. split; [exact E|]. split; [reflexivity|]. split.
  - destruct E as (our & their & k & smp & E). exact (C67_empty_text toy xs_alice ya_h ya_s _ 400 [x00] our their k smp ya_run (proj1 xs_enabled) E eq_refl).
  - left. split; [reflexivity|exact E].
Qed.
Example C67_ex_question : snd (call toy (xs_ea x50) za_s (OpStartSmp 400 [x41] (repeat x42 (N.to_nat 65536)))) = Panic.
Proof.
  apply (C67_question toy toy_groups_sound xs_alice za_h za_s); [exact za_run|vm_compute; reflexivity| | |rewrite repeat_length; lia].
  - intros our their k smp E. vm_compute in E. discriminate E.
  - intros our their k smp E. assert (S : match state_of za_s 400 with PEnc4 _ _ _ x => s4_status x | _ => S4InProgress end <> S4InProgress)
      by (vm_compute; discriminate). rewrite E in S. exact S.
Qed.
