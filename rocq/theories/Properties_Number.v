(* Property C78: the key numbers of a new OTRv3 conversation. *)
From Verif Require Import Base Types Crypto ToyCrypto Encoding Messages KeyManager DataV3 Protocol Session SpecSession SpecStart SpecNet NetProofs SpecNumber NumberProofs
  SessionExamples NetExamples StartExamples NumberExamples.
Local Open Scope N_scope.

(** * C78 The key numbers announced in the OTRv3 key exchange are the ones used *)

(* Whatever was announced: the first text goes from key number 1 to key number 1, *)
Theorem C78_sent_to_one_partial C d h s e p em s' e' c s'' ps : history C d h s -> em_version em = V3 -> starts C e s p em s' ->
  send C e' s' (em_sender em) c = (s'', [], Ok ps) -> under_numbers d e' (em_sender em) ps 1 1.
Proof. apply sent_to_one. Qed.
Print Assumptions C78_sent_to_one_partial.

(* and a first message of the peer under any other key number of its own is refused as unreadable. *)
Theorem C78_others_refused_partial C d h s e p em s' e2 p2 em2 m s2 out r : history C d h s -> em_version em = V3 -> starts C e s p em s' ->
  carries C s' p2 em2 -> em_version em2 = V3 -> em_sender em2 = em_sender em -> em_receiver em2 = de_tag d -> legal_details d ->
  256 <= em_sender em -> em_message em2 = MData m -> d3_sender_keyid m <> 1 ->
  receive C e2 s' p2 = (s2, out, r) -> r <> Panic ->
  out = [UNREADABLE_REPLY] /\ r = (if d3_ignore_unreadable m then Ok UMNone else Err (UnreadableMessage (em_sender em))).
Proof. apply others_refused. Qed.
Print Assumptions C78_others_refused_partial.

(* So the peer that announced another number is not written to under that number. *)
Theorem C78_refuted : ~ (forall C d h s e p em s' n e' c s'' p2 em2 m,
  history C d h s -> announces C s em n -> starts C e s p em s' -> send C e' s' (em_sender em) c = (s'', [], Ok [p2]) ->
  parse C p2 = Ok (MsgEncoded em2) -> em_message em2 = MData m -> d3_receiver_keyid m = n).
Proof.
  intros H.
  specialize (H toy xs_alice _ _ (xs_ea x25 0) nb_signature nb_em nb_s 2 (xs_ea x26 400) xs_hi nb_s1 nb_text nb_text_em nb_text_m
    nb_run nb_announces nb_starts nb_sends nb_parsed eq_refl).
  vm_compute in H. discriminate H.
Qed.
Print Assumptions C78_refuted.

Example C78_ex : history toy xs_alice (fst nb_end) (snd nb_end) /\ announces toy (snd nb_end) nb_em 2 /\
  starts toy (xs_ea x25 0) (snd nb_end) nb_signature nb_em nb_s /\ send toy (xs_ea x26 400) nb_s 400 xs_hi = (nb_s1, [], Ok [nb_text]) /\
  (* Bob's text, sent under the key number 2 it announced *)
  carries toy nb_s nb_two nb_two_em /\ em_version nb_two_em = V3 /\ em_sender nb_two_em = em_sender nb_em /\ em_receiver nb_two_em = de_tag xs_alice /\
  legal_details xs_alice /\ 256 <= em_sender nb_em /\
  (exists m, em_message nb_two_em = MData m /\ d3_sender_keyid m = 2) /\
  snd (receive toy (xs_ea x29 0) nb_s nb_two) = Err (UnreadableMessage 400).
Proof.
  split; [exact nb_run|]. split; [exact nb_announces|]. split; [exact nb_starts|]. split; [exact nb_sends|].
  split; [apply carries_whole; vm_compute; reflexivity|]. split; [reflexivity|]. split; [reflexivity|]. split; [reflexivity|].
  split; [exact nb_legal|]. split; [vm_compute; discriminate|].
  split; [eexists; split; reflexivity|]. vm_compute. reflexivity.
Qed.
