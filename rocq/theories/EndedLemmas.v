(* The report that the peer has finished the conversation, under an active network. *)
From Verif Require Import Base BaseLemmas Types Crypto CryptoProofs Encoding EncodingProofs ClientProfile Messages MessagesProofs Fragment
  KeyManager KeyManagerProofs DataV3 SpecData3 DataV3Proofs History3Proofs Conv3Proofs Ratchet DataV4 SpecCurve SpecData4 DataV4Proofs
  History4Proofs Conv4Proofs AKE SpecAKE DAKE SMP SMP4
  Protocol Session SpecWire SpecSession SessionProofs SessionPartyProofs SessionInvProofs SessionSendProofs SessionRecvProofs SessionLemmas
  SpecNet NetProofs NetAKEProofs NetDAKEProofs Net3Proofs Net4Proofs NetLemmas Net4Lemmas SpecFollow FollowProofs FollowLemmas VerifyProofs
  SpecTexts Texts3Proofs Texts4Proofs TextsLemmas SpecEnded.
From Coq Require Import Lia ZifyN ZifyNat.
Local Open Scope N_scope.

Section WithCrypto.
Context (C : Crypto).

(* reading a message is a step of the keys *)
Lemma decrypts_steps e st em st' text : decrypts C e st em st' text -> steps C st [Reads em text] st'.
Proof.
  unfold decrypts, steps. destruct st as [|our their k smp|our their k smp|], (em_message em) as [| | | | |m| | | |m] eqn:EM; try easy.
  - intros (_ & k' & -> & D). split; [reflexivity|]. split; [reflexivity|].
    exists [Got3 m (encode_authenticator_data (em_sender em) (em_receiver em) m) (Some text)]. split.
    + repeat constructor. assumption.
    + eapply (r3_accept C our their k [] k); [constructor|exact D].
  - intros (_ & _ & k' & -> & D). destruct (decrypt4_authentic C _ _ _ _ _ _ D) as (mk & AM).
    split; [reflexivity|]. split; [reflexivity|].
    exists [Took4 m (encode_authenticator_data4 (em_sender em) (em_receiver em) m) text mk]. split.
    + repeat constructor. assumption.
    + eapply (r4_accept C our their k [] k); [constructor|exact D|exact AM].
Qed.

(* the report and what causes it *)
Lemma finished_reads e s p s' out c t : sinv s -> enabled (se_details s) -> receive C e s p = (s', out, Ok (UMSessionFinished t c)) ->
  exists em text st1, carries C s p em /\ em_sender em = t /\ decrypts C e (state_of s t) em st1 text /\ parse_message text = Ok (ConfidentialFinished c).
Proof.
  intros SI EN H. apply receive_arrives in H; try assumption; [|discriminate].
  remember (Ok (UMSessionFinished t c)) as r0 eqn:R0.
  destruct H as [r S X |b0 t0 out CO PA S O|b0 t0 q out CO PA S Q O|vs v out r OF CH S O X|em out r CA VH AL SO HA].
  - exfalso. destruct X as [X|(x & X)]; congruence.
  - discriminate.
  - destruct (q || _); discriminate.
  - exfalso. destruct X as [X|(x & X & _)]; congruence.
  - destruct HA as [(_ & X & _) | [(ig & _ & _ & X & _) | (st1 & text & DE & X & _)]].
    + exfalso. destruct X as [X|[(X & _)|(x & X)]]; congruence.
    + exfalso. destruct ig; congruence.
    + unfold reported in X. destruct (parse_message text) as [[c' ts|c']|x|] eqn:PM; try congruence; try contradiction.
      * exfalso. destruct (existsb _ ts); [|congruence]. destruct X as [X|[X|[X|(x & X)]]]; congruence.
      * assert (em_sender em = t /\ c' = c) as [ES ->] by (split; congruence). exists em, text, st1. rewrite <- ES at 2. auto.
Qed.

(* neither a text of the user nor a record of the verification is a farewell *)
Lemma no_farewell v text c : ~ In x00 text \/ only_smp v text -> parse_message text = Ok (ConfidentialFinished c) -> False.
Proof.
  intros [NI|(r & SR & TR & ->)] P.
  - apply parse_farewell in P. destruct P as (rs & (_ & _ & [(-> & ->)| ->]) & X); [now inversion X|]. apply NI, in_or_app. right. now left.
  - rewrite parse_record in P; [discriminate|assumption|].
    unfold smp_record in SR. apply Bool.andb_true_iff in SR. destruct SR as [SR _]. now apply N.leb_le in SR.
Qed.
(* one direction: [AG] is what the theorems about the keys say for all steps of both sides *)
Lemma ended t t' sA hA sA' gA sB hB sB' gB e p s' out c :
  (forall g stA g' stB, steps C (state_of sA t') g stA -> steps C (state_of sB t) g' stB -> genuine g g' -> genuine g' g -> read_as_written g g') ->
  sinv sB -> enabled (se_details sB) ->
  account C t' sA hA sA' gA -> account C t sB hB sB' gB -> genuine (concat gA) (concat gB) -> genuine (concat gB) (concat gA) ->
  receive C e sB' p = (s', out, Ok (UMSessionFinished t c)) ->
  exists em, says_farewell C (concat gA) sB' t p c em.
Proof.
  intros AG SI EN (RA & FA & TA) (RB & FB & TB) GA GB H.
  destruct (run_inv C _ _ _ RB SI) as [SI' DD].
  destruct (finished_reads _ _ _ _ _ _ _ SI' ltac:(now rewrite DD) H) as (em & text & st1 & CA & ES & DE & PM).
  pose proof (steps_trans C _ _ _ _ _ TB (decrypts_steps _ _ _ _ _ DE)) as TB'.
  exists em, text. split; [assumption|]. split; [assumption|]. split; [eapply decrypts_opens; eassumption|]. split; [now apply parse_farewell|].
  intros m text' IM SD.
  assert (G1 : genuine (concat gA) (concat gB ++ [Reads em text])).
  { intros em' x' I. apply in_app_or in I. destruct I as [I|[I|[]]]; [now apply (GA em' x')|]. injection I as <- <-. eauto. }
  assert (G2 : genuine (concat gB ++ [Reads em text]) (concat gA)).
  { intros em' x' I. destruct (GB _ _ I) as (m' & t0 & I' & S'). exists m', t0. split; [apply in_or_app; now left|assumption]. }
  pose proof (AG _ _ _ _ TA TB' G1 G2) as RW. destruct (RW em text) as [_ RW']; [apply in_or_app; right; now left|].
  specialize (RW' _ _ IM SD). subst text'.
  destruct (sent_list C _ _ _ _ FA) as (l & _ & _ & L3 & L4). destruct (L4 _ _ IM) as [IL|OS].
  - rewrite Forall_forall in L3. apply (no_farewell V3 text c); [left; exact (L3 _ IL)|assumption].
  - eapply no_farewell; [right; exact OS|exact PM].
Qed.

Lemma ended3 da db sa sb x hA sA gA hB sB gB : start_net3 C da db sa sb x ->
  account C (de_tag db) (x_sa2 x) hA sA gA -> account C (de_tag da) (x_sb3 x) hB sB gB ->
  genuine (concat gA) (concat gB) -> genuine (concat gB) (concat gA) ->
  (forall e p s' out c, receive C e sB p = (s', out, Ok (UMSessionFinished (de_tag da) c)) ->
     exists em, says_farewell C (concat gA) sB (de_tag da) p c em) /\
  (forall e p s' out c, receive C e sA p = (s', out, Ok (UMSessionFinished (de_tag db) c)) ->
     exists em, says_farewell C (concat gB) sA (de_tag db) p c em).
Proof.
  intros S TA TB GA GB. pose proof S as S0. destruct S0 as (_ & _ & _ & _ & _ & _ & PA & AB & _). apply preferred_allowed in PA.
  pose proof (fun g stA g' stB U V => net3_read_steps C da db sa sb x g stA g' stB S U V) as AG.
  apply net3_secured in S. destruct S as ((ka & kb & _ & _ & SEC) & _ & DA & DB). destruct SEC as [IA IB EA EB _].
  split; intros e p s' out c H.
  - eapply ended; try eassumption; [exact (fun g a g2 b U V G H => proj1 (AG g a g2 b U V G H))|left; now rewrite EB, DB].
  - eapply (ended (de_tag db) (de_tag da) (x_sb3 x) hB sB gB (x_sa2 x) hA sA gA); try eassumption; [exact (fun g a g2 b U V G H => proj2 (AG g2 b g a V U H G))|left; now rewrite EA, DA].
Qed.
Lemma ended4 da db sa sb x hA sA gA hB sB gB : start_net4 C da db sa sb x ->
  account C (de_tag db) (x_sa2 x) hA sA gA -> account C (de_tag da) (x_sb3 x) hB sB gB ->
  genuine (concat gA) (concat gB) -> genuine (concat gB) (concat gA) ->
  (forall e p s' out c, receive C e sB p = (s', out, Ok (UMSessionFinished (de_tag da) c)) ->
     exists em, says_farewell C (concat gA) sB (de_tag da) p c em) /\
  (forall e p s' out c, receive C e sA p = (s', out, Ok (UMSessionFinished (de_tag db) c)) ->
     exists em, says_farewell C (concat gB) sA (de_tag db) p c em).
Proof.
  intros S TA TB GA GB. pose proof S as S0. destruct S0 as (_ & _ & _ & _ & _ & _ & PA & AB & _). apply preferred_allowed in PA.
  pose proof (fun g stA g' stB U V => net4_read_steps C da db sa sb x g stA g' stB S U V) as AG.
  apply net4_secured in S. destruct S as ((SEC & _) & DA & DB). destruct SEC as [IA IB EA EB _].
  split; intros e p s' out c H.
  - eapply ended; try eassumption; [exact (fun g a g2 b U V G H => proj1 (AG g a g2 b U V G H))|right; now rewrite EB, DB].
  - eapply (ended (de_tag db) (de_tag da) (x_sb3 x) hB sB gB (x_sa2 x) hA sA gA); try eassumption; [exact (fun g a g2 b U V G H => proj2 (AG g2 b g a V U H G))|right; now rewrite EA, DA].
Qed.

Lemma by_peer sA tb gA sB ta p c em : says_farewell C gA sB ta p c em -> from_peer C sA tb gA sB ta p ->
  exists em m, carries C sB p em /\ ends_with C sA tb m /\ same_data m (em_message em).
Proof.
  intros (text & CA & _ & OP & _ & N) F. destruct (F em text CA OP) as [(m & t' & I & SD)|(m & EW & SD)].
  - now contradiction (N m t' I).
  - exists em, m. auto.
Qed.
End WithCrypto.
