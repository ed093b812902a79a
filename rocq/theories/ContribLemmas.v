(* The schedule of the keys with what is known of the peer's keys. *)
From Coq Require Import Lia.
From Verif Require Import Base BaseLemmas Types Crypto Encoding Messages SpecCurve Protocol Session SpecSession SpecFollow SpecOrigin SpecSchedule SpecContrib
  ScheduleProofs ScheduleLemmas ContribProofs.
Import SpecSession.
Local Open Scope N_scope.

Section WithCrypto.
Context (C : Crypto).

Lemma schedule3_weaken (P Q : N -> N -> Prop) d h t em ssid g : (forall b y, P b y -> Q b y) -> schedule3 C P d h t em ssid g -> schedule3 C Q d h t em ssid g.
Proof. intros I (X & Y & A & B & K & R). exists X, Y. split; [assumption|]. split; [assumption|]. split; [intros b KB; now apply I, K|assumption]. Qed.
Lemma schedule4_weaken (P Q : turn -> Prop) d h t em ssid g : (forall u, P u -> Q u) -> schedule4 C P d h t em ssid g -> schedule4 C Q d h t em ssid g.
Proof. intros I (u & T & n & A & B & K & R). exists u, T, n. split; [assumption|]. split; [now apply I|]. split; [intros k L; now apply I, K|assumption]. Qed.

(* the key that the last message announced is the peer's next key *)
Lemma announced3 (P : N -> N -> Prop) d h t em ssid gs g em' text m : schedule3 C P d h t em ssid (concat (gs ++ [g])) -> g = [Reads em' text] -> em_message em' = MData m ->
  P (d3_sender_keyid m + 1) (d3_dh_y m).
Proof.
  intros (X & Y & _ & (_ & F) & K & _) -> EM.
  assert (I : In (Reads em' text) (concat (gs ++ [[Reads em' text]]))) by (rewrite concat_app; apply in_or_app; right; cbn; now left).
  destruct (F _ _ I) as (m3 & E & D & _). assert (m3 = m) as -> by congruence. rewrite D. apply K. right. exists em', m, text. auto.
Qed.
End WithCrypto.
