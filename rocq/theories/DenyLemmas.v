(* Deniability: what sessions publish. *)
From Verif Require Import Base BaseLemmas Types Crypto CryptoProofs Encoding Messages Fragment
  KeyManager DataV3 SpecData3 History3Proofs Data3Lemmas Ratchet DataV4 SpecCurve SpecData4 DataV4Proofs History4Proofs AKE DAKE SMP SMP4
  Protocol Session SpecWire SpecSession SessionProofs SessionInvProofs SessionSendProofs SessionLemmas
  SpecFollow FollowProofs FollowLemmas SpecDeny TextsLemmas Deny3Proofs.
From Coq Require Import Lia ZifyN ZifyNat.
Local Open Scope N_scope.

Section WithCrypto.
Context (C : Crypto).

Lemma conversation_exists d h s t : history C d h s -> status_of s t = Encrypted -> exists g, conversation_of C d h s t g.
Proof.
  intros H SE. destruct (history_followed C d h s t H SE) as (_ & ev & h1 & gs & L & F & K). exists (concat gs), ev, h1, gs. auto.
Qed.

(** ** OTRv4 *)

Lemma sent_revealed4 g l : Forall2 is4 g l -> concat (map published (sent g)) = revealed4 l.
Proof.
  induction 1 as [|x k g l E F IH]; [reflexivity|]. unfold revealed4 in *. cbn [map concat sent flat_map]. unfold sent in IH.
  destruct x as [m text|em text|em].
  - destruct m; try contradiction. destruct k; try contradiction. destruct E as [-> ->]. cbn [app map concat published]. now rewrite IH.
  - destruct k; try contradiction. exact IH.
  - destruct k; try contradiction. exact IH.
Qed.
Lemma accepted_macs our their d0 l d : run4 C our their d0 l d ->
  Forall (fun x => match x with Took4 m auth _ mk => d4_authenticator m = kdf2 C 64 USAGE_AUTHENTICATOR mk auth | _ => True end) l.
Proof.
  induction 1 as [|h d ig text rnd m d' R IH E|h d m auth now d' text mk R IH D A|h d m auth now d' e R IH D]; [constructor| | |];
    apply Forall_app; (split; [assumption|]); repeat constructor.
  destruct A as (ck & _ & _ & E & _). exact E.
Qed.
Lemma accepted_keys4 g l : Forall2 is4 g l ->
  Forall (fun x => match x with Took4 m auth _ mk => d4_authenticator m = kdf2 C 64 USAGE_AUTHENTICATOR mk auth | _ => True end) l ->
  exists macs, Forall2 (makes C) macs (accepted g) /\ concat macs = accepted_macs4 l.
Proof.
  induction 1 as [|x k g l E F IH]; intros A; [exists []; split; [constructor|reflexivity]|]. inversion A as [|k' l' AK AL]; subst.
  destruct (IH AL) as (macs & FM & CM). unfold accepted_macs4 in *. cbn [map concat accepted flat_map]. unfold accepted in FM.
  destruct x as [m text|em text|em].
  - destruct m; try contradiction. destruct k; try contradiction. exists macs. auto.
  - destruct k as [|m auth text' mk|]; try contradiction. destruct E as (EM & -> & ->). exists (mk :: macs). cbn [app concat]. rewrite CM. split; [|reflexivity].
    constructor; [|assumption]. unfold makes. rewrite EM. exact AK.
  - destruct k; try contradiction. exists macs. auto.
Qed.

Lemma deny4 d h s t g our their dr smp : conversation_of C d h s t g -> state_of s t = PEnc4 our their dr smp ->
  exists macs, Forall2 (makes C) macs (accepted g) /\
    (exists rest, concat macs = concat (map published (sent g)) ++ rest) /\
    (forall rnd v m, goodbye C rnd (state_of s t) v m -> concat macs = concat (map published (sent g)) ++ published m) /\
    (forall g1 m text g2 em1 text1 em2 text2 m1 m2, g = g1 ++ Sends (MData4 m) text :: g2 -> d4_revealed m <> [] ->
       In (Reads em1 text1) g1 -> In (Reads em2 text2) g2 -> em_message em1 = MData4 m1 -> em_message em2 = MData4 m2 -> d4_i m1 < d4_i m2).
Proof.
  intros (ev & h1 & gs & _ & _ & _ & K) ST. rewrite ST in *. destruct K as (_ & _ & l & F & H).
  pose proof H as H0. destruct H0 as (d0 & _ & R). apply accepted_macs in R. destruct (accepted_keys4 _ _ F R) as (macs & FM & CM).
  exists macs. split; [assumption|]. rewrite CM, (sent_revealed4 _ _ F). split; [|split].
  - exists (dr_reveals dr). symmetry. eapply history4_balance; eassumption.
  - intros rnd v m (_ & m4 & d' & -> & E). symmetry. cbn [published]. eapply final_balance; [exact H|]. exact E.
  - intros g1 m text g2 em1 text1 em2 text2 m1 m2 EG RV I1 I2 M1 M2. rewrite EG in F.
    apply forall2_mid in F. destruct F as (l1 & y & l2 & -> & F1 & EY & F2). destruct y; try contradiction. destruct EY as [-> ->].
    destruct (forall2_in_l _ _ _ _ F1 I1) as (y1 & J1 & Y1). destruct (forall2_in_l _ _ _ _ F2 I2) as (y2 & J2 & Y2).
    destruct y1; try contradiction. destruct y2; try contradiction. destruct Y1 as (E1 & _). destruct Y2 as (E2 & _).
    rewrite M1 in E1. rewrite M2 in E2. injection E1 as <-. injection E2 as <-.
    eapply revealed_retired; [exact H|reflexivity|exact RV|exact J1|exact J2].
Qed.

(** ** OTRv3 *)

Lemma deny3 d h s t g our their k smp g1 m text g2 : conversation_of C d h s t g -> state_of s t = PEnc3 our their k smp ->
  g = g1 ++ Sends (MData m) text :: g2 ->
  exists keys, reveals3 m keys /\ forall mk, In mk keys -> exists em, makes C mk em /\ (In (Refuses em) g1 \/ exists text', In (Reads em text') g1).
Proof.
  intros (ev & h1 & gs & _ & _ & _ & K) ST EG. rewrite ST in *. destruct K as (_ & _ & l & F & H). rewrite EG in F.
  apply forall2_mid in F. destruct F as (l1 & y & l2 & -> & F1 & EY & F2). destruct y; try contradiction. destruct EY as [-> ->].
  destruct (reveals_not_early C our their _ _ _ _ _ _ (begun3_history _ _ _ _ _ H) eq_refl) as (keys & RV & KS). exists keys. split; [assumption|].
  intros mk I. destruct (KS mk I) as (ha & m' & auth' & t' & hb & k1 & EL & _ & AU & _).
  assert (IG : In (Got3 m' auth' t') l1) by (rewrite EL; apply in_or_app; right; now left).
  destruct (forall2_in_r _ _ _ _ F1 IG) as (x & IX & X).
  assert (D : d3_authenticator m' = hmac_sha1 C mk auth') by (destruct AU as (? & ? & ? & _ & _ & _ & E & _); exact E).
  destruct x as [mx tx|em tx|em]; [destruct mx; contradiction| |]; destruct t' as [t'|]; try contradiction.
  - destruct X as (EM & -> & ->). exists em. split; [unfold makes; now rewrite EM|eauto].
  - destruct X as (EM & ->). exists em. split; [unfold makes; now rewrite EM|auto].
Qed.

Lemma deny3_end d h s t g our their k smp rnd v m em text : conversation_of C d h s t g -> state_of s t = PEnc3 our their k smp ->
  goodbye C rnd (state_of s t) v m -> In (Reads em text) g ->
  exists mk m' keys, makes C mk em /\ In (MData m') (sent g ++ [m]) /\ reveals3 m' keys /\ In mk keys.
Proof.
  intros (ev & h1 & gs & _ & _ & _ & K) ST G I. rewrite ST in *. destruct K as (_ & _ & l & F & H).
  destruct G as (_ & m3 & k' & -> & E). destruct (forall2_in_l _ _ _ _ F I) as (y & J & Y).
  destruct y as [|m0 auth [t0|]]; try contradiction. destruct Y as (EM & -> & ->).
  destruct (published_at_end C our their _ _ _ _ _ _ _ _ _ H E J) as (mk & m' & t' & keys & AU & IN & RV & IK).
  exists mk, m', keys. split; [unfold makes; now rewrite EM|]. split; [|auto].
  apply in_app_iff in IN. apply in_app_iff. destruct IN as [IN|[IN|[]]]; [left|right; injection IN as -> _; now left].
  destruct (forall2_in_r _ _ _ _ F IN) as (x & IX & X). destruct x as [mx tx|em' tx|em']; try contradiction.
  destruct mx; try contradiction. destruct X as [-> ->]. unfold sent. apply in_flat_map. eexists. split; [exact IX|]. now left.
Qed.

(** ** Sessions *)

Lemma version4 s t : conversation_version s t = Some V4 -> exists our their dr smp, state_of s t = PEnc4 our their dr smp.
Proof. unfold conversation_version. destruct (state_of s t); try discriminate. eauto. Qed.
Lemma version3 s t : conversation_version s t = Some V3 -> exists our their k smp, state_of s t = PEnc3 our their k smp.
Proof. unfold conversation_version. destruct (state_of s t); try discriminate. eauto. Qed.

Lemma deny_end d h s t g e s' out r : history C d h s -> conversation_of C d h s t g ->
  conversation_version s t = Some V4 -> end_session C e s t = (s', out, r) -> r <> Panic ->
  exists m macs, transported d e t V4 m out /\ Forall2 (makes C) macs (accepted g) /\
    concat macs = concat (map published (sent g)) ++ published m.
Proof.
  intros HI K CV H NP. apply history_inv in HI. destruct HI as [SI D].
  destruct (version4 _ _ CV) as (our & their & dr & smp & ST).
  assert (SE : status_of s t = Encrypted) by (unfold status_of; now rewrite ST).
  destruct (end_sends C e s t s' out r SI SE H NP) as (v & m & A & B & _). rewrite D in B.
  assert (EV : v = V4) by (rewrite ST in A; destruct A as [A _]; exact A). subst v.
  destruct (deny4 _ _ _ _ _ _ _ _ _ K ST) as (macs & FM & _ & FIN & _). exists m, macs. split; [assumption|]. split; [assumption|].
  eapply FIN. exact A.
Qed.
Lemma deny_expire d h s t g es timeout s' out r : history C d h s -> conversation_of C d h s t g ->
  expire C es s timeout = (s', out, r) -> r <> Panic -> idle (ev_now (es t)) timeout (state_of s t) ->
  exists m macs o pre post, transported d (es t) t V4 m o /\ out = pre ++ o ++ post /\ Forall2 (makes C) macs (accepted g) /\
    concat macs = concat (map published (sent g)) ++ published m.
Proof.
  intros HI K H NP ID. apply history_inv in HI. destruct HI as [SI D].
  apply expire_total in H as R; [|assumption]. subst r. apply expire_ok in H; [|assumption].
  destruct H as (_ & _ & outs & -> & F). pose proof ID as ID0. destruct ID0 as (our & their & dr & smp & ST & _).
  assert (IN : In t (map fst (se_instances s))).
  { unfold state_of in ST. destruct (get_inst t (se_instances s)) as [i|] eqn:G; [|discriminate ST].
    apply get_in in G. now apply (in_map fst) in G. }
  apply in_split in IN. destruct IN as (l1 & l2 & EL). rewrite EL in F. apply forall2_mid in F.
  destruct F as (o1 & o & o2 & -> & _ & [[NI _]|[_ (m & A & B)]] & _); [contradiction|]. rewrite D in B.
  destruct (deny4 _ _ _ _ _ _ _ _ _ K ST) as (macs & FM & _ & FIN & _).
  exists m, macs, o, (concat o1), (concat o2). split; [assumption|]. split; [now rewrite concat_app|]. split; [assumption|].
  eapply FIN. exact A.
Qed.
Lemma deny_only d h s t g : conversation_of C d h s t g -> conversation_version s t = Some V4 ->
  exists macs rest, Forall2 (makes C) macs (accepted g) /\ concat macs = concat (map published (sent g)) ++ rest.
Proof.
  intros K CV. destruct (version4 _ _ CV) as (our & their & dr & smp & ST).
  destruct (deny4 _ _ _ _ _ _ _ _ _ K ST) as (macs & FM & (rest & E) & _). exists macs, rest. auto.
Qed.
Lemma deny_retired d h s t g g1 m text g2 em1 text1 em2 text2 m1 m2 : conversation_of C d h s t g ->
  conversation_version s t = Some V4 -> g = g1 ++ Sends (MData4 m) text :: g2 -> d4_revealed m <> [] ->
  In (Reads em1 text1) g1 -> In (Reads em2 text2) g2 -> em_message em1 = MData4 m1 -> em_message em2 = MData4 m2 -> d4_i m1 < d4_i m2.
Proof.
  intros K CV. destruct (version4 _ _ CV) as (our & their & dr & smp & ST).
  destruct (deny4 _ _ _ _ _ _ _ _ _ K ST) as (macs & _ & _ & _ & X). apply X.
Qed.
Lemma deny_only3 d h s t g g1 m text g2 : conversation_of C d h s t g -> conversation_version s t = Some V3 ->
  g = g1 ++ Sends (MData m) text :: g2 ->
  exists keys, reveals3 m keys /\ forall mk, In mk keys -> exists em, makes C mk em /\ (In (Refuses em) g1 \/ exists text', In (Reads em text') g1).
Proof. intros K CV. destruct (version3 _ _ CV) as (our & their & k & smp & ST). now apply (deny3 d h s t g our their k smp). Qed.
Lemma deny_end3 d h s t g e s' out r : history C d h s -> conversation_of C d h s t g ->
  conversation_version s t = Some V3 -> end_session C e s t = (s', out, r) -> r <> Panic ->
  exists m, transported d e t V3 (MData m) out /\ forall em text, In (Reads em text) g ->
    exists mk m' keys, makes C mk em /\ In (MData m') (sent g ++ [MData m]) /\ reveals3 m' keys /\ In mk keys.
Proof.
  intros HI K CV H NP. apply history_inv in HI. destruct HI as [SI D].
  destruct (version3 _ _ CV) as (our & their & k & smp & ST).
  assert (SE : status_of s t = Encrypted) by (unfold status_of; now rewrite ST).
  destruct (end_sends C e s t s' out r SI SE H NP) as (v & m & A & B & _). rewrite D in B.
  pose proof A as A0. rewrite ST in A0. destruct A0 as (-> & m3 & k' & -> & _).
  exists m3. split; [assumption|]. intros em text I. eapply deny3_end; eassumption.
Qed.

End WithCrypto.
