(* OTRv4: what one client reads is what the other wrote, whatever the network does, as long as each accepts only
   messages of the other. *)
From Coq Require Import Lia ZifyN ZifyNat.
From Verif Require Import Base BaseLemmas Types Crypto CryptoProofs Encoding EncodingProofs ClientProfile Messages
  KeyManager KeyManagerProofs DataV3 DataV3Proofs Ratchet DataV4 SpecCurve EdGroup SpecData4 DataV4Proofs
  History4Proofs Conv4Proofs DAKE DAKEProofs SpecTexts.
Local Open Scope N_scope.

Section WithCrypto.
Context (C : Crypto).

(** ** The ratchets of one client, by number *)

(* z: the shared secret of every ratchet so far; r0: the key from which the first root key was derived *)
Fixpoint root4 (r0 : bytes) (z : nat -> mixed_secret) (n : nat) : bytes :=
  kdf2 C 64 USAGE_ROOT_KEY (match n with O => r0 | S k => root4 r0 z k end) (mx_k (z n)).
Definition base4 (r0 : bytes) (z : nat -> mixed_secret) (n : nat) : bytes :=
  kdf2 C 64 USAGE_CHAIN_KEY (match n with O => r0 | S k => root4 r0 z k end) (mx_k (z n)).

(* the client with [a] sends in the even ratchets, the other one in the odd ratchets *)
Definition sends (a : bool) (n : nat) : bool := if a then Nat.even n else Nat.odd n.
Lemma sends_next a n : sends a (S n) = negb (sends a n).
Proof. unfold sends. destruct a; rewrite ?Nat.odd_succ, ?Nat.even_succ, <- ?Nat.negb_even, <- ?Nat.negb_odd; now rewrite ?Bool.negb_involutive. Qed.
Lemma sends_other a n : sends (negb a) n = negb (sends a n).
Proof. unfold sends. destruct a; cbn [negb]; rewrite <- Nat.negb_even; now rewrite ?Bool.negb_involutive. Qed.

Definition third (k : nat) : bool := N.of_nat k mod 3 =? 0.
Definition link4 (a : bool) (h : list event4) (z : nat -> mixed_secret) (k : nat) : Prop :=
  if sends a (S k) then
    exists e r, mixed_next C (ecdh_of_secret C e) (if third k then dh3_generate C r else mx_dh (z k))
      (mx_public_ecdh (z k)) (mx_public_dh (z k)) (third k) (mx_brace_key (z k)) = Ok (z (S k))
  else
    exists m auth text mk, In (Took4 m auth text mk) h /\ d4_i m = N.of_nat k /\ third k = is_some (d4_dh m) /\
      mixed_next C (mx_ecdh (z k)) (mx_dh (z k)) (d4_ecdh m)
        (match d4_dh m with Some v => v | None => mx_public_dh (z k) end) (third k) (mx_brace_key (z k)) = Ok (z (S k)).
Definition own4 (s : mixed_secret) : Prop :=
  (exists e, mx_ecdh s = ecdh_of_secret C e) /\ (exists r, mx_dh s = dh3_generate C r).

Definition writes4 (r0 : bytes) (z : nat -> mixed_secret) (k : nat) (m : data4) (text : bytes) : Prop :=
  d4_i m = N.of_nat k - 1 /\ d4_ecdh m = ec_public (mx_ecdh (z k)) /\
  d4_dh m = (if d4_i m mod 3 =? 0 then Some (dh3_public (mx_dh (z k))) else None) /\
  d4_encrypted m = chacha_crypt C (extract_encryption_key (enc_key4 C (chain4 C (base4 r0 z k) (N.to_nat (d4_j m))))) text.
Definition reads4 (r0 : bytes) (z : nat -> mixed_secret) (k : nat) (m : data4) (text : bytes) : Prop :=
  d4_i m = N.of_nat k - 1 /\
  text = chacha_crypt C (extract_encryption_key (enc_key4 C (chain4 C (base4 r0 z k) (N.to_nat (d4_j m))))) (d4_encrypted m).

Definition checked4 (r0 : bytes) (z : nat -> mixed_secret) (k : nat) (m : data4) (auth : bytes) : Prop :=
  d4_authenticator m = kdf2 C 64 USAGE_AUTHENTICATOR (mac_key4 C (chain4 C (base4 r0 z k) (N.to_nat (d4_j m)))) auth.
Definition opened4 (r0 : bytes) (z : nat -> mixed_secret) (k : nat) (m : data4) (text : bytes) : Prop :=
  text = chacha_crypt C (extract_encryption_key (enc_key4 C (chain4 C (base4 r0 z k) (N.to_nat (d4_j m))))) (d4_encrypted m).

Record ratchets (a : bool) (r0 : bytes) (h : list event4) (d : double_ratchet) (z : nat -> mixed_secret) (n : nat) : Prop := mkRatchets {
  rt_i : dr_i d = N.of_nat n;
  rt_shared : dr_shared d = z n;
  rt_root : dr_root_key d = root4 r0 z n;
  rt_next : dr_next d = if sends a n then RECEIVER else SENDER;
  rt_sender : sends a n = true -> on_chain C (dr_sender d) (base4 r0 z n);
  rt_receiver : sends a n = false -> on_chain C (dr_receiver d) (base4 r0 z n);
  rt_previous : forall p, n = S p -> sends a n = true -> on_chain C (dr_receiver d) (base4 r0 z p);
  rt_links : forall k, (k < n)%nat -> link4 a h z k;
  rt_own : forall k, (k <= n)%nat -> own4 (z k);
  rt_sent : forall m text, In (Sent4 m text) h -> exists k, (k <= n)%nat /\ sends a k = true /\ writes4 r0 z k m text;
  rt_took : forall m auth text mk, In (Took4 m auth text mk) h ->
    (exists k, (k <= n)%nat /\ sends a k = false /\ reads4 r0 z k m text) \/
    (exists k, d4_i m = N.of_nat (S k) /\ sends a (S (S k)) = true) }.

(** ** Growing *)

Definition same_up_to (n : nat) (z z' : nat -> mixed_secret) : Prop := forall k, (k <= n)%nat -> z' k = z k.
Definition upd (z : nat -> mixed_secret) (n : nat) (s : mixed_secret) : nat -> mixed_secret := fun k => if Nat.eqb k n then s else z k.
Lemma upd_same z n s : same_up_to n z (upd z (S n) s).
Proof. intros k L. unfold upd. destruct (Nat.eqb_spec k (S n)); [lia|reflexivity]. Qed.
Lemma upd_new z n s : upd z n s n = s.
Proof. unfold upd. now rewrite Nat.eqb_refl. Qed.
Lemma root4_same r0 z z' n k : same_up_to n z z' -> (k <= n)%nat -> root4 r0 z' k = root4 r0 z k.
Proof.
  intros E. induction k as [|k IH]; intros L; cbn [root4]; rewrite E by assumption; [reflexivity|]. now rewrite IH by lia.
Qed.
Lemma base4_same r0 z z' n k : same_up_to n z z' -> (k <= n)%nat -> base4 r0 z' k = base4 r0 z k.
Proof.
  intros E L. unfold base4. rewrite E by assumption. destruct k; [reflexivity|]. now rewrite (root4_same r0 z z' n) by assumption || lia.
Qed.
Lemma link4_more a h h' z z' n k : same_up_to n z z' -> (k < n)%nat -> link4 a h z k -> link4 a (h ++ h') z' k.
Proof.
  intros E L. unfold link4. rewrite !E by lia. destruct (sends a (S k)); [auto|].
  intros (m & auth & text & mk & I & R). exists m, auth, text, mk. split; [apply in_or_app; now left|exact R].
Qed.
Lemma writes4_same r0 z z' n k m t : same_up_to n z z' -> (k <= n)%nat -> writes4 r0 z k m t -> writes4 r0 z' k m t.
Proof. intros E L. unfold writes4. now rewrite (base4_same r0 z z' n), E by assumption. Qed.
Lemma reads4_same r0 z z' n k m t : same_up_to n z z' -> (k <= n)%nat -> reads4 r0 z k m t -> reads4 r0 z' k m t.
Proof. intros E L. unfold reads4. now rewrite (base4_same r0 z z' n) by assumption. Qed.

Lemma sent_more a r0 h d z n z' n' h' : ratchets a r0 h d z n -> same_up_to n z z' -> (n <= n')%nat ->
  (forall m text, In (Sent4 m text) h' -> exists k, (k <= n')%nat /\ sends a k = true /\ writes4 r0 z' k m text) ->
  forall m text, In (Sent4 m text) (h ++ h') -> exists k, (k <= n')%nat /\ sends a k = true /\ writes4 r0 z' k m text.
Proof.
  intros R E L H m text I. apply in_app_or in I. destruct I as [I|I]; [|auto].
  apply (rt_sent _ _ _ _ _ _ R) in I. destruct I as (k & K & S & W). exists k. split; [lia|]. split; [assumption|].
  now apply (writes4_same r0 z z' n).
Qed.
Lemma took_more a r0 h d z n z' n' h' : ratchets a r0 h d z n -> same_up_to n z z' -> (n <= n')%nat ->
  (forall m auth text mk, In (Took4 m auth text mk) h' ->
    (exists k, (k <= n')%nat /\ sends a k = false /\ reads4 r0 z' k m text) \/
    (exists k, d4_i m = N.of_nat (S k) /\ sends a (S (S k)) = true)) ->
  forall m auth text mk, In (Took4 m auth text mk) (h ++ h') ->
    (exists k, (k <= n')%nat /\ sends a k = false /\ reads4 r0 z' k m text) \/
    (exists k, d4_i m = N.of_nat (S k) /\ sends a (S (S k)) = true).
Proof.
  intros R E L H m auth text mk I. apply in_app_or in I. destruct I as [I|I]; [|eauto].
  apply (rt_took _ _ _ _ _ _ R) in I. destruct I as [(k & K & S & W)|I]; [left|right; assumption].
  exists k. split; [lia|]. split; [assumption|]. now apply (reads4_same r0 z z' n).
Qed.
Lemma same_refl n z : same_up_to n z z.
Proof. easy. Qed.

(* the client starts a ratchet *)
Lemma rotated a r0 h d z n er dr now d' : ratchets a r0 h d z n -> dr_rotate_sender C d er dr now = Ok d' ->
  exists z', same_up_to n z z' /\ ratchets a r0 h d' z' (S n).
Proof.
  intros R E. apply rotate_sender_ok in E. destruct E as (ecdh & sh & NX & EG & X & -> & _).
  apply ecdh_generate_ok in EG. destruct EG as (e & ->).
  pose proof (rt_next _ _ _ _ _ _ R) as RN. rewrite NX in RN.
  destruct (sends a n) eqn:SA; [discriminate|]. clear RN.
  pose proof (upd_same z n sh) as U. exists (upd z (S n) sh). split; [exact U|].
  destruct R as [I SH RT _ _ RC _ LK OW SE TK].
  constructor; cbn [dr_i dr_shared dr_root_key dr_next dr_sender dr_receiver].
  - rewrite I. lia.
  - now rewrite upd_new.
  - cbn [root4]. rewrite upd_new, (root4_same r0 z _ n n U), RT by lia. reflexivity.
  - now rewrite sends_next, SA.
  - intros _. unfold on_chain, base4. cbn [ra_chain_key ra_message_id]. rewrite upd_new, (root4_same r0 z _ n n U), RT by lia. reflexivity.
  - rewrite sends_next, SA. discriminate.
  - intros p Q _. injection Q as <-. rewrite (base4_same r0 z _ n n U) by lia. auto.
  - intros k L. destruct (Nat.eq_dec k n) as [->|].
    + unfold link4. rewrite sends_next, SA. cbn [negb]. exists e, dr. rewrite upd_new, U by lia.
      rewrite SH, I in X. exact X.
    + rewrite <- (app_nil_r h). apply (link4_more a h [] z _ n); [exact U|lia|]. apply LK. lia.
  - intros k L. destruct (Nat.eq_dec k (S n)) as [->|]; [|rewrite U by lia; apply OW; lia].
    rewrite upd_new. pose proof (mixed_next_ok _ _ _ _ _ _ _ _ X) as (_ & _ & M1 & M2 & _).
    split; [rewrite M1; eauto|]. rewrite M2. destruct (_ =? 0); [eauto|]. rewrite SH. apply OW. lia.
  - intros m text Q. apply SE in Q. destruct Q as (k & K & SK & W). exists k. split; [lia|]. split; [assumption|]. now apply (writes4_same r0 z _ n).
  - intros m auth text mk Q. apply TK in Q. destruct Q as [(k & K & SK & W)|Q]; [left|right; assumption].
    exists k. split; [lia|]. split; [assumption|]. now apply (reads4_same r0 z _ n).
Qed.

Lemma collected a r0 h d z n : ratchets a r0 h d z n -> ratchets a r0 h (fst (dr_collect_reveals d)) z n.
Proof. intros [I SH RT NX SC RC PC LK OW SE TK]. constructor; cbn; assumption. Qed.

Lemma sent4_with a r0 h d z n our their ig text extra rnd m d' : ratchets a r0 h d z n ->
  encrypt4 C our their d ig text extra rnd = Ok (m, d') ->
  exists z' n', same_up_to n z z' /\ (n <= n')%nat /\ ratchets a r0 (h ++ [Sent4 m text]) d' z' n' /\
    sends a n' = true /\ writes4 r0 z' n' m text /\ checked4 r0 z' n' m (encode_authenticator_data4 our their m).
Proof.
  intros R E. apply encrypt4_ok in E.
  destruct E as (d1 & rv & RD & NX & Z & NE & -> & _ & _ & I & J & EC & DH & EN & AU & _).
  assert (R1 : exists z' n', (n <= n')%nat /\ same_up_to n z z' /\ ratchets a r0 h d1 z' n').
  { destruct RD as [_|d1 _ RS]; [exists z, n; auto using same_refl|].
    apply (rotated a r0 h _ z n) in RS; [|now apply collected]. destruct RS as (z' & U & RS). exists z', (S n). auto. }
  destruct R1 as (z' & n' & L & U & R1). clear R RD. exists z', n'. split; [exact U|]. split; [exact L|].
  pose proof (rt_next _ _ _ _ _ _ R1) as RN. rewrite NX in RN. destruct (sends a n') eqn:SA; [|discriminate]. clear RN.
  pose proof (rt_sender _ _ _ _ _ _ R1 SA) as SC. pose proof SC as CK. unfold on_chain in CK. rewrite CK, <- J in EN, AU.
  pose proof (rt_i _ _ _ _ _ _ R1) as I1. pose proof (rt_shared _ _ _ _ _ _ R1) as SH1.
  split; [|split; [reflexivity|split; [rewrite I1 in I; rewrite SH1 in EC, DH; repeat split; assumption|exact AU]]].
  constructor; cbn [dr_with_sender dr_i dr_shared dr_root_key dr_next dr_sender dr_receiver]; try apply R1.
  - intros _. now apply on_chain_step.
  - intros k K. apply (link4_more a h _ z' z' n'); [apply same_refl|assumption|]. now apply R1.
  - apply (sent_more _ _ _ _ _ _ _ _ _ R1 (same_refl _ _) (le_n _)). intros x t [Q|[]]. injection Q as <- <-.
    exists n'. split; [lia|]. split; [assumption|]. rewrite (rt_i _ _ _ _ _ _ R1) in I. rewrite (rt_shared _ _ _ _ _ _ R1) in EC, DH.
    repeat split; assumption.
  - apply (took_more _ _ _ _ _ _ _ _ _ R1 (same_refl _ _) (le_n _)). intros x au t mk [Q|[]]. discriminate.
Qed.
Lemma sent4 a r0 h d z n our their ig text rnd m d' : ratchets a r0 h d z n ->
  encrypt4 C our their d ig text [] rnd = Ok (m, d') ->
  exists z' n', same_up_to n z z' /\ (n <= n')%nat /\ ratchets a r0 (h ++ [Sent4 m text]) d' z' n' /\
    sends a n' = true /\ writes4 r0 z' n' m text /\ checked4 r0 z' n' m (encode_authenticator_data4 our their m).
Proof. apply sent4_with. Qed.

Lemma on_chain_at base r j : on_chain C r base -> ra_message_id r <= j ->
  chain4 C (ra_chain_key r) (N.to_nat (j - ra_message_id r)) = chain4 C base (N.to_nat j).
Proof. intros O L. rewrite O, chain4_add. f_equal. lia. Qed.
Lemma on_chain_after base j : on_chain C (mkRatchet (kdf C 64 USAGE_NEXT_CHAIN_KEY (chain4 C base (N.to_nat j))) (j + 1)) base.
Proof. unfold on_chain. cbn [ra_chain_key ra_message_id]. replace (N.to_nat (j + 1)) with (S (N.to_nat j)) by lia. reflexivity. Qed.

Lemma took4 a r0 h d z n m auth now d' text mk : ratchets a r0 h d z n ->
  decrypt4 C d m auth now = (d', Ok text) ->
  exists z' n', same_up_to n z z' /\ (n <= n')%nat /\ ratchets a r0 (h ++ [Took4 m auth text mk]) d' z' n' /\
    exists k, (k <= n')%nat /\ sends a k = false /\ (d4_i m = N.of_nat k - 1 \/ d4_i m = N.of_nat k) /\
      opened4 r0 z' k m text /\ checked4 r0 z' k m auth.
Proof.
  intros R E. apply decrypt4_ok in E. destruct E as (ck & A & Z & AU & _ & TX).
  pose proof R as [I SH RT NX SC RC PC LK OW SE TK].
  destruct A as [IM J CK|sh dh IM NR DH TD _ X CK].
  - exists z, n. split; [apply same_refl|]. split; [lia|]. destruct n as [|n]; [lia|].
    destruct (sends a (S n)) eqn:SA.
    + pose proof (PC n eq_refl eq_refl) as OC. rewrite (on_chain_at _ _ _ OC J) in CK.
      split; [|exists n; split; [lia|]; split; [rewrite sends_next in SA; now apply Bool.negb_true_iff in SA|]; split; [lia|];
        unfold opened4, checked4; rewrite <- CK; auto].
      constructor; cbn [dr_with_receiver dr_i dr_shared dr_root_key dr_next dr_sender dr_receiver]; try assumption.
      * now rewrite SA.
      * auto.
      * congruence.
      * intros p Q _. injection Q as <-. subst ck. apply on_chain_after.
      * intros k K. apply (link4_more a h _ z z (S n)); [apply same_refl|assumption|auto].
      * apply (sent_more _ _ _ _ _ _ _ _ _ R (same_refl _ _) (le_n _)). intros x t [Q|[]]. discriminate.
      * apply (took_more _ _ _ _ _ _ _ _ _ R (same_refl _ _) (le_n _)). intros x au t mk' [Q|[]]. injection Q as <- <- <- <-.
        destruct n as [|n].
        -- left. exists 0%nat. rewrite sends_next in SA. apply Bool.negb_true_iff in SA. split; [lia|]. split; [assumption|].
           split; [lia|]. now rewrite <- CK.
        -- right. exists n. split; [lia|assumption].
    + pose proof (RC eq_refl) as OC. rewrite (on_chain_at _ _ _ OC J) in CK.
      split; [|exists (S n); split; [lia|]; split; [assumption|]; split; [lia|]; unfold opened4, checked4; rewrite <- CK; auto].
      constructor; cbn [dr_with_receiver dr_i dr_shared dr_root_key dr_next dr_sender dr_receiver]; try assumption.
      * now rewrite SA.
      * congruence.
      * intros _. subst ck. apply on_chain_after.
      * congruence.
      * intros k K. apply (link4_more a h _ z z (S n)); [apply same_refl|assumption|auto].
      * apply (sent_more _ _ _ _ _ _ _ _ _ R (same_refl _ _) (le_n _)). intros x t [Q|[]]. discriminate.
      * apply (took_more _ _ _ _ _ _ _ _ _ R (same_refl _ _) (le_n _)). intros x au t mk' [Q|[]]. injection Q as <- <- <- <-.
        left. exists (S n). split; [lia|]. split; [assumption|]. split; [lia|]. now rewrite <- CK.
  - rewrite NR in NX. destruct (sends a n) eqn:SA; [|discriminate].
    pose proof (upd_same z n sh) as U. exists (upd z (S n) sh), (S n). split; [exact U|]. split; [lia|].
    assert (BS : base4 r0 (upd z (S n) sh) (S n) = kdf2 C 64 USAGE_CHAIN_KEY (dr_root_key d) (mx_k sh)).
    { unfold base4. now rewrite upd_new, (root4_same r0 z _ n n U), RT by lia. }
    rewrite <- BS in CK.
    split; [|exists (S n); split; [lia|]; split; [now rewrite sends_next, SA|]; split; [lia|]; unfold opened4, checked4; rewrite <- CK; auto].
    constructor; cbn [dr_i dr_shared dr_root_key dr_next dr_sender dr_receiver].
    + rewrite I. lia.
    + now rewrite upd_new.
    + cbn [root4]. rewrite upd_new, (root4_same r0 z _ n n U), RT by lia. reflexivity.
    + now rewrite sends_next, SA.
    + rewrite sends_next, SA. discriminate.
    + intros _. subst ck. apply on_chain_after.
    + rewrite sends_next, SA. discriminate.
    + intros k L. destruct (Nat.eq_dec k n) as [->|].
      * unfold link4. rewrite sends_next, SA. cbn [negb]. exists m, auth, text, mk. rewrite upd_new, U by lia.
        split; [apply in_or_app; right; now left|]. rewrite SH, I in *. subst dh. repeat split; assumption.
      * apply (link4_more a h _ z _ n); [exact U|lia|]. apply LK. lia.
    + intros k L. destruct (Nat.eq_dec k (S n)) as [->|]; [|rewrite U by lia; apply OW; lia].
      rewrite upd_new. pose proof (mixed_next_ok _ _ _ _ _ _ _ _ X) as (_ & _ & M1 & M2 & _). unfold own4. rewrite M1, M2, SH. apply OW. lia.
    + apply (sent_more _ _ _ _ _ _ _ _ _ R U (le_S _ _ (le_n _))). intros x t [Q|[]]. discriminate.
    + apply (took_more _ _ _ _ _ _ _ _ _ R U (le_S _ _ (le_n _))). intros x au t mk' [Q|[]]. injection Q as <- <- <- <-.
      left. exists (S n). split; [lia|]. split; [now rewrite sends_next, SA|]. split; [lia|]. now rewrite <- CK.
Qed.


Lemma run4_ghost a r0 z0 n0 our their d0 h d : ratchets a r0 [] d0 z0 n0 -> run4 C our their d0 h d ->
  exists z n, same_up_to n0 z0 z /\ (n0 <= n)%nat /\ ratchets a r0 h d z n.
Proof.
  intros R0 R. induction R as [|h d ig text rnd m d' _ (z & n & U & L & IH) E|h d m auth now d' text mk _ (z & n & U & L & IH) E _
    |h d m auth now d' e _ (z & n & U & L & IH) E].
  - exists z0, n0. auto using same_refl.
  - apply (sent4 _ _ _ _ _ _ _ _ _ _ _ _ _ IH) in E. destruct E as (z' & n' & U' & L' & E & _). exists z', n'.
    split; [intros k K; rewrite U' by lia; now apply U|]. split; [lia|assumption].
  - apply (took4 _ _ _ _ _ _ _ _ _ _ _ mk IH) in E. destruct E as (z' & n' & U' & L' & E & _). exists z', n'.
    split; [intros k K; rewrite U' by lia; now apply U|]. split; [lia|assumption].
  - apply decrypt4_err in E. subst d'. exists z, n. split; [assumption|]. split; [assumption|].
    constructor; try apply IH.
    + intros k K. apply (link4_more a h _ z z n); [apply same_refl|assumption|]. now apply IH.
    + apply (sent_more _ _ _ _ _ _ _ _ _ IH (same_refl _ _) (le_n _)). intros x t [Q|[]]. discriminate.
    + apply (took_more _ _ _ _ _ _ _ _ _ IH (same_refl _ _) (le_n _)). intros x au t mk [Q|[]]. discriminate.
Qed.

(** ** Two clients *)

Definition genuine4 (hs hr : list event4) : Prop :=
  forall m auth text mk, In (Took4 m auth text mk) hr -> exists m' text', In (Sent4 m' text') hs /\ same_data4 m' m.

(* the same ratchet on both sides *)
Definition mirror (s t : mixed_secret) : Prop :=
  mx_public_ecdh s = ec_public (mx_ecdh t) /\ mx_public_ecdh t = ec_public (mx_ecdh s) /\
  mx_public_dh s = dh3_public (mx_dh t) /\ mx_public_dh t = dh3_public (mx_dh s) /\
  mx_brace_key s = mx_brace_key t /\ mx_k s = mx_k t.

Lemma mirror_sym s t : mirror s t -> mirror t s.
Proof. intros (A & B & E & D & F & K). repeat split; auto. Qed.

Context (G : groups_ok4 C).

Lemma mixed_mirror x1 y1 p1 q1 x2 y2 p2 q2 th b s1 s2 :
  (exists e, x1 = ecdh_of_secret C e) -> (exists r, y1 = dh3_generate C r) ->
  (exists e, x2 = ecdh_of_secret C e) -> (exists r, y2 = dh3_generate C r) ->
  p1 = ec_public x2 -> q1 = dh3_public y2 -> p2 = ec_public x1 -> q2 = dh3_public y1 ->
  mixed_next C x1 y1 p1 q1 th b = Ok s1 -> mixed_next C x2 y2 p2 q2 th b = Ok s2 -> mirror s1 s2.
Proof.
  intros (e1 & ->) (r1 & ->) (e2 & ->) (r2 & ->) -> -> -> -> E1 E2.
  apply mixed_next_ok in E1. destruct E1 as (_ & _ & A1 & A2 & A3 & A4 & _ & _ & A5 & A6).
  apply mixed_next_ok in E2. destruct E2 as (_ & _ & B1 & B2 & B3 & B4 & _ & _ & B5 & B6).
  assert (BB : mx_brace_key s1 = mx_brace_key s2).
  { rewrite A5, B5. destruct th; [|reflexivity]. now rewrite (dh3_agree C G). }
  repeat split; try congruence. rewrite A6, B6, BB. now rewrite (shared_agree C G).
Qed.

(* the client with [a] started ratchet k+1, and the other one followed *)
Lemma mirror_step a r0 hp p zp np hq q zq nq k : ratchets a r0 hp p zp np -> ratchets (negb a) r0 hq q zq nq -> genuine4 hp hq ->
  (k < np)%nat -> (k < nq)%nat -> sends a (S k) = true -> mirror (zp k) (zq k) -> mirror (zp (S k)) (zq (S k)).
Proof.
  intros RP RQ GE LP LQ SA (M1 & M2 & M3 & M4 & M5 & M6).
  pose proof (rt_links _ _ _ _ _ _ RP k LP) as LKP. unfold link4 in LKP. rewrite SA in LKP. destruct LKP as (e & r & XP).
  pose proof (rt_links _ _ _ _ _ _ RQ k LQ) as LKQ. unfold link4 in LKQ. rewrite sends_other, SA in LKQ. cbn [negb] in LKQ.
  destruct LKQ as (m & auth & text & mk & I & IM & TD & XQ).
  destruct (GE _ _ _ _ I) as (m' & text' & I' & D1 & D2 & D3 & D4 & D5).
  destruct (rt_sent _ _ _ _ _ _ RP _ _ I') as (j & LJ & SJ & W1 & W2 & W3 & _).
  assert (j = S k) as ->.
  { rewrite D1, IM in W1. destruct j as [|j]; [|lia]. assert (k = O) as -> by lia. rewrite sends_next, SJ in SA. discriminate. }
  pose proof (mixed_next_ok _ _ _ _ _ _ _ _ XP) as (_ & _ & A1 & A2 & _).
  rewrite A1, D3 in W2. rewrite A2, D4, D1, IM in W3. fold (third k) in W3.
  pose proof (rt_own _ _ _ _ _ _ RP k ltac:(lia)) as [O1 O2]. pose proof (rt_own _ _ _ _ _ _ RQ k ltac:(lia)) as [O3 O4].
  rewrite M5 in XP. refine (mixed_mirror _ _ _ _ _ _ _ _ _ _ _ _ _ _ _ _ _ _ _ _ XP XQ); try eassumption; eauto.
  - destruct (third k); eauto.
  - rewrite W3. destruct (third k); [reflexivity|assumption].
Qed.

Lemma mirrored r0 ha A za na hb B zb nb : ratchets true r0 ha A za na -> ratchets false r0 hb B zb nb -> genuine4 ha hb -> genuine4 hb ha ->
  mirror (za 0%nat) (zb 0%nat) -> forall k, (k <= na)%nat -> (k <= nb)%nat -> mirror (za k) (zb k).
Proof.
  intros RA RB GA GB M0. induction k as [|k IH]; intros LA LB; [assumption|].
  specialize (IH ltac:(lia) ltac:(lia)). destruct (sends true (S k)) eqn:S.
  - eapply (mirror_step true); eassumption.
  - apply mirror_sym. apply mirror_sym in IH. eapply (mirror_step false); try eassumption.
    change false with (negb true). now rewrite sends_other, S.
Qed.

Lemma bases_agree r0 za zb n : (forall k, (k <= n)%nat -> mirror (za k) (zb k)) -> base4 r0 za n = base4 r0 zb n.
Proof.
  intros M. assert (K : forall k, (k <= n)%nat -> mx_k (za k) = mx_k (zb k)) by (intros k L; now apply M).
  assert (RT : forall k, (k <= n)%nat -> root4 r0 za k = root4 r0 zb k).
  { induction k as [|k IH]; intros L; cbn [root4]; rewrite K by assumption; [reflexivity|]. now rewrite IH by lia. }
  unfold base4. rewrite K by lia. destruct n; [reflexivity|]. now rewrite RT by lia.
Qed.

Lemma read_written a r0 hp p zp np hq q zq nq m auth text mk m' text' : ratchets a r0 hp p zp np -> ratchets (negb a) r0 hq q zq nq ->
  (forall k, (k <= np)%nat -> (k <= nq)%nat -> mirror (zp k) (zq k)) ->
  In (Took4 m auth text mk) hq -> In (Sent4 m' text') hp -> same_data4 m' m -> text = text'.
Proof.
  intros RP RQ M I I' (D1 & D2 & D3 & D4 & D5).
  destruct (rt_sent _ _ _ _ _ _ RP _ _ I') as (j & LJ & SJ & W1 & _ & _ & W4).
  destruct (rt_took _ _ _ _ _ _ RQ _ _ _ _ I) as [(k & LK & SK & R1 & R2)|(k & R1 & R2)].
  - rewrite sends_other in SK. apply Bool.negb_false_iff in SK.
    assert (j = k) as ->.
    { assert (N.of_nat j - 1 = N.of_nat k - 1) by congruence. destruct (Nat.eq_dec j k); [assumption|exfalso].
      assert ((j = 0 /\ k = 1) \/ (j = 1 /\ k = 0))%nat as [[-> ->]|[-> ->]] by lia; [rewrite sends_next, SJ in SK|rewrite sends_next, SK in SJ]; discriminate. }
    rewrite R2, <- D5, W4, D2, (bases_agree r0 zp zq k); [apply chacha_crypt_involutive|]. intros i L. apply M; lia.
  - rewrite sends_other in R2. assert (j = S (S k)) as -> by (rewrite <- D1, W1 in R1; lia). rewrite SJ in R2. discriminate.
Qed.

Lemma start4_ratchets s0 : start4 C s0 -> exists r0 za zb,
  ratchets true r0 [] (cw_a s0) za 0 /\ ratchets false r0 [] (cw_b s0) zb 1 /\ mirror (za 0%nat) (zb 0%nat).
Proof.
  intros (ea & da & eb & db & root & sha & shb & na & nb & nb' & er & dr & XA & XB & -> & EB & _). unfold mixed_new in XA, XB.
  assert (RB : ratchets false root [] (dr_initialize C RECEIVER shb root nb) (fun _ => shb) 0).
  { pose proof (mixed_next_ok _ _ _ _ _ _ _ _ XB) as (_ & _ & M1 & M2 & _).
    constructor; cbn; try (intros; reflexivity || easy || lia). intros k _. split; [rewrite M1; eauto|rewrite M2; eauto]. }
  apply (rotated _ _ _ _ _ _ _ _ _ _ RB) in EB. destruct EB as (zb & U & EB).
  exists root, (fun _ => sha), zb. split; [|split; [assumption|]].
  - pose proof (mixed_next_ok _ _ _ _ _ _ _ _ XA) as (_ & _ & M1 & M2 & _).
    constructor; cbn; try (intros; reflexivity || easy || lia). intros k _. split; [rewrite M1; eauto|rewrite M2; eauto].
  - rewrite U by lia. refine (mixed_mirror _ _ _ _ _ _ _ _ _ _ _ _ _ _ _ _ _ _ _ _ XA XB); eauto.
Qed.

Lemma texts4_agree ta tb s0 hA A hB B : start4 C s0 ->
  run4 C ta tb (cw_a s0) hA A -> run4 C tb ta (cw_b s0) hB B -> genuine4 hA hB -> genuine4 hB hA ->
  (forall m auth text mk m' text', In (Took4 m auth text mk) hB -> In (Sent4 m' text') hA -> same_data4 m' m -> text = text') /\
  (forall m auth text mk m' text', In (Took4 m auth text mk) hA -> In (Sent4 m' text') hB -> same_data4 m' m -> text = text').
Proof.
  intros S0 RA RB GA GB. destruct (start4_ratchets _ S0) as (r0 & za & zb & QA & QB & M0).
  apply (run4_ghost _ _ _ _ _ _ _ _ _ QA) in RA. destruct RA as (za' & na & UA & LA & RA).
  apply (run4_ghost _ _ _ _ _ _ _ _ _ QB) in RB. destruct RB as (zb' & nb & UB & LB & RB).
  rewrite <- (UA 0%nat), <- (UB 0%nat) in M0 by lia.
  pose proof (mirrored _ _ _ _ _ _ _ _ _ RA RB GA GB M0) as M.
  split; intros m auth text mk m' text' I I' D.
  - exact (read_written true _ _ _ _ _ _ _ _ _ _ _ _ _ _ _ RA RB M I I' D).
  - refine (read_written false _ _ _ _ _ _ _ _ _ _ _ _ _ _ _ RB RA _ I I' D). intros k L1 L2. apply mirror_sym. now apply M.
Qed.

End WithCrypto.
