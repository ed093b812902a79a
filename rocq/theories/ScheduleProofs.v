(* The keys of data messages follow the documented schedule. *)
From Coq Require Import Lia ZifyN ZifyNat.
From Verif Require Import Base BaseLemmas Types Crypto CryptoProofs Encoding EncodingProofs ClientProfile Messages
  KeyManager KeyManagerProofs DataV3 DataV3Proofs Ratchet DataV4 SpecCurve EdGroup SpecData3 SpecData4 DataV4Proofs
  History3Proofs History4Proofs Conv3Proofs Conv4Proofs DAKE DAKEProofs SpecTexts Texts3Proofs Texts4Proofs Protocol Session SpecSession SpecFollow SpecSchedule.
Local Open Scope N_scope.

Section WithCrypto.
Context (C : Crypto).

(** ** OTRv4: the messages of one client, by ratchet *)

Definition sched4 (a : bool) (r0 : bytes) (our their : N) (h : list event4) (z : nat -> mixed_secret) (n : nat) : Prop :=
  (forall m text, In (Sent4 m text) h -> exists k, (k <= n)%nat /\ sends a k = true /\ writes4 C r0 z k m text /\
     checked4 C r0 z k m (encode_authenticator_data4 our their m)) /\
  (forall m auth text mk, In (Took4 m auth text mk) h -> exists k, (k <= n)%nat /\ sends a k = false /\
     (d4_i m = N.of_nat k - 1 \/ d4_i m = N.of_nat k) /\ opened4 C r0 z k m text /\ checked4 C r0 z k m auth).

Lemma sched4_more a r0 our their h z n z' n' : sched4 a r0 our their h z n -> same_up_to n z z' -> (n <= n')%nat -> sched4 a r0 our their h z' n'.
Proof.
  intros [S T] U L. split.
  - intros m text I. apply S in I. destruct I as (k & K & A & W & CH). exists k. split; [lia|]. split; [assumption|].
    split; [now apply (writes4_same C r0 z _ n)|]. unfold checked4 in *. now rewrite (base4_same C r0 z _ n).
  - intros m auth text mk I. apply T in I. destruct I as (k & K & A & W & O & CH). exists k. split; [lia|]. split; [assumption|]. split; [assumption|].
    unfold opened4, checked4 in *. now rewrite (base4_same C r0 z _ n).
Qed.

Lemma run4_sched a r0 z0 n0 our their d0 h d : ratchets C a r0 [] d0 z0 n0 -> run4 C our their d0 h d ->
  exists z n, same_up_to n0 z0 z /\ (n0 <= n)%nat /\ ratchets C a r0 h d z n /\ sched4 a r0 our their h z n.
Proof.
  intros R0 R. induction R as [|h d ig text rnd m d' _ (z & n & U & L & IH & SC) E|h d m auth now d' text mk _ (z & n & U & L & IH & SC) E _
    |h d m auth now d' e _ (z & n & U & L & IH & SC) E].
  - exists z0, n0. split; [apply same_refl|]. split; [lia|]. split; [assumption|]. split; intros * [].
  - apply (sent4 _ _ _ _ _ _ _ _ _ _ _ _ _ _ IH) in E. destruct E as (z' & n' & U' & L' & E & SA & W & CH). exists z', n'.
    split; [intros k K; rewrite U' by lia; now apply U|]. split; [lia|]. split; [assumption|].
    pose proof (sched4_more _ _ _ _ _ _ _ _ _ SC U' L') as [S T]. split.
    + intros x t I. apply in_app_or in I. destruct I as [I|[I|[]]]; [now apply S|]. injection I as <- <-. exists n'. auto.
    + intros x au t mk I. apply in_app_or in I. destruct I as [I|[I|[]]]; [now apply T in I|discriminate].
  - apply (took4 _ _ _ _ _ _ _ _ _ _ _ _ mk IH) in E. destruct E as (z' & n' & U' & L' & E & k & K & SA & D & O & CH). exists z', n'.
    split; [intros j J; rewrite U' by lia; now apply U|]. split; [lia|]. split; [assumption|].
    pose proof (sched4_more _ _ _ _ _ _ _ _ _ SC U' L') as [S T]. split.
    + intros x t I. apply in_app_or in I. destruct I as [I|[I|[]]]; [now apply S|discriminate].
    + intros x au t mk' I. apply in_app_or in I. destruct I as [I|[I|[]]]; [now apply T in I|]. injection I as <- <- <- <-. exists k. auto.
  - pose proof E as E'. apply decrypt4_err in E. subst d'. exists z, n. split; [assumption|]. split; [assumption|]. split.
    + constructor; try apply IH.
      * intros k K. apply (link4_more C a h _ z z n); [apply same_refl|assumption|]. now apply IH.
      * apply (sent_more C _ _ _ _ _ _ _ _ _ IH (same_refl _ _) (le_n _)). intros x t [Q|[]]. discriminate.
      * apply (took_more C _ _ _ _ _ _ _ _ _ IH (same_refl _ _) (le_n _)). intros x au t mk [Q|[]]. discriminate.
    + destruct SC as [S T]. split.
      * intros x t I. apply in_app_or in I. destruct I as [I|[I|[]]]; [now apply S|discriminate].
      * intros x au t mk I. apply in_app_or in I. destruct I as [I|[I|[]]]; [now apply T in I|discriminate].
Qed.

(* The run may end with the message that ends the conversation, which publishes all MAC keys. *)
Definition closes4 (our their : N) (d0 : double_ratchet) (l : list event4) : Prop :=
  (exists d, run4 C our their d0 l d) \/
  (exists h d ig text rnd m d', run4 C our their d0 h d /\ l = h ++ [Sent4 m text] /\
     encrypt4 C our their (fst (dr_collect_reveals d)) ig text (snd (dr_collect_reveals d)) rnd = Ok (m, d')).
Lemma closes4_sched a r0 z0 n0 our their d0 l : ratchets C a r0 [] d0 z0 n0 -> closes4 our their d0 l ->
  exists d z n, same_up_to n0 z0 z /\ (n0 <= n)%nat /\ ratchets C a r0 l d z n /\ sched4 a r0 our their l z n.
Proof.
  intros R0 [(d & R)|(h & d & ig & text & rnd & m & d' & R & -> & E)]; [exists d; now apply run4_sched with (d0 := d0)|].
  destruct (run4_sched _ _ _ _ _ _ _ _ _ R0 R) as (z & n & U & L & IH & SC). exists d'.
  apply (collected C) in IH.
  apply (sent4_with _ _ _ _ _ _ _ _ _ _ _ _ _ _ _ IH) in E. destruct E as (z' & n' & U' & L' & E & SA & W & CH). exists z', n'.
  split; [intros k K; rewrite U' by lia; now apply U|]. split; [lia|]. split; [assumption|].
  pose proof (sched4_more _ _ _ _ _ _ _ _ _ SC U' L') as [S T]. split.
  - intros x t I. apply in_app_or in I. destruct I as [I|[I|[]]]; [now apply S|]. injection I as <- <-. exists n'. auto.
  - intros x au t mk I. apply in_app_or in I. destruct I as [I|[I|[]]]; [now apply T in I|discriminate].
Qed.

(** ** The schedule *)

Definition turn_of (s : mixed_secret) : turn :=
  mkTurn (ec_private (mx_ecdh s)) (dh3_private (mx_dh s)) (mx_public_ecdh s) (mx_public_dh s).

Lemma third_fresh k : third k = fresh_dh (S k).
Proof.
  unfold third, fresh_dh. change 3 with (N.of_nat 3). rewrite <- Nat2N.inj_mod. change 0 with (N.of_nat 0).
  destruct (Nat.eqb_spec (Nat.modulo k 3) 0) as [->|E]; [reflexivity|]. apply N.eqb_neq. lia.
Qed.
Lemma next_secret ecdh dh pe pd th b s : mixed_next C ecdh dh pe pd th b = Ok s ->
  mx_ecdh s = ecdh /\ mx_dh s = dh /\ mx_public_ecdh s = pe /\ mx_public_dh s = pd /\
  mx_brace_key s = (if th then H4 C 32 x01 [dh_secret C (turn_of s)] else H4 C 32 x02 [b]) /\
  mx_k s = H4 C 64 x03 [ecdh_secret C (turn_of s); mx_brace_key s].
Proof.
  unfold mixed_next. destruct (pt_verify C pe); cbn [of_bool bind]; [|discriminate]. destruct (dh3_verify C pd); cbn [of_bool bind]; [|discriminate].
  destruct (all_zero (pt_encode (ecdh_shared C ecdh pe))); [discriminate|].
  destruct th; [|destruct (all_zero b); [discriminate|]]; cbn [bind]; intros E; apply (f_equal (fun x => match x with Ok y => y | _ => s end)) in E;
    cbn beta iota in E; subst s; cbn [mx_ecdh mx_dh mx_public_ecdh mx_public_dh mx_brace_key mx_k];
    repeat split; unfold H4, kdf, kdf2, KDF_PREFIX; cbn [concat]; rewrite ?app_nil_r; reflexivity.
Qed.

(* what is verified before a secret is made *)
Lemma proper_keys u : pt_valid C (tu_their_ecdh u) -> pt_verify C (tu_their_ecdh u) = true -> dh3_verify C (tu_their_dh u) = true -> proper4 C u.
Proof.
  intros V P D. split; [assumption|]. unfold pt_verify in P. apply negb_true_iff in P. apply orb_false_iff in P. destruct P as [P Q].
  apply orb_false_iff in P. destruct P as [P _]. apply orb_false_iff in P. destruct P as [P _]. apply negb_false_iff in Q.
  split; [intros E; rewrite E in P; discriminate P|]. split; [now apply is_identity_eq in Q|].
  unfold dh3_verify in D. apply negb_true_iff in D. apply orb_false_iff in D. destruct D as [D E]. apply orb_false_iff in D. destruct D as [D F].
  apply N.ltb_ge in D, F. apply negb_false_iff in E. apply N.eqb_eq in E. split; [lia|assumption].
Qed.
Lemma next_verified ecdh dh pe pd th b s : mixed_next C ecdh dh pe pd th b = Ok s -> pt_verify C (mx_public_ecdh s) = true /\ dh3_verify C (mx_public_dh s) = true.
Proof.
  intros E. pose proof (next_secret _ _ _ _ _ _ _ E) as (_ & _ & -> & -> & _). unfold mixed_next in E.
  destruct (pt_verify C pe); cbn [of_bool bind] in E; [|discriminate]. destruct (dh3_verify C pd); cbn [of_bool bind] in E; [auto|discriminate].
Qed.

Lemma forall2_l {A B} (P : A -> B -> Prop) l l' x : Forall2 P l l' -> In x l -> exists y, In y l' /\ P x y.
Proof. induction 1 as [|u v l l' X _ IH]; intros []; [subst; exists v|]; [split; [now left|assumption]|]. destruct IH as (y & I & Y); [assumption|]. exists y. split; [now right|assumption]. Qed.
Lemma forall2_r {A B} (P : A -> B -> Prop) l l' y : Forall2 P l l' -> In y l' -> exists x, In x l /\ P x y.
Proof. induction 1 as [|u v l l' X _ IH]; intros []; [subst; exists u|]; [split; [now left|assumption]|]. destruct IH as (x & I & Y); [assumption|]. exists x. split; [now right|assumption]. Qed.

Section Ratchets.
Context (a : bool) (r0 : bytes) (h : list event4) (d : double_ratchet) (z : nat -> mixed_secret) (n : nat) (K : bytes).
Context (R : ratchets C a r0 h d z n).
Context (ecdh0 : ecdh_keypair) (dh0 : dh3_keypair) (pe0 : point) (pd0 : N) (Z0 : mixed_new C ecdh0 dh0 pe0 pd0 = Ok (z 0%nat)).
Context (R0 : r0 = kdf C 64 x0b K).
Let T (k : nat) : turn := turn_of (z k).

Lemma link_secret k : (k < n)%nat -> exists ecdh dh pe pd, mixed_next C ecdh dh pe pd (third k) (mx_brace_key (z k)) = Ok (z (S k)).
Proof.
  intros L. pose proof (rt_links _ _ _ _ _ _ _ R k L) as LK. unfold link4 in LK. destruct (sends a (S k)).
  - destruct LK as (e & r & X). eauto.
  - destruct LK as (m & auth & text & mk & _ & _ & _ & X). eauto.
Qed.
Lemma brace_is k : (k <= n)%nat -> mx_brace_key (z k) = brace C T k.
Proof.
  induction k as [|k IH]; intros L.
  - apply next_secret in Z0. cbn [brace fresh_dh]. apply Z0.
  - destruct (link_secret k) as (ecdh & dh & pe & pd & X); [lia|]. apply next_secret in X. destruct X as (_ & _ & _ & _ & X & _).
    rewrite X, third_fresh. cbn [brace]. rewrite IH by lia. reflexivity.
Qed.
Lemma mixed_is k : (k <= n)%nat -> mx_k (z k) = mixed C T k.
Proof.
  intros L. unfold mixed. rewrite <- (brace_is k L). destruct k as [|k].
  - apply next_secret in Z0. apply Z0.
  - destruct (link_secret k) as (ecdh & dh & pe & pd & X); [lia|]. apply next_secret in X. apply X.
Qed.
Lemma kdf2_H4 u x y : kdf2 C 64 u x y = H4 C 64 u [x; y].
Proof. unfold kdf2, H4, KDF_PREFIX. cbn [concat]. now rewrite app_nil_r. Qed.
Lemma kdf_H4 l u x : kdf C l u x = H4 C l u [x].
Proof. unfold kdf, H4, KDF_PREFIX. cbn [concat]. now rewrite app_nil_r. Qed.
Lemma root_is k : (k <= n)%nat -> root4 C r0 z k = root C T K (S k).
Proof.
  induction k as [|k IH]; intros L; cbn [root4]; rewrite mixed_is by assumption.
  - rewrite R0, kdf2_H4, kdf_H4. reflexivity.
  - rewrite IH by lia. rewrite kdf2_H4. reflexivity.
Qed.
Lemma base_is k : (k <= n)%nat -> base4 C r0 z k = chain C T K k 0.
Proof.
  intros L. unfold base4. rewrite mixed_is by assumption. cbn [chain]. rewrite <- kdf2_H4. destruct k as [|k].
  - rewrite R0, kdf_H4. reflexivity.
  - rewrite root_is by lia. reflexivity.
Qed.
Lemma chain_is k j : (k <= n)%nat -> chain4 C (base4 C r0 z k) j = chain C T K k j.
Proof. intros L. induction j as [|j IH]; cbn [chain4]; [now apply base_is|]. rewrite IH, kdf_H4. reflexivity. Qed.

Lemma sends_turn k : own_turn a k = sends a k.
Proof. unfold own_turn, sends. destruct a; [now destruct (Nat.even k)|]. rewrite <- Nat.negb_even. now destruct (Nat.even k). Qed.

Lemma head4_is s r m : encode_authenticator_data4 s r m = head4 s r m.
Proof. unfold encode_authenticator_data4, head4. destruct (d4_ignore_unreadable m); reflexivity. Qed.
Lemma protected_is k s r m text : (k <= n)%nat -> checked4 C r0 z k m (encode_authenticator_data4 s r m) ->
  d4_encrypted m = chacha_crypt C (extract_encryption_key (enc_key4 C (chain4 C (base4 C r0 z k) (N.to_nat (d4_j m))))) text ->
  protected4 C T K k s r m text.
Proof.
  intros L CH E. unfold checked4, mac_key4, enc_key4 in CH. unfold enc_key4, extract_encryption_key in E. rewrite chain_is in CH, E by assumption.
  rewrite kdf2_H4, !kdf_H4, head4_is in CH. rewrite kdf_H4 in E. split; assumption.
Qed.

Lemma follows_is our their g : Forall2 is4 g h -> sched4 a r0 our their h z n -> follows4 C T K a our their n g.
Proof.
  intros F [SS ST]. split; [|split].
  - intros k L. pose proof (rt_links _ _ _ _ _ _ _ R k L) as LK. unfold link4 in LK. rewrite sends_turn.
    destruct (sends a (S k)).
    + destruct LK as (e & r & X). apply next_secret in X. destruct X as (_ & X2 & X3 & X4 & _).
      unfold next_own, T, turn_of. cbn [tu_their_ecdh tu_their_dh tu_dh]. rewrite X2, X3, X4. split; [reflexivity|]. split; [reflexivity|].
      rewrite <- third_fresh. now intros ->.
    + destruct LK as (m & auth & text & mk & I & D & TD & X). apply next_secret in X. destruct X as (X1 & X2 & X3 & X4 & _).
      unfold next_theirs, T, turn_of. cbn [tu_their_ecdh tu_their_dh tu_dh tu_ecdh]. rewrite X1, X2, X3, X4. split; [reflexivity|]. split; [reflexivity|].
      destruct (forall2_r _ _ _ _ F I) as (x & IX & Q). destruct x as [| em t|]; cbn in Q; try contradiction; [now destruct m0|].
      destruct Q as (Q1 & Q2 & Q3). exists em, m, t. split; [assumption|]. split; [assumption|]. split; [assumption|].
      split; [reflexivity|]. split; [reflexivity|]. rewrite <- third_fresh, TD. destruct (d4_dh m); cbn; split; congruence.
  - intros m text I. destruct (forall2_l _ _ _ _ F I) as (x & IX & Q). cbn in Q. destruct m; try contradiction; destruct x; try contradiction.
    destruct Q as [-> ->]. apply SS in IX. destruct IX as (k & L & SA & (W1 & W2 & W3 & W4) & CH). exists k. eexists. split; [reflexivity|].
    split; [assumption|]. rewrite sends_turn. split; [assumption|]. split; [lia|].
    destruct (rt_own _ _ _ _ _ _ _ R k L) as [(e & OE) (r & OR)].
    split; [rewrite W2; unfold T, turn_of; cbn [tu_ecdh]; rewrite OE; reflexivity|].
    split; [|now apply protected_is].
    rewrite W3, W1. unfold T, turn_of. cbn [tu_dh]. rewrite OR. cbn [dh3_private dh3_generate dh3_public].
    replace (Nat.max 1 k) with (S (k - 1)) by lia. rewrite <- third_fresh. unfold third. replace (N.of_nat (k - 1)) with (N.of_nat k - 1) by lia. reflexivity.
  - intros em text I. destruct (forall2_l _ _ _ _ F I) as (x & IX & Q). cbn in Q. destruct x; try contradiction.
    destruct Q as (Q1 & -> & ->). apply ST in IX. destruct IX as (k & L & SA & D & O & CH). exists k. eexists. split; [eassumption|].
    split; [assumption|]. rewrite sends_turn. split; [assumption|]. split; [lia|]. apply protected_is; [assumption..|].
    unfold opened4 in O. rewrite O. symmetry. apply chacha_crypt_involutive.
Qed.

Lemma proper_is : pt_valid C pe0 -> (forall m auth text mk, In (Took4 m auth text mk) h -> pt_valid C (d4_ecdh m)) ->
  forall k, (k <= n)%nat -> proper4 C (T k).
Proof.
  intros V0 VT k. induction k as [|k IH]; intros L.
  - pose proof Z0 as X. unfold mixed_new in X. pose proof (next_verified _ _ _ _ _ _ _ X) as [A B]. pose proof (next_secret _ _ _ _ _ _ _ X) as (_ & _ & E & _).
    apply proper_keys; cbn [T turn_of tu_their_ecdh tu_their_dh]; [now rewrite E|assumption..].
  - pose proof (rt_links _ _ _ _ _ _ _ R k ltac:(lia)) as LK. unfold link4 in LK. destruct (IH ltac:(lia)) as (V & _).
    destruct (sends a (S k)).
    + destruct LK as (e & r & X). pose proof (next_verified _ _ _ _ _ _ _ X) as [A B]. pose proof (next_secret _ _ _ _ _ _ _ X) as (_ & _ & E & _).
      apply proper_keys; cbn [T turn_of tu_their_ecdh tu_their_dh]; [rewrite E; exact V|assumption..].
    + destruct LK as (m & auth & text & mk & I & _ & _ & X). pose proof (next_verified _ _ _ _ _ _ _ X) as [A B]. pose proof (next_secret _ _ _ _ _ _ _ X) as (_ & _ & E & _).
      apply proper_keys; cbn [T turn_of tu_their_ecdh tu_their_dh]; [rewrite E; exact (VT _ _ _ _ I)|assumption..].
Qed.
End Ratchets.

(* the points in the messages that were read are on the curve *)
Definition points_read (g : list did) : Prop := forall em text m, In (Reads em text) g -> em_message em = MData4 m -> pt_valid C (d4_ecdh m).
Lemma points_took g l : points_read g -> Forall2 is4 g l -> forall m auth text mk, In (Took4 m auth text mk) l -> pt_valid C (d4_ecdh m).
Proof.
  intros P F m auth text mk I. destruct (forall2_r _ _ _ _ F I) as (x & IX & Q). destruct x as [m0 t|em t|]; cbn in Q; [now destruct m0| |contradiction].
  destruct Q as (Q & _). exact (P _ _ _ IX Q).
Qed.

Lemma follows4_first e0 d0 pe pd K now shared our their g l : mixed_new C (mkEcdh e0 (pt_mul C (c_ed_g C) e0)) (mkDh3 d0 (modpow (c_dh3_g C) d0 (c_dh3_p C))) pe pd = Ok shared ->
  pt_valid C pe -> points_read g -> Forall2 is4 g l -> closes4 our their (dr_initialize C SENDER shared (kdf C 64 x0b K) now) l ->
  exists T n, T 0%nat = mkTurn e0 d0 pe pd /\ (forall k, (k <= n)%nat -> proper4 C (T k)) /\ follows4 C T K true our their n g.
Proof.
  intros X VP PR F R. unfold mixed_new in X. pose proof (next_secret _ _ _ _ _ _ _ X) as (M1 & M2 & M3 & M4 & _).
  assert (R0 : ratchets C true (kdf C 64 x0b K) [] (dr_initialize C SENDER shared (kdf C 64 x0b K) now) (fun _ => shared) 0).
  { constructor; cbn; try (intros; reflexivity || easy || lia). intros k _. split; [rewrite M1; exists e0; reflexivity|rewrite M2; exists d0; reflexivity]. }
  destruct (closes4_sched _ _ _ _ _ _ _ _ R0 R) as (d & z & n & U & _ & Q & SC). exists (fun k => turn_of (z k)), n.
  assert (Z : z 0%nat = shared) by (apply U; lia). split; [rewrite Z; unfold turn_of; rewrite M1, M2, M3, M4; reflexivity|].
  split; [refine (proper_is _ _ _ _ _ _ K Q _ _ _ _ _ VP (points_took _ _ PR F)); rewrite Z; exact X|].
  refine (follows_is _ _ _ _ _ _ K Q _ _ _ _ _ eq_refl _ _ _ F SC). rewrite Z. exact X.
Qed.
Lemma follows4_second e0 d0 pe pd K now shared er dr now' d1 our their g l : mixed_new C (mkEcdh e0 (pt_mul C (c_ed_g C) e0)) (mkDh3 d0 (modpow (c_dh3_g C) d0 (c_dh3_p C))) pe pd = Ok shared ->
  dr_rotate_sender C (dr_initialize C RECEIVER shared (kdf C 64 x0b K) now) er dr now' = Ok d1 ->
  pt_valid C pe -> points_read g -> Forall2 is4 g l -> closes4 our their d1 l ->
  exists T n, T 0%nat = mkTurn e0 d0 pe pd /\ (forall k, (k <= n)%nat -> proper4 C (T k)) /\ follows4 C T K false our their n g.
Proof.
  intros X RS VP PR F R. unfold mixed_new in X. pose proof (next_secret _ _ _ _ _ _ _ X) as (M1 & M2 & M3 & M4 & _).
  assert (R0 : ratchets C false (kdf C 64 x0b K) [] (dr_initialize C RECEIVER shared (kdf C 64 x0b K) now) (fun _ => shared) 0).
  { constructor; cbn; try (intros; reflexivity || easy || lia). intros k _. split; [rewrite M1; exists e0; reflexivity|rewrite M2; exists d0; reflexivity]. }
  apply (rotated _ _ _ _ _ _ _ _ _ _ _ R0) in RS. destruct RS as (z1 & U1 & R1).
  destruct (closes4_sched _ _ _ _ _ _ _ _ R1 R) as (d & z & n & U & _ & Q & SC). exists (fun k => turn_of (z k)), n.
  assert (Z : z 0%nat = shared) by (rewrite U, U1 by lia; reflexivity). split; [rewrite Z; unfold turn_of; rewrite M1, M2, M3, M4; reflexivity|].
  split; [refine (proper_is _ _ _ _ _ _ K Q _ _ _ _ _ VP (points_took _ _ PR F)); rewrite Z; exact X|].
  refine (follows_is _ _ _ _ _ _ K Q _ _ _ _ _ eq_refl _ _ _ F SC). rewrite Z. exact X.
Qed.

(** ** OTRv3 *)

Lemma run3_peers our their k0 P0 h k : wf3 k0 -> peer_keys P0 k0 -> run3 C our their k0 h k ->
  exists P, (forall id, id <= peer_id k0 -> P id = P0 id) /\ peer_keys P k /\ got_from P h /\ peer_id k0 <= peer_id k /\
    (forall m text, In (Sent3 m text) h -> peer_id k0 <= d3_receiver_keyid m <= peer_id k) /\
    (forall m auth text, In (Got3 m auth (Some text)) h -> d3_sender_keyid m <> 0 /\ peer_id k0 <= d3_sender_keyid m + 1 <= peer_id k) /\
    (forall id, peer_id k0 < id <= peer_id k -> exists m auth text, In (Got3 m auth (Some text)) h /\ d3_sender_keyid m + 1 = id).
Proof.
  intros W PK0 R. induction R as [|h k ig text m k' R IH E|h k m auth rnd k' text R IH E|h k m auth rnd k' e R IH E].
  - exists P0. split; [easy|]. split; [assumption|]. split; [easy|]. split; [lia|]. split; [easy|]. split; [easy|]. intros; lia.
  - destruct IH as (P & K & PK & GF & L & S & G & O). pose proof (run3_wf _ _ _ _ _ _ W R) as Wk.
    pose proof (encrypt3_step _ _ _ _ _ _ _ _ Wk E) as (_ & ST & _ & RI & _).
    assert (PI : peer_id k' = peer_id k) by (unfold peer_id; now rewrite ST).
    exists P. split; [assumption|]. split; [unfold peer_keys; rewrite ST, PI; exact PK|]. split; [|split; [lia|split; [|split]]].
    + intros x a t I. apply in_app_or in I. destruct I as [I|[I|[]]]; [eauto|discriminate].
    + intros x t I. apply in_app_or in I. rewrite PI. destruct I as [I|[I|[]]]; [eauto|]. injection I as <- <-. lia.
    + intros x a t I. apply in_app_or in I. rewrite PI. destruct I as [I|[I|[]]]; [eauto|discriminate].
    + rewrite PI. intros id I. destruct (O id I) as (x & a & t & J & Q). exists x, a, t. split; [apply in_or_app; now left|assumption].
  - destruct IH as (P & K & PK & GF & L & S & G & O). apply decrypt3_cases in E; [|discriminate].
    pose proof (accept_ids _ _ _ _ _ _ _ E) as (_ & A2 & _ & A4 & _ & A6 & _). pose proof (run3_wf _ _ _ _ _ _ W R) as Wk.
    assert (NZ : peer_id k <> 0) by apply Wk.
    assert (Q : peer_id k' = peer_id k -> P (peer_id k) = d3_dh_y m).
    { intros PI. pose proof (accept_keys _ _ _ _ _ _ _ E) as (_ & _ & _ & _ & _ & _ & _ & _ & _ & _ & _ & _ & Y & _).
      rewrite <- Y, <- A2, PI, <- (PK (peer_id k)) by (assumption || now left).
      remember (Ok text) as r eqn:ER. destruct E as [| | |mk enc x y k2 k3 k4 OW PE RK A Z LT LN E2 KA SM KR]; try discriminate.
      subst k2. apply km_acknowledge_cases in KA. destruct KA as (T & _). cbn [km_theirs] in T.
      apply km_register_cases in KR. destruct KR as (_ & _ & _ & _ & _ & [(_ & ->)|(X & _)]); [now rewrite T|].
      assert (peer_id k3 = peer_id k) by (unfold peer_id; now rewrite T). lia. }
    set (P' := fun n => if n =? peer_id k' then d3_dh_y m else P n).
    assert (KP : forall id, id <= peer_id k -> P' id = P id).
    { intros id LE. unfold P'. destruct (N.eqb_spec id (peer_id k')) as [X|]; [|reflexivity]. assert (EQ : id = peer_id k) by lia. rewrite EQ. symmetry. apply Q. lia. }
    exists P'. split; [intros id LE; rewrite KP by lia; now apply K|]. split; [|split; [|split; [lia|split; [|split]]]].
    + apply (recv_peer C P') in E; [assumption| |].
      * intros id NZ' I. rewrite (PK id NZ' I). rewrite KP by lia. reflexivity.
      * intros _. unfold P'. rewrite A2, N.eqb_refl. reflexivity.
    + intros x a t I. apply in_app_or in I. destruct I as [I|[I|[]]].
      * pose proof (G _ _ _ I). rewrite KP by lia. eapply GF. exact I.
      * injection I as <- <- <-. unfold P'. now rewrite A2, N.eqb_refl.
    + intros x t I. apply in_app_or in I. destruct I as [I|[I|[]]]; [|discriminate]. apply S in I. lia.
    + intros x a t I. apply in_app_or in I. destruct I as [I|[I|[]]]; [apply G in I; lia|]. injection I as <- <- <-. lia.
    + intros id I. destruct (N.eq_dec id (peer_id k')) as [->|NE].
      * exists m, auth, text. split; [apply in_or_app; right; now left|lia].
      * destruct (O id) as (x & a & t & J & X); [lia|]. exists x, a, t. split; [apply in_or_app; now left|assumption].
  - destruct IH as (P & K & PK & GF & L & S & G & O). apply decrypt3_cases in E; [|discriminate].
    assert (T : km_theirs k' = km_theirs k).
    { remember (Err e) as r eqn:ER. destruct E as [e' NA|mk e' AU LE|mk k2 k3 e' AU LT LN E2 KA KR|]; try discriminate; [reflexivity|apply km_register_used_mac_fields|].
      subst k2. apply km_acknowledge_cases in KA. apply KA. }
    assert (PI : peer_id k' = peer_id k) by (unfold peer_id; now rewrite T).
    exists P. split; [assumption|]. split; [unfold peer_keys; rewrite T, PI; exact PK|]. split; [|split; [lia|split; [|split]]].
    + intros x a t I. apply in_app_or in I. destruct I as [I|[I|[]]]; [eauto|discriminate].
    + intros x t I. apply in_app_or in I. rewrite PI. destruct I as [I|[I|[]]]; [eauto|discriminate].
    + intros x a t I. apply in_app_or in I. rewrite PI. destruct I as [I|[I|[]]]; [eauto|discriminate].
    + rewrite PI. intros id I. destruct (O id I) as (x & a & t & J & Q). exists x, a, t. split; [apply in_or_app; now left|assumption].
Qed.

Lemma head3_is sender receiver m : encode_authenticator_data sender receiver m = head3 sender receiver m.
Proof. unfold head3, encode_authenticator_data. now destruct (d3_ignore_unreadable m). Qed.

Lemma follows3_from x gy r0 r1 k0 our their g l k : km_new C 1 (mkDh x (modpow (c_dh_g C) x (c_dh_p C))) 1 gy r0 r1 = Ok k0 ->
  Forall2 is3 g l -> run3 C our their k0 l k ->
  exists X Y, X 1 = x /\ Y 1 = gy /\ follows3 C our their X Y g.
Proof.
  intros E F R. change (mkDh x _) with (dh_new C x) in E.
  pose proof (km_new_wf _ _ _ _ _ _ _ _ E) as W. apply km_new_state in E. destruct E as (A1 & A2 & A3 & A4 & (ea & A5) & _).
  destruct (run3_ghost C our their k0 (fun n => if n =? 1 then x else ea) l k) as (f & K & _ & _ & FS & FG & FP); [assumption| |assumption|].
  { intros id [-> | ->]; rewrite A1; [exact A3|exact A5]. }
  destruct (run3_peers our their k0 (fun _ => gy) l k) as (P & PK & _ & GF & L & PS & PG & PO); [assumption| |assumption|].
  { intros id NZ [-> | I]; rewrite A2 in *; [exact A4|lia]. }
  destruct (FP P) as (_ & FW & FR); [|assumption|].
  { intros id NZ [-> | I]; rewrite A2 in *; [|lia]. rewrite A4. symmetry. apply PK. lia. }
  assert (KN : forall id, peer_id k0 <= id <= peer_id k -> known g id).
  { intros id I. destruct (N.eq_dec id 1) as [->|NE]; [now left|right]. destruct (PO id) as (m & auth & t & J & Q); [lia|].
    destruct (forall2_r _ _ _ _ F J) as (y & IY & Y). destruct y as [m0 t0|em t0|]; cbn in Y; [now destruct m0| |contradiction].
    destruct Y as (Y & _ & _). exists em, m, t0. auto. }
  exists f, P. split; [rewrite K; [reflexivity|lia]|]. split; [apply PK; lia|]. split.
  - intros m text I. destruct (forall2_l _ _ _ _ F I) as (y & J & Y). cbn in Y. destruct m; try contradiction; destruct y; try contradiction.
    destruct Y as [-> ->]. eexists. split; [reflexivity|]. split; [apply (FS _ _ J)|]. split; [apply KN, (PS _ _ J)|].
    destruct (FW _ _ J) as (ek & mk & (NE & -> & ->) & EN & AU). split; [exact NE|]. rewrite head3_is in AU. split; [exact EN|exact AU].
  - intros em text I. destruct (forall2_l _ _ _ _ F I) as (y & J & Y). unfold is3 in Y. destruct y as [|m auth [t|]]; try contradiction.
    destruct Y as (Y & -> & ->). exists m. split; [assumption|]. split; [apply (GF _ _ _ J)|]. split.
    + apply KN. apply PG in J. lia.
    + destruct (FR _ _ _ J) as (ek & mk & (NE & -> & ->) & -> & AU). split; [exact NE|]. rewrite head3_is in AU. split; [|exact AU].
      symmetry. apply aes_crypt_involutive.
Qed.
End WithCrypto.
