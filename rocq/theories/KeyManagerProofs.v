(* Facts about counters, key rotation and MAC key bookkeeping. *)
From Coq Require Import Lia ZifyN ZifyNat.
From Verif Require Import Base BaseLemmas Crypto CryptoProofs Encoding EncodingProofs KeyManager.
Local Open Scope N_scope.

(** ** Counters *)

Lemma ctr_incr_none l : ctr_incr l = None -> be_val l + 1 = 256 ^ N.of_nat (length l).
Proof.
  induction l as [|b r IH]; cbn [ctr_incr]; intros H; [reflexivity|].
  destruct (ctr_incr r); [discriminate|]. specialize (IH eq_refl).
  destruct (byte_eqb b xff) eqn:E; [|discriminate]. apply byte_eqb_eq in E. subst b.
  rewrite be_val_cons. cbn [length]. rewrite Nat2N.inj_succ, N.pow_succ_r by lia.
  change (b2n xff) with 255. lia.
Qed.

Lemma be_val_zeros n : be_val (repeat x00 n) = 0.
Proof.
  apply all_zero_be_val. apply all_zero_iff. apply Forall_forall. intros x Hx.
  now apply repeat_spec in Hx.
Qed.

Lemma ctr_incr_some l l' :
  ctr_incr l = Some l' -> be_val l' = be_val l + 1 /\ length l' = length l.
Proof.
  revert l'; induction l as [|b r IH]; cbn [ctr_incr]; intros l' H; [discriminate|].
  destruct (ctr_incr r) as [r'|] eqn:E.
  - injection H as <-. destruct (IH r' eq_refl) as [V L]. rewrite !be_val_cons. cbn [length].
    rewrite L, V. lia.
  - destruct (byte_eqb b xff) eqn:Eb; [discriminate|]. injection H as <-.
    apply byte_eqb_neq in Eb. apply ctr_incr_none in E.
    assert (b2n b <> 255) by (intros X; apply Eb, b2n_inj; exact X).
    pose proof (b2n_lt b).
    rewrite !be_val_cons, be_val_zeros, repeat_length. cbn [length]. rewrite repeat_length.
    rewrite b2n_n2b_small by lia. split; [|reflexivity]. nia.
Qed.

Lemma ctr_take_ok l c :
  ctr_take l = Ok c -> be_val c = be_val l + 1 /\ length c = length l.
Proof.
  unfold ctr_take. destruct (ctr_incr l) eqn:E; [|discriminate].
  destruct (any_nonzero l0); [|discriminate]. intros H. injection H as <-. now apply ctr_incr_some.
Qed.

Lemma ctr_take_total l : be_val l + 1 < 256 ^ N.of_nat (length l) -> exists c, ctr_take l = Ok c.
Proof.
  intros H. unfold ctr_take. destruct (ctr_incr l) eqn:E.
  - apply ctr_incr_some in E. destruct E as [V _]. unfold any_nonzero.
    destruct (all_zero l0) eqn:Z; [apply all_zero_be_val in Z; lia|]. cbn. eauto.
  - apply ctr_incr_none in E. lia.
Qed.

Lemma ctr_verify_cases stored c :
  length c = length stored ->
  (be_val stored < be_val c /\ ctr_verify stored c = Ok c) \/
  (be_val c <= be_val stored /\ ctr_verify stored c = Err ProtocolViolation).
Proof.
  intros L. unfold ctr_verify. destruct (all_zero c) eqn:Z.
  - right. apply all_zero_be_val in Z. split; [lia|reflexivity].
  - unfold bytes_cmp. rewrite L, Nat.eqb_refl. rewrite bytes_cmp_val by assumption.
    destruct (N.compare_spec (be_val c) (be_val stored)); [right|right|left]; split; auto; lia.
Qed.

Lemma ctr_verify_ok stored c v :
  ctr_verify stored c = Ok v -> v = c /\ be_val stored < be_val c /\ length c = length stored.
Proof.
  unfold ctr_verify. destruct (all_zero c) eqn:Z; [discriminate|].
  unfold bytes_cmp. destruct (Nat.eqb_spec (length c) (length stored)) as [L|]; [|discriminate].
  rewrite bytes_cmp_val by assumption.
  destruct (N.compare_spec (be_val c) (be_val stored)); try discriminate.
  intros E. injection E as <-. auto.
Qed.

Lemma ctr_verify_err stored c e :
  ctr_verify stored c = Err e -> be_val c <= be_val stored.
Proof.
  unfold ctr_verify. destruct (all_zero c) eqn:Z.
  - apply all_zero_be_val in Z. lia.
  - unfold bytes_cmp. destruct (Nat.eqb_spec (length c) (length stored)) as [L|]; [|discriminate].
    rewrite bytes_cmp_val by assumption.
    destruct (N.compare_spec (be_val c) (be_val stored)); try discriminate; lia.
Qed.

Lemma ctr_initial : be_val COUNTER_INITIAL_VALUE = 0. Proof. reflexivity. Qed.

(** ** Key slots *)

Lemma even_succ_neq n : N.even (n + 1) = negb (N.even n).
Proof. rewrite N.add_1_r, N.even_succ, <- N.negb_even. reflexivity. Qed.

Lemma kr_slot_set_same r id k : kr_slot (kr_set r id k) id = k.
Proof. unfold kr_slot, kr_set. destruct (N.even id) eqn:E; cbn; reflexivity. Qed.
Lemma kr_slot_set_succ r id k : kr_slot (kr_set r (id + 1) k) id = kr_slot r id.
Proof.
  unfold kr_slot, kr_set. rewrite even_succ_neq. destruct (N.even id); cbn; reflexivity.
Qed.
Lemma kr_slot_set_pred r id k : kr_slot (kr_set r id k) (id + 1) = kr_slot r (id + 1).
Proof.
  unfold kr_slot, kr_set. rewrite even_succ_neq. destruct (N.even id); cbn; reflexivity.
Qed.
Lemma kr_ack_set r id k : kr_ack (kr_set r id k) = kr_ack r.
Proof. unfold kr_set. destruct (N.even id); reflexivity. Qed.
Lemma kr_slot_mk e o a id : kr_slot (mkKR e o a) id = if N.even id then e else o.
Proof. reflexivity. Qed.

Lemma pr_slot_set_same r id k : pr_slot (pr_set r id k) id = k.
Proof. unfold pr_slot, pr_set. destruct (N.even id) eqn:E; cbn; reflexivity. Qed.
Lemma pr_slot_set_succ r id k : pr_slot (pr_set r (id + 1) k) id = pr_slot r id.
Proof.
  unfold pr_slot, pr_set. rewrite even_succ_neq. destruct (N.even id); cbn; reflexivity.
Qed.
Lemma pr_id_set r id k : pr_id (pr_set r id k) = pr_id r.
Proof. unfold pr_set. destruct (N.even id); reflexivity. Qed.

Lemma u32_succ_ok n v : u32_succ n = Ok v -> v = n + 1 /\ n <> 4294967295.
Proof. unfold u32_succ. destruct (N.eqb_spec n 4294967295); [discriminate|]. intros E. now injection E. Qed.
Lemma u32_succ_not_err n e : u32_succ n <> Err e.
Proof. unfold u32_succ. destruct (n =? 4294967295); discriminate. Qed.
Lemma u32_succ_small n : n < 4294967295 -> u32_succ n = Ok (n + 1).
Proof. intros H. unfold u32_succ. destruct (N.eqb_spec n 4294967295); [lia|reflexivity]. Qed.

Section WithCrypto.
Context (C : Crypto).

Lemma kr_select_ok r id x :
  kr_select r id = Ok x ->
  id <> 0 /\ (id = kr_ack r \/ id = kr_ack r + 1) /\ x = kr_slot r id.
Proof.
  unfold kr_select. destruct (N.eqb_spec id 0); [discriminate|].
  destruct (N.eqb_spec (kr_ack r) id) as [E|NE].
  - intros H. injection H as <-. auto.
  - destruct (u32_succ (kr_ack r)) eqn:U; cbn [bind]; try discriminate.
    apply u32_succ_ok in U. destruct (N.eqb_spec a id); [|discriminate].
    intros H. injection H as <-. split; [assumption|]. split; [right; lia|reflexivity].
Qed.

Lemma pr_select_ok r id y :
  pr_select r id = Ok y ->
  id <> 0 /\ (id = pr_id r \/ id + 1 = pr_id r) /\ y = pr_slot r id.
Proof.
  unfold pr_select. destruct (N.eqb_spec id 0); [discriminate|].
  destruct (N.eqb_spec (pr_id r) 0); [discriminate|].
  destruct (N.eqb_spec (pr_id r - 1) id), (N.eqb_spec (pr_id r) id); cbn [orb]; try discriminate;
    intros H; injection H as <-; repeat split; auto; lia.
Qed.

Lemma kr_acknowledge_ok r id rnd r' b :
  kr_acknowledge C r id rnd = Ok (r', b) ->
  kr_ack r' = id /\
  ((b = false /\ id = kr_ack r /\ r' = r) \/
   (b = true /\ id = kr_ack r + 1 /\ rnd <> 0 /\ kr_slot r' id = kr_slot r id /\
    kr_slot r' (id + 1) = dh_new C rnd)).
Proof.
  unfold kr_acknowledge. destruct (N.eqb_spec id (kr_ack r)) as [->|NE].
  - intros H. injection H as <- <-. auto.
  - destruct (u32_succ (kr_ack r)) eqn:U; cbn [bind]; try discriminate.
    apply u32_succ_ok in U. destruct U as [-> _].
    destruct (N.eqb_spec id (kr_ack r + 1)) as [->|]; [|discriminate].
    unfold dh_generate. destruct (N.eqb_spec rnd 0); cbn [bind]; [discriminate|].
    intros H. injection H as <- <-.
    split; [apply kr_ack_set|]. right. split; [reflexivity|]. split; [reflexivity|].
    split; [assumption|]. split; [now rewrite kr_slot_set_succ|apply kr_slot_set_same].
Qed.

Lemma pr_register_ok r id key r' b :
  pr_register r id key = Ok (r', b) ->
  id <> 0 /\ key <> 0 /\ pr_id r' = id /\ pr_slot r' id = key /\
  ((b = false /\ id = pr_id r /\ r' = r) \/
   (b = true /\ id = pr_id r + 1 /\ pr_slot r' (pr_id r) = pr_slot r (pr_id r))).
Proof.
  unfold pr_register. destruct (N.eqb_spec id 0); [discriminate|].
  destruct (N.eqb_spec key 0); [discriminate|].
  destruct (N.eqb_spec (pr_id r) id) as [E|NE].
  - destruct (N.eqb_spec (pr_slot r id) key) as [E2|]; [|discriminate].
    intros H. injection H as <- <-. auto 10.
  - destruct (u32_succ (pr_id r)) eqn:U; cbn [bind]; try discriminate.
    apply u32_succ_ok in U. destruct U as [-> _].
    destruct (N.eqb_spec (pr_id r + 1) id) as [<-|]; [|discriminate].
    intros H. injection H as <- <-.
    repeat split; auto; [apply pr_id_set|apply pr_slot_set_same|].
    right. split; [reflexivity|]. split; [reflexivity|]. now rewrite pr_slot_set_succ.
Qed.

Definition km_mac_wf (k : key_manager) : Prop :=
  Nat.modulo (length (km_old_macs k)) 20 = 0%nat /\
  Forall (fun m => length m = 20%nat) (km_used_macs k).

Lemma concat_20_length (l : list bytes) :
  Forall (fun m => length m = 20%nat) l -> length (concat l) = (20 * length l)%nat.
Proof.
  induction 1 as [|x l H _ IH]; cbn [concat length]; [reflexivity|]. rewrite app_length, IH, H. lia.
Qed.

Lemma km_rotated_total k : km_mac_wf k ->
  km_rotated k = Ok (mkKM (km_ours k) (km_theirs k) COUNTER_INITIAL_VALUE COUNTER_INITIAL_VALUE []
                       (km_old_macs k ++ concat (km_used_macs k))).
Proof.
  intros [H1 H2]. unfold km_rotated. rewrite app_length, (concat_20_length _ H2).
  replace ((length (km_old_macs k) + 20 * length (km_used_macs k)) mod 20)%nat with 0%nat; [reflexivity|].
  rewrite Nat.mul_comm, Nat.mod_add by lia. now rewrite H1.
Qed.

Lemma km_rotated_ok k k' : km_rotated k = Ok k' ->
  k' = mkKM (km_ours k) (km_theirs k) COUNTER_INITIAL_VALUE COUNTER_INITIAL_VALUE []
            (km_old_macs k ++ concat (km_used_macs k)) /\
  Nat.modulo (length (km_old_macs k')) 20 = 0%nat.
Proof.
  unfold km_rotated. destruct (Nat.eqb _ 0) eqn:E; cbn [negb]; [|discriminate].
  intros H. injection H as <-. split; [reflexivity|]. cbn [km_old_macs]. now apply Nat.eqb_eq.
Qed.
End WithCrypto.
