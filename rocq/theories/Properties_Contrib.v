(* Property C91: nobody but the own key decides about a secret. *)
From Coq Require Import Lia.
From Verif Require Import Base BaseLemmas Types Crypto CryptoProofs ToyCrypto Encoding Messages Protocol Session SpecCurve ToyGroup SpecSession SessionExamples SpecFollow
  NetExamples StartExamples FollowExamples SpecDeny DenyExamples SpecOrigin OriginExamples SpecSchedule SpecContrib ScheduleProofs ScheduleLemmas ContribProofs ContribLemmas ContribExamples.
Import SpecSession.
Local Open Scope N_scope.

(** * C91 With every key of the peer that is used, different own keys give different secrets *)

(* OTRv4: in every private conversation, for the keys of the exchange and of each ratchet since. *)
Theorem C91_v4 : forall C d h s t, curve_ok C -> prime_orders C -> 0 < c_dh_g C -> history C d h s -> enabled d -> conversation_version s t = Some V4 ->
  exists h1 s1 p out h2 em gs ssid, h = h1 ++ mkEvent (OpReceive p) out (Ok (AnMessage (UMSessionStarted t))) :: h2 /\
    Forall (fun ev => ~ started_with t ev) h2 /\ history C d h1 s1 /\ carries C s1 p em /\ em_sender em = t /\ em_version em = V4 /\
    ses_ssid s t = Ok ssid /\ Forall2 (did_in C d t) h2 gs /\ schedule4 C (contributes4 C) d h1 t em ssid (concat gs).
Proof.
  intros C d h s t CO PO GP HI EN CV.
  destruct (scheduled C d h s t V4 CO GP HI EN CV) as (h1 & s1 & p & out & h2 & em & gs & ssid & A & B & D & E & F & G & I & J & S).
  exists h1, s1, p, out, h2, em, gs, ssid. repeat (split; [assumption|]).
  exact (schedule4_weaken C _ _ _ _ _ _ _ _ (fun u => proper_contributes4 C u CO PO) S).
Qed.
Print Assumptions C91_v4.

(* OTRv3: for the keys of the exchange. *)
Theorem C91_v3_partial : forall C d h s t, curve_ok C -> safe_prime C -> history C d h s -> enabled d -> conversation_version s t = Some V3 ->
  exists h1 s1 p out h2 em gs ssid, h = h1 ++ mkEvent (OpReceive p) out (Ok (AnMessage (UMSessionStarted t))) :: h2 /\
    Forall (fun ev => ~ started_with t ev) h2 /\ history C d h1 s1 /\ carries C s1 p em /\ em_sender em = t /\ em_version em = V3 /\
    ses_ssid s t = Ok ssid /\ Forall2 (did_in C d t) h2 gs /\ schedule3 C (first_key (contributes3 C)) d h1 t em ssid (concat gs).
Proof.
  intros C d h s t CO SP HI EN CV. assert (GP : 0 < c_dh_g C) by (destruct SP as (_ & _ & G); lia).
  destruct (scheduled C d h s t V3 CO GP HI EN CV) as (h1 & s1 & p & out & h2 & em & gs & ssid & A & B & D & E & F & G & I & J & S).
  exists h1, s1, p, out, h2, em, gs, ssid. repeat (split; [assumption|]).
  refine (schedule3_weaken C _ _ _ _ _ _ _ _ _ S). intros b y K X. exact (proper_contributes3 C y SP (K X)).
Qed.
Print Assumptions C91_v3_partial.

(* The full statement for OTRv3, for all keys of the peer, is false: the keys that data messages announce are not checked.
   Alice's client announces the key 1, Bob's accepts it, and what Bob's user says next is encrypted with a key that
   everybody knows. *)
Theorem C91_v3_refuted : ~ (forall C d h s t, curve_ok C -> safe_prime C -> history C d h s -> enabled d -> conversation_version s t = Some V3 ->
  exists h1 s1 p out h2 em gs ssid, h = h1 ++ mkEvent (OpReceive p) out (Ok (AnMessage (UMSessionStarted t))) :: h2 /\
    Forall (fun ev => ~ started_with t ev) h2 /\ history C d h1 s1 /\ carries C s1 p em /\ em_sender em = t /\ em_version em = V3 /\
    ses_ssid s t = Ok ssid /\ Forall2 (did_in C d t) h2 gs /\ schedule3 C (fun _ => contributes3 C) d h1 t em ssid (concat gs)).
Proof.
  intros ALL. assert (SP : safe_prime toy) by exact cb_safe.
  destruct (ALL toy xs_bob _ _ 301 toy_curve_ok SP cb_run (proj2 xs_enabled)) as (h1 & s1 & p & out & h2 & em & gs & ssid & A & _ & _ & _ & _ & _ & _ & J & S);
    [vm_compute; reflexivity|].
  destruct (cb_last _ _ _ _ _ A) as (h3 & ->). apply Forall2_app_inv_l in J. destruct J as (gs1 & gs2 & _ & J & ->).
  inversion J as [|? g ? ? D Z]. inversion Z. subst. destruct D as [D1 D2]. destruct (D2 _ _ eq_refl) as (em' & text & G & _).
  assert (EM : em_message em' = MData cb_message).
  { destruct D1 as [D1|(em1 & _ & (b & PA & MF) & D1)]; [congruence|].
    assert (em1 = em') as -> by (destruct D1 as [D1|(tx & [D1|(m & r & v & e & D1 & _)])]; congruence).
    rewrite (MF cb_whole), cb_parse in PA. injection PA as <-. reflexivity. }
  pose proof (announced3 _ _ _ _ _ _ _ _ _ _ _ _ S G EM) as K. exact (cb_known K).
Qed.
Print Assumptions C91_v3_refuted.

(* Bob's answer can be read without any key; the conversations of C82 meet the hypotheses. *)
Example C91_ex :
  aes_crypt toy (cipher_key3 toy true (write_mpi 1)) (d3_ctr cb_answer ++ repeat x00 8) (d3_encrypted cb_answer) = xs_hi /\
  curve_ok toy /\ safe_prime toy /\ prime_orders toy /\ enabled xs_bob /\
  history toy xs_bob (zb_h ++ fst dn_b) (snd dn_b) /\ conversation_version (snd dn_b) 301 = Some V4 /\
  history toy xs_bob (yb_h ++ fst dr_b) (snd dr_b) /\ conversation_version (snd dr_b) 301 = Some V3.
Proof.
  split; [exact cb_open|]. split; [exact toy_curve_ok|]. split; [exact cb_safe|]. split; [exact cb_orders|]. split; [exact (proj2 xs_enabled)|].
  split; [exact dn_run|]. split; [vm_compute; reflexivity|]. split; [exact dr_run|]. vm_compute. reflexivity.
Qed.
