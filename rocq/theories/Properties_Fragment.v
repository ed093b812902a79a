(* C09-C15: fragmentation and reassembly.  Only statements, references to their proofs, and examples
   showing that the hypotheses are met. *)
From Verif Require Import Base BaseLemmas Types Crypto Encoding Base64 ClientProfile Messages SpecWire
  Fragment SpecFragment FragmentProofs AssemblerProofs FragmentLemmas.
From Coq Require Import Lia ZifyN ZifyNat.
Local Open Scope N_scope.

(* Data for the examples: the text "?OTR:AAMD....", 60 characters, cut for a transport of 46. *)
Definition ex_text : bytes :=
  [x3f; x4f; x54; x52; x3a; x41; x41; x4d; x44; x2b; x41; x41; x4d; x44; x2b] ++ repeat x42 44 ++ [x2e].
Definition ex_id : bytes := [x01; xab; x02; xcd].
Definition ex_cut (v : version) : list fragment :=
  match fragment_content (match v with V3 => 56 | _ => 59 end)%nat v 256 4294967295 ex_id ex_text with
  | Ok l => l | _ => [] end.
Definition ex_cut3 : list fragment := ex_cut V3.
Definition ex_cut4 : list fragment := ex_cut V4.
Definition ex_frag (id : bytes) (part total : N) (p : bytes) : fragment :=
  mkFragment V4 id 256 300 part total p.

(** * C09: fragments fit the transport *)

(* Every fragment's text is at most the maximum size, its header included; the fragments are numbered
   1..n, n is given as the total, and their payloads are the content cut in pieces. *)
Theorem C09_fragments_fit : forall max v s r rnd content fs,
  fragment_content max v s r rnd content = Ok fs ->
  legal_tag s -> s <> 0 -> legal_tag r -> length rnd = 4%nat ->
  let id := match v with V3 => [x00; x00; x00; x00] | _ => rnd end in
  pieces v id s r content fs /\ (2 <= length fs)%nat /\ N.of_nat (length fs) < 65536
  /\ forall f, In f fs ->
       encodable f /\ frag_typed f
       /\ exists t, encode_fragment f = Ok t /\ (length t <= max)%nat
            /\ length t = (header_size v + length (fr_payload f))%nat /\ match_fragment t = true
            /\ (Forall fragment_char content -> parse_fragment t = Ok (Some f)).
Proof. exact cut_fragments. Qed.
Print Assumptions C09_fragments_fit.

(* And this never fails for content that needs at most 65535 fragments. *)
Theorem C09_fragments_exist : forall max v s r rnd content,
  otr_version v -> (header_size v < max)%nat -> (max < length content)%nat ->
  N.of_nat (length content) <= 65535 * N.of_nat (max - header_size v) ->
  exists fs, fragment_content max v s r rnd content = Ok fs.
Proof. exact fragment_total. Qed.
Print Assumptions C09_fragments_exist.

Example C09_ex : map fr_part ex_cut3 = [1; 2; 3] /\ map fr_part ex_cut4 = [1; 2; 3; 4; 5]
  /\ map (fun f => length (fr_payload f)) ex_cut3 = [20; 20; 20]%nat
  /\ (forall f, In f ex_cut3 -> exists t, encode_fragment f = Ok t /\ (length t <= 56)%nat).
Proof.
  repeat split; try reflexivity.
  intros f [<-|[<-|[<-|[]]]]; eexists; (split; [reflexivity|cbn; lia]).
Qed.
Example C09_ex_hyp : exists fs, fragment_content 59 V4 256 4294967295 ex_id ex_text = Ok fs /\ length fs = 5%nat.
Proof. eexists; split; reflexivity. Qed.

(** * C10: version 3 fragments reassemble to the message *)

Theorem C10_in_order_reassembly : forall max s r rnd content fs,
  fragment_content max V3 s r rnd content = Ok fs -> N.of_nat max <= 256036 ->
  forall st, snd (run inorder_assemble st fs)
             = repeat (AsmErr IncompleteResult) (length fs - 1) ++ [AsmOk content].
Proof. intros max s r rnd content fs H Hm st. now rewrite (transport_v3 _ _ _ _ _ _ H Hm st). Qed.
Print Assumptions C10_in_order_reassembly.

(* Messages of the protocol consist of characters that survive the fragments' text form. *)
Theorem C10_messages_fragment_safely : forall v s r m t,
  encode_message v s r m = Ok t -> Forall fragment_char t.
Proof. exact encoded_chars. Qed.
Print Assumptions C10_messages_fragment_safely.

Example C10_ex : snd (run inorder_assemble (mkInorder 7 3 [x61]) ex_cut3)
  = [AsmErr IncompleteResult; AsmErr IncompleteResult; AsmOk ex_text].
Proof. vm_compute. reflexivity. Qed.

(** * C11: version 4 fragments reassemble in any order *)

(* [l] is everything received until just before the last missing fragment [f]: fragments of the message,
   in any order and repeated, among any other fragments.  The limits: the message is at most 100 MiB;
   between two fragments of the message at most 99 other messages are touched; at most 2^32 fragments
   in the whole history. *)
Theorem C11_any_order : forall id s r content fs tr0 st0,
  pieces V4 id s r content fs -> Forall frag_valid fs -> N.of_nat (length content) <= 104857600 ->
  history tr0 st0 -> ~ In id (pending st0) ->
  forall l f,
  (forall g, In g (l ++ [f]) -> frag_valid g -> fr_identifier g = id -> In g fs) ->
  (forall a g w b, filter valid_b (l ++ [f]) = a ++ g :: w ++ b -> fr_identifier g = id ->
     ~ In id (map fr_identifier w) -> few_ids 99 w) ->
  N.of_nat (length tr0 + length (l ++ [f])) < 4294967296 ->
  In f fs -> ~ In f l -> (forall g, In g fs -> In g (l ++ [f])) ->
  forall st os, run unordered_assemble st0 l = (st, os) ->
  (forall i g, nth_error l i = Some g -> frag_valid g -> fr_identifier g = id ->
     nth_error os i = Some (AsmErr UnexpectedFragment) \/ nth_error os i = Some (AsmErr IncompleteResult))
  /\ ~ In AsmPanic os
  /\ exists st', unordered_assemble st f = (st', AsmOk content) /\ ~ In id (pending st').
Proof.
  intros id s r content fs tr0 st0 HP HV Hz Hh Hn l f H1 H2 H3.
  exact (run_complete id s r content fs tr0 st0 HP HV Hz Hh Hn l f (conj H1 (conj H2 H3))).
Qed.
Print Assumptions C11_any_order.

Theorem C11_fragments_are_valid : forall max v s r rnd content fs,
  fragment_content max v s r rnd content = Ok fs ->
  N.of_nat max <= 256000 + N.of_nat (header_size v) -> Forall frag_valid fs.
Proof. exact cut_valid. Qed.
Print Assumptions C11_fragments_are_valid.

(* last part first, a duplicate, another message in between *)
Example C11_ex :
  match ex_cut4 with
  | [f1; f2; f3; f4; f5] =>
      snd (run unordered_assemble unordered_new
             [f5; f2; ex_frag [x09; x09; x09; x09] 1 2 [x41]; f5; f1; f4; f3])
      = [AsmErr IncompleteResult; AsmErr IncompleteResult; AsmErr IncompleteResult;
         AsmErr UnexpectedFragment; AsmErr IncompleteResult; AsmErr IncompleteResult; AsmOk ex_text]
  | _ => False
  end.
Proof. vm_compute. reflexivity. Qed.
Lemma few_ids_short k l : (length l <= k)%nat -> few_ids k l.
Proof. intros H. exists (map fr_identifier l). rewrite map_length. split; [assumption|apply incl_refl]. Qed.
Example C11_ex_hyp : exists f1 f2 f3 f4 f5, ex_cut4 = [f1; f2; f3; f4; f5]
  /\ pieces V4 ex_id 256 4294967295 ex_text ex_cut4 /\ Forall frag_valid ex_cut4
  /\ N.of_nat (length ex_text) <= 104857600 /\ history [] unordered_new /\ ~ In ex_id (pending unordered_new)
  /\ let l := [f5; f2; ex_frag [x09; x09; x09; x09] 1 2 [x41]; f5; f1; f4] in
     (forall g, In g (l ++ [f3]) -> frag_valid g -> fr_identifier g = ex_id -> In g ex_cut4)
     /\ (forall a g w b, filter valid_b (l ++ [f3]) = a ++ g :: w ++ b -> fr_identifier g = ex_id ->
           ~ In ex_id (map fr_identifier w) -> few_ids 99 w)
     /\ In f3 ex_cut4 /\ ~ In f3 l /\ (forall g, In g ex_cut4 -> In g (l ++ [f3])).
Proof.
  do 5 eexists. split; [reflexivity|].
  split; [|split; [|split; [vm_compute; discriminate|split; [constructor|split; [tauto|]]]]].
  - split; [reflexivity|]. split; [reflexivity|].
    repeat (apply Forall_cons || apply Forall_nil); repeat split; discriminate.
  - repeat (apply Forall_cons || apply Forall_nil); apply valid_b_iff; reflexivity.
  - split; [|split; [|split; [|split]]].
    + intros g Hg _ Hi. cbn in Hg.
      repeat destruct Hg as [<-|Hg]; cbn; auto 10; try contradiction. discriminate.
    + intros a g w b E _ _. apply few_ids_short.
      apply (f_equal (@length fragment)) in E. rewrite (app_length a) in E. cbn [length] in E.
      rewrite app_length in E.
      match type of E with ?x = _ => replace x with 7%nat in E by reflexivity end. lia.
    + cbn; auto.
    + cbn. intros H. repeat destruct H as [H|H]; try discriminate. contradiction.
    + cbn. intros g Hg. intuition.
Qed.

(** * C12: reassembly never mixes or truncates *)

(* In order: what is delivered is parts 1, 2, .., n of n, received one directly after the other. *)
Theorem C12_in_order_exact : forall h f st os st' m,
  run inorder_assemble inorder_new h = (st, os) -> ~ In AsmPanic os ->
  inorder_assemble st f = (st', AsmOk m) ->
  exists pre rn, filter valid_b (h ++ [f]) = pre ++ rn
    /\ map fr_part rn = map N.of_nat (seq 1 (length rn))
    /\ Forall (fun g => fr_total g = N.of_nat (length rn)) rn
    /\ rn <> [] /\ m = concat (map fr_payload rn).
Proof. exact inorder_sound. Qed.
Print Assumptions C12_in_order_exact.

(* Any order: what is delivered is, for a stretch of the history in which no message of this identifier
   was completed before, the payloads of parts 1, 2, .., n of n that came first, and all are there. *)
Theorem C12_unordered_exact : forall tr st f st' m,
  history tr st -> unordered_assemble st f = (st', AsmOk m) ->
  exists pre suf, tr = pre ++ suf
    /\ not_completed (fr_identifier f) suf
    /\ all_arrived (fr_identifier f) (fr_total f) (seen suf ++ [f])
    /\ m = arrived (fr_identifier f) (fr_total f) (seen suf ++ [f]).
Proof. exact history_sound. Qed.
Print Assumptions C12_unordered_exact.

Example C12_ex : exists tr st f st',
  history tr st /\ unordered_assemble st f = (st', AsmOk [x61; x62; x63]).
Proof.
  eexists _, _, (ex_frag ex_id 1 2 [x61; x62]), _. split.
  - apply (history_step [] unordered_new (ex_frag ex_id 2 2 [x63])); [constructor|reflexivity|discriminate].
  - reflexivity.
Qed.
Example C12_ex_in_order :
  (* a part of another message in between: nothing is delivered *)
  snd (run inorder_assemble inorder_new
         [mkFragment V3 [x00;x00;x00;x00] 256 300 1 2 [x61]; mkFragment V3 [x00;x00;x00;x00] 256 300 2 3 [x7a];
          mkFragment V3 [x00;x00;x00;x00] 256 300 2 2 [x62]])
  = [AsmErr IncompleteResult; AsmErr UnexpectedFragment; AsmErr UnexpectedFragment].
Proof. reflexivity. Qed.

(** * C13: reassembly memory is bounded *)

Theorem C13_bounded : forall tr st,
  history tr st ->
  (length (pending st) <= 100)%nat /\ NoDup (pending st)
  /\ (forall id, kept st id <= 104857600)
  /\ (forall id, In id (pending st) -> exists g o, In (g, o) tr /\ frag_valid g /\ fr_identifier g = id).
Proof. exact history_bounds. Qed.
Print Assumptions C13_bounded.

(* A message other than the one a fragment belongs to is given up only when 100 are pending and the
   fragment starts a new one, and then it is the one whose last fragment came first. *)
Theorem C13_oldest_dropped : forall tr st f st' o id,
  history tr st -> unordered_assemble st f = (st', o) -> o <> AsmPanic ->
  In id (pending st) -> ~ In id (pending st') -> id <> fr_identifier f ->
  length (pending st) = 100%nat /\ ~ In (fr_identifier f) (pending st)
  /\ forall id', In id' (pending st) -> id' <> id -> older (seen tr) id id'.
Proof. exact history_evict. Qed.
Print Assumptions C13_oldest_dropped.

(* The only crash: the 2^32-th valid fragment overflows the clock that orders the messages. *)
Theorem C13_crash_only_at_clock_overflow : forall tr st f st',
  history tr st -> unordered_assemble st f = (st', AsmPanic) ->
  N.of_nat (length (filter valid_b (seen tr))) = 4294967295.
Proof. exact history_panic. Qed.
Print Assumptions C13_crash_only_at_clock_overflow.

(* 100 messages pending; message 0 is updated again; the next new message evicts message 1 *)
Definition ex_flood : list fragment :=
  map (fun i => ex_frag (be_bytes 4 (N.of_nat i)) 1 3 [x41]) (seq 0 100)
  ++ [ex_frag (be_bytes 4 0) 2 3 [x41]; ex_frag (be_bytes 4 777) 1 3 [x41]].
Example C13_ex :
  let st := fst (run unordered_assemble unordered_new ex_flood) in
  length (pending st) = 100%nat /\ In (be_bytes 4 0) (pending st) /\ ~ In (be_bytes 4 1) (pending st)
  /\ In (be_bytes 4 777) (pending st).
Proof.
  cbv zeta. set (st := fst _). vm_compute in st. subst st.
  repeat split.
  - left. reflexivity.
  - intros H. cbn in H. repeat (destruct H as [H|H]; [discriminate|]). contradiction.
  - cbn. do 99 right. left. reflexivity.
Qed.

(** * C14: a fragment already received is never replaced *)

(* [f] was accepted; the message stays pending while [l] arrives; then any other fragment with the
   number of [f] is refused and changes no part of any message.  (By C12_unordered_exact the message is
   then delivered with the payload of [f].) *)
Theorem C14_first_wins : forall st f st1 l st2 os g,
  unordered_assemble st f = (st1, AsmErr IncompleteResult) ->
  run unordered_assemble st1 l = (st2, os) -> ~ In AsmPanic os ->
  (forall l1 l2, l = l1 ++ l2 -> In (fr_identifier f) (pending (fst (run unordered_assemble st1 l1)))) ->
  un_tick st2 < 4294967295 ->
  frag_valid g -> fr_identifier g = fr_identifier f -> fr_total g = fr_total f -> fr_part g = fr_part f ->
  exists st3, unordered_assemble st2 g = (st3, AsmErr UnexpectedFragment)
    /\ forall k, option_map as_parts (map_get k (un_map st3)) = option_map as_parts (map_get k (un_map st2)).
Proof. exact duplicate_later. Qed.
Print Assumptions C14_first_wins.

Example C14_ex :
  snd (run unordered_assemble unordered_new
         [ex_frag ex_id 2 2 [x62]; ex_frag [x09; x09; x09; x09] 1 2 [x41]; ex_frag ex_id 2 2 [x7a];
          ex_frag ex_id 1 2 [x61]])
  = [AsmErr IncompleteResult; AsmErr IncompleteResult; AsmErr UnexpectedFragment; AsmOk [x61; x62]].
Proof. reflexivity. Qed.

(** * C15: fragment headers round trip and malformed ones are rejected *)

Theorem C15_round_trip : forall f,
  encodable f -> frag_typed f -> (fr_version f = V3 -> fr_identifier f = [x00; x00; x00; x00]) ->
  Forall fragment_char (fr_payload f) ->
  exists t, encode_fragment f = Ok t /\ match_fragment t = true /\ parse_fragment t = Ok (Some f).
Proof.
  intros f H1 H2 H3 H4. exists (frag_text f).
  exact (conj (encode_ok f H1) (conj (text_is_fragment f) (parse_text f H1 H2 H3 H4))).
Qed.
Print Assumptions C15_round_trip.

(* What is accepted from the network has legal tags and numbers; the rest of the requirements is
   checked when assembling, and a fragment that fails them changes nothing. *)
Theorem C15_accepted_fields : forall t f,
  parse_fragment t = Ok (Some f) ->
  otr_version (fr_version f) /\ frag_typed f /\ legal_tag (fr_sender f) /\ legal_tag (fr_receiver f)
  /\ fr_payload f <> [] /\ Forall fragment_char (fr_payload f)
  /\ (fr_version f = V3 -> fr_identifier f = [x00; x00; x00; x00]).
Proof. exact parse_ok_fields. Qed.
Print Assumptions C15_accepted_fields.

Theorem C15_malformed_refused : forall f,
  ~ frag_valid f -> (forall st, inorder_assemble st f = (st, AsmErr InvalidData))
                    /\ (forall st, unordered_assemble st f = (st, AsmErr InvalidData)).
Proof. exact malformed_refused. Qed.
Print Assumptions C15_malformed_refused.

(* "Without crashing" fails, and exactly for this reason: a five digit number beyond 65535. *)
Theorem C15_no_crash_partial : forall t,
  parse_fragment t = Panic ->
  exists a d b, t = a ++ d ++ b /\ length d = 5%nat /\ forallb is_dec d = true /\ 65536 <= dec_num d.
Proof. exact parse_panic_number. Qed.
Print Assumptions C15_no_crash_partial.

(* "?OTR|100|200,1,65536,A," *)
Definition ex_crash : bytes :=
  [x3f; x4f; x54; x52; x7c; x31; x30; x30; x7c; x32; x30; x30; x2c; x31; x2c; x36; x35; x35; x33; x36; x2c; x41; x2c].
Theorem C15_no_crash_refuted : ~ (forall t, match_fragment t = true -> parse_fragment t <> Panic).
Proof. intros H. apply (H ex_crash); reflexivity. Qed.
Print Assumptions C15_no_crash_refuted.

(* The in-order assembler also has an overflow: after a message of 65535 parts. *)
Theorem C15_in_order_crash : forall st f st',
  inorder_assemble st f = (st', AsmPanic) ->
  io_last st = 65535 /\ fr_total f = io_total st /\ valid_b f = true.
Proof. exact inorder_panic. Qed.
Print Assumptions C15_in_order_crash.

Example C15_ex : let f := mkFragment V4 ex_id 256 4294967295 12 65535 [x41; x3d; x2e] in
  encodable f /\ frag_typed f /\ Forall fragment_char (fr_payload f) /\
  (* ?OTR|01ab02cd|00000100|ffffffff,00012,65535,A=., *)
  encode_fragment f = Ok ([x3f;x4f;x54;x52;x7c] ++ [x30;x31;x61;x62;x30;x32;x63;x64;x7c]
     ++ [x30;x30;x30;x30;x30;x31;x30;x30;x7c] ++ [x66;x66;x66;x66;x66;x66;x66;x66;x2c]
     ++ [x30;x30;x30;x31;x32;x2c] ++ [x36;x35;x35;x33;x35;x2c] ++ [x41;x3d;x2e] ++ [x2c]).
Proof.
  cbv zeta. split; [|split; [|split; [|reflexivity]]].
  - repeat split; try (right; reflexivity); try discriminate; unfold legal_tag; cbn; lia.
  - repeat split; reflexivity.
  - apply payload_chars. reflexivity.
Qed.
Example C15_ex_refused : ~ frag_valid (ex_frag ex_id 3 2 [x41]) /\ ~ frag_valid (ex_frag ex_id 0 2 [x41]).
Proof. split; intros ((H1 & H2) & _); cbn in *; lia. Qed.
