(* Vocabulary for the statements about fragmentation (Properties_Fragment.v). *)
From Verif Require Import Base Types Crypto Encoding SpecWire Fragment.
Local Open Scope N_scope.

Definition otr_version (v : version) : Prop := v = V3 \/ v = V4.

(* What the types of the fields of a fragment guarantee. *)
Definition frag_typed (f : fragment) : Prop :=
  length (fr_identifier f) = 4%nat /\ fr_sender f < 2 ^ 32 /\ fr_receiver f < 2 ^ 32
  /\ fr_part f < 65536 /\ fr_total f < 65536.

(* A fragment that is acceptable by itself: 1 <= part <= total, a payload of 1 byte up to 250 KiB, and
   no identifier in version 3. *)
Definition frag_valid (f : fragment) : Prop :=
  1 <= fr_part f <= fr_total f
  /\ fr_payload f <> [] /\ N.of_nat (length (fr_payload f)) <= 256000
  /\ (fr_version f = V3 -> fr_identifier f = [x00; x00; x00; x00]).

Definition valid_b (f : fragment) : bool :=
  (1 <=? fr_part f) && (fr_part f <=? fr_total f)
  && negb (Nat.eqb (length (fr_payload f)) 0) && (N.of_nat (length (fr_payload f)) <=? 256000)
  && (negb (version_eqb (fr_version f) V3) || bytes_eqb (fr_identifier f) [x00; x00; x00; x00]).

(* What the sender's client guarantees: a supported version, legal instance tags, its own not zero. *)
Definition encodable (f : fragment) : Prop :=
  otr_version (fr_version f) /\ legal_tag (fr_sender f) /\ fr_sender f <> 0 /\ legal_tag (fr_receiver f)
  /\ 1 <= fr_part f <= fr_total f /\ fr_payload f <> [].
(* The size of everything in a fragment's text but the payload. *)
Definition header_size (v : version) : nat := match v with V3 => 36 | _ => 45 end.

(* The characters in which fragments and encoded messages are written. *)
Definition fragment_char (b : byte) : Prop :=
  65 <= b2n b <= 90 \/ 97 <= b2n b <= 122 \/ 48 <= b2n b <= 57
  \/ In b [x2b; x2f; x3d; x3f; x3a; x2e].

(* [fs] is [content] cut in pieces: numbered 1, 2, .., n, with n as the total, none of them empty, all
   with the same version, identifier and addresses. *)
Definition pieces (v : version) (id : bytes) (s r : N) (content : bytes) (fs : list fragment) : Prop :=
  concat (map fr_payload fs) = content
  /\ map fr_part fs = map N.of_nat (seq 1 (length fs))
  /\ Forall (fun f => fr_version f = v /\ fr_identifier f = id /\ fr_sender f = s /\ fr_receiver f = r
                      /\ fr_total f = N.of_nat (length fs) /\ fr_payload f <> []) fs.

(** Feeding fragments to an assembler, one by one. *)
Fixpoint run {S : Type} (step : S -> fragment -> S * asm_result) (st : S) (l : list fragment)
  : S * list asm_result :=
  match l with
  | [] => (st, [])
  | f :: r => let '(st1, o) := step st f in
              let '(st2, os) := run step st1 r in (st2, o :: os)
  end.

(* The fragment for part [k] of a message with identifier [id] in [n] parts that arrived first. *)
Definition first_arrival (id : bytes) (n k : N) (l : list fragment) : option fragment :=
  find (fun g => valid_b g && bytes_eqb (fr_identifier g) id && (fr_total g =? n) && (fr_part g =? k)) l.
Definition part_in (id : bytes) (n : N) (l : list fragment) (k : nat) : bytes :=
  match first_arrival id n (N.of_nat k) l with Some g => fr_payload g | None => [] end.
(* The message that arrived: the payloads that came first, in the order of their numbers. *)
Definition arrived (id : bytes) (n : N) (l : list fragment) : bytes :=
  concat (map (part_in id n l) (seq 1 (N.to_nat n))).
(* All parts have arrived. *)
Definition all_arrived (id : bytes) (n : N) (l : list fragment) : Prop :=
  forall k, 1 <= k <= n -> first_arrival id n k l <> None.

(* The messages in progress, and how much of them is kept. *)
Definition pending (st : unordered) : list bytes := map fst (un_map st).
Definition kept (st : unordered) (id : bytes) : N :=
  match map_get id (un_map st) with Some a => parts_size (as_parts a) | None => 0 end.

(* [id] received its most recent (valid) fragment before [id'] did. *)
Definition older (l : list fragment) (id id' : bytes) : Prop :=
  exists a g b, filter valid_b l = a ++ g :: b /\ fr_identifier g = id
    /\ ~ In id (map fr_identifier b) /\ In id' (map fr_identifier b).

(* At most [k] different identifiers occur in the list. *)
Definition few_ids (k : nat) (l : list fragment) : Prop :=
  exists ids, (length ids <= k)%nat /\ incl (map fr_identifier l) ids.

(* Everything an assembler has been through: the fragments with the answers it gave. *)
Inductive history : list (fragment * asm_result) -> unordered -> Prop :=
| history_new : history [] unordered_new
| history_step tr st f st' o :
    history tr st -> unordered_assemble st f = (st', o) -> o <> AsmPanic ->
    history (tr ++ [(f, o)]) st'.
Definition seen (tr : list (fragment * asm_result)) : list fragment := map fst tr.
(* No message with this identifier was completed. *)
Definition not_completed (id : bytes) (tr : list (fragment * asm_result)) : Prop :=
  forall g m, In (g, AsmOk m) tr -> fr_identifier g <> id.
