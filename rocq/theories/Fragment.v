(* src/fragment.rs *)
From Verif Require Import Base Types Crypto Encoding.
Local Open Scope N_scope.

(* src/fragment.rs:14-16 "?OTR,", "?OTR|", "," *)
Definition OTR_FRAGMENT_V2_PREFIX : bytes := [x3f; x4f; x54; x52; x2c].
Definition OTR_FRAGMENT_V3_PREFIX : bytes := [x3f; x4f; x54; x52; x7c].
Definition OTR_FRAGMENT_SUFFIX : bytes := [x2c].
Definition BAR : byte := x7c.
Definition COMMA : byte := x2c.

(* src/fragment.rs:202-210 `struct Fragment`.  The identifier is its four bytes. *)
Record fragment : Type := mkFragment {
  fr_version : version; fr_identifier : bytes; fr_sender : N; fr_receiver : N;
  fr_part : N; fr_total : N; fr_payload : bytes }.

(* src/fragment.rs:435-443 *)
Inductive frag_error : Type := InvalidData | IncompleteResult | UnexpectedFragment.

(* Outcome of `assemble`: Result<Vec<u8>, FragmentError> or a panic. *)
Inductive asm_result : Type := AsmOk (m : bytes) | AsmErr (e : frag_error) | AsmPanic.

(* src/fragment.rs:49-52 *)
Definition match_fragment (content : bytes) : bool :=
  (starts_with OTR_FRAGMENT_V2_PREFIX content || starts_with OTR_FRAGMENT_V3_PREFIX content)
  && ends_with OTR_FRAGMENT_SUFFIX content.

(** ** The patterns of src/fragment.rs:30-45.

    Each field of the patterns is a bounded run of characters of a class followed by a delimiter that
    is not in the class, so the run is forced. *)

Fixpoint span (p : byte -> bool) (l : bytes) : bytes * bytes :=
  match l with
  | b :: r => if p b then let '(d, r') := span p r in (b :: d, r') else ([], l)
  | [] => ([], [])
  end.
Definition is_hex (b : byte) : bool :=
  ((48 <=? b2n b) && (b2n b <=? 57)) || ((65 <=? b2n b) && (b2n b <=? 70))
  || ((97 <=? b2n b) && (b2n b <=? 102)).
(* ASCII digits only; the code's \d also accepts other Unicode decimal digits (see DESIGN.md) *)
Definition is_dec (b : byte) : bool := (48 <=? b2n b) && (b2n b <=? 57).
(* [A-Za-z0-9+/=?:.] *)
Definition is_payload (b : byte) : bool :=
  ((65 <=? b2n b) && (b2n b <=? 90)) || ((97 <=? b2n b) && (b2n b <=? 122))
  || ((48 <=? b2n b) && (b2n b <=? 57)) || (b2n b =? 43) || (b2n b =? 47) || (b2n b =? 61)
  || (b2n b =? 63) || (b2n b =? 58) || (b2n b =? 46).

(* a run of lo..hi characters of the class, then the delimiter; hi = None is "no upper bound" *)
Definition match_field (p : byte -> bool) (lo : nat) (hi : option nat) (delim : byte) (l : bytes)
  : option (bytes * bytes) :=
  let '(d, r) := span p l in
  if Nat.leb lo (length d) && match hi with Some h => Nat.leb (length d) h | None => true end then
    match r with
    | b :: r' => if byte_eqb b delim then Some (d, r') else None
    | [] => None
    end
  else None.

(* the captured groups: identifier digits (empty for version 3), sender, receiver, part, total, payload *)
Record captures : Type := mkCaptures {
  ca_id : bytes; ca_sender : bytes; ca_receiver : bytes; ca_part : bytes; ca_total : bytes;
  ca_payload : bytes }.

Definition obind {A B} (o : option A) (f : A -> option B) : option B :=
  match o with Some a => f a | None => None end.
Notation "'let?' x ':=' e 'in' k" := (obind e (fun x => k))
  (at level 200, x pattern, e at level 100, k at level 200, right associativity).

(* sender | receiver , part , total , payload , *)
Definition match_tail (l : bytes) : option (bytes * bytes * bytes * bytes * bytes) :=
  let? (s, l) := match_field is_hex 1 (Some 8%nat) BAR l in
  let? (r, l) := match_field is_hex 1 (Some 8%nat) COMMA l in
  let? (p, l) := match_field is_dec 1 (Some 5%nat) COMMA l in
  let? (t, l) := match_field is_dec 1 (Some 5%nat) COMMA l in
  let? (pl, _) := match_field is_payload 1 None COMMA l in
  Some (s, r, p, t, pl).

Definition match_v4 (l : bytes) : option captures :=
  if starts_with OTR_FRAGMENT_V3_PREFIX l then
    let? (i, l) := match_field is_hex 8 (Some 8%nat) BAR (skipn 5 l) in
    let? (s, r, p, t, pl) := match_tail l in
    Some (mkCaptures i s r p t pl)
  else None.
Definition match_v3 (l : bytes) : option captures :=
  if starts_with OTR_FRAGMENT_V3_PREFIX l then
    let? (s, r, p, t, pl) := match_tail (skipn 5 l) in
    Some (mkCaptures [] s r p t pl)
  else None.
(* leftmost match of an unanchored pattern *)
Fixpoint search {A} (m : bytes -> option A) (l : bytes) : option A :=
  match m l with
  | Some a => Some a
  | None => match l with [] => None | _ :: r => search m r end
  end.

(** ** Numbers *)

Definition hex_val (b : byte) : N :=
  if b2n b <=? 57 then b2n b - 48 else if b2n b <=? 70 then b2n b - 55 else b2n b - 87.
(* src/fragment.rs:115-119 `as_sized_hexarray` (left padding with '0'), `hex::decode`,
   utils.rs:250-259 `from_4byte_be`: the value of the digits *)
Definition hex_num (l : bytes) : N := fold_left (fun acc b => acc * 16 + hex_val b) l 0.
Definition dec_num (l : bytes) : N := fold_left (fun acc b => acc * 10 + (b2n b - 48)) l 0.
(* `parse::<u16>().unwrap()` *)
Definition parse_u16 (l : bytes) : res N := if dec_num l <? 65536 then Ok (dec_num l) else Panic.

(* src/fragment.rs:56-113 `parse`; None is Ok None, a failing unwrap is Panic *)
Definition tag_opt (t : N) : option N := match tag_verify t with Ok t => Some t | _ => None end.
Definition build_fragment (v : version) (c : captures) : res (option fragment) :=
  let* part := parse_u16 (ca_part c) in
  let* total := parse_u16 (ca_total c) in
  match tag_opt (hex_num (ca_sender c)), tag_opt (hex_num (ca_receiver c)) with
  | Some s, Some r =>
      Ok (Some (mkFragment v (be_bytes 4 (hex_num (ca_id c))) s r part total (ca_payload c)))
  | _, _ => Ok None
  end.
Definition parse_fragment (content : bytes) : res (option fragment) :=
  match search match_v4 content with
  | Some c => build_fragment V4 c
  | None =>
      match search match_v3 content with
      | Some c => build_fragment V3 c
      | None => Ok None
      end
  end.

(* src/fragment.rs:382 *)
Definition MAX_FRAGMENT_SIZE : N := 250 * 1024.
(* src/fragment.rs:122-140 `verify` *)
Definition verify_fragment (f : fragment) : bool :=
  negb ((version_eqb (fr_version f) V3 && negb (bytes_eqb (fr_identifier f) [x00; x00; x00; x00]))
        || (fr_total f =? 0) || (fr_part f =? 0) || (fr_total f <? fr_part f)
        || Nat.eqb (length (fr_payload f)) 0)
  && (N.of_nat (length (fr_payload f)) <=? MAX_FRAGMENT_SIZE).

(** ** Fragmenting *)

Definition OTRV3_HEADER_SIZE : nat := 36.
Definition OTRV4_HEADER_SIZE : nat := 45.

(* the slices of src/fragment.rs:187-188 *)
Fixpoint chunks (fuel : nat) (size : nat) (l : bytes) : list bytes :=
  match fuel with
  | O => []
  | S f => match l with
           | [] => []
           | _ => firstn size l :: chunks f size (skipn size l)
           end
  end.
(* the loop of src/fragment.rs:187-198: parts are numbered by position *)
Fixpoint number_fragments (v : version) (id : bytes) (sender receiver total : N) (k : N)
  (payloads : list bytes) : list fragment :=
  match payloads with
  | [] => []
  | p :: r => mkFragment v id sender receiver (k + 1) total p
              :: number_fragments v id sender receiver total (k + 1) r
  end.
(* src/fragment.rs:152-200 `fragment`; [rnd] is the random identifier drawn for version 4 *)
Definition fragment_content (max_size : nat) (v : version) (sender receiver : N) (rnd : bytes)
  (content : bytes) : res (list fragment) :=
  match v with
  | V3 | V4 =>
      let header := match v with V3 => OTRV3_HEADER_SIZE | _ => OTRV4_HEADER_SIZE end in
      if Nat.leb max_size header then Panic
      else if Nat.leb (length content) max_size then Panic
      else
        let size := (max_size - header)%nat in
        let id := match v with V3 => [x00; x00; x00; x00] | _ => rnd end in
        let num := (length content / size + (if Nat.eqb (length content mod size) 0 then 0 else 1))%nat in
        if N.of_nat num <? 65536
        then Ok (number_fragments v id sender receiver (N.of_nat num) 0
                   (chunks (length content) size content))
        else Panic
  | _ => Panic
  end.

(** ** Encoding *)

Definition hex_digit (n : N) : byte := if n <? 10 then n2b (48 + n) else n2b (87 + n).
(* exactly k digits, as `{:08x}` / `{:05}` of numbers that fit *)
Fixpoint hex_digits (k : nat) (n : N) : bytes :=
  match k with O => [] | S k' => hex_digits k' (n / 16) ++ [hex_digit (n mod 16)] end.
Fixpoint dec_digits (k : nat) (n : N) : bytes :=
  match k with O => [] | S k' => dec_digits k' (n / 10) ++ [n2b (48 + n mod 10)] end.

Definition tag_ok (t : N) : bool := match tag_verify t with Ok _ => true | _ => false end.
(* src/fragment.rs:226-265 `encode`; the failing assertions are Panic.  (The trace logging of the
   payload as UTF-8 is not modelled; payloads are ASCII.) *)
Definition encode_fragment (f : fragment) : res bytes :=
  match fr_version f with
  | V3 | V4 =>
      if negb (tag_ok (fr_sender f)) || (fr_sender f =? 0) || negb (tag_ok (fr_receiver f))
         || (fr_part f =? 0) || (fr_total f =? 0) || (fr_total f <? fr_part f)
         || Nat.eqb (length (fr_payload f)) 0
      then Panic
      else
        Ok (OTR_FRAGMENT_V3_PREFIX
            ++ match fr_version f with
               | V4 => hex_digits 8 (be_val (fr_identifier f)) ++ [BAR]
               | _ => []
               end
            ++ hex_digits 8 (fr_sender f) ++ [BAR] ++ hex_digits 8 (fr_receiver f) ++ [COMMA]
            ++ dec_digits 5 (fr_part f) ++ [COMMA] ++ dec_digits 5 (fr_total f) ++ [COMMA]
            ++ fr_payload f ++ OTR_FRAGMENT_SUFFIX)
  | _ => Panic
  end.

(** ** Assemblers *)

(* src/fragment.rs:299-303 *)
Record inorder : Type := mkInorder { io_total : N; io_last : N; io_content : bytes }.
Definition inorder_new : inorder := mkInorder 0 0 [].
(* src/fragment.rs:314-341; `self.last + 1` is u16 arithmetic *)
Definition inorder_assemble (st : inorder) (f : fragment) : inorder * asm_result :=
  if negb (verify_fragment f) then (st, AsmErr InvalidData)
  else
    let finish (st : inorder) :=
      if io_last st =? io_total st
      then (mkInorder (io_total st) (io_last st) [], AsmOk (io_content st))
      else (st, AsmErr IncompleteResult) in
    if fr_part f =? 1 then finish (mkInorder (fr_total f) 1 (fr_payload f))
    else if fr_total f =? io_total st then
      if io_last st =? 65535 then (st, AsmPanic)
      else if fr_part f =? io_last st + 1
      then finish (mkInorder (io_total st) (fr_part f) (io_content st ++ fr_payload f))
      else (inorder_new, AsmErr UnexpectedFragment)
    else (inorder_new, AsmErr UnexpectedFragment).

(* src/fragment.rs:344-347 *)
Record assembly : Type := mkAssembly { as_tick : N; as_parts : list bytes }.
(* src/fragment.rs:349-352.  The hash map is an association list; its order is never observable,
   because the ticks that decide about eviction are distinct (FragmentProofs.v). *)
Record unordered : Type := mkUnordered { un_tick : N; un_map : list (bytes * assembly) }.
Definition unordered_new : unordered := mkUnordered 0 [].

(* src/fragment.rs:354-355 *)
Definition MAX_MESSAGES : nat := 100.
Definition MAX_MESSAGE_SIZE : N := 100 * 1024 * 1024.

Fixpoint map_get {A} (k : bytes) (m : list (bytes * A)) : option A :=
  match m with
  | [] => None
  | (k', v) :: r => if bytes_eqb k k' then Some v else map_get k r
  end.
Fixpoint map_del {A} (k : bytes) (m : list (bytes * A)) : list (bytes * A) :=
  match m with
  | [] => []
  | (k', v) :: r => if bytes_eqb k k' then map_del k r else (k', v) :: map_del k r
  end.
Fixpoint map_set {A} (k : bytes) (v : A) (m : list (bytes * A)) : list (bytes * A) :=
  match m with
  | [] => [(k, v)]
  | (k', v') :: r => if bytes_eqb k k' then (k', v) :: r else (k', v') :: map_set k v r
  end.

(* src/fragment.rs:378-383 `reduce` *)
Fixpoint eldest_from (acc : bytes * assembly) (m : list (bytes * assembly)) : bytes * assembly :=
  match m with
  | [] => acc
  | e :: r => eldest_from (if as_tick (snd acc) <? as_tick (snd e) then acc else e) r
  end.
(* src/fragment.rs:374-385: the loop; every round removes an entry *)
Fixpoint make_room (fuel : nat) (id : bytes) (m : list (bytes * assembly)) : list (bytes * assembly) :=
  match fuel with
  | O => m
  | S f =>
      match map_get id m, m with
      | None, e :: r =>
          if Nat.leb MAX_MESSAGES (length m) then make_room f id (map_del (fst (eldest_from e r)) m) else m
      | _, _ => m
      end
  end.

Fixpoint set_part (n : nat) (v : bytes) (l : list bytes) : list bytes :=
  match n, l with
  | O, _ :: r => v :: r
  | S n', x :: r => x :: set_part n' v r
  | _, [] => []
  end.
Definition is_empty (l : bytes) : bool := match l with [] => true | _ => false end.
Definition parts_size (ps : list bytes) : N := N.of_nat (length (concat ps)).

(* src/fragment.rs:371-431 `assemble` *)
Definition unordered_assemble (st : unordered) (f : fragment) : unordered * asm_result :=
  if negb (verify_fragment f) then (st, AsmErr InvalidData)
  else
    let id := fr_identifier f in
    let m := make_room (length (un_map st)) id (un_map st) in
    let store := match map_get id m with
                 | Some a => a
                 | None => mkAssembly 0 (repeat [] (N.to_nat (fr_total f)))
                 end in
    if un_tick st =? 4294967295 then (st, AsmPanic)
    else
      let tick' := un_tick st + 1 in
      let touched := mkAssembly (un_tick st) (as_parts store) in
      if negb (N.of_nat (length (as_parts store)) =? fr_total f)
      then (mkUnordered tick' (map_set id touched m), AsmErr InvalidData)
      else
        let idx := N.to_nat (fr_part f - 1) in
        if negb (is_empty (nth idx (as_parts store) []))
        then (mkUnordered tick' (map_set id touched m), AsmErr UnexpectedFragment)
        else
          let parts := set_part idx (fr_payload f) (as_parts store) in
          let incomplete := existsb is_empty parts in
          if (MAX_MESSAGE_SIZE <? parts_size parts) && incomplete
          then (mkUnordered tick' (map_del id m), AsmErr IncompleteResult)
          else if incomplete
          then (mkUnordered tick' (map_set id (mkAssembly (un_tick st) parts) m), AsmErr IncompleteResult)
          else (mkUnordered tick' (map_del id m), AsmOk (concat parts)).

(* src/fragment.rs:267-296 `Assembler` *)
Record assembler : Type := mkAssembler { am_inorder : inorder; am_unordered : unordered }.
Definition assembler_new : assembler := mkAssembler inorder_new unordered_new.
Definition assemble (st : assembler) (f : fragment) : assembler * asm_result :=
  match fr_version f with
  | V3 => let '(s, r) := inorder_assemble (am_inorder st) f in (mkAssembler s (am_unordered st), r)
  | V4 => let '(s, r) := unordered_assemble (am_unordered st) f in (mkAssembler (am_inorder st) s, r)
  | _ => (st, AsmPanic)
  end.
(* src/fragment.rs:290-296, 337-341: `cleanup` for version 3.  (For version 4 it is a `todo!`, which
   the library never calls.) *)
Definition assembler_cleanup_v3 (st : assembler) : assembler :=
  mkAssembler inorder_new (am_unordered st).
