(* Messages of the conversations of SessionExamples, in parts. *)
From Verif Require Import Base BaseLemmas Types Crypto ToyCrypto Encoding Messages Fragment Protocol Session SpecSession SessionExamples NetExamples SpecParts PartsProofs.
From Verif Require SpecWire SpecFragment.
From Coq Require Import Lia.
Local Open Scope N_scope.

Definition pt_id : bytes := [x01; x02; x03; x04].
Definition pt_cut (v : version) (p : bytes) (max : nat) : list fragment := match fragment_content max v 301 400 pt_id p with Ok fs => fs | _ => [] end.
Definition pt_text (f : fragment) : bytes := match encode_fragment f with Ok q => q | _ => [] end.
Definition pt_part (l : list fragment) (n : nat) : fragment := nth n l (mkFragment V4 [] 0 0 0 0 []).
Definition pt_receive (q : bytes) : (N -> env) * op := (xs_eb x27, OpReceive q).
Definition pt_event (q : bytes) : event := mkEvent (OpReceive q) [] (Ok (AnMessage UMNone)).

(** ** OTRv4: the parts 3, 1, 3 again; then 2 *)
Definition pz_m : encoded_type := em_message (ns_parsed za_text).
Definition pz_fs : list fragment := Eval vm_compute in pt_cut V4 za_text (Nat.div (length za_text) 3 + 46).
Definition pz_f : fragment := Eval vm_compute in pt_part pz_fs 1.
Definition pz_before : list bytes := Eval vm_compute in map (fun n => pt_text (pt_part pz_fs n)) [2; 0; 2]%nat.
Definition pz_h : list event := Eval cbv beta iota delta [map pz_before pt_event] in map pt_event pz_before.
Definition pz_q : bytes := Eval vm_compute in pt_text pz_f.
Definition pz_s : session := Eval vm_compute in snd (xs_end (replay toy zb_s [] (map pt_receive pz_before))).
Lemma pz_run : run toy zb_s pz_h pz_s.
Proof. apply (replay_run toy zb_s (map pt_receive pz_before) zb_s []); [constructor|]. vm_compute. reflexivity. Qed.
Lemma pz_history : history toy xs_bob (zb_h ++ pz_h) pz_s.
Proof. apply (replay_run toy xs_b0 (map pt_receive pz_before) zb_s zb_h); [exact zb_run|]. vm_compute. reflexivity. Qed.
Lemma pz_same : same_but_parts zb_s pz_s.
Proof.
  assert (pz_s = put zb_s 301 (set_assembler (entry 301 (se_instances zb_s)) (in_assembler (entry 301 (se_instances pz_s))))) as -> by (vm_compute; reflexivity).
  apply sbp_store.
Qed.
Lemma pz_parts : in_parts V4 301 400 pz_m za_text pz_fs.
Proof.
  split; [lia|]. split; [right; lia|]. split; [vm_compute; reflexivity|]. split; [apply N.leb_le; vm_compute; reflexivity|].
  exists (Nat.div (length za_text) 3 + 46)%nat, pt_id. split; [apply N.leb_le; vm_compute; reflexivity|]. split; [reflexivity|]. vm_compute. reflexivity.
Qed.
Lemma pz_three : length pz_fs = 3%nat. Proof. reflexivity. Qed.
Lemma pz_encode : encode_fragment pz_f = Ok pz_q. Proof. vm_compute. reflexivity. Qed.
Lemma pz_before_none : parts_from xs_bob V4 301 zb_h = []. Proof. vm_compute. reflexivity. Qed.
Lemma pz_received : parts_from xs_bob V4 301 pz_h = [pt_part pz_fs 2; pt_part pz_fs 0; pt_part pz_fs 2]. Proof. vm_compute. reflexivity. Qed.
Lemma pz_read : snd (receive toy (xs_eb x27 0) pz_s pz_q) = Ok (UMConfidential 301 xs_hi []). Proof. vm_compute. reflexivity. Qed.
Lemma pz_others : others pz_f (parts_from xs_bob V4 301 pz_h) = []. Proof. vm_compute. reflexivity. Qed.
Lemma pz_numbers : map fr_part (pz_f :: parts_from xs_bob V4 301 pz_h) = [2; 3; 1; 3] /\ map fr_part pz_fs = [1; 2; 3]. Proof. split; vm_compute; reflexivity. Qed.
Lemma pz_completes : completes pz_s pz_q za_text.
Proof.
  right. destruct (parse_fragment pz_q) as [[f|]| |] eqn:P; [|vm_compute in P; discriminate P..]. exists f.
  destruct (assemble (in_assembler (entry (fr_sender f) (se_instances pz_s))) f) as [a o] eqn:A. exists a.
  assert (f = pz_f) as -> by (vm_compute in P; injection P as <-; reflexivity).
  split; [vm_compute; reflexivity|]. split; [reflexivity|]. split; [vm_compute; reflexivity|]. split; [right; reflexivity|].
  split; [|vm_compute; reflexivity]. f_equal. apply (f_equal snd) in A. cbn [snd] in A. rewrite <- A. vm_compute. reflexivity.
Qed.

(** ** OTRv3: the parts in their order *)
Definition py_m : encoded_type := em_message (ns_parsed ya_text).
Definition py_fs : list fragment := Eval vm_compute in removelast (pt_cut V3 ya_text (Nat.div (length ya_text) 3 + 37)).
Definition py_f : fragment := Eval vm_compute in pt_part (pt_cut V3 ya_text (Nat.div (length ya_text) 3 + 37)) 2.
Definition py_before : list bytes := Eval vm_compute in map pt_text py_fs.
Definition py_h : list event := Eval cbv beta iota delta [map py_before pt_event] in map pt_event py_before.
Definition py_q : bytes := Eval vm_compute in pt_text py_f.
Definition py_s : session := Eval vm_compute in snd (xs_end (replay toy yb_s [] (map pt_receive py_before))).
Lemma py_run : run toy yb_s py_h py_s.
Proof. apply (replay_run toy yb_s (map pt_receive py_before) yb_s []); [constructor|]. vm_compute. reflexivity. Qed.
Lemma py_parts : in_parts V3 301 400 py_m ya_text (py_fs ++ [py_f]).
Proof.
  split; [lia|]. split; [right; lia|]. split; [vm_compute; reflexivity|]. split; [apply N.leb_le; vm_compute; reflexivity|].
  exists (Nat.div (length ya_text) 3 + 37)%nat, pt_id. split; [apply N.leb_le; vm_compute; reflexivity|]. split; [reflexivity|]. vm_compute. reflexivity.
Qed.
Lemma py_two : length py_fs = 2%nat. Proof. reflexivity. Qed.
Lemma py_encode : encode_fragment py_f = Ok py_q. Proof. vm_compute. reflexivity. Qed.
Lemma py_received : parts_from xs_bob V3 301 py_h = py_fs. Proof. vm_compute. reflexivity. Qed.
Lemma py_read : snd (receive toy (xs_eb x27 0) py_s py_q) = Ok (UMConfidential 301 xs_hi []). Proof. vm_compute. reflexivity. Qed.
(* a part whose assembler answers that parts are missing makes nothing available *)
Definition pt_waits (s : session) (q : bytes) : bool :=
  match_fragment q && match parse_fragment q with
  | Ok (Some f) => match snd (assemble (in_assembler (entry (fr_sender f) (se_instances s))) f) with AsmOk _ => false | _ => true end
  | _ => true
  end.
Lemma pt_waits_ok s q b : pt_waits s q = true -> ~ completes s q b.
Proof.
  unfold pt_waits. intros W CO. apply andb_true_iff in W. destruct W as [M W].
  destruct CO as [[M' _]|(f & a & _ & P & _ & _ & A & _)]; [congruence|]. rewrite P, A in W. discriminate W.
Qed.
Definition py_1 : session := Eval vm_compute in snd (xs_end (replay toy yb_s [] (map pt_receive (firstn 1 py_before)))).
Lemma py_next e : fst (fst (receive toy e yb_s (nth 0 py_before []))) = py_1. Proof. vm_compute. reflexivity. Qed.
Lemma py_silent : silent toy 301 yb_s py_h.
Proof.
  intros h' ev h'' s p em E R O CA. exfalso. destruct CA as (b & CO & _). revert CO. apply pt_waits_ok.
  destruct h' as [|e1 [|e2 h']].
  - injection E as <- _. inversion R as [|h0 ? ? ? ? ? ? ? ? ? X]; [|destruct h0; discriminate X]. subst. injection O as <-. vm_compute. reflexivity.
  - injection E as <- <- _. injection O as <-. inversion R as [|h0 s2 es o ? ? ? R0 CL ? X]. apply (app_inj_tail h0 []) in X. destruct X as [-> X]. injection X as -> _ _.
    inversion R0 as [|h1 ? ? ? ? ? ? ? ? ? X]; [|destruct h1; discriminate X]. subst s2.
    cbn [call] in CL. unfold answering in CL. pose proof (py_next (es 0)) as P. cbn [nth] in P.
    change (nth 0 py_before []) with (hd [] py_before) in P. unfold py_before in P. cbn [hd] in P.
    destruct (receive toy (es 0) yb_s _) as [[s3 o3] r3]. cbn [fst] in P. subst s3. apply pair_equal_spec in CL. destruct CL as [CL _]. apply pair_equal_spec in CL. destruct CL as [<- _].
    vm_compute. reflexivity.
  - apply (f_equal (@length event)) in E. cbn in E. rewrite app_length in E. cbn in E. lia.
Qed.
