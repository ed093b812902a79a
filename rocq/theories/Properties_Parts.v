(* A message that is sent in parts is treated like the whole message. *)
From Verif Require Import Base BaseLemmas Types Crypto ToyCrypto Encoding Messages Fragment Protocol Session SpecSession SessionSendProofs SessionExamples NetExamples
  SpecParts PartsProofs PartsRunProofs PartsCallProofs PartsExamples.
From Verif Require SpecWire SpecFragment.
From Coq Require Import Lia.
Local Open Scope N_scope.

(** * C92 A message that is sent in parts is treated like the whole message *)

(* The payload that makes a message available, whoever made its parts, is answered as the message itself would be: with the
   same result, the same messages to the peer, and the same conversations and exchanges afterwards. *)
Theorem C92_completed : forall C d h s e q b s' out r s'' out'' r'', history C d h s -> enabled d -> completes s q b ->
  receive C e s q = (s', out, r) -> receive C e s b = (s'', out'', r'') ->
  r = r'' /\ (r <> Panic -> out = out'' /\ same_but_parts s'' s').
Proof.
  intros C d h s e q b s' out r s'' out'' r'' HI EN CO. destruct (history_inv C _ _ _ HI) as [SI <-].
  exact (completed_whole C e s q b SI EN CO s' out r s'' out'' r'').
Qed.
Print Assumptions C92_completed.

(* A part that does not make a message available changes nothing else, shows nothing to the user and sends nothing. *)
Theorem C92_waits : forall C d h s e q s' out r, history C d h s -> enabled d -> (forall b, ~ completes s q b) ->
  receive C e s q = (s', out, r) -> r <> Panic -> out = [] /\ (r = Ok UMNone \/ exists x, r = Err x) /\ same_but_parts s s'.
Proof.
  intros C d h s e q s' out r HI EN NC H NP. destruct (history_inv C _ _ _ HI) as [_ <-]. exact (incomplete_waits C e s q s' out r EN H NP NC).
Qed.
Print Assumptions C92_waits.

(* OTRv4: the parts of a message may come in any order, repeatedly, among other payloads and other calls, and among the parts
   of at most 99 other messages of that client.  All but the last one to arrive are passed over in silence, and with the last
   one the message is received. *)
Theorem C92_v4 : forall C d h1 s1 h2 s sd rc m p fs f, history C d h1 s1 -> run C s1 h2 s -> enabled d ->
  in_parts V4 sd rc m p fs -> rc = 0 \/ rc = de_tag d -> In f fs ->
  (forall g, In g (parts_from d V4 sd h1) -> fr_identifier g <> fr_identifier f) ->
  (forall g, In g (parts_from d V4 sd h2) -> fr_identifier g = fr_identifier f -> In g fs) ->
  SpecFragment.few_ids 99 (others f (parts_from d V4 sd h2)) -> N.of_nat (length h1 + length h2) < 4294967295 ->
  ~ In f (parts_from d V4 sd h2) -> (forall g, In g fs -> g = f \/ In g (parts_from d V4 sd h2)) ->
  (forall h' ev h'' q g, h2 = h' ++ ev :: h'' -> ev_op ev = OpReceive q -> part_of d V4 sd q = Some g -> In g fs ->
     ev_injected ev = [] /\ ev_result ev = Ok (AnMessage UMNone)) /\
  (forall e q s' out r s'' out'' r'', encode_fragment f = Ok q -> receive C e s q = (s', out, r) -> receive C e s p = (s'', out'', r'') ->
     r = r'' /\ (r <> Panic -> out = out'' /\ same_but_parts s'' s')).
Proof. intros C. exact (parts4 C). Qed.
Print Assumptions C92_v4.

(* OTRv3: the parts must come in their order, with no other part and no other message of that client in between; payloads of
   other clients, plaintext and all other calls may come in between. *)
Theorem C92_v3 : forall C d h1 s1 h2 s sd rc m p fs f, history C d h1 s1 -> run C s1 h2 s -> enabled d ->
  in_parts V3 sd rc m p (fs ++ [f]) -> rc = 0 \/ rc = de_tag d -> parts_from d V3 sd h2 = fs -> silent C sd s1 h2 ->
  (forall h' ev h'' q g, h2 = h' ++ ev :: h'' -> ev_op ev = OpReceive q -> part_of d V3 sd q = Some g ->
     ev_injected ev = [] /\ ev_result ev = Ok (AnMessage UMNone)) /\
  (forall e q s' out r s'' out'' r'', encode_fragment f = Ok q -> receive C e s q = (s', out, r) -> receive C e s p = (s'', out'', r'') ->
     r = r'' /\ (r <> Panic -> out = out'' /\ same_but_parts s'' s')).
Proof. intros C. exact (parts3 C). Qed.
Print Assumptions C92_v3.

(* Sessions that differ only in the parts that wait: the user sees the same of every client that both list, and every call has
   the same answer, sends the same messages and leaves the sessions alike.  So the parts that wait make no difference later. *)
Theorem C92_after : forall C d h1 s1 h2 s2 es o s1' out1 r1 s2' out2 r2, history C d h1 s1 -> history C d h2 s2 -> enabled d ->
  same_but_parts s1 s2 -> comparable s1 s2 o -> call C es s1 o = (s1', out1, r1) -> call C es s2 o = (s2', out2, r2) ->
  r1 = r2 /\ (r1 <> Panic -> out1 = out2 /\ same_but_parts s1' s2').
Proof.
  intros C d h1 s1 h2 s2 es o s1' out1 r1 s2' out2 r2 H1 H2 EN S CM C1 C2.
  destruct (history_inv C _ _ _ H1) as [I1 <-]. destruct (history_inv C _ _ _ H2) as [I2 _].
  pose proof (call_same C es s1 s2 o I1 I2 EN S CM) as X. rewrite C1, C2 in X. exact X.
Qed.
Print Assumptions C92_after.
Theorem C92_seen : forall s1 s2 t, same_but_parts s1 s2 -> (ses_status s1 t = None <-> ses_status s2 t = None) ->
  ses_status s1 t = ses_status s2 t /\ ses_ssid s1 t = ses_ssid s2 t.
Proof. exact seen_same. Qed.
Print Assumptions C92_seen.

(* In the OTRv4 conversation Alice's message reaches Bob in three parts, the last, the first, the last again and the second;
   in the OTRv3 conversation in their order.  Bob reads it with the last payload. *)
Example C92_ex_v4 : history toy xs_bob zb_h zb_s /\ run toy zb_s pz_h pz_s /\ enabled xs_bob /\ in_parts V4 301 400 pz_m za_text pz_fs /\ In pz_f pz_fs /\
  map fr_part (pz_f :: parts_from xs_bob V4 301 pz_h) = [2; 3; 1; 3] /\ map fr_part pz_fs = [1; 2; 3] /\ completes pz_s pz_q za_text /\
  parts_from xs_bob V4 301 zb_h = [] /\ (forall g, In g (parts_from xs_bob V4 301 pz_h) -> In g pz_fs) /\
  SpecFragment.few_ids 99 (others pz_f (parts_from xs_bob V4 301 pz_h)) /\ N.of_nat (length zb_h + length pz_h) < 4294967295 /\
  ~ In pz_f (parts_from xs_bob V4 301 pz_h) /\ (forall g, In g pz_fs -> g = pz_f \/ In g (parts_from xs_bob V4 301 pz_h)) /\
  encode_fragment pz_f = Ok pz_q /\ snd (receive toy (xs_eb x27 0) pz_s pz_q) = Ok (UMConfidential 301 xs_hi []).
Proof.
  split; [exact zb_run|]. split; [exact pz_run|]. split; [exact (proj2 xs_enabled)|]. split; [exact pz_parts|]. split; [right; left; reflexivity|].
  split; [exact (proj1 pz_numbers)|]. split; [exact (proj2 pz_numbers)|]. split; [exact pz_completes|]. split; [exact pz_before_none|].
  rewrite pz_others, pz_received. split; [intros g [<-|[<-|[<-|[]]]]; [right; right; left|left|right; right; left]; reflexivity|].
  split; [exists []; split; [cbn; lia|intros x []]|]. split; [apply N.ltb_lt; vm_compute; reflexivity|].
  split; [intros [X|[X|[X|[]]]]; apply (f_equal fr_part) in X; vm_compute in X; discriminate X|].
  split; [intros g [<-|[<-|[<-|[]]]]; [right; right; left|left|right; left]; reflexivity|].
  split; [exact pz_encode|exact pz_read].
Qed.
Example C92_ex_v3 : history toy xs_bob yb_h yb_s /\ run toy yb_s py_h py_s /\ enabled xs_bob /\ in_parts V3 301 400 py_m ya_text (py_fs ++ [py_f]) /\
  length py_fs = 2%nat /\ parts_from xs_bob V3 301 py_h = py_fs /\ silent toy 301 yb_s py_h /\
  encode_fragment py_f = Ok py_q /\ snd (receive toy (xs_eb x27 0) py_s py_q) = Ok (UMConfidential 301 xs_hi []).
Proof.
  split; [exact yb_run|]. split; [exact py_run|]. split; [exact (proj2 xs_enabled)|]. split; [exact py_parts|]. split; [exact py_two|].
  split; [exact py_received|]. split; [exact py_silent|]. split; [exact py_encode|exact py_read].
Qed.
(* Bob's session before and after three parts; Bob can speak to Alice in both. *)
Example C92_ex_after : history toy xs_bob zb_h zb_s /\ history toy xs_bob (zb_h ++ pz_h) pz_s /\ enabled xs_bob /\ same_but_parts zb_s pz_s /\
  comparable zb_s pz_s (OpSend 301 xs_hi) /\ comparable zb_s pz_s (OpReceive za_text) /\ comparable zb_s pz_s (OpExpire 0) /\
  ses_status pz_s 301 = Some Encrypted /\ in_assembler (entry 301 (se_instances zb_s)) <> in_assembler (entry 301 (se_instances pz_s)).
Proof.
  split; [exact zb_run|]. split; [exact pz_history|]. split; [exact (proj2 xs_enabled)|]. split; [exact pz_same|].
  split; [split; intros X; vm_compute in X; discriminate X|]. split; [exists za_text; split; left; split; vm_compute; reflexivity|].
  split; [vm_compute; reflexivity|]. split; [vm_compute; reflexivity|].
  intros X. apply (f_equal (fun a => length (un_map (am_unordered a)))) in X. vm_compute in X. discriminate X.
Qed.
