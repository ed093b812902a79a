# Formal model of cobratbq/otrr in Rocq — design

## Approach

The model is a set of executable Gallina functions under `rocq/theories`, about one file per Rust module, each definition citing the lines of /repo it models.
`&mut self` methods return the new state. `Result` is data; a Rust panic (assert, debug_assert, expect, unwrap, index, overflow with overflow checks on) is the explicit value `Panic`, never confused with an error.
Randomness, the clock and host call-backs are explicit inputs of each step. Session-level calls return the new session, the list of byte strings injected into the transport, and the result.

Files come in layers:

- model: `Base Types Crypto Encoding Base64 ClientProfile Messages Fragment KeyManager DataV3 Ratchet DataV4 AKE DAKE SMP SMP4 Protocol Session Account`;
- specification vocabulary used by the statements and written without the model's helpers: `Spec*.v`;
- proofs: `*Proofs.v`, `*Lemmas.v`; concrete runs: `*Examples.v`, `ToyCrypto.v`, `ToyGroup.v`, `SessionRefute.v`;
- statements: `Properties_*.v`, which contain only `Theorem … exact lemma. Qed.`, `Print Assumptions`, and an `Example` beside each theorem that shows a concrete case meeting its hypotheses.

## Trusted base

1. The Coq 8.16.1 kernel (including its VM: the `Example`s and the refutations run the model with `vm_compute`; `coqchk` re-checks them without the VM).
2. Axioms: `Print Assumptions` of every theorem listed in MANIFEST.json prints "Closed under the global context". No axiom is declared. `coqchk` on the whole context reports seven constants of the standard library, `Coq.ssr.ssrunder.Under_rel.{Under_rel, Under_rel_from_rel, Under_relE, Over_rel, over_rel, over_rel_done, under_rel_done}`; they come from the sealed module type of `ssrunder`, which is loaded with `Lia`'s dependencies, and no theorem depends on them.
3. The reading of the Rust code: that each model definition says what the cited lines do. The simplifications are in the comments of the definitions and are collected under "Not modelled".
4. The hypotheses of a theorem. No law of cryptography is assumed globally. `Crypto` is a record of operations without laws, and every theorem is for all such records. Where a theorem needs a law it is a hypothesis in its statement: `curve_ok`/`groups_ok4` (group laws of the curve and of the 3072-bit group), `dh_group_ok`, `smp_group`, `smp4_group`, DSA verification of own signatures, lengths of hash outputs. Each of these is met by the toy instance (curve p = 211, q = 53, d = -1; p = 503, g = 2), shown beside the theorem, so no hypothesis is contradictory. For the group laws, C79 reduces them to five facts about the constants in the code (four primes and the order of the base point); that the real hash functions and DSA meet their conditions is not proved.

## What is modelled

- `encoding.rs`: all of the encoder and decoder, armour and TLVs. `utils.rs`: the helper functions used by these.
- `messages.rs`: parsing and serialisation of all messages. Regular expressions are modelled by direct scanners.
- `instancetag.rs`: verification and generation. `clientprofile.rs`: payload fields, encoding, validation, signing.
- `fragment.rs`: fragmenting, parsing, both assemblers, expiry and eviction.
- `keymanager.rs`: everything. `crypto.rs`: DH and ECDH keys, key derivation, ring signatures, EdDSA, points (concrete coordinates, addition, encoding), the double ratchet.
- `ake.rs`, `dake.rs`, `smp.rs`, `smp4.rs`: all message handlers and states.
- `protocol.rs`: all four protocol states with sending, receiving, finishing, expiry and SMP.
- `session.rs`: `Account` (profile restore/generate, sessions, expiry), `Session` (`receive`, `send`, `query`, `initiate`, `end`, `expire`, `start_smp`, `abort_smp`, `status`), `Instance`s and their AKE/DAKE contexts.

## Not modelled

- The primitives from other crates (SHA-1, SHA-256, SHAKE-256, HMAC, AES-CTR, ChaCha20, DSA) are operations without laws. Only the keystream structure of the two ciphers is fixed.
- The random generator: random values are inputs. No probabilistic or computational security statement is made.
- Timing, constant-time comparison (modelled by its result), zeroing of memory, logging (`log` macros), `Display` and `Debug` texts.
- `Rc`/`RefCell` sharing and `Drop`: an account owns its sessions. A `HashMap` is an association list; where the code iterates over one (`expire`), the order of the list is one of the possible orders, and C85 proves that the others make no difference.
- Memory exhaustion: `Vec::with_capacity(n)` with n from the network, and numbers of instances and sessions, do not fail in the model.
- The regex crate beyond the fixed patterns of the code, UTF-8 validation beyond what the code relies on.
- Call-backs of the host are inputs: a host that calls back into the library while being called is outside the model (Rust's borrow rules exclude it except through `RefCell`).
- Threads: the library is single-threaded (`!Send`), so histories are sequences of calls.

## Plan per property

The status of each property and the exact theorem names are in MANIFEST.json. "Refuted" means that the negation of the full statement is itself a theorem (suffix `_refuted`) with a concrete counterexample run through the model.

- **C01 Wire values survive an encode/decode round trip** — Encoding.v: encoder functions to `list byte`, decoders `list byte -> res (A * rest)`; prove `read (write v ++ rest) = Ok (v, rest)` per type, MPI by induction on the byte representation of N.
- **C02 Decoding untrusted bytes is safe** — Same decoders; prove: Ok implies input = consumed ++ rest and the value is re-encodable from consumed (exact length law); no Panic result; plus the refuting input for the scalar reader.
- **C03 MPI and public-key encodings are canonical** — Injectivity of the MPI encoding from the round trip and prefix-freeness; canonical (no leading zero) by induction.
- **C04 Every encoded OTR message parses back to itself** — Messages.v: record per message, encode/decode; compose field round trips, then Base64 round trip, then prefix/suffix handling.
- **C05 Message classification is total and does not crash on remote input** — Messages.v parse as total function into res; regex search modelled as ordered alternatives at every offset; characterise exactly the panicking inputs; refuted witnesses.
- **C06 A query advertises exactly the versions offered** — serialize Query then parse: computation over the version list normal form (sorted, deduplicated).
- **C07 Whitespace-tagged plaintext round trip** — serialize Tagged then parse: exact side conditions on the text; refuted witnesses for two versions and for text with leading blanks.
- **C08 The text armour is lossless** — Base64.v: 3-to-4 encoder, decoder; round trip by strong induction in steps of three; alphabet lemma.
- **C09 Fragments fit the transport** — Fragment.v: fragment + textual encoder; length arithmetic on hex/decimal padding; concat law by induction.
- **C10 OTRv3 fragments reassemble to the original message** — InOrderAssembler as a state machine; fold over generated fragments from an arbitrary state.
- **C11 OTRv4 fragments reassemble in any order** — UnorderedAssembler as a state machine over an association list; invariant relating the store to the set of parts received so far.
- **C12 Reassembly never mixes or truncates messages** — History invariant: store contents are always parts received under that id; delivered payload = concat of parts.
- **C13 Reassembly memory is bounded** — Invariant by induction over fragment sequences; eviction lemma on the minimal tick.
- **C14 A fragment already received is never replaced** — Step lemma on occupied index + history corollary.
- **C15 Fragment headers round trip and malformed ones are rejected** — Textual encode/parse round trip with hex/decimal digit lemmas; refuting witness 65536.
- **C16 OTRv3 never reuses an encryption counter under the same keys** — KeyManager.v + ProtocolV3.v; ghost log of emitted (our id, their id, counter) triples; invariant: strictly ordered lexicographically.
- **C17 OTRv3 replay protection** — Refuted: a rotation resets the receive counter, so the message that caused it can be replayed once; proved: between rotations accepted counters strictly increase.
- **C18 OTRv3 MAC keys are revealed only after they are retired, and once** — Refuted (a revealed MAC key can still verify); proved: revealed keys were used, each is revealed in one message, none is lost (conservation law by induction).
- **C19 OTRv3 key window** — Step lemmas/invariant on identifiers over all histories.
- **C20 OTRv3 conversations stay in sync** — Two-party system over lossy FIFO channels; invariant relating both key managers and in-flight messages; every delivered message is decrypted exactly or refused because of the counter; full liveness refuted by a concrete schedule; proved for alternating schedules.
- **C21 OTRv4 double ratchet stays in sync** — Two-party system over lossy FIFO channels with the double ratchet; same shape; cross-traffic loss refuted by a concrete schedule.
- **C22 OTRv4 replays and stale messages are rejected** — Order on (i, j) positions; history invariant over arbitrary received messages.
- **C23 An unauthentic data message changes nothing** — Case analysis of decrypt: Err from authentication implies state unchanged (v3, v4).
- **C24 OTRv4 MAC keys are revealed after use only** — Ghost set of accepted MAC keys vs. revealed; conservation law.
- **C25 Idle OTRv4 sessions expire** — Session.v expire over all instances with explicit clock.
- **C26 OTRv3 key exchange agreement** — AKE.v with DH concrete (modpow), hashes/cipher/DSA as operations; symbolic execution of the honest four-message run for all values.
- **C27 OTRv3 key exchange cannot be completed without valid proofs** — Inversion theorems: completion implies all checks; error implies unchanged context.
- **C28 Simultaneous OTRv3 starts resolve to one exchange** — Antisymmetry of the lexicographic comparison of commitments.
- **C29 OTRv4 key exchange agreement** — DAKE.v honest run.
- **C30 OTRv4 key exchange cannot be completed without valid proofs** — Inversion theorems for DAKE.
- **C31 Simultaneous OTRv4 starts resolve to one exchange** — Antisymmetry of comparison.
- **C32 A completed OTRv4 key exchange cannot be replayed** — Refuted by step lemma (state retained) and a concrete replay at session level.
- **C33 Client profile round trip and validation** — ClientProfile.v round trip over field lists; inversion of validate.
- **C34 Expired client profiles are refused** — Refuted: validation result does not depend on the clock.
- **C35 OTRv3 SMP tells both sides whether the secrets match** — SMP.v with concrete modular arithmetic; algebraic proof of completeness of the zero knowledge proofs and final comparison.
- **C36 OTRv3 SMP succeeds only through a complete verified run** — Inversion theorem over handle; totality of states.
- **C37 OTRv4 SMP** — SMP4.v over an abstract group given by operations, laws as explicit hypotheses.
- **C38 No plaintext leaks once a session is private** — Session.v send: case analysis on state; output is never content.
- **C39 Disabled OTR is transparent** — Session.v send/receive with both versions off.
- **C40 Whitespace tags are sent at most once and never change the text** — Ghost count of tags over histories.
- **C41 Version negotiation respects policy** — select_version specification theorem; receive initiates only selected version.
- **C42 Messages for other clients are ignored** — Session.v receive: frame theorem.
- **C43 Instance bookkeeping stays consistent** — Session invariant by induction over all operations.
- **C44 Unencrypted text is flagged** — Session.v receive on plaintext.
- **C45 Confidential delivery implies authentication** — Session.v receive inversion to authenticator equality.
- **C46 Ending a session** — Session.v end and disconnect handling.
- **C47 User text cannot inject control records** — parse_message of (drop NUL content ++ NUL ++ TLVs).
- **C48 Unreadable messages** — Session.v receive of unreadable data messages.
- **C49 Correspondent instances are isolated** — Frame theorem over instance map.
- **C50 Instance tags are legal** — instancetag verify/generation.
- **C51 An SMP abort ends the exchange** — Two machines exchanging whatever they answer; OTRv3: an abort is never answered; OTRv4: refuted by induction on the length of the exchange (aborts answer aborts for ever).
- **C52 A restarted client is the same client** — Account.v: account_new on the profile that an earlier account_new stored; composes profile round trip, signature correctness and tag legality.
- **C53 Sessions of an account are independent** — Account.v as a map of sessions; every history of account calls projects to the history of calls of each session.
- **C54 EdDSA signatures of a key pair verify** — crypto.rs ed448 sign/validate under the laws of the curve, stated as hypotheses and met by a toy curve.
- **C55 Two sessions, end to end** — Two sessions and a network that may lose messages: the exchange is evaluated symbolically for all values (NetAKEProofs, NetDAKEProofs), then a simulation relates the two sessions and the messages under way to the two-party systems of C20 and C21.
- **C56 A query message is always answered** — Invariant on the exchange of instance 0 over all histories. OTRv3 proved. OTRv4: proved for the first query, refuted for later ones, which are refused for ever (proved for every history).
- **C57 Users who start at the same time get a session** — Refuted by complete runs of two clients, OTRv3 and OTRv4. For OTRv3 an invariant over the rounds of messages shows that no such run, from any past, ever changes the conversation (`C57_v3_never`).
- **C58 Recorded key-exchange messages cannot restart a session** — Refuted; the replay is proved to succeed for every history (OTRv4: Auth-R always, Auth-I until the next exchange with that client; OTRv3: the last two messages, until the client answers another query). Proved: one OTRv3 message alone does not.
- **C59 A key stream never encrypts two texts** — Refuted; the reuse after a replay is proved for every `Crypto` and history. Within one conversation it holds: an invariant over the histories of the double ratchet (positions of sent messages) and C16, lifted by C60.
- **C60 The keys of a conversation follow from its messages** — Every call of a session is a (possibly empty) list of steps of the key manager or double ratchet of each conversation; induction over the history.
- **C61 No message is shown twice** — Refuted for OTRv3 and, across a replayed key exchange, for OTRv4. Proved within one conversation: once in OTRv4, at most twice in OTRv3 (C17 and C22, lifted by C60).
- **C62 Every change of status is told** — Case analysis over all calls of any history (`call_status`), with the answers.
- **C63 Messages for the transport fit its limit** — Arithmetic on fragment headers (C13) and case analysis over all calls. Refuted for texts sent while the conversation is not private.
- **C64 SMP success is reported only after a complete verified run in the current conversation** — The state machine of SMP is followed through the calls of a session as the keys are (C60); then C36 and C37 apply.
- **C65 The session identifier is constant in a conversation** — Part of the invariant behind C64.
- **C66 Only listed causes crash the receiver** — `SpecCrash.v` lists the causes, in three groups: what a peer sends, what chance brings about, what the host does. An invariant over all histories (`safe_ses`: the ranges and lengths on which assertions rely) and a case analysis of every panic of the model, from arithmetic up to `receive`, show that there are no others. For the causes that a peer commands, separate theorems show that they do crash.
- **C67 Only listed causes crash a caller** — `SpecCallCrash.v` gives the same three groups for the other calls (send, initiate, end, query, start and abort SMP, expire); the panics of each call are followed through the invariant of C66. That empty texts in OTRv3, other versions and too long questions do crash is proved separately.
- **C68 A private conversation rests on an authenticated exchange** — `SpecOrigin.v` says which messages of a history a session sent to and received from a client, and which exchanges (two roles, two versions) prove a start. An invariant over all histories (`OriginProofs.v: known`) says that every key exchange context consists of own secrets and of messages of the history with the same client; with the theorems about the last messages (C26, C29, C30) it gives the statement. Uses `curve_ok` and a positive generator.
- **C69 A profile counts only for its owner** — refuted by one forwarded message under another tag.
- **C70 Verification in a conversation** — `SpecVerify.v` describes a verification between two sessions (five calls, everything delivered) and the conversations in which it may happen. The theorems about the protocol alone (C35, C37: who is told what, for all secrets) are lifted to sessions: an invariant over conversations with verifications (`VerifyProofs.v: course_inv3`, `Verify4Proofs.v: course_inv4`) says that the keys of both sides fit and that their verification contexts are idle and made for each other. Degenerate random values (C35, C37) and repeated fresh keys (C55) are excluded by hypothesis; both are recorded as findings there.
- **C71 Texts under an active attacker** — `SpecTexts.v`. Each session makes any run from the end of the key exchange on; `account` lists what its calls did with the data messages (existence: `C71_accounts`, from C60). The absence of forgeries is the hypothesis `genuine`: whatever one client accepts, the other wrote, up to flags, authenticator and revealed MAC keys. OTRv3 (`Texts3Proofs.v`): ghost functions name the secret exponents of each side by key number, so that both ends of a message use the same D-H secret. OTRv4 (`Texts4Proofs.v`): both sides go through the same sequence of ratchets, one after the other (`mirror`), hence have the same chain keys. Positions of sent and of accepted messages increase (C59, C61), so the shown texts are a subsequence of the sent ones. OTRv3 shows a replayed message again (`C71_v3_refuted`, the same finding as C61).
- **C72 The end of a conversation** — `SpecParting.v` describes what may happen between the end of a conversation at one side and the arrival of the farewell at the other. The invariants of C55 about the keys of both sides (`Net3Proofs.v: linked3`, `Net4Proofs.v: linked4`) are carried over the call that ends the conversation and over everything that the peer does until the farewell arrives; then the farewell is either read, or refused by the checks that C20 and C21 describe. When the users have taken turns (OTRv3), or the user who leaves is the one to speak (OTRv4), it is read. In general it is not: refuted for both versions.
- **C73 Authentic farewells** — `SpecEnded.v`; same setting as C71. If the accepted farewell were a message that the peer's client wrote in the conversation, it would be read as what was written in it (C71); but texts of the user contain no NUL byte and the messages of a verification one record of another type (C60), so neither is a farewell.
- **C74 Deniability** — `SpecDeny.v`; `conversation_of` lists what a session did with the data messages of its current conversation (existence from C60). OTRv4 from the balance of accepted and revealed keys (C24). OTRv3 (`Deny3Proofs.v`): invariant that the key for the peer's previous key and our key in use is published or queued, because each rotation queues the key of the message that caused it; a message that causes no rotation uses that pair. It needs that conversations start with key number 1 (`begun3`, src/protocol.rs:336), since then there is no previous key of the peer at the start.
- **C75 Secrecy** — `SpecSecrecy.v`, `SecrecyLemmas.v`. A statement 'the message is a function of the ciphertext' would be empty, since with XOR the text can be computed back. Instead: for two texts of equal length there is a key stream, different from the given one for one key (and nonce) only, with which the second text gives exactly the messages and the state of the first. Secrets: `start_smp` and `receive` are shown to be the same for secrets (answers) with the same SHA-256 and SHAKE-256 values after every prefix.
- **C76 Erasure** — `SpecSecrecy.v`, `ErasureLemmas.v`. A secret is absent from a state if states that differed in it are now equal: `with_state` replaces the conversation of one instance, `with_sending`, `with_receiving`, `with_shared`, `with_dh`, `with_pair` the secret in it. The hypothesis on equal next keys is needed because the next key is computed from the erased one. The sentence on recorded traffic is refuted with a concrete run for each version; C58 and C59 describe the replay in general.
- **C77 Entries** — `SpecStore.v`, `StoreProofs.v`, `StoreLemmas.v`. Every call changes the list of clients by exactly those it introduces; induction over the history in both directions. The bound is refuted by induction on the number of fragments.
- **C78 Key numbers** — `SpecNumber.v`, `NumberProofs.v`, `NumberExamples.v`. Every start of an OTRv3 conversation installs a key manager with both numbers 1 (case analysis of the handler of the last message); what follows for the first text sent and the first message read is computed from the key manager. Refuted by a Signature message that announces number 2.
- **C79 Built-in numbers** — `SpecParams.v` copies the constants from `crypto.rs`; `ParamsProofs.v`. The order of the generator follows from a square root of 2 given as a literal and Fermat's little theorem; that d is no square from a square root of -d and p = 3 mod 4. Primality of four numbers and the order of the base point are hypotheses: checking them needs some thousands of 448-bit to 1536-bit modular products, too many for the kernel without primitive integers.
- **C80 Layout** — `SpecFormat.v` describes the bytes by predicates that use none of the model's functions (a sequence of pieces; integers by the value of their bytes; Base64 by groups of six bits); `FormatProofs.v` proves that the encoders meet them and that they determine the bytes; `SpecSent.v`/`SentProofs.v` carry this to every call of a session. The descriptions were written from the OTR specifications, with one exception: the code writes the type of an Ed448 key in a client profile in little-endian order (bytes 10 00 and 12 00), and the description follows the code. Numbers in fixed widths are taken modulo the width; in the code they are machine integers of that width.
- **C81 What is signed and authenticated** — `SpecBind.v`, `BindProofs.v`. The proofs of C68 give, for each of the two starts, a valid ring signature over a text made of the messages in the history; the texts are shown to be uniquely readable (fixed widths and length prefixes). Data messages: C45 and the same argument for the authenticated texts. A statement that merely says 'or a collision exists' would be empty, as collisions of every hash function exist; so each alternative names the two texts, built from the messages of the two sessions. Points are compared by their encoding. For OTRv3 starts nothing of the kind is claimed: what the DSA signature is about is said by C26 and C68.
- **C82 Key schedule** — `SpecSchedule.v` writes both schedules down from nothing but the hash functions, exponentiation, and the literal usage numbers and byte layouts (`protected3`, `protected4`); it mentions neither the key manager nor the ratchet. `ScheduleProofs.v` carries, along any run from the start of the conversation, functions that name the own secret keys and the peer's public keys by number (OTRv3) or by ratchet (OTRv4), and shows that each message is protected under the keys that its numbers select; `ScheduleLemmas.v` ties the start to the messages of the exchange (C68) and the run to the calls of the session (C60, C71). Quirk stated in the specification: a message of ratchet k has number k - 1, so ratchets 0 and 1 both use number 0. The peer's keys in the schedule are shown to be proper (OTRv4: all of them; OTRv3: that of the exchange). The number of messages in the previous chain (`pn`) is the subject of C83.
- **C83 Numbering** — `SpecCount.v`: a list of messages is numbered when its first element and each pair of neighbours are as they should be. Induction over the run of the conversation's keys (C60) with an invariant about the last message sent; the message that ends the conversation is one more step.
- **C84 Answers end** — `SpecReplies.v`: an utterance is a message with the plaintext inside, as its author knows it; `next` is the table of answers, `answers_with` ties the answer to the bytes sent and to the use of the keys, `dies_out` is inductive over answers and quantifies over every receiving session. `RepliesProofs.v` proves the table by cases over the receiving call, and `dies_out` by well-founded induction (kind of message; hash value of crossed first messages, at most 32 bytes; step of the Socialist Millionaire Protocol). Panicking calls are left out (C66). Partial: an OTRv4 abort is answered by an abort; `C84_refuted` shows this in two toy sessions.
- **C85 Order of the hash maps** — `SpecOrder.v`: sessions up to a permutation of the table of clients; runs in which the table is permuted at any time (`shuffled`), and the same for accounts. `OrderProofs.v`: every call respects the permutation (the keys of the table are distinct, C43), so each such run has a run of the model with the same answers and messages. This removes the order of iteration from what has to be trusted.
- **C86 Nothing from outside disturbs a conversation** — `SpecBeside.v`: a run is split into outside calls (every payload that does not complete a message readable with the keys of the conversation; queries, key exchanges, calls about other clients, expiry while not idle) and the conversation with one client. `BesideProofs.v`: an outside call leaves the protocol state of the client alone, and calls about the client depend on that state only, so the run without the outside calls exists and shows the same. A genuine message that came in fragments appears in that run in one piece. Not said: that forged fragments cannot spoil the reassembly of a genuine message (they can: an OTRv3 fragment out of order discards what was collected).
- **C87 A lost conversation begins anew** — `SpecRecover.v`: one side of a conversation of C55, at any moment of it, and any session of the other account that is not in an encrypted session with it (a new one, after a restart, is one). The next text is sent, all answers are delivered, and the key exchange that follows is any exchange of C55 between the two sessions as they are then. `RecoverProofs.v`: the data message is unreadable in the plaintext and finished states, the answer to it is parsed as an error message, which makes the other side send a query message; the handshake lemmas of C55 apply to both sessions, because a conversation leaves nothing of a key exchange behind (`net_settled3`, `net_settled4`). Assumed: the policy to start a key exchange on error messages (without it: `C87_v3_quiet`), that the lost side is not in the middle of another exchange with the other one, and for OTRv4 that the lost side has not answered a query since it began (finding of C56).
- **C88 Renewal** — `SpecRenew.v`: the conversations that begin with an exchange of C55, go on as there, and in which users ask for a new exchange any number of times (`renewed3`, `renewed4`). `RenewProofs.v`: induction over this; every moment of the conversation satisfies the assumptions that C55 makes at the beginning, with the roles of the two clients exchanged where the other user asks. What is under way when a user asks is lost. In OTRv4 the full statement is false (C56): `C88_v4_deaf` says what happens instead, for every conversation; `C88_v4_partial` covers the one request that is answered.
- **C89 Beginning with a text** — `SpecGreet.v`: texts without OTR markup, and how a text is shown. `GreetProofs.v`: the flag `whitespace_tagged` is set exactly by a tagged message in the history, so the first text carries the tag; the branch of `receive` for tagged text and the one for a query message call the same function with the same arguments, and delivering the text changes nothing. With the handshakes of C55 this gives the whole exchange with a text in the place of the query. Texts with markup are excluded because of the findings of C07, failing exchanges lose the text (finding of C44).
- **C90 Deniable key exchange** — `SpecForge.v`: `same_distribution f g` says that a one-to-one map of the random scalars onto themselves turns `f` into `g`; `auth_r_proof`, `auth_i_proof` make the proofs from the receiver's ephemeral key and public values. `ForgeProofs.v`: a normal form of `ring_sign` for each position of the signer, the map `move i j` (new commitment scalar from the other's response, responses kept), the commitments and hence the challenge do not change, and `move j i` undoes it; uses the group laws (`EdGroup.v`). `ForgeLemmas.v`: lifted to the handlers of the exchange. Hypothesis: the three keys of the ring have different encodings (with equal ones the code refuses to sign). That the scalars are drawn uniformly is not modelled.
- **C91 Own keys decide about every secret** — the schedules of C82 also say which keys of the peer are proper (`proper3`, `proper4` in `SpecSchedule.v`: in range, in the subgroup, on the curve, not the identity). `SpecContrib.v`: `contributes3`, `contributes4` — equal secrets only from own keys equal modulo the order. `ContribProofs.v`: a proper element of a group of prime order has exactly that order. Proved for OTRv4 and for the key of the OTRv3 exchange (`_partial`); for the keys announced in OTRv3 data messages refuted by a run of the toy instance in which the peer announces the key 1. That the fixed groups of the code have prime order is a hypothesis (`safe_prime`, `prime_orders`).
- **C92 Message in parts like the whole message** — `SpecParts.v`: `same_but_parts` (two sessions that differ only in waiting fragments), `in_parts` (the fragments the peer makes of a message), `parts_from` (the fragments received in a history). `PartsProofs.v`: sessions that differ only in waiting fragments answer a message alike. `PartsLemmas.v`: each call of the API moves the assembler of a client by exactly the fragment it received. `PartsRunProofs.v`: with C10 and C11 this gives the completion in a history. `PartsCallProofs.v`: sessions that differ only in waiting fragments answer every call alike, so `same_but_parts` is about behaviour. When the model panics the states are not compared.
- **C93 Long-term private keys only for key exchanges** — `SpecLongTerm.v`: `same_but_private` and `same_but_answer` relate two hosts that differ only in their private keys (and the random values of signatures) or only in the user's answer; `unsigned` and `unasked` say when a call does not need them; `play` makes several calls. `LongTermProofs.v`: every function of the session model that takes the host is followed through for both hosts. No hypothesis about the session or about the cryptography is needed. The public keys and the client profile are the same on both sides: SMP uses the fingerprint of the public key.
- **C94 The transport's limit only cuts messages** — `SpecSize.v`: `same_but_size` (hosts that differ in the limit and in the identifiers of fragments), `sent_as` (a text goes out whole or in fragments), `same_texts`, `same_answer`, `alike`. `SizeProofs.v`: every function that hands messages to the transport is followed through for both hosts. Where both calls go through they are compared; where one of them crashes, `SizeCrashProofs.v` shows that the other sends a text that cannot be sent with this limit. With C92 the peer treats both ways of sending alike.
- **C95 Options about unencrypted text matter to unencrypted text alone** — `SpecPolicy.v`: `under` (the same session under another policy), `same_versions`, `in_the_clear` (the calls the options are about). `PolicyProofs.v`: every function of a session commutes with exchanging the policy. What the options do to calls in the clear is said by the claims on sending, receiving, tags and error messages.
- **C96 Good Ed448 signatures** — `SpecSignature.v`: `good_signature`, the equation of RFC 8032 between points and the range of the number. `SignatureProofs.v`: encodings of points of the curve are distinct, multiples of the base point differ modulo the order (`SMP4Proofs.v`). The group is assumed to be as `smp4_group` says (C79 has what is proved about the built-in one).
- **C97 What a DSA signature is of** — `SpecDsa.v`: `signed_number`. `DsaProofs.v`. DSA itself (`c_dsa_sign`, `c_dsa_verify`) is an operation of the record `Crypto` without laws.

## Findings

Places where the code does not have the property a user would expect. Those marked (T) are theorems (`_refuted`, or the positive theorem that shows the behaviour for every state); the others were noted while modelling.

Wire format
- (T C02) The reader of an Ed448 scalar crashes on the all-zero scalar.
- (T C05) Classification crashes on some remote inputs; C05_classification_crashes characterises them exactly.
- (T C07) A whitespace tag for two versions is not read back; text beginning with eight blanks loses them.
- (T C15) A fragment header with a number in 65536..99999 crashes the receiver. The in-order assembler can also overflow its 16-bit counter.
- (T C50) A stored profile with owner tag 0 is restored without complaint.
- (T C34) Neither a received nor one's own client profile is checked for expiry. The identity key of a received profile is not checked to be a proper point before use.
- Trailing bytes are accepted behind several messages, and repeated `Versions` fields in a profile are merged.
- TLVs of 65536 bytes or more crash the sender. NUL bytes are dropped from sent text.
- A transport limit larger than 250 KiB plus header yields fragments which the receiver refuses.

OTRv3 data
- (T C17) The message that causes a key rotation can be replayed once, because a rotation resets the counter.
- (T C18) A MAC key is published while it still verifies messages; a replay publishes it twice.
- (T C20) The two sides reset their counters at different times: without any loss, a message can be refused as a replay.
- `encrypt_message` panics on empty text (the ciphertext is "all zero"), on an all-zero ciphertext, and on key numbers at 2^32 - 1.
- (T C91) The peer's next DH key is not range-checked: with the key 1 the next message is encrypted under a key that everybody knows.
- OTRv3 sessions never expire (protocol.rs:286-289).

OTRv4 data
- (T C21) Messages of the old ratchet that cross a new one are refused.
- A large message number j makes the receiver perform up to 2^32 key derivations before it checks the authenticator.
- (T C48) A data message with an improper key is refused without an error reply.

Key exchanges
- (T C26) A responder that waits for a Reveal Signature message answers a second D-H Commit but keeps the first commitment, so an initiator that starts again cannot complete.
- (T C31) After simultaneous OTRv4 starts one side yields, but the repeated Identity message makes it answer twice with different keys, and the exchange does not complete.
- (T C32) The last DAKE message can be replayed: the responder's exchange is never reset; `initiate` on it is refused.
- Own initiation lives in instance 0 while the peer's D-H Commit or Identity message is handled by the instance of the sender, so the tie-break is not consulted.
- (T C56) A client that has answered one OTRv4 query message refuses all later ones for the life of the session: instance 0 waits for an Auth-R message for ever.
- (T C88) For the same reason, the user who asked for an OTRv4 conversation can never renew it: the other client reports an error to its own user and sends nothing, so the user who asks learns nothing.
- (T C57) If both users send a query at once, no OTRv3 session starts, and in OTRv4 both sides report a session but with different keys; by C56 no further query repairs this.
- (T C58) Anyone who recorded the exchange can restart the session of one side with its old keys, at any time: by the Auth-R or Auth-I message in OTRv4, by the D-H Key and Signature messages in OTRv3.
- (T C59) After such a replay the client encrypts its next text under a key and counter that it used before (two-time pad).
- (T C61) The first text of an OTRv3 conversation can be replayed to the user once; after a replayed key exchange, recorded texts of either version can.
- (T C63) Texts sent outside a private conversation are not split to fit the message size, and a whitespace tag makes them longer.
- Alice hashes the stored profile bytes, Bob the re-encoded profile.
- A ring signature whose challenges add up to zero makes validation panic.

SMP
- (T C35) A question that contains a NUL byte is cut.
- (T C37) OTRv4 SMP crashes on a zero scalar. Message 2 does not verify Pb and Qb. A c equal to q panics.
- (T C51, C84) An OTRv4 abort is answered by an abort, for ever between two clients.
- OTRv3 SMP messages 2 to 4 accept trailing bytes.

Sessions
- (T C40) A whitespace tag is still sent after the peer replied with plain text. NUL bytes are removed from the text.
- (T C41) `initiate` starts a version that the policy forbids.
- (T C42) A fragment without a sender tag is processed although it may be for another client.
- (T C43) `initiate` stores an instance under an illegal tag; receiving can crash (for example by completing an OTRv3 exchange on an OTRv4 session).
- (T C44) Text behind a whitespace tag is lost if starting the key exchange fails.
- (T C66) Anyone who can send to a client can crash it: by a fragment with a number above 65535, by the text "?OTR?", by a bare whitespace tag, by an OTRv4 data message with an all-zero authenticator, by an Identity message that uses the victim's identity key as ephemeral key (or as forging key), by an Auth-I message with challenges that add up to zero. A peer in a conversation can also do it by an OTRv3 exchange during an OTRv4 conversation, and by announcing the victim's own public key.
- (T C67) The host crashes its own process by sending an empty text (or one of NULs only) in an OTRv3 conversation, by initiating a version other than 3 and 4, by an SMP question of 65536 bytes or more.
- (T C69) The owner tag of a received OTRv4 profile is never compared with the sender tag of the message that brings it (the OTRv4 specification asks for this comparison). A relay that rewrites the sender tag makes a client report a conversation with a client that does not exist, under a profile of another client.
- (T C72) The farewell of a user who ends an OTRv3 conversation is unreadable for the peer when that user has sent at least two messages with keys that the peer has then rotated (A writes twice, B answers, A ends): its counter is lower than the last one accepted, as in C20. Since it carries the flag to ignore unreadable messages, the peer's user is told nothing and goes on in what looks like a private conversation, whereas the other side is in plaintext. No message is lost, changed or reordered.
- (T C72) In OTRv4 the same happens when the peer has written something in the meantime: the peer has started a new ratchet, and the farewell, which belongs to the previous one, is refused.
- (T C76) There is no forward secrecy after the end of a conversation as long as the session lives: the ephemeral secrets of the key exchange are kept (in OTRv3 by the instance with tag 0, from which `transfer` clones; in OTRv4 by the responder, whose exchange state is not reset). Delivering the recorded messages of the key exchange and of the conversation makes the session start the old conversation and show the old texts again.
- (T C77) Anyone can fill the memory of a client: each first fragment with a new sender tag (37 bytes) adds an entry that is never removed, and nothing is reported.
- (T C78) The key number that the peer announces (and signs) in the OTRv3 key exchange is ignored. A peer that announces another number than 1, as the specification allows, ends in an encrypted conversation in which neither side can read the other: texts are addressed to key 1, and messages under the announced number are refused as unreadable.
- An error reply is sent even for messages that ask to be ignored when unreadable. With OTR disabled, REQUIRE_ENCRYPTION does not stop plain text from being delivered as ordinary text.
