{"id": "C01", "title": "Wire values survive an encode/decode round trip", "statement": "Whatever integers, DATA blobs, MPIs, MPI sequences, CTR/MAC/point-sized blocks, NUL-terminated strings and TLVs are written with OTREncoder are read back equal by the matching OTRDecoder reader, and the decoder is left exactly at the bytes that followed.", "quantifier": "every value in range of each wire type and every byte string that follows it in the buffer", "why_tests_cant": "the value space (2^32-long blobs, arbitrary-size MPIs) and the trailing context cannot be enumerated", "anchors": ["src/encoding.rs: OTREncoder, OTRDecoder", "src/utils.rs: biguint"]}
{"id": "C02", "title": "Decoding untrusted bytes is safe", "statement": "For any bytes received from the network, each OTRDecoder reader either reports an error or consumes a prefix of the buffer whose length matches the value it returned; it never reads beyond the end and never panics. (The Ed448 scalar reader is the exception: an all-zero scalar panics.)", "quantifier": "every byte string and every reader", "why_tests_cant": "adversarial inputs are unbounded; fuzzing only samples them", "anchors": ["src/encoding.rs: OTRDecoder", "src/crypto.rs: ed448::decode_scalar"]}
{"id": "C03", "title": "MPI and public-key encodings are canonical", "statement": "Two numbers have the same MPI encoding only if they are equal, the encoding never starts with a zero byte, and no MPI encoding is a proper prefix of another, so DSA public keys with different components produce different fingerprint input.", "quantifier": "all pairs of natural numbers / public keys", "why_tests_cant": "injectivity quantifies over all pairs", "anchors": ["src/encoding.rs: write_mpi, write_public_key", "src/crypto.rs: otr::fingerprint"]}
{"id": "C04", "title": "Every encoded OTR message parses back to itself", "statement": "Serialising any OTR-encoded message (DH-Commit, DH-Key, Reveal-Signature, Signature, Data v3, Identity, Auth-R, Auth-I, Data v4) and giving the text to the parser yields the same version, sender tag, receiver tag and message contents.", "quantifier": "every message value the encoder accepts, every legal pair of instance tags", "why_tests_cant": "nested variable-length fields through base64: value space unbounded", "anchors": ["src/messages.rs: parse, serialize_message, EncodedMessage, encode_message"]}
{"id": "C05", "title": "Message classification is total and does not crash on remote input", "statement": "Any byte string received is classified as error, query, tagged plaintext, plaintext or OTR-encoded, or is rejected with an error; no input crashes the client. (The code violates the last clause: a query such as \"?OTR?\" or a whitespace tag without version tags panics.)", "quantifier": "every byte string received from the transport", "why_tests_cant": "input space unbounded; crashing inputs are isolated points", "anchors": ["src/messages.rs: parse, parse_plain_message, QUERY_PATTERN, WHITESPACE_PATTERN"]}
{"id": "C06", "title": "A query advertises exactly the versions offered", "statement": "Serialising a query for a set of supported versions and parsing it gives back exactly those versions; a version that was not offered is never reported.", "quantifier": "every list of versions", "why_tests_cant": "parser is a regex search over arbitrary text; must hold for all lists and surrounding text", "anchors": ["src/messages.rs: serialize_message, parse_plain_message"]}
{"id": "C07", "title": "Whitespace-tagged plaintext round trip", "statement": "A plaintext sent with a whitespace tag is delivered to the peer with the user's text restored and the advertised versions reported. (Violated when more than one version is tagged: only the last is reported.)", "quantifier": "every plaintext and every non-empty version list", "why_tests_cant": "text may itself contain tag-like whitespace", "anchors": ["src/messages.rs: parse_plain_message, serialize_message"]}
{"id": "C08", "title": "The text armour is lossless", "statement": "Base64 armouring of any binary OTR message uses only characters legal in OTR transport text and decodes back to exactly the same bytes; armour of different messages differ.", "quantifier": "every byte string", "why_tests_cant": "unbounded lengths and all residues mod 3", "anchors": ["src/encoding.rs", "src/messages.rs: parse, encode_message (base64 crate)"]}
{"id": "C09", "title": "Fragments fit the transport", "statement": "When content exceeds the host's maximum message size, every fragment emitted, including its header, is at most that size, the fragments are numbered 1..n with the same total, and concatenating their payloads gives the content.", "quantifier": "every content, every maximum size above the header size, both protocol versions", "why_tests_cant": "sizes are unbounded; off-by-one at every multiple of the fragment size", "anchors": ["src/fragment.rs: fragment, FragmentEncoder", "src/session.rs: send/inject"]}
{"id": "C10", "title": "OTRv3 fragments reassemble to the original message", "statement": "Feeding the fragments of a message, in order, to the peer's assembler returns nothing until the last one and then exactly the original message, whatever fragments had been received before.", "quantifier": "every message, maximum size and previous assembler state", "why_tests_cant": "previous history is arbitrary", "anchors": ["src/fragment.rs: InOrderAssembler, fragment"]}
{"id": "C11", "title": "OTRv4 fragments reassemble in any order", "statement": "Feeding the fragments of a message in any order, possibly interleaved with fragments of other messages and with duplicates, returns the original message exactly when the last missing part arrives.", "quantifier": "every message, every permutation and interleaving (within the documented limits)", "why_tests_cant": "factorially many schedules", "anchors": ["src/fragment.rs: UnorderedAssembler"]}
{"id": "C12", "title": "Reassembly never mixes or truncates messages", "statement": "Whatever fragments arrive, when an assembler returns a message it is the concatenation, in order, of parts 1..total received under one identifier/total, each exactly as received; otherwise nothing is delivered.", "quantifier": "every sequence of fragments from the network", "why_tests_cant": "adversarial sequences unbounded", "anchors": ["src/fragment.rs: InOrderAssembler::assemble, UnorderedAssembler::assemble, verify"]}
{"id": "C13", "title": "Reassembly memory is bounded", "statement": "However many fragments an attacker sends, at most 100 incomplete OTRv4 messages are kept per correspondent, an incomplete message never holds more than 100 MiB, and when space is needed the message that was updated longest ago is the one dropped.", "quantifier": "every fragment sequence of any length", "why_tests_cant": "invariant over all histories", "anchors": ["src/fragment.rs: UnorderedAssembler, MAX_ASSEMBLIES, MAX_TOTAL_SIZE"]}
{"id": "C14", "title": "A fragment already received is never replaced", "statement": "A second fragment with the same identifier and part number does not change what will be delivered: the first one received wins and the second is reported as unexpected.", "quantifier": "every history and every pair of duplicate fragments", "why_tests_cant": "histories unbounded", "anchors": ["src/fragment.rs: UnorderedAssembler::assemble"]}
{"id": "C15", "title": "Fragment headers round trip and malformed ones are rejected", "statement": "The textual form of every fragment the client emits is parsed back to the same fields; numbers outside 1..65535, part > total, empty payloads and illegal instance tags are rejected without crashing. (Violated: part or total in 65536..99999 panics.)", "quantifier": "every fragment / every byte string", "why_tests_cant": "text space unbounded; the crashing numbers are isolated", "anchors": ["src/fragment.rs: parse, verify, FragmentEncoder"]}
{"id": "C16", "title": "OTRv3 never reuses an encryption counter under the same keys", "statement": "For any sequence of sends and receives in an OTRv3 session, two messages sent under the same pair of key identifiers never carry the same counter, and the counter is never zero.", "quantifier": "every history of sends/receives in a session", "why_tests_cant": "depends on interleaving of rotations with sends", "anchors": ["src/keymanager.rs: KeyManager::take_counter, acknowledge_ours, register_their_key", "src/protocol.rs: EncryptedOTR3State::encrypt_message"]}
{"id": "C17", "title": "OTRv3 replay protection", "statement": "Within the lifetime of a key pair, a data message is accepted only if its counter is strictly greater than every counter accepted before, so no message is delivered twice and messages are delivered in sending order.", "quantifier": "every sequence of received messages, including replays and reorderings by the network", "why_tests_cant": "adversarial schedules", "anchors": ["src/keymanager.rs: verify_counter", "src/protocol.rs: EncryptedOTR3State::decrypt_message"]}
{"id": "C18", "title": "OTRv3 MAC keys are revealed only after they are retired, and once", "statement": "A receiving MAC key appears in an outgoing 'revealed MAC keys' field only if it authenticated a received message and the keys it was derived from have been rotated out; each is revealed in one message only and none is lost.", "quantifier": "every history of sends, receives and rotations", "why_tests_cant": "history-dependent", "anchors": ["src/keymanager.rs: register_used_mac_key, reveal_used_mac_keys, get_reveal_macs", "src/protocol.rs"]}
{"id": "C19", "title": "OTRv3 key window", "statement": "A data message is accepted only under our acknowledged or next key and the peer's current or previous key, key identifier 0 is never used, and identifiers advance by exactly one per rotation.", "quantifier": "every history", "why_tests_cant": "history-dependent", "anchors": ["src/keymanager.rs: KeypairRotation, PublicKeyRotation, KeyManager"]}
{"id": "C20", "title": "OTRv3 conversations stay in sync", "statement": "After a completed key exchange, for every interleaving of sends by the two parties with in-order delivery per direction, every message sent is decrypted by the peer to exactly the text and TLVs that were sent.", "quantifier": "every schedule of sends and deliveries of any length", "why_tests_cant": "needs induction over unbounded schedules with keys rotating on both sides", "anchors": ["src/keymanager.rs", "src/protocol.rs: EncryptedOTR3State"]}
{"id": "C21", "title": "OTRv4 double ratchet stays in sync", "statement": "After a completed OTRv4 key exchange, for every interleaving of sends with in-order delivery, both parties derive the same message keys and every message sent is decrypted by the peer to exactly what was sent.", "quantifier": "every schedule of sends and deliveries of any length", "why_tests_cant": "unbounded schedules; ratchet id mod 3 determines when DH keys travel", "anchors": ["src/crypto.rs: otr4::DoubleRatchet, MixedSharedSecret", "src/protocol.rs: EncryptedOTR4State"]}
{"id": "C22", "title": "OTRv4 replays and stale messages are rejected", "statement": "An OTRv4 data message is accepted at most once: after acceptance, any message of the same or an older position in the ratchet is refused, while later positions in the current ratchet remain acceptable even if intermediate messages were lost.", "quantifier": "every history and every replayed message", "why_tests_cant": "adversarial schedules", "anchors": ["src/protocol.rs: EncryptedOTR4State::decrypt_message", "src/crypto.rs: DoubleRatchet"]}
{"id": "C23", "title": "An unauthentic data message changes nothing", "statement": "A data message whose authenticator does not verify is never delivered and leaves the encrypted session exactly as it was, so an attacker cannot desynchronise it (OTRv3 and OTRv4).", "quantifier": "every session state and every forged message", "why_tests_cant": "adversarial inputs in every state", "anchors": ["src/protocol.rs: EncryptedOTR3State::decrypt_message, EncryptedOTR4State::decrypt_message"]}
{"id": "C24", "title": "OTRv4 MAC keys are revealed after use only", "statement": "The MAC keys an OTRv4 client reveals are exactly those of messages it accepted, each is revealed at most once, and only in the first message of a new ratchet.", "quantifier": "every history", "why_tests_cant": "history-dependent", "anchors": ["src/crypto.rs: confirm_receiver_keys, collect_reveals", "src/protocol.rs: EncryptedOTR4State::encrypt_message"]}
{"id": "C25", "title": "Idle OTRv4 sessions expire", "statement": "Calling expire with a timeout ends precisely those OTRv4 encrypted sessions whose last ratchet rotation is at least the timeout ago, informs the peer, and leaves all other sessions untouched.", "quantifier": "every set of instances and every clock value", "why_tests_cant": "all boundary values of elapsed time", "anchors": ["src/session.rs: expire", "src/protocol.rs: expire"]}
{"id": "C26", "title": "OTRv3 key exchange agreement", "statement": "If both parties run the OTRv3 AKE honestly and messages are delivered, both end encrypted with the same session id and matching keys, whichever side starts.", "quantifier": "every choice of keys and random values", "why_tests_cant": "randomised; all values", "anchors": ["src/ake.rs: AKEContext", "src/crypto.rs: otr::AKESecrets"]}
{"id": "C27", "title": "OTRv3 key exchange cannot be completed without valid proofs", "statement": "The AKE completes only if the revealed g^x matches the commitment, both MACs verify, the public key parses and the DSA signature verifies over both DH keys and that public key; any failing message is reported and leaves the exchange where it was.", "quantifier": "every state and every received message", "why_tests_cant": "adversarial inputs in every state", "anchors": ["src/ake.rs: handle_reveal_signature, handle_signature"]}
{"id": "C28", "title": "Simultaneous OTRv3 starts resolve to one exchange", "statement": "If both sides send a DH-Commit at the same time, exactly one side keeps its own exchange and the other answers it.", "quantifier": "every pair of distinct commitments", "why_tests_cant": "all pairs", "anchors": ["src/ake.rs: handle_dhcommit"]}
{"id": "C29", "title": "OTRv4 key exchange agreement", "statement": "If both parties run the interactive DAKE honestly, both end encrypted with the same session id and ratchets that are in sync.", "quantifier": "every choice of profiles, keys and random values", "why_tests_cant": "randomised; all values", "anchors": ["src/dake.rs: DAKEContext"]}
{"id": "C30", "title": "OTRv4 key exchange cannot be completed without valid proofs", "statement": "The DAKE completes only when the peer's client profile validates, the received keys are valid group elements and the ring signature verifies over both profiles, all keys and the session identifiers; any failing message leaves the exchange where it was.", "quantifier": "every state and every received message", "why_tests_cant": "adversarial inputs in every state", "anchors": ["src/dake.rs: handle_identity, handle_auth_r, handle_auth_i"]}
{"id": "C31", "title": "Simultaneous OTRv4 starts resolve to one exchange", "statement": "If both sides send an Identity message at the same time, exactly one side keeps its own exchange and the other answers it.", "quantifier": "every pair of identity messages", "why_tests_cant": "all pairs", "anchors": ["src/dake.rs: handle_identity"]}
{"id": "C32", "title": "A completed OTRv4 key exchange cannot be replayed", "statement": "After an Auth-I message completed the exchange, receiving that Auth-I again does not establish a session again. (Violated by the code: the state is kept, so a replay re-initialises the ratchet.)", "quantifier": "every completed exchange", "why_tests_cant": "history-dependent", "anchors": ["src/dake.rs: handle_auth_i", "src/session.rs: Instance::handle"]}
{"id": "C33", "title": "Client profile round trip and validation", "statement": "A client profile that is encoded and decoded again is the same; a received profile is accepted only if every mandatory field occurs exactly once, the transitional signature and legacy key occur together, and the signatures verify over the encoded fields.", "quantifier": "every list of profile fields and every byte string", "why_tests_cant": "unbounded field lists", "anchors": ["src/clientprofile.rs: ClientProfilePayload, ClientProfile"]}
{"id": "C34", "title": "Expired client profiles are refused", "statement": "A client profile whose expiration date has passed is not accepted in a key exchange. (Violated by the code for received profiles.)", "quantifier": "every profile and clock value", "why_tests_cant": "all times", "anchors": ["src/clientprofile.rs: ClientProfilePayload::validate, ClientProfile::validate", "src/dake.rs"]}
{"id": "C35", "title": "OTRv3 SMP tells both sides whether the secrets match", "statement": "When both parties run SMP honestly, both report success if the secrets are equal.", "quantifier": "every pair of secrets, keys, and random exponents", "why_tests_cant": "randomised; modular arithmetic for all values", "anchors": ["src/smp.rs: SMPContext"]}
{"id": "C36", "title": "OTRv3 SMP succeeds only through a complete verified run", "statement": "SMP reports success only on a message 3 or 4 received in the state that expects it, whose proofs verify and whose final comparison holds; anything unexpected or malformed aborts and returns to the initial state, and the client is never stuck.", "quantifier": "every state and every TLV", "why_tests_cant": "adversarial inputs in every state", "anchors": ["src/smp.rs: SMPContext::handle"]}
{"id": "C37", "title": "OTRv4 SMP", "statement": "The same two guarantees for the OTRv4 SMP: equal secrets give success at both sides, and success is reported only after a verified run in the proper order.", "quantifier": "every secret pair, random values, state and TLV", "why_tests_cant": "as for C35/C36", "anchors": ["src/smp4.rs: SMP4Context"]}
{"id": "C38", "title": "No plaintext leaks once a session is private", "statement": "In an encrypted session send never emits the user's text unencrypted; after the peer ended the session send refuses until the user resets it; with REQUIRE_ENCRYPTION send never emits user text in plaintext state.", "quantifier": "every session state, policy and content", "why_tests_cant": "all histories and policies", "anchors": ["src/session.rs: Session::send", "src/protocol.rs: prepare_message"]}
{"id": "C39", "title": "Disabled OTR is transparent", "statement": "With neither version allowed by policy, sent content is returned unchanged and received content is delivered unchanged, whatever it looks like.", "quantifier": "every content and every session state", "why_tests_cant": "contents that look like OTR messages, queries or fragments", "anchors": ["src/session.rs: Session::send, Session::receive"]}
{"id": "C40", "title": "Whitespace tags are sent at most once and never change the text", "statement": "A whitespace tag is appended to at most one plaintext message per correspondent instance, only when the policy asks for it and the peer has not replied with plaintext, and the text itself is not altered.", "quantifier": "every history of sends/receives", "why_tests_cant": "history-dependent", "anchors": ["src/session.rs: Session::send"]}
{"id": "C41", "title": "Version negotiation respects policy", "statement": "A key exchange is only ever started or continued for a protocol version the policy allows and the peer offered, and OTRv4 is preferred when both are possible.", "quantifier": "every policy, every offered version list", "why_tests_cant": "all combinations in all states", "anchors": ["src/session.rs: select_version, filter_versions, receive"]}
{"id": "C42", "title": "Messages for other clients are ignored", "statement": "An encoded message or fragment addressed to a different instance tag, or with an illegal or missing sender tag, produces no reply and no change to any session.", "quantifier": "every session state and every such message", "why_tests_cant": "adversarial inputs in every state", "anchors": ["src/session.rs: Session::receive"]}
{"id": "C43", "title": "Instance bookkeeping stays consistent", "statement": "After any sequence of API calls the unaddressed instance stays in plaintext, every listed instance has a legal tag and answers status/ssid queries, and internal consistency assertions never fail.", "quantifier": "every history of API calls and received messages", "why_tests_cant": "history-dependent", "anchors": ["src/session.rs: Session, Instance"]}
{"id": "C44", "title": "Unencrypted text is flagged", "statement": "Plaintext received while any private session exists, or while the policy requires encryption, is delivered as WarningUnencrypted and never as plain user text or confidential text.", "quantifier": "every session state and plaintext", "why_tests_cant": "all states", "anchors": ["src/session.rs: receive, has_sessions"]}
{"id": "C45", "title": "Confidential delivery implies authentication", "statement": "User text is delivered as confidential only for a data message that verified under the keys of an encrypted session with that sender instance, and the delivered text is the decryption of exactly that message.", "quantifier": "every state and received message", "why_tests_cant": "adversarial", "anchors": ["src/session.rs: Instance::handle", "src/protocol.rs"]}
{"id": "C46", "title": "Ending a session", "statement": "end returns the instance to plaintext and, if it was encrypted, tells the peer with a disconnect TLV; a received disconnect moves the instance to finished; both are idempotent in effect.", "quantifier": "every state", "why_tests_cant": "all states/histories", "anchors": ["src/session.rs: Session::end, reset", "src/protocol.rs: finish"]}
{"id": "C47", "title": "User text cannot inject control records", "statement": "Whatever bytes the user sends, the peer recovers exactly the content with NUL bytes removed and exactly the TLVs the client attached; content can never be read as TLVs.", "quantifier": "every content and TLV list", "why_tests_cant": "arbitrary bytes", "anchors": ["src/protocol.rs: encode/parse of message content (parse_message)", "src/session.rs: send"]}
{"id": "C48", "title": "Unreadable messages", "statement": "A data message that cannot be read outside an encrypted session, or fails authentication, yields an error to the user plus an OTR error reply, unless it is flagged ignore-unreadable in which case the user is not bothered.", "quantifier": "every state and message", "why_tests_cant": "all states", "anchors": ["src/session.rs: Instance::handle"]}
{"id": "C49", "title": "Correspondent instances are isolated", "statement": "Processing a message from one instance tag does not change the session state of any other instance tag.", "quantifier": "every state, every message and every pair of instances", "why_tests_cant": "histories unbounded", "anchors": ["src/session.rs: Session::receive"]}
{"id": "C50", "title": "Instance tags are legal", "statement": "Every instance tag accepted from the network or generated is 0 or at least 256, and 0 is never generated.", "quantifier": "all 2^32 values", "why_tests_cant": "full domain", "anchors": ["src/instancetag.rs"]}
{"id": "C51", "title": "An SMP abort ends the exchange", "statement": "An abort of the Socialist Millionaire Protocol received from the peer resets the own run and is not answered by another message, so two clients never keep exchanging aborts.", "quantifier": "every state of the protocol, OTRv3 and OTRv4", "why_tests_cant": "every state, and an endless exchange is not observable in a finite test", "anchors": ["src/smp.rs: SMPContext::handle", "src/smp4.rs: SMP4Context::handle"]}
{"id": "C52", "title": "A restarted client is the same client", "statement": "Creating an account with a host that stores a properly signed client profile restores exactly that profile and its instance tag; otherwise a new profile with the host's keys, a fresh tag and an expiration one week ahead is created and handed to the host. Creating the account again, at any later time, yields the same instance tag and profile, and the stored profile is not replaced.", "quantifier": "all hosts (stored bytes and keys), clocks, random draws, account names and policies", "why_tests_cant": "The stored bytes must round-trip through signing, encoding, decoding and validation for every key, tag and time; tests use a few keys.", "anchors": ["src/session.rs: Account::new, Account::restore_clientprofile, Account::generate_clientprofile", "src/clientprofile.rs: ClientProfile::new, ClientProfile::sign, ClientProfilePayload::decode", "src/instancetag.rs: random_tag"]}
{"id": "C53", "title": "Sessions of an account are independent", "statement": "After any history of calls on an account, the session with each correspondent is in the state that the calls for that correspondent alone (and the account-wide expirations) lead to; calls for one correspondent never affect the session with another.", "quantifier": "all histories of calls on an account, all addresses", "why_tests_cant": "Interleavings of calls for any number of correspondents are unbounded.", "anchors": ["src/session.rs: Account::session, Account::expire"]}
{"id": "C54", "title": "EdDSA signatures of a key pair verify", "statement": "A signature made with an identity key pair is accepted under its public key for the signed text, except in the negligible cases of an identity point or a zero scalar, which are always refused; signing itself never fails.", "quantifier": "all seeds and messages, any curve with the group laws", "why_tests_cant": "Holds for every key and message only by the group law of the curve and the encoding of points and scalars.", "anchors": ["src/crypto.rs: ed448::EdDSAKeyPair::sign, ed448::validate, ed448::EdDSAKeyPair::generate"]}
{"id": "C55", "title": "Two sessions, end to end", "statement": "When one user sends a query message and every answer is delivered, in fragments of any size, both sessions become encrypted with each other, with the same session identifier, and both users are told so. From then on every message of a user that arrives is shown to the other user exactly as entered (without NUL bytes), in one piece, or is reported as unreadable to both; when the users take turns (OTRv3), or one speaks at a time (OTRv4), it is always shown (in OTRv4 unless a freshly generated Diffie-Hellman key happens to equal the sender's last one). Losses, other clients and refused messages do not change this.", "quantifier": "all pairs of sessions with any history, all accounts, keys, random values, message sizes and texts, every order of sending, loss and arrival, and any interleaved calls that concern other clients", "why_tests_cant": "Composes negotiation, fragmentation, wire format, key exchange, key rotation and message protection on both sides over an unbounded conversation; tests cover a few fixed dialogues.", "anchors": ["src/session.rs: Session::query, Session::receive, Session::send, Instance::handle", "src/ake.rs: AKEContext", "src/dake.rs: DAKEContext", "src/protocol.rs: EncryptedOTR3State, EncryptedOTR4State", "src/fragment.rs: fragment, Assembler::assemble"]}
{"id": "C56", "title": "A query message is always answered", "statement": "Whenever a query message for an allowed version arrives, the client answers it with the first message of a key exchange, as a new session would, whatever happened in the session before.", "quantifier": "all session histories, query messages, policies and random values", "why_tests_cant": "The answer depends on state left behind by every earlier exchange; tests query fresh sessions.", "anchors": ["src/session.rs: Session::receive, Session::initiate", "src/dake.rs: DAKEContext::initiate, DAKEContext::transfer", "src/ake.rs: AKEContext::initiate"]}
{"id": "C57", "title": "Users who start at the same time get a session", "statement": "When both users send a query message before they have seen the other's, and all messages are delivered, both end up in an encrypted session with the same session identifier.", "quantifier": "all pairs of new sessions, keys, random values and message sizes", "why_tests_cant": "Depends on how the messages of two concurrent key exchanges cross; tests run one exchange at a time.", "anchors": ["src/session.rs: Session::receive, Instance::adopt_ake_context, Instance::adopt_dake_context", "src/ake.rs: AKEContext::handle_dhcommit, AKEContext::handle_dhkey", "src/dake.rs: DAKEContext::handle_identity, DAKEContext::handle_auth_r"]}
{"id": "C58", "title": "Recorded key-exchange messages cannot restart a session", "statement": "A message that already completed a key exchange does not start a session when it arrives again.", "quantifier": "all histories, all messages, all points in time of the replay", "why_tests_cant": "Quantifies over every later state of the session in which a recorded message may be delivered again.", "anchors": ["src/dake.rs: DAKEContext::handle_auth_r, DAKEContext::handle_auth_i", "src/ake.rs: AKEContext::handle_dhkey, AKEContext::handle_signature", "src/session.rs: Session::receive, Instance::handle"]}
{"id": "C59", "title": "A key stream never encrypts two texts", "statement": "No two texts that a client sends are ever encrypted under the same key and counter, whatever messages arrive in between.", "quantifier": "all histories of a session, all texts, all messages from the network", "why_tests_cant": "A reuse shows only when an attacker chooses what is delivered and when; it must be excluded for every schedule.", "anchors": ["src/session.rs: Session::send, Instance::handle", "src/keymanager.rs: KeyManager::take_counter, KeyManager::new", "src/crypto.rs: otr4::DoubleRatchet", "src/dake.rs: DAKEContext::handle_auth_i", "src/ake.rs: AKEContext::transfer"]}
{"id": "C60", "title": "The keys of a conversation follow from its messages", "statement": "Whenever a session is encrypted with a client, its keys are those agreed in the latest completed key exchange with that client, advanced by exactly the data messages that the calls since then sent, accepted or refused, in that order.", "quantifier": "all histories of calls of a session, all correspondents' clients, both protocol versions", "why_tests_cant": "A call that loses, repeats or mixes up a key update for one of many correspondents shows only in later messages of particular histories; tests exercise a few.", "anchors": ["src/session.rs: Session::send, Session::receive, Instance::handle", "src/protocol.rs: ProtocolState, EncryptedOTR3State, EncryptedOTR4State", "src/keymanager.rs: KeyManager", "src/crypto.rs: otr4::DoubleRatchet"]}
{"id": "C61", "title": "No message is shown twice", "statement": "A data message whose text the session has delivered to the host is not delivered again when the network repeats it.", "quantifier": "all histories of calls, all messages from the network and all points at which they are repeated", "why_tests_cant": "An attacker chooses what to repeat and when, including repeated key-exchange messages; it must hold for every schedule.", "anchors": ["src/session.rs: Session::receive", "src/protocol.rs: EncryptedOTR3State::decrypt_message, EncryptedOTR4State::decrypt_message", "src/keymanager.rs: KeyManager::verify_counter", "src/dake.rs: DAKEContext::handle_auth_i"]}
{"id": "C62", "title": "Every change of status is told", "statement": "A conversation with a client changes between plaintext, encrypted and finished only in a call whose answer names the change and the client (or in the call that expires idle conversations); and an answer that names such a change is true of the status that can be queried before and after.", "quantifier": "all histories of calls, all calls and arguments, all messages from the network, all clients", "why_tests_cant": "A silent fall back to plaintext, or a report about the wrong client, depends on the history and on messages an attacker chooses.", "anchors": ["src/session.rs: Session::receive, Session::end, Session::status, Session::expire", "src/lib.rs: UserMessage", "src/protocol.rs: ProtocolState"]}
{"id": "C63", "title": "Messages for the transport fit its limit", "statement": "Every message that a call injects or returns for sending is at most as long as the message size given by the host, apart from the fixed texts of queries and error messages.", "quantifier": "all histories, all calls, all message sizes, all texts and messages from the network", "why_tests_cant": "Whether the last fragment, a header or a message with the greatest encoding still fits depends on every length involved.", "anchors": ["src/session.rs: Session::send, Instance::handle, Session::query", "src/fragment.rs: fragment", "src/host.rs: Host::message_size"]}
{"id": "C64", "title": "SMP success is reported only after a complete verified run in the current conversation", "statement": "When a session reports that the Socialist Millionaire Protocol with a client succeeded, then since the current conversation with this client began the user started or answered a run, all its messages were delivered in data messages of this conversation, in order, with good proofs, and the two secrets agreed.", "quantifier": "all histories of calls, all messages from the network, both protocol versions, both roles", "why_tests_cant": "A verdict left over from an earlier run or conversation, or from another client, shows only in particular histories.", "anchors": ["src/session.rs: Session::receive, Session::start_smp, Session::abort_smp, Instance::handle", "src/smp.rs: SMPContext", "src/smp4.rs: SMP4Context", "src/protocol.rs: EncryptedOTR3State, EncryptedOTR4State"]}
{"id": "C65", "title": "The session identifier is constant in a conversation", "statement": "From the call that reports the start of a conversation until the next such report or its end, the session identifier that the host can query for this client does not change.", "quantifier": "all histories of calls, all messages from the network, both protocol versions", "why_tests_cant": "Users compare the identifier at one moment and rely on it later; every call and message in between matters.", "anchors": ["src/session.rs: Session::ssid", "src/protocol.rs: EncryptedOTR3State, EncryptedOTR4State", "src/smp.rs: SMPContext", "src/smp4.rs: SMP4Context"]}
{"id": "C66", "title": "Only listed causes crash the receiver", "statement": "If handling a received payload crashes the process, then the payload is one of the listed ones (a fragment number above 65535 or an exhausted assembler, a query or whitespace tag without versions, a zero scalar in an OTRv4 key exchange or SMP message, equal keys, an all-zero OTRv4 authenticator, exhausted 32-bit or 64-bit counters, the end of an OTRv3 exchange during an OTRv4 conversation, a ring that contains the own key twice, challenges that add up to zero), or a random value or hash is exceptional (zero), or the host has no DSA key or allows too small messages. The payloads that others can make at will do crash the process.", "quantifier": "all histories of calls, all payloads, all host answers and random values", "why_tests_cant": "The absence of further crashes is a statement about every payload in every reachable state.", "anchors": ["src/session.rs: Session::receive, Instance", "src/fragment.rs: parse, Assembler", "src/encoding.rs: parse", "src/dake.rs: DAKEContext", "src/protocol.rs: EncryptedOTR3State, EncryptedOTR4State", "src/crypto.rs: ed448::RingSignature"]}
{"id": "C67", "title": "Only listed causes crash a caller", "statement": "If a call of the session API other than receiving crashes the process, then the conversation concerned has used up its key identifiers or message numbers (or the peer has announced the own key), or a random value or hash is exceptional, or the host made one of these mistakes: sending a text that is empty but for NULs in an OTRv3 conversation, initiating a version other than 3 and 4 or with a tag between 1 and 255, starting SMP with a question above 64000 bytes or (OTRv3) without a DSA key, allowing too small messages. An empty text in OTRv3, another version, and a question of 65536 bytes or more do crash.", "quantifier": "all histories of calls, all calls and arguments, all host answers and random values", "why_tests_cant": "The absence of further crashes is a statement about every call in every reachable state.", "anchors": ["src/session.rs: Session::send, Session::initiate, Session::end, Session::start_smp, Session::abort_smp, Account::expire", "src/protocol.rs: EncryptedOTR3State::encrypt_message", "src/encoding.rs: OTREncoder::write_tlv"]}
{"id": "C68", "title": "A private conversation rests on an authenticated exchange with the peer", "statement": "If a session reports the start of a conversation with client t, then the message that caused it came from t, was addressed to this client and has an allowed version, and it completes an exchange of messages all of which this session sent to t (or offered to all clients) or received from t earlier; in this exchange the peer proved ownership of the key that the conversation records (OTRv3: the DSA key signed both public keys; OTRv4: the identity key of the peer's profile, or a forger with an own key of this client, signed every message of the exchange and both names), and the conversation's keys are those of the exchange. Every private conversation at any later time goes back to such a start and keeps its session identifier.", "quantifier": "all histories of calls of a session with any number of clients, all payloads (fragmented or not), all random values and host answers", "why_tests_cant": "It relates the report to everything that was sent and received before, for every interleaving of exchanges with several clients.", "anchors": ["src/session.rs: Session::receive, Instance::handle", "src/ake.rs: AKEContext", "src/dake.rs: DAKEContext", "src/protocol.rs: secure"]}
{"id": "C69", "title": "A profile counts only for the client that owns it", "statement": "If a session reports an OTRv4 conversation with client t, then the profile received in the exchange names t as its owner.", "quantifier": "all histories of calls of a session, all payloads, all random values and host answers", "why_tests_cant": "It must hold for every message an intermediary can make from recorded ones.", "anchors": ["src/dake.rs: DAKEContext::handle_auth_r, DAKEContext::handle_identity", "src/clientprofile.rs: ClientProfilePayload::validate", "src/session.rs: Instance::handle"]}
{"id": "C70", "title": "A verification in the middle of a conversation tells both users whether their secrets agree", "statement": "Two sessions go through the key exchange; their users talk, and verify each other with a question and a secret as often as they like. Whenever a user starts a verification and the other user's host answers, both users are told the same verdict about each other: success if and only if the answer stands for the same number as the secret (in particular if it is the same secret), failure otherwise; nothing else is reported, and no message is sent after the fourth. The texts that follow are shown as before.", "quantifier": "all pairs of accounts and policies that permit the version, all conversations with any number of texts and verifications before (OTRv3: in turns; OTRv4: one speaker at a time, with lost messages), all secrets, questions, answers, message sizes and random values", "why_tests_cant": "It composes the key exchange, the key rotation, the fragments and the zero-knowledge proofs over unboundedly long conversations and all secrets.", "anchors": ["src/session.rs: Session::start_smp, Session::receive", "src/smp.rs: SMPContext", "src/smp4.rs: SMP4Context", "src/protocol.rs: EncryptedOTR3State, EncryptedOTR4State"]}
{"id": "C71", "title": "Users are shown nothing but what the peer's user said, in that order, each text at most once", "statement": "Two sessions go through the key exchange. From then on an attacker controls the network: each session gets any calls with any messages, repeated, reordered, dropped, changed or made up. If each client accepts only data messages that the other client wrote (no forgeries), then every message is read as what was written in it, and the texts that each user is shown are some of the texts that the other user sent, in the order in which they were sent, each at most once, without additional records.", "quantifier": "all pairs of accounts and policies that permit the version, all sequences of calls of both sessions (also concerning other clients) in which the conversation is not replaced, all payloads, texts, random values and host answers", "why_tests_cant": "It must hold for every schedule of an attacker and every length of the conversation.", "anchors": ["src/session.rs: Session::receive, Session::send", "src/protocol.rs: EncryptedOTR3State, EncryptedOTR4State", "src/keymanager.rs: KeyManager, DoubleRatchet"]}
{"id": "C72", "title": "When a user ends a conversation, both sides leave it", "statement": "Two sessions go through the key exchange and their users talk. When one user ends the conversation, that user is told so and the session is in plaintext for this peer; when the farewell arrives, possibly after other messages and losses and while the peer goes on writing, the peer's user is told that the session has finished and the peer's session refuses to send until the user acts. A conversation that the client ends because it was idle ends the same way.", "quantifier": "all pairs of accounts and policies that permit the version, all conversations with lost messages before and during the farewell, both directions, all texts, message sizes, clock values and random values", "why_tests_cant": "Whether the farewell can be read depends on the key rotation, hence on the whole history of the conversation and on what crosses it on the network.", "anchors": ["src/session.rs: Session::end, Session::expire, Session::receive", "src/protocol.rs: EncryptedOTR3State::finish, EncryptedOTR4State::finish, EncryptedOTR4State::expire, FinishedState", "src/keymanager.rs: KeyManager, DoubleRatchet"]}
{"id": "C73", "title": "A conversation is finished for a user only if the peer's client ended it", "statement": "Two sessions go through the key exchange; from then on an attacker controls the network, but forges no data message. Whenever a user is told that the peer has finished the conversation, the message that says so is none that the peer's client wrote for its user or for a verification; if it is not forged either, it is the farewell with which the peer's client ended this conversation.", "quantifier": "all pairs of accounts and policies that permit the version, all sequences of calls of both sessions in which the conversation is not replaced, all payloads, texts, random values and host answers", "why_tests_cant": "It must hold for every text that a user can write and every schedule of an attacker.", "anchors": ["src/session.rs: Session::receive, Session::end", "src/protocol.rs: EncryptedOTR3State, EncryptedOTR4State, parse_message"]}
{"id": "C74", "title": "Once a conversation is over, anybody could have made the messages that were accepted in it", "statement": "When the user ends a private conversation, the messages that were sent in it, including the last one, have published a key for every message that was accepted, with which its authenticator can be computed. In OTRv4 they have published exactly these keys, one per accepted message in the order of acceptance, also if the conversation expires; keys published earlier are a first part of them, and what is accepted after a key was published belongs to a later ratchet than everything accepted before. In OTRv3 no key is published before a message authenticated with it came in.", "quantifier": "all histories of a session from its creation on, all conversations in it, all messages received, random values and host answers", "why_tests_cant": "Keys are queued, moved and published at different times depending on rotations, replays and refusals; that none is missed must hold for every order of events.", "anchors": ["src/session.rs: Session::end, Session::expire", "src/protocol.rs: EncryptedOTR3State, EncryptedOTR4State", "src/keymanager.rs: KeyManager", "src/crypto.rs: DoubleRatchet"]}
{"id": "C75", "title": "Texts and secrets reach the network only encrypted and hashed", "statement": "In a private conversation, the messages that sending a text puts on the network, and the session afterwards, could be those of any other text of the same length: replacing the key stream of the cipher for a single key and nonce explains the difference. The text does not stay in the session. Starting a comparison of secrets (SMP) sends the same messages whatever the secret is, and a secret, given by the user or as an answer, is otherwise used only through its hash: another one with the same hash gives the same messages, state and results.", "quantifier": "all sessions, both protocol versions, all texts, secrets, answers, received payloads, random values and cipher functions", "why_tests_cant": "That a value does not leak is a statement about two runs for all values; a test sees only one.", "anchors": ["src/session.rs: Session::send, Session::start_smp, Session::receive", "src/protocol.rs: prepare", "src/smp.rs", "src/smp4.rs"]}
{"id": "C76", "title": "Secrets leave the session once they are used", "statement": "Keys that are no longer needed are gone from the session, so that recorded messages cannot be read with what it holds later. The recorded traffic of an ended conversation does not make the session show its texts again. After the end of a conversation nothing of its keys is left. In OTRv4 the key of a text that was sent or read is replaced by the next one, and with the first text after one of the peer the previous key pair, its shared secret and (every third time) the 3072-bit key pair are gone. In OTRv3 a key pair is gone when the peer uses the next one.", "quantifier": "all sessions and histories, all texts, keys, received payloads and random values", "why_tests_cant": "Absence of a secret from a state means that states which differ in it become equal, for all values of it.", "anchors": ["src/session.rs: Session::end, Session::send, Session::receive", "src/instancetag.rs", "src/ake.rs: AKEContext", "src/dake.rs: DAKEContext", "src/crypto.rs: DoubleRatchet", "src/keymanager.rs: KeyManager"]}
{"id": "C77", "title": "A session keeps an entry for the clients it has heard of, and not for more than a bounded number", "statement": "The clients that a session lists are precisely those from which a fragment or message got through (well-formed, of an allowed version, with a legal sender tag, for this client or for any), and those with which the user started a conversation. Without the user's knowledge others cannot make the session store more than a bounded number of entries.", "quantifier": "all histories of a session from its creation on, all tags, payloads and host answers", "why_tests_cant": "It ranges over every sequence of received payloads, including the ones no test author thinks of as traffic.", "anchors": ["src/session.rs: Session::instances, Session::receive, Session::initiate", "src/fragment.rs: Fragment, verify"]}
{"id": "C78", "title": "The key numbers announced in the OTRv3 key exchange are the ones used", "statement": "In the OTRv3 key exchange each party announces the number of its Diffie-Hellman key. After the conversation has started, messages to the peer are sent to the key number it announced, and messages from the peer under that number are accepted.", "quantifier": "all histories before the start of the conversation, all peers (also those of another implementation), all announced numbers, all messages and host answers", "why_tests_cant": "Tests run this library against itself, which always announces number 1; the property is about every number a peer may announce.", "anchors": ["src/ake.rs: AKEContext::handle_reveal_signature, AKEContext::handle_signature, CryptographicMaterial", "src/protocol.rs: IState::secure", "src/keymanager.rs: PublicKeyRotation::select"]}
{"id": "C79", "title": "The built-in groups are what the protocols need", "statement": "The Diffie-Hellman moduli, generators and orders, and the prime, order, coefficient and base point of the curve that are written in the code satisfy every condition that the guarantees of the protocols rest on: sizes, p = 2q + 1, a generator of order q, a base point on the curve of order q, a coefficient that makes the addition law complete.", "quantifier": "all conditions on the groups that the other properties assume; whatever the hash functions, ciphers and signature scheme", "why_tests_cant": "A test exercises a few group elements; a generator of the wrong order or an incomplete addition law shows only on inputs that no test hits.", "anchors": ["src/crypto.rs: dh::MODULUS, dh::GENERATOR, dh::Q, ed448::G, ed448::P, ed448::Q, ed448::D, dh3072::P, dh3072::Q, dh3072::G3"]}
{"id": "C80", "title": "Everything a session sends is in the documented layout", "statement": "Whatever the user calls and whatever arrives, everything a session hands to the transport is one of these: the text that asks for a conversation, the error text about an unreadable message, a message from the session's own instance tag in the documented byte layout (version, type, tags, then the fields of that type, in Base64 between '?OTR:' and '.'), whole or in numbered pieces in the documented fragment layout, or the user's own text outside a private conversation, possibly behind the documented whitespace mark. The layout determines the bytes: integers are big-endian with their width, numbers of variable length have no leading zero bytes.", "quantifier": "all histories, calls, messages, tags, sizes and host answers", "why_tests_cant": "Tests encode and decode with the same code, so a mistake made on both sides, such as a swapped field or a wrong constant, stays unseen; and a few samples cannot show it for every length and every value.", "anchors": ["src/messages.rs: serialize_message, encode_message, EncodedMessage, MessageType", "src/encoding.rs: OTREncoder", "src/fragment.rs: Fragment, OTREncodable for Fragment", "src/clientprofile.rs: ClientProfilePayload, IdentityKey, ForgingKey", "src/session.rs: Session::receive, Session::send, Session::query, Session::expire"]}
{"id": "C81", "title": "A signature is about one exchange, an authenticator about one message", "statement": "If two sessions, of whatever users, report the start of an OTRv4 conversation because of key-exchange messages that carry the same ring signature, then they took part in the same exchange: the profiles, all public keys and the names of the two users are the same; and a signature that served in the one role never serves in the other. If two data messages with the same authenticator are delivered, by the same session or by two, in OTRv3 or in OTRv4, then they were checked with the same key and agree in everything but the old MAC keys that they publish: tags, flag, key or ratchet numbers, next keys, counter and ciphertext. The only way out is that somebody found two different texts, which the statement names, with one hash value.", "quantifier": "all pairs of sessions, histories, messages, profiles, names, keys and cryptographic functions", "why_tests_cant": "That no two different sets of fields are hashed as the same text is a statement about all pairs of inputs; a missing length prefix or an omitted field makes no honest run fail.", "anchors": ["src/dake.rs: DAKEContext::handle_identity, handle_auth_r, handle_auth_i", "src/crypto.rs: ed448::RingSignature, otr4::hwc", "src/messages.rs: encode_authenticator_data, encode_authenticator_data4", "src/protocol.rs: EncryptedOTR3::decrypt, EncryptedOTR4::decrypt"]}
{"id": "C82", "title": "The keys of data messages follow the documented schedule", "statement": "While a session has a private conversation, everything in the data messages that it writes and reads is what an independent client computes from the keys that both sides announced. OTRv3: the first keys are those of the key exchange, each message names its two keys by number and announces the sender's next key; from the D-H secret of the two named keys follow the encryption key, the authentication key and their direction; the ciphertext and the authenticator are computed with these from the text and from all the bytes that precede the authenticator. OTRv4: the key of the exchange gives the first root key; each ratchet mixes in a new ECDH secret and, every third time, a new D-H secret, the two sides take turns, and a message announces the keys of its ratchet; the chain of a ratchet gives the keys of its messages by number. The session identifier comes from the key of the exchange. All hash inputs, usage numbers, lengths and orders are those of the protocol documents.", "quantifier": "all sessions, histories, messages, peers, random numbers and cryptographic functions, both versions, both roles, any number of key changes", "why_tests_cant": "Tests of one implementation against itself pass when both ends derive a wrong key in the same way, and they see only the first few key changes; the statement is about every message after any number of them.", "anchors": ["src/keymanager.rs: KeyManager", "src/protocol.rs: EncryptedOTR3::encrypt_message, decrypt_message; EncryptedOTR4::encrypt_message, decrypt_message", "src/crypto.rs: otr, otr4", "src/ake.rs", "src/dake.rs"]}
{"id": "C83", "title": "Data messages are numbered without gaps", "statement": "In every private conversation the data messages that a session sends, whatever they contain, are numbered so that the peer can tell which ones are missing. OTRv3: under each pair of keys the counters are 1, 2, 3, ..., in the order of sending, and key numbers never decrease. OTRv4: in each ratchet the message numbers are 0, 1, 2, ..., ratchet numbers never decrease, and each message carries the number of messages sent in the sender's previous ratchet.", "quantifier": "all sessions, histories of calls and received messages, random numbers and cryptographic functions", "why_tests_cant": "Counters are reset by key changes that depend on the interleaving of sending, receiving, refused and replayed messages; tests cover a few interleavings.", "anchors": ["src/keymanager.rs: KeyManager::take_counter, reset_counters", "src/crypto.rs: otr4::DoubleRatchet::rotate_sender, rotate_sender_chainkey", "src/protocol.rs: EncryptedOTR3::encrypt_message, EncryptedOTR4::encrypt_message"]}
{"id": "C84", "title": "Clients do not answer each other for ever", "statement": "Receiving a payload makes a session send at most one message, and only if a complete message that can be parsed became available. That answer is a later step of the protocol than the message: a query after an error message, the first message of a key exchange after a query or a tagged text, the next message of the key exchange (or the own first message again, if the two crossed and the own hash is greater), an error message after a data message that cannot be read, or the next message of the Socialist Millionaire Protocol or an abort after a data message that contains one, with nothing else in it and with no other use of the keys. So the answers to a message, the answers to the answers, and so on, come to an end, whichever clients receive them and whatever happened to them before.", "quantifier": "all messages, receiving sessions, histories of calls and received messages, fragmentations, random numbers and cryptographic functions", "why_tests_cant": "A loop of automatic answers needs two clients in particular states; that no such states exist is a statement about all pairs of states, and about chains of any length.", "anchors": ["src/session.rs: Session::receive, Instance::handle, Instance::initiate", "src/smp.rs: SMPContext::handle", "src/smp4.rs: SMP4Context::handle, dispatch", "src/ake.rs: AKEContext::handle_dhcommit", "src/dake.rs: DAKEContext::handle_identity"]}
{"id": "C85", "title": "The order in which clients and sessions are kept makes no difference", "statement": "A session keeps its correspondent's clients, and an account its sessions, in hash maps whose order of iteration is unspecified and may change from call to call. Whatever that order is, every call gives the same answer, sends the same messages and leads to the same session or account; only expire, which concerns all clients, may send the goodbye messages of different clients in another order, each client's messages staying together.", "quantifier": "all sessions and accounts, histories, calls, random numbers, cryptographic functions, and all orders, changing at any time", "why_tests_cant": "The order of a hash map changes from run to run of a test, and a test sees one of them.", "anchors": ["src/session.rs: Session::instances, Session::expire, Session::has_sessions, Account::sessions, Account::expire"]}
{"id": "C86", "title": "Nothing from outside disturbs a private conversation", "statement": "Whatever else happens to a session, a conversation with one client of the correspondent goes on as if it were alone: forged, damaged, replayed or otherwise unreadable messages in the name of that client, offers and unfinished key exchanges with it, messages of other clients and calls about them may be mixed with it in any way, and every call about the client and every genuine message of it gets the same answer, sends the same messages and leads to the same state of the conversation as without them. Only a completed new key exchange with the client, which is reported as a new session, replaces the conversation.", "quantifier": "all sessions and their histories, both versions, all interleavings of any number of outside events with the conversation, all payloads, random numbers, hosts and cryptographic functions", "why_tests_cant": "A test injects a few chosen messages at chosen moments; an attacker picks any bytes at any moment.", "anchors": ["README.md:118", "src/session.rs: Instance::handle, Session::receive, Session::send", "src/protocol.rs: EncryptedOTR3State, EncryptedOTR4State", "src/dake.rs: DAKEContext", "src/ake.rs: AKEContext"]}
{"id": "C87", "title": "A conversation that one side has lost begins anew with the next message", "statement": "When one side of an encrypted conversation has lost it, for instance because its application was started again, the next text that the other user sends is not mistaken for anything: the user of the lost side is told that a message was unreadable and the sender's user that it was not read. If the sender's policy is to start a key exchange on error messages, its session sends a query message by itself, and when the clients go through the key exchange that it starts, both are in the same encrypted session again, although one of them still was in the old one.", "quantifier": "both versions, all conversations of any length, losses and order, either side being the one that is lost, all sessions of that side that are not in the conversation, all texts and fragmentations, all random numbers, hosts and cryptographic functions with the group laws", "why_tests_cant": "A restart can come at any moment of any conversation; a test tries one moment, and mostly with fresh sessions on both sides.", "anchors": ["src/session.rs: Session::receive, Session::send, Session::query, Instance::handle", "src/protocol.rs: PlaintextState::handle, PlaintextState::handle4, FinishedState::handle, FinishedState::handle4", "src/lib.rs: Policy::ERROR_START_AKE"]}
{"id": "C88", "title": "A private conversation can be renewed at any moment", "statement": "At any moment of an encrypted conversation either user may ask for a new key exchange, and may do so any number of times. When the clients go through the exchange, both users are told that a session has started, both clients are in the same encrypted session, and the conversation goes on: each message that arrives is shown to the other user exactly as it was entered, or is refused for both users to see.", "quantifier": "both versions, all conversations of any length, losses and order, with any number of renewals by either side at any moments, all texts and fragmentations, all random numbers, hosts and cryptographic functions with the group laws", "why_tests_cant": "What is left over from the old conversation and from earlier key exchanges when a new one begins depends on the whole history; a test renews a fresh conversation once.", "anchors": ["src/session.rs: Session::query, Session::receive, Session::send, Instance::handle", "src/ake.rs: AKEContext", "src/dake.rs: DAKEContext", "src/protocol.rs: EncryptedOTR3State::secure, EncryptedOTR4State::secure"]}
{"id": "C89", "title": "An ordinary text is enough to begin a private conversation", "statement": "If the policy says so, the first text that a user sends unencrypted carries an invisible tag that offers the preferred version. When it arrives at a client with the policy to react to tags, the other user is shown the text (with a warning if encryption is expected) and the client does exactly what it would do on a query message for that version; when the clients go through the key exchange, both users are told and both clients are in the same encrypted session. A client without that policy shows the text and does nothing else.", "quantifier": "both versions, all histories of both sessions, all policies, all texts without OTR markup in them, all random numbers, hosts and cryptographic functions with the group laws", "why_tests_cant": "The tag depends on everything that was sent before, and the reaction on the policy and on all exchanges and sessions of the receiver; tests try one text between fresh sessions.", "anchors": ["src/session.rs: Session::send, Session::receive, Instance::send, select_version, filter_versions", "src/messages.rs: parse, WHITESPACE_PREFIX", "src/lib.rs: Policy::SEND_WHITESPACE_TAG, Policy::WHITESPACE_START_AKE"]}
{"id": "C90", "title": "The proofs of the OTRv4 key exchange can be denied", "statement": "The signatures with which the two clients prove their identities in an OTRv4 key exchange convince only the peer, because the peer could have made them: with the private key that Bob's client drew for the exchange, and otherwise public values, exactly the Auth-R messages that Alice's client may send can be made, each with the same probability; and with the private key that Alice's client drew, exactly the Auth-I messages that Bob's client may send. In general any two of the three private keys of a ring signature make every signature equally often.", "quantifier": "all profiles, identity and forging keys, names, key exchange states, random values of both clients, all curves with the group laws and all hash functions; all texts and rings of three different keys", "why_tests_cant": "It is a statement about the distribution over all random scalars, about 2^446 for each of seven; a test compares single signatures.", "anchors": ["src/crypto.rs: ed448::RingSignature::sign, RingSignature::validate", "src/dake.rs: DAKEContext::handle_identity, DAKEContext::handle_auth_r"]}
{"id": "C91", "title": "The own keys decide about every secret", "statement": "In a private conversation the peer, or whoever alters the messages, cannot make a client use a secret that does not depend on the client's own key. With every public key of the peer that an OTRv4 conversation uses, in the key exchange and in each ratchet since, own keys that differ modulo the order of the group give different secrets, both on the curve and for the Diffie-Hellman numbers. The same holds for the key of the exchange in OTRv3; it does not hold for the keys which OTRv3 data messages announce: the client accepts the key 1 and encrypts the next message with a key that everybody knows.", "quantifier": "all accounts, all call histories, all received payloads, all random values, all own private keys, all groups of prime order", "why_tests_cant": "The improper keys are a handful among 2^1536 numbers or 2^448 points, and the claim is about every key used at any point of any history and every pair of own keys.", "anchors": ["src/crypto.rs: dh::verify_public_key, dh3072::verify, ed448::verify", "src/crypto.rs: otr4::MixedSharedSecret::new, otr4::MixedSharedSecret::next", "src/keymanager.rs: KeyManager::register_their_key", "src/protocol.rs: EncryptedOTR3State::handle_message, EncryptedOTR4State::handle_message"]}
{"id": "C92", "title": "A message sent in parts is treated like the whole message", "statement": "When a payload completes a message that was sent in fragments, receiving it has the same result as receiving the message in one piece: the same answer to the user, the same messages to the peer, and the same conversations and key exchanges afterwards. A fragment that completes nothing shows nothing, sends nothing and changes no conversation and no key exchange. The fragments of an OTRv4 message may arrive in any order, repeatedly, among other payloads and calls and among the fragments of up to 99 other messages of that client; those of an OTRv3 message must arrive in order without another fragment or message of that client in between. Under these conditions every fragment but the last to arrive is passed over in silence and the last one delivers the message. The fragments that still wait make no difference to any later call or to what the user can ask about a client, apart from the client being listed.", "quantifier": "all accounts, all call histories before and between the fragments, all messages and all ways of cutting them, all orders of arrival, all random values", "why_tests_cant": "The claim compares two behaviours in every state a session can reach, for every message and every interleaving of its fragments with other traffic.", "anchors": ["src/session.rs: Session::receive", "src/fragment.rs: Assembler::assemble, InOrderAssembler::assemble, UnorderedAssembler::assemble, fragment"]}
{"id": "C93", "title": "Long-term private keys are used for nothing but key exchanges", "statement": "Whatever the private parts of a host's DSA key and Ed448 identity key are, every call of the API has the same result, hands the same messages to the network and leaves the same session behind, except when it receives one of the four key exchange messages that are answered with a signature: DH Key and Reveal Signature (OTRv3), Identity and Auth-R (OTRv4). In particular the keys take no part in starting an exchange, in protecting, reading or acknowledging messages, in comparing secrets, and in ending or expiring a conversation. Likewise, what the user would answer to a question plays no part in any call but the receipt of a data message from a client there is a private conversation with.", "quantifier": "all sessions in any state, all calls and sequences of calls, all payloads, all pairs of private keys, all random values", "why_tests_cant": "The claim compares two behaviours for every pair of keys, every state and every call; a test compares a few.", "anchors": ["src/session.rs: Instance::handle, Instance::send, Instance::start_smp, Instance::reset, Instance::expire", "src/lib.rs: Host::keypair, Host::keypair_identity, Host::query_smp_secret"]}
{"id": "C94", "title": "The length a transport allows makes no difference but for the cutting of messages", "statement": "Take two hosts that differ only in the longest message their transport takes. Unless one of them crashes, which happens only when a text the other one sends cannot be sent with its limit, every call of the API leaves the same session behind, reports the same to the user and hands the same texts in the same order to the transport, each of them whole if it is short enough and otherwise in fragments. The same holds for every sequence of calls, also when the limit changes from call to call.", "quantifier": "all sessions in any state, all calls and sequences of calls, all payloads, all pairs of limits, all random values", "why_tests_cant": "The claim compares two behaviours for every state, every call and every pair of limits; a test compares a few.", "anchors": ["src/session.rs: Instance::inject, Instance::prepare_payloads, Instance::send, Session::receive", "src/lib.rs: Host::message_size", "src/fragment.rs: fragment"]}
{"id": "C95", "title": "What a policy says about unencrypted text matters to unencrypted text alone", "statement": "Take a session under two policies that allow the same versions of OTR and differ in whether encryption is required, whether a whitespace tag is added to text, and whether a whitespace tag or an error message starts a key exchange. Every call that neither sends text to a client without a private conversation nor makes unencrypted text or an error message available hands the same messages to the network, returns the same and changes the session in the same way under both. So private conversations, key exchanges, SMP, farewells and expiry do not depend on these options.", "quantifier": "all sessions in any state, all pairs of policies that allow the same versions, all calls and sequences of calls, all payloads, hosts and random values", "why_tests_cant": "The claim compares two behaviours for every state, call and pair of policies; a test compares a few.", "anchors": ["src/session.rs: Session::receive, Session::send, Session::initiate, Session::query, Instance::send", "src/lib.rs: Policy"]}
{"id": "C96", "title": "A signature is accepted exactly if it is good, and cannot be changed into another one", "statement": "An Ed448 signature of a text is accepted under a key exactly if its first half is a point R of the group other than the neutral element, its second half a number s above zero and below the order of the group, and s G = R + k A for the key A and the hash k of R, A and the text. So of all signatures of a text with the same first half at most one is accepted. A client profile that is accepted has such a signature of all its fields under the identity key it contains, and changing the second half of the signature makes it unacceptable.", "quantifier": "all keys, texts, signatures, byte strings and profiles", "why_tests_cant": "A test tries a few signatures; the claim is about every number a signature can contain, including those that only differ by multiples of the order.", "anchors": ["src/crypto.rs: ed448::validate, ed448::verify", "src/clientprofile.rs: ClientProfilePayload::validate"]}
{"id": "C97", "title": "A DSA signature is about the whole text, as a number modulo the order", "statement": "A DSA signature of a text (in OTRv3 the MAC over both public keys, in a client profile the encoded fields) is accepted exactly if DSA verifies it for the text, read as a big-endian number, modulo the order of the key; that number is also what is signed. The text is neither cut nor hashed again, so a signature of one text is a signature of every text that is the same number modulo the order. Every key received from the network has an order of 160 bits.", "quantifier": "all keys, texts, signatures and byte strings", "why_tests_cant": "The claim is about every text and every order; a test signs and verifies a few texts, and would not notice a part of the text that is not covered.", "anchors": ["src/crypto.rs: dsa::prehash, dsa::Keypair::sign, dsa::PublicKey::validate, dsa::PublicKey::from_components", "src/encoding.rs: read_public_key"]}
