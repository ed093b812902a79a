{
 "claims": [
  {
   "property": "C01",
   "status": "proved",
   "theorems": [
    "C01_integers_round_trip",
    "C01_blocks_round_trip",
    "C01_tlvs_round_trip",
    "C01_keys_and_signatures_round_trip",
    "C01_curve_points_round_trip"
   ],
   "note": "All wire primitives of encoding.rs; sizes bounded by the 16/32-bit length fields they are written with."
  },
  {
   "property": "C02",
   "status": "partial",
   "theorems": [
    "C02_readers_never_crash",
    "C02_readers_consume_what_they_return",
    "C02_data_beyond_the_end",
    "C02_scalar_reader_crash",
    "C02_scalar_reader_safe_refuted"
   ],
   "note": "No reader crashes except the Ed448 scalar reader; the crash of that reader is characterised exactly and the full claim is refuted for it. MPIs and public keys accept leading zeros, so only their consumed prefix is stated."
  },
  {
   "property": "C03",
   "status": "proved",
   "theorems": [
    "C03_mpi_canonical",
    "C03_public_key_canonical",
    "C03_fingerprint_collision"
   ],
   "note": ""
  },
  {
   "property": "C04",
   "status": "proved",
   "theorems": [
    "C04_encoded_message_round_trip",
    "C04_accepted_message_stable"
   ],
   "note": ""
  },
  {
   "property": "C05",
   "status": "partial",
   "theorems": [
    "C05_classification_crashes",
    "C05_never_crashes_refuted",
    "C05_plaintext_unchanged",
    "C05_plaintext_only_if_unmarked",
    "C05_error_round_trip"
   ],
   "note": "Total classification with the exact set of crashing shapes; the no-crash clause is false of the code and refuted by witnesses."
  },
  {
   "property": "C06",
   "status": "proved",
   "theorems": [
    "C06_query_round_trip",
    "C06_query_reports_named_versions"
   ],
   "note": ""
  },
  {
   "property": "C07",
   "status": "partial",
   "theorems": [
    "C07_tagged_round_trip_partial",
    "C07_single_version_round_trip",
    "C07_tagged_round_trip_refuted",
    "C07_tagged_sound"
   ],
   "note": "Text restored and single versions reported; false of the code for two versions and for text starting with eight blanks (refuted)."
  },
  {
   "property": "C08",
   "status": "proved",
   "theorems": [
    "C08_base64_lossless"
   ],
   "note": ""
  },
  {
   "property": "C09",
   "status": "proved",
   "theorems": [
    "C09_fragments_fit",
    "C09_fragments_exist"
   ],
   "note": ""
  },
  {
   "property": "C10",
   "status": "proved",
   "theorems": [
    "C10_in_order_reassembly",
    "C10_messages_fragment_safely"
   ],
   "note": "For transports whose messages are at most 250 KiB + header, the receiver's limit for one fragment."
  },
  {
   "property": "C11",
   "status": "proved",
   "theorems": [
    "C11_any_order",
    "C11_fragments_are_valid"
   ],
   "note": "Within the limits of the code, which are spelled out as hypotheses."
  },
  {
   "property": "C12",
   "status": "proved",
   "theorems": [
    "C12_in_order_exact",
    "C12_unordered_exact"
   ],
   "note": ""
  },
  {
   "property": "C13",
   "status": "proved",
   "theorems": [
    "C13_bounded",
    "C13_oldest_dropped",
    "C13_crash_only_at_clock_overflow"
   ],
   "note": "Per correspondent instance; the number of instances is not bounded by the code."
  },
  {
   "property": "C14",
   "status": "proved",
   "theorems": [
    "C14_first_wins",
    "C12_unordered_exact"
   ],
   "note": ""
  },
  {
   "property": "C15",
   "status": "partial",
   "theorems": [
    "C15_round_trip",
    "C15_accepted_fields",
    "C15_malformed_refused",
    "C15_no_crash_partial",
    "C15_no_crash_refuted",
    "C15_in_order_crash"
   ],
   "note": "Round trip and rejection proved; the no-crash clause is false of the code (numbers 65536..99999), refuted by a witness, and the crashing inputs are characterised."
  },
  {
   "property": "C16",
   "status": "proved",
   "theorems": [
    "C16_counters_increase",
    "C16_key_numbers_nonzero"
   ],
   "note": ""
  },
  {
   "property": "C17",
   "status": "partial",
   "theorems": [
    "C17_replay_partial",
    "C17_replay_accepted",
    "C17_replay_refuted"
   ],
   "note": "False of the code for the first message under a pair of keys: accepting it rotates a key, which resets the counter, so it is accepted a second time (proved for every session, and refuted with a witness). From the second accepted message on the counters strictly increase."
  },
  {
   "property": "C18",
   "status": "partial",
   "theorems": [
    "C18_not_early",
    "C18_none_lost",
    "C18_revealed_key_still_accepted",
    "C18_retired_refuted",
    "C18_once_refuted"
   ],
   "note": "Not revealed before a rotation, none lost: proved. \"Retired\" and \"once\" are false of the code: the key is published while it still verifies messages (proved for every session), and a replay makes it be published twice."
  },
  {
   "property": "C19",
   "status": "proved",
   "theorems": [
    "C19_window",
    "C19_keys_never_change",
    "C19_never_zero"
   ],
   "note": ""
  },
  {
   "property": "C20",
   "status": "partial",
   "theorems": [
    "C20_delivered_exactly",
    "C20_arrival_partial",
    "C20_turn_taking",
    "C20_in_sync_refuted"
   ],
   "note": "What is delivered is what was sent, for every schedule with losses; messages are refused only for an old counter; with strict turn taking none is refused. The full claim is false of the code (refuted by a lossless conversation): counters are reset at different times by the two sides."
  },
  {
   "property": "C21",
   "status": "partial",
   "theorems": [
    "C21_delivered_exactly",
    "C21_arrival_partial",
    "C21_one_speaker",
    "C21_in_sync_refuted"
   ],
   "note": "Delivered text is always the sent text; a message that arrives is read unless the receiver already moved to a later ratchet (or a DH key repeats); with one speaker at a time everything is read. The unrestricted property is refuted: messages of the old ratchet that cross a new one are refused."
  },
  {
   "property": "C22",
   "status": "proved",
   "theorems": [
    "C22_accepted_once",
    "C22_stale_refused",
    "C22_later_accepted"
   ],
   "note": ""
  },
  {
   "property": "C23",
   "status": "proved",
   "theorems": [
    "C23_v3_no_effect",
    "C23_v4_no_effect"
   ],
   "note": ""
  },
  {
   "property": "C24",
   "status": "proved",
   "theorems": [
    "C24_each_once",
    "C24_rest_at_end",
    "C24_first_of_ratchet",
    "C24_retired"
   ],
   "note": ""
  },
  {
   "property": "C25",
   "status": "proved",
   "theorems": [
    "C25_expire"
   ],
   "note": "For every history and every timeout; OTRv3 sessions are never idle in the sense of the code."
  },
  {
   "property": "C26",
   "status": "partial",
   "theorems": [
    "C26_agreement",
    "C26_first_keys",
    "C26_restart_refuted"
   ],
   "note": "Agreement for all keys and random values, from every state of the responder but one; the missing state (waiting for a Reveal Signature when the initiator starts again) is refuted: the code keeps the old commitment."
  },
  {
   "property": "C27",
   "status": "proved",
   "theorems": [
    "C27_reveal_proves",
    "C27_signature_proves",
    "C27_commitment_origin",
    "C27_failure_no_effect",
    "C27_no_crash"
   ],
   "note": ""
  },
  {
   "property": "C28",
   "status": "proved",
   "theorems": [
    "C28_one_yields",
    "C28_one_exchange"
   ],
   "note": ""
  },
  {
   "property": "C29",
   "status": "proved",
   "theorems": [
    "C29_agreement",
    "C29_start"
   ],
   "note": ""
  },
  {
   "property": "C30",
   "status": "proved",
   "theorems": [
    "C30_auth_r_proves",
    "C30_auth_i_proves",
    "C30_identity_checked",
    "C30_failure_no_effect"
   ],
   "note": ""
  },
  {
   "property": "C31",
   "status": "partial",
   "theorems": [
    "C31_one_yields",
    "C31_completes_refuted"
   ],
   "note": "Exactly one side keeps its exchange and the other answers: proved. That the exchange then completes is false of the code (refuted): the repeated Identity message makes the other side answer again with new keys, and the two sides end up with different exchanges."
  },
  {
   "property": "C32",
   "status": "partial",
   "theorems": [
    "C32_accepted_again",
    "C32_replay_refuted",
    "C32_auth_r_once"
   ],
   "note": "False of the code for Auth-I, proved for every completed exchange and refuted with a witness; true for Auth-R within one exchange context."
  },
  {
   "property": "C33",
   "status": "proved",
   "theorems": [
    "C33_profile_round_trip",
    "C33_profile_accepted_iff",
    "C33_decoded_profile_is_valid",
    "C33_signed_profile_is_the_profile"
   ],
   "note": ""
  },
  {
   "property": "C34",
   "status": "partial",
   "theorems": [
    "C34_expired_refuted",
    "C34_own_profile_fresh",
    "C34_own_expired_refuted"
   ],
   "note": "False of the code for received profiles (refuted with a witness for both completing messages) and for the stored profile of the own client; holds for a profile at the time it is made."
  },
  {
   "property": "C35",
   "status": "partial",
   "theorems": [
    "C35_equal_secrets_partial",
    "C35_different_secrets",
    "C35_any_question_refuted"
   ],
   "note": "Both sides report success for equal secrets and failure for different ones, for questions without a zero byte; refuted for questions with one (the question is cut off at it and the run fails)."
  },
  {
   "property": "C36",
   "status": "proved",
   "theorems": [
    "C36_success_only_verified",
    "C36_every_message",
    "C36_unexpected_aborts",
    "C36_never_stuck"
   ],
   "note": "Success implies the complete verified run in the history; every message in every reachable state is handled without panic; a new run can always be started or the present one aborted."
  },
  {
   "property": "C37",
   "status": "partial",
   "theorems": [
    "C37_equal_secrets_partial",
    "C37_different_secrets_partial",
    "C37_success_only_verified",
    "C37_every_message_partial",
    "C37_never_stuck",
    "C37_no_crash_refuted",
    "C37_peer_can_crash"
   ],
   "note": "Equal secrets give success and different ones do not, for every non-degenerate random choice; success implies the complete verified run in the history; every message that does not crash the client is handled; a new run can always be started. Refuted: no message crashes the client (a zero scalar does)."
  },
  {
   "property": "C38",
   "status": "proved",
   "theorems": [
    "C38_encrypted",
    "C38_nothing_else",
    "C38_finished",
    "C38_required",
    "C38_stays_private",
    "C38_stays_finished"
   ],
   "note": "Text leaves an encrypted session only as input of the cipher in a data message; refused when finished; with REQUIRE_ENCRYPTION only a query goes out; a private session stays private until the user ends it."
  },
  {
   "property": "C39",
   "status": "proved",
   "theorems": [
    "C39_transparent"
   ],
   "note": "For every history, content and payload."
  },
  {
   "property": "C40",
   "status": "partial",
   "theorems": [
    "C40_at_most_once",
    "C40_policy",
    "C40_text",
    "C40_after_reply_refuted",
    "C40_unaltered_refuted"
   ],
   "note": "At most once per history, only under the policy, text after the tag of the preferred version. Refuted: a tag is sent after the peer replied with plaintext; NUL bytes are removed from the text."
  },
  {
   "property": "C41",
   "status": "partial",
   "theorems": [
    "C41_receive",
    "C41_query",
    "C41_refused",
    "C41_initiate_refuted"
   ],
   "note": "Everything sent in response to received payloads is of a version allowed and offered, OTRv4 preferred. Refuted for the API call initiate, which ignores the policy."
  },
  {
   "property": "C42",
   "status": "partial",
   "theorems": [
    "C42_messages",
    "C42_fragments_partial",
    "C42_senderless_refuted"
   ],
   "note": "Holds for every encoded message and for every fragment with a sender. Refuted for fragments without a sender, which are assembled and processed."
  },
  {
   "property": "C43",
   "status": "partial",
   "theorems": [
    "C43_bookkeeping",
    "C43_legal_refuted",
    "C43_no_crash_refuted"
   ],
   "note": "Holds if initiate is only called with legal tags. Refuted without that condition; refuted: receiving never crashes."
  },
  {
   "property": "C44",
   "status": "partial",
   "theorems": [
    "C44_flagged",
    "C44_delivered_refuted"
   ],
   "note": "Text is never delivered as ordinary text if it has to be flagged, and untagged text is always delivered. Refuted: text after a whitespace tag is lost if starting the key exchange fails."
  },
  {
   "property": "C45",
   "status": "proved",
   "theorems": [
    "C45_confidential",
    "C45_authentic"
   ],
   "note": "For text, disconnects and results of the Socialist Millionaire Protocol."
  },
  {
   "property": "C46",
   "status": "proved",
   "theorems": [
    "C46_end",
    "C46_end_finished",
    "C46_end_again",
    "C46_peer_ends",
    "C46_disconnect",
    "C46_goodbye"
   ],
   "note": "Both ends of ending a session, for every history."
  },
  {
   "property": "C47",
   "status": "proved",
   "theorems": [
    "C47_text_only",
    "C47_text_records",
    "C47_reading"
   ],
   "note": "Composes with C38 (what is encrypted) and C45 (what is delivered)."
  },
  {
   "property": "C48",
   "status": "partial",
   "theorems": [
    "C48_read_or_error",
    "C48_unreadable",
    "C48_only_unreadable",
    "C48_improper_keys_refuted"
   ],
   "note": "Every data message for this client is read and reported or answered by the error reply, and nothing else is. Refuted for OTRv4 data messages whose keys are improper: refused without an error reply."
  },
  {
   "property": "C49",
   "status": "proved",
   "theorems": [
    "C49_state",
    "C49_everything"
   ],
   "note": "Session state, and everything kept about another client."
  },
  {
   "property": "C50",
   "status": "partial",
   "theorems": [
    "C50_messages",
    "C50_fragments",
    "C50_profiles",
    "C50_account",
    "C50_generated",
    "C50_account_zero_refuted"
   ],
   "note": "Tags in accepted messages, fragments, profiles and of accounts are legal; a generated tag is at least 256. Refuted: the tag of an account is never 0 (a stored profile with tag 0 is restored)."
  },
  {
   "property": "C51",
   "status": "partial",
   "theorems": [
    "C51_v3_abort_is_final",
    "C51_v4_abort_resets_partial",
    "C51_v4_refuted",
    "C51_v4_aborts_forever"
   ],
   "note": "Holds for OTRv3. Refuted for OTRv4: an abort is answered by an abort, so two clients exchange them without end."
  },
  {
   "property": "C52",
   "status": "proved",
   "theorems": [
    "C52_restart",
    "C52_profile",
    "C52_created"
   ],
   "note": "For every host with keys that can be encoded; creating an account succeeds for proper keys and a signature that is not degenerate."
  },
  {
   "property": "C53",
   "status": "proved",
   "theorems": [
    "C53_sessions",
    "C53_isolated",
    "C53_expire"
   ],
   "note": "Lifts every property of sessions to the sessions of an account."
  },
  {
   "property": "C54",
   "status": "proved",
   "theorems": [
    "C54_eddsa",
    "C54_signs"
   ],
   "note": "Under the laws of the curve; degenerate signatures (identity point or zero scalar) are refused."
  },
  {
   "property": "C55",
   "status": "proved",
   "theorems": [
    "C55_v3_handshake",
    "C55_v3_shown_or_refused",
    "C55_v3_turns",
    "C55_v4_handshake",
    "C55_v4_shown_or_refused",
    "C55_v4_speaker"
   ],
   "note": "OTRv3 and OTRv4: exchange, delivery, and no refusal when the users take turns (v3) or one speaks at a time (v4)."
  },
  {
   "property": "C56",
   "status": "partial",
   "theorems": [
    "C56_v3",
    "C56_v4_first_partial",
    "C56_v4_deaf",
    "C56_v4_either",
    "C56_refuted"
   ],
   "note": "Holds for OTRv3, and for the first OTRv4 query. False of the code for later OTRv4 queries: they are refused for the rest of the session (proved for every history, and refuted as stated)."
  },
  {
   "property": "C57",
   "status": "partial",
   "theorems": [
    "C57_v3_refuted",
    "C57_v4_refuted",
    "C57_v3_never"
   ],
   "note": "False of the code in both versions, refuted by a complete run with working keys: in OTRv3 no session starts, in OTRv4 two different ones do. Proved for OTRv3: whatever both clients did before and whichever keys they draw, such a start never has an effect."
  },
  {
   "property": "C58",
   "status": "partial",
   "theorems": [
    "C58_v4_auth_i",
    "C58_v4_auth_r",
    "C58_v3",
    "C58_v3_partial",
    "C58_refuted"
   ],
   "note": "False of the code: a recorded OTRv4 Auth-R or Auth-I message, or the last two OTRv3 messages together, start the session again (proved for every history, and refuted as stated). A single OTRv3 message does not."
  },
  {
   "property": "C59",
   "status": "partial",
   "theorems": [
    "C59_v4_reuse",
    "C59_v3_reuse",
    "C59_v4_refuted",
    "C59_v3_refuted",
    "C59_conversation_partial",
    "C59_v4_positions"
   ],
   "note": "False of the code: after the replays of C58 the same key and counter encrypt another text (proved for every history, and refuted as stated). Proved: within one conversation, i.e. as long as no new start is reported, no key and counter (OTRv3) and no position in the key chains (OTRv4) is used for two texts."
  },
  {
   "property": "C60",
   "status": "proved",
   "theorems": [
    "C60_followed"
   ],
   "note": "For every history of a session, both versions."
  },
  {
   "property": "C61",
   "status": "partial",
   "theorems": [
    "C61_v4_order_partial",
    "C61_v4_once_partial",
    "C61_v3_order_partial",
    "C61_v3_twice_partial",
    "C61_v3_refuted",
    "C61_v4_refuted"
   ],
   "note": "False of the code: an OTRv3 message that rotates a key is shown a second time, and an OTRv4 message is shown again after a replayed key exchange (both refuted). Proved: within one conversation an OTRv4 message is shown at most once and an OTRv3 message at most twice; shown OTRv4 texts keep their order."
  },
  {
   "property": "C62",
   "status": "proved",
   "theorems": [
    "C62_changes_told",
    "C62_told_true"
   ],
   "note": "For every history and every call, both directions."
  },
  {
   "property": "C63",
   "status": "partial",
   "theorems": [
    "C63_fits_partial",
    "C63_plaintext_refuted"
   ],
   "note": "Proved for every call except sending while the conversation is not private. False of the code there: the text (with a whitespace tag) is handed on whole (refuted)."
  },
  {
   "property": "C64",
   "status": "proved",
   "theorems": [
    "C64_success_told",
    "C64_verdict_private"
   ],
   "note": "Both versions, both roles. Uses the group laws smp_group and smp4_group (satisfied by the toy instance)."
  },
  {
   "property": "C65",
   "status": "proved",
   "theorems": [
    "C65_ssid_constant"
   ],
   "note": "Both versions."
  },
  {
   "property": "C66",
   "status": "proved",
   "theorems": [
    "C66_causes",
    "C66_fragment",
    "C66_text",
    "C66_authenticator",
    "C66_own_key",
    "C66_zero_challenge",
    "C66_second_start",
    "C66_equal_keys"
   ],
   "note": "All panics of receive in every reachable session are classified; the causes that a peer commands are shown to crash. Uses the group laws groups_sound (satisfied by the toy instance)."
  },
  {
   "property": "C67",
   "status": "proved",
   "theorems": [
    "C67_causes",
    "C67_empty_text",
    "C67_version",
    "C67_question"
   ],
   "note": "All panics of all session calls in every reachable session are classified; the mistakes of the host are shown to crash. Uses groups_sound (satisfied by the toy instance)."
  },
  {
   "property": "C68",
   "status": "proved",
   "theorems": [
    "C68_start_proven",
    "C68_conversation_proven"
   ],
   "note": "Both versions, both roles, any interleaving. Assumes curve_ok and a positive generator (satisfied by the toy instance). The ring signature of OTRv4 admits, by design, forgeries by the owner of the own forging or ephemeral key."
  },
  {
   "property": "C69",
   "status": "partial",
   "theorems": [
    "C69_refuted",
    "C68_start_proven"
   ],
   "note": "False of the code: the owner tag of a profile is never compared with the sender tag. What holds instead is in C68: both owner tags are part of what is signed."
  },
  {
   "property": "C70",
   "status": "proved",
   "theorems": [
    "C70_v3_verdict",
    "C70_v3_same_secret",
    "C70_v3_talk",
    "C70_v4_verdict",
    "C70_v4_same_secret",
    "C70_v4_talk"
   ],
   "note": "Both versions, verification started by either user, after any conversation in turns. Hypotheses: prime groups (smp_group, smp4_group; satisfied by the toy instance), no number in the run that the other side must refuse (legal3, usual_choices) and no repeated fresh key."
  },
  {
   "property": "C71",
   "status": "partial",
   "theorems": [
    "C71_accounts",
    "C71_v4_read",
    "C71_v4_shown",
    "C71_v3_read",
    "C71_v3_shown_partial",
    "C71_v3_refuted"
   ],
   "note": "OTRv4 in full. OTRv3: what is read is what was written and nothing else is shown; order and at-most-once are false of the code (a message delivered twice is shown twice) and refuted. The absence of forgeries is a hypothesis (genuine); it is what the MACs are for (C17, C24)."
  },
  {
   "property": "C72",
   "status": "partial",
   "theorems": [
    "C72_v3_ends",
    "C72_v3_told_partial",
    "C72_v3_turns",
    "C72_v3_refuted",
    "C72_v4_ends",
    "C72_v4_told_partial",
    "C72_v4_speaker",
    "C72_v4_expiry_partial",
    "C72_v4_refuted"
   ],
   "note": "False of the code in both versions (the farewell may be refused without notice, although nothing is lost): refuted. Proved: the user who ends is in plaintext; the other side is told or the farewell is unreadable; it is told if the users took turns (OTRv3) or the user who leaves is the one to speak (OTRv4); also for expired conversations (OTRv4)."
  },
  {
   "property": "C73",
   "status": "proved",
   "theorems": [
    "C73_v4_not_by_text",
    "C73_v4_by_peer",
    "C73_v3_not_by_text",
    "C73_v3_by_peer"
   ],
   "note": "Both versions, both directions. As in C71 the absence of forgeries so far is a hypothesis (genuine); in the second theorem also for the farewell (from_peer)."
  },
  {
   "property": "C74",
   "status": "proved",
   "theorems": [
    "C74_conversation",
    "C74_v4_published",
    "C74_v4_expired",
    "C74_v4_only",
    "C74_v4_retired",
    "C74_v3_only",
    "C74_v3_published"
   ],
   "note": "Both versions. That the account of the conversation exists is C74_conversation. Says nothing about a conversation that the peer ends: no message is sent then."
  },
  {
   "property": "C75",
   "status": "proved",
   "theorems": [
    "C75_text_v3",
    "C75_text_v4",
    "C75_forgotten",
    "C75_secret_started",
    "C75_secret_hashed",
    "C75_answer_hashed"
   ],
   "note": "The model's ciphers are XOR with an arbitrary key stream; that an unknown key stream cannot be guessed is outside the model. Lengths are not hidden."
  },
  {
   "property": "C76",
   "status": "partial",
   "theorems": [
    "C76_v4_refuted",
    "C76_v3_refuted",
    "C76_ended_partial",
    "C76_v4_sent",
    "C76_v4_rotated",
    "C76_v4_rotated_third",
    "C76_v4_read",
    "C76_v3_acknowledged"
   ],
   "note": "The first sentence is false for both versions: C76_v4_refuted, C76_v3_refuted (the secrets of the key exchange stay in the session). The rest is proved. Memory that was freed (zeroize) is not modelled."
  },
  {
   "property": "C77",
   "status": "partial",
   "theorems": [
    "C77_listed_partial",
    "C77_filled",
    "C77_bounded_refuted"
   ],
   "note": "The list of clients is characterised exactly (C77_listed_partial). The bound is false: C77_bounded_refuted; for every n up to the number of legal tags n unfinished fragments of 37 bytes fill n entries (C77_filled)."
  },
  {
   "property": "C78",
   "status": "partial",
   "theorems": [
    "C78_sent_to_one_partial",
    "C78_others_refused_partial",
    "C78_refuted"
   ],
   "note": "False: C78_refuted. The announced number is verified but then ignored; the keys always get number 1: C78_sent_to_one_partial (what is sent), C78_others_refused_partial (what is refused). Conversations between two sessions of this library are covered by C55."
  },
  {
   "property": "C79",
   "status": "partial",
   "theorems": [
    "C79_numbers",
    "C79_groups_partial",
    "C79_order_partial"
   ],
   "note": "Missing: that four numbers are primes and that q times the base point is neutral; these five facts about literals are hypotheses of C79_groups_partial and C79_order_partial (checked with a computer algebra outside Coq only). C79_numbers has no hypothesis."
  },
  {
   "property": "C80",
   "status": "proved",
   "theorems": [
    "C80_message",
    "C80_fragment",
    "C80_record",
    "C80_determined",
    "C80_session"
   ],
   "note": "Layout of messages, fragments, records; every payload of every call; the layout determines the bytes."
  },
  {
   "property": "C81",
   "status": "proved",
   "theorems": [
    "C81_auth_r",
    "C81_auth_i",
    "C81_roles",
    "C81_data3",
    "C81_data4"
   ],
   "note": "Exchanges (OTRv4) and data messages (both versions); equal, or two named texts with one hash value."
  },
  {
   "property": "C82",
   "status": "proved",
   "theorems": [
    "C82_v3",
    "C82_v4",
    "C82_v3_end",
    "C82_v4_end"
   ],
   "note": "Both versions, both roles, any history; constants and layouts literal in SpecSchedule.v."
  },
  {
   "property": "C83",
   "status": "proved",
   "theorems": [
    "C83_exists",
    "C83_v3",
    "C83_v4",
    "C83_v3_end",
    "C83_v4_end",
    "C83_v4_expire"
   ],
   "note": "All data messages sent since the conversation began, and the one that ends it."
  },
  {
   "property": "C84",
   "status": "partial",
   "theorems": [
    "C84_silent",
    "C84_table",
    "C84_partial",
    "C84_refuted"
   ],
   "note": "False of OTRv4 aborts of the Socialist Millionaire Protocol, which are answered by aborts (C84_refuted); proved for every other message."
  },
  {
   "property": "C85",
   "status": "proved",
   "theorems": [
    "C85_call",
    "C85_history",
    "C85_observed",
    "C85_account"
   ],
   "note": "Sessions and accounts; crashing calls at the level of sessions."
  },
  {
   "property": "C86",
   "status": "proved",
   "theorems": [
    "C86_conversation",
    "C86_outside"
   ],
   "note": "A new session completed with the same client ends the comparison; fragments that spoil a reassembly are not covered."
  },
  {
   "property": "C87",
   "status": "proved",
   "theorems": [
    "C87_v3",
    "C87_v4",
    "C87_v3_quiet"
   ],
   "note": "The policy to start a key exchange on error messages is assumed; C87_v3_quiet says what happens without it. OTRv4: the lost side has not answered a query message since it began (see C56)."
  },
  {
   "property": "C88",
   "status": "partial",
   "theorems": [
    "C88_v3",
    "C88_v4_partial",
    "C88_v4_deaf",
    "C88_v4_refuted"
   ],
   "note": "OTRv3 in full. OTRv4: false (C88_v4_refuted, C88_v4_deaf says what happens for every such request); the one request that is answered is covered by C88_v4_partial."
  },
  {
   "property": "C89",
   "status": "proved",
   "theorems": [
    "C89_first_text",
    "C89_as_query",
    "C89_ignored",
    "C89_v3",
    "C89_v4"
   ],
   "note": "For texts without OTR markup in them (see C07)."
  },
  {
   "property": "C90",
   "status": "proved",
   "theorems": [
    "C90_members",
    "C90_both_ways",
    "C90_auth_r",
    "C90_auth_i"
   ],
   "note": "For rings of three keys with different encodings."
  },
  {
   "property": "C91",
   "status": "partial",
   "theorems": [
    "C91_v4",
    "C91_v3_partial",
    "C91_v3_refuted"
   ],
   "note": "OTRv4 in full. OTRv3 for the key of the exchange; for the keys of data messages it is false (refuted)."
  },
  {
   "property": "C92",
   "status": "proved",
   "theorems": [
    "C92_completed",
    "C92_waits",
    "C92_v4",
    "C92_v3",
    "C92_after",
    "C92_seen"
   ],
   "note": "Both versions; when the code panics the states are not compared."
  },
  {
   "property": "C93",
   "status": "proved",
   "theorems": [
    "C93_call",
    "C93_course",
    "C93_answer",
    "C93_answer_course"
   ],
   "note": ""
  },
  {
   "property": "C94",
   "status": "proved",
   "theorems": [
    "C94_call",
    "C94_course",
    "C94_crash"
   ],
   "note": "When one of the two calls crashes the states are not compared; C94_crash says why it crashes."
  },
  {
   "property": "C95",
   "status": "proved",
   "theorems": [
    "C95_call",
    "C95_course"
   ],
   "note": "Sequences of calls: as long as none crashes; single calls: also when they crash."
  },
  {
   "property": "C96",
   "status": "proved",
   "theorems": [
    "C96_accepted_iff",
    "C96_one",
    "C96_profile",
    "C96_profile_one"
   ],
   "note": "For a curve of prime order subgroup as in smp4_group."
  },
  {
   "property": "C97",
   "status": "proved",
   "theorems": [
    "C97_covers",
    "C97_signs",
    "C97_congruent",
    "C97_received_key"
   ],
   "note": ""
  }
 ]
}