{
 "claims": [
  {
   "property": "C01",
   "status": "proved",
   "theorems": [
    "C01_accepted_event_is_next",
    "C01_log_sequence_numbers",
    "C01_state_sequence_number"
   ],
   "note": "For every history from an empty store; identifiers other than Rust's Default identifier, which no text reads as (C00)."
  },
  {
   "property": "C02",
   "status": "proved",
   "theorems": [
    "C02_digest_chain",
    "C02_state_digest"
   ],
   "note": "Digest fields chain; see C10 for what the code does not check about the digest field itself."
  },
  {
   "property": "C03",
   "status": "proved",
   "theorems": [
    "C03_one_inception_first",
    "C03_state_prefix"
   ],
   "note": ""
  },
  {
   "property": "C04",
   "status": "proved",
   "theorems": [
    "C04_empty_commitment_is_final",
    "C04_interaction_changes_nothing_else",
    "C04_keys_of_last_establishment",
    "C04_rotation_matches_commitment"
   ],
   "note": ""
  },
  {
   "property": "C05",
   "status": "proved",
   "theorems": [
    "C05_delegation_is_fixed"
   ],
   "note": ""
  },
  {
   "property": "C06",
   "status": "proved",
   "theorems": [
    "C06_witness_list"
   ],
   "note": ""
  },
  {
   "property": "C07",
   "status": "partial",
   "theorems": [
    "C07_partial",
    "C07_refuted"
   ],
   "note": "Refuted in general (C07_refuted: a rotation may add a witness already in the list); proved when each event adds only new witnesses."
  },
  {
   "property": "C08",
   "status": "partial",
   "theorems": [
    "C08_partial",
    "C08_refuted"
   ],
   "note": "Refuted for rotations (record has the previous event's digest and exchanged witness lists); C08_partial gives the exact content."
  },
  {
   "property": "C09",
   "status": "partial",
   "theorems": [
    "C09_partial",
    "C09_refuted"
   ],
   "note": "Refuted for self-addressing prefixes (prefix only compared with the digest field); C09_partial gives exactly what is checked."
  },
  {
   "property": "C10",
   "status": "partial",
   "theorems": [
    "C10_digest_field_is_never_checked",
    "C10_refuted"
   ],
   "note": "Refuted; C10_digest_field_is_never_checked is the general form of the defect."
  },
  {
   "property": "C11",
   "status": "partial",
   "theorems": [
    "C11_partial",
    "C11_refuted",
    "C11_refuted_digest"
   ],
   "note": "Refuted by the todo!() cases and by the two digest algorithms that abort (C11_refuted_digest); C11_partial characterises exactly the panicking inputs."
  },
  {
   "property": "C12",
   "status": "proved",
   "theorems": [
    "C12_verify_numeric_threshold"
   ],
   "note": ""
  },
  {
   "property": "C13",
   "status": "proved",
   "theorems": [
    "C13_fraction_value",
    "C13_threshold_met",
    "C13_verify_is_sound",
    "C13_verify_weighted_threshold"
   ],
   "note": "Exact rational arithmetic; overflow inside the fraction crate is not modelled."
  },
  {
   "property": "C14",
   "status": "partial",
   "theorems": [
    "C14_partial",
    "C14_refuted"
   ],
   "note": "Refuted; C14_partial gives the exact panic condition."
  },
  {
   "property": "C15",
   "status": "proved",
   "theorems": [
    "C15_more_signatures",
    "C15_order_is_irrelevant"
   ],
   "note": ""
  },
  {
   "property": "C16",
   "status": "proved",
   "theorems": [
    "C16_commitment_is_xor",
    "C16_commitment_order",
    "C16_commitment_satisfied"
   ],
   "note": ""
  },
  {
   "property": "C17",
   "status": "partial",
   "theorems": [
    "C17_distinct_keys_partial",
    "C17_partial",
    "C17_refuted",
    "C17_refuted_many_keys",
    "C17_threshold_partial"
   ],
   "note": "Refuted: a key listed twice cancels out (C17_refuted), and with more keys than digest bits two different duplicate-free selections always share a commitment (C17_refuted_many_keys). Proved for duplicate-free lists whose texts have independent digests, threshold included."
  },
  {
   "property": "C18",
   "status": "partial",
   "theorems": [
    "C18_partial",
    "C18_refuted"
   ],
   "note": "Refuted for zero thresholds; proved for the others."
  },
  {
   "property": "C19",
   "status": "proved",
   "theorems": [
    "C19_acceptance_appends_the_event"
   ],
   "note": ""
  },
  {
   "property": "C20",
   "status": "partial",
   "theorems": [
    "C20_partial",
    "C20_refuted"
   ],
   "note": "Refuted for the computed state after a rejected inception of an unknown identifier; the rest proved in C20_partial."
  },
  {
   "property": "C21",
   "status": "partial",
   "theorems": [
    "C21_logs_replay",
    "C21_partial",
    "C21_refuted"
   ],
   "note": "Refuted (a panic while verifying leaves the event in the log); proved for histories without panics; replaying proved always."
  },
  {
   "property": "C22",
   "status": "proved",
   "theorems": [
    "C22_first_seen_wins",
    "C22_logs_are_append_only"
   ],
   "note": ""
  },
  {
   "property": "C23",
   "status": "proved",
   "theorems": [
    "C23_other_identifiers_untouched",
    "C23_other_states_untouched"
   ],
   "note": ""
  },
  {
   "property": "C24",
   "status": "partial",
   "theorems": [
    "C24_partial",
    "C24_refused",
    "C24_refuted"
   ],
   "note": "Refusal without change proved always; the error kind refuted for unknown identifiers and proved for interactions and non-delegated rotations of known ones."
  },
  {
   "property": "C25",
   "status": "partial",
   "theorems": [
    "C25_delegated_with_seals",
    "C25_partial",
    "C25_refuted"
   ],
   "note": "Refuted for delegated identifiers (stored events lose the source seal); proved for non-delegated logs, and for delegated ones with source seals attached again."
  },
  {
   "property": "C26",
   "status": "proved",
   "theorems": [
    "C26_history",
    "C26_last",
    "C26_state_at_sn"
   ],
   "note": ""
  },
  {
   "property": "C27",
   "status": "proved",
   "theorems": [
    "C27_delegator_anchored_it"
   ],
   "note": ""
  },
  {
   "property": "C28",
   "status": "partial",
   "theorems": [
    "C28_anchor_refuted",
    "C28_refuted",
    "C28_source_digest_is_never_checked"
   ],
   "note": "Refuted: neither the source seal digest nor the anchor's prefix and sn are checked."
  },
  {
   "property": "C29",
   "status": "proved",
   "theorems": [
    "C29_stored_only_if_valid",
    "C29_stored_receipts_are_valid"
   ],
   "note": ""
  },
  {
   "property": "C30",
   "status": "partial",
   "theorems": [
    "C30_receipt_digest_is_never_checked",
    "C30_refuted"
   ],
   "note": "Refuted: the digest of a receipt is never compared."
  },
  {
   "property": "C31",
   "status": "partial",
   "theorems": [
    "C31_partial",
    "C31_refuted"
   ],
   "note": "Refuted: a signature that does not verify is accepted; C31_partial gives the exact condition under which a receipt is stored."
  },
  {
   "property": "C32",
   "status": "partial",
   "theorems": [
    "C32_early_validator_receipt_is_escrowed",
    "C32_early_witness_receipt_is_escrowed",
    "C32_escrowed_receipts_stay",
    "C32_refuted"
   ],
   "note": "Escrowing half proved (and escrow entries are never dropped); promotion once the event arrives refuted."
  },
  {
   "property": "C33",
   "status": "proved",
   "theorems": [
    "C33_nontransferable_signature",
    "C33_transferable_signature"
   ],
   "note": ""
  },
  {
   "property": "C34",
   "status": "partial",
   "theorems": [
    "C34_partial",
    "C34_refuted"
   ],
   "note": "Refuted for delegated identifiers; proved for the others."
  },
  {
   "property": "C35",
   "status": "partial",
   "theorems": [
    "C35_partial",
    "C35_refuted"
   ],
   "note": "Refuted after a rejected inception; C35_partial gives what holds."
  },
  {
   "property": "C36",
   "status": "partial",
   "theorems": [
    "C36_logs_only_grow",
    "C36_logs_replay",
    "C36_partial",
    "C36_refuted"
   ],
   "note": "Attempts are messages or escrow passes. Refuted (the event is stored before it is verified); C36_partial: every stored event is properly signed or is one whose processing was killed or panicked; logs always replay and only grow."
  },
  {
   "property": "C37",
   "status": "partial",
   "theorems": [
    "C37_lost_event_refuted",
    "C37_numbering_refuted",
    "C37_partial",
    "C37_refuted"
   ],
   "note": "Refuted (forked log, lost event, identifier confusion); C37_partial: calls whose subjects the other call does not read, over already numbered identifiers, are serializable under every schedule."
  },
  {
   "property": "C38",
   "status": "proved",
   "theorems": [
    "C38_all_lists_every_entry",
    "C38_empty_identifiers_collide",
    "C38_histories_agree",
    "C38_numbers_are_distinct",
    "C38_numbers_never_change",
    "C38_others_untouched",
    "C38_processing_agrees",
    "C38_push_appends",
    "C38_put_replaces",
    "C38_read_identifiers_are_ok",
    "C38_remove_deletes_equal_entries"
   ],
   "note": "For identifiers that have a text of their own, which includes every identifier read from text; C38_empty_identifiers_collide is the boundary. Includes the refinement of message processing (for all histories) and of histories with escrow passes (when none panics) from the numeric-key store to per-identifier tables."
  },
  {
   "property": "C39",
   "status": "partial",
   "theorems": [
    "C39_append_is_dropped",
    "C39_contains_means",
    "C39_partial",
    "C39_push_keeps",
    "C39_refuted",
    "C39_remove_keeps"
   ],
   "note": "Refuted: append to an existing entry is dropped; proved for absent entries."
  },
  {
   "property": "C40",
   "status": "proved",
   "theorems": [
    "C40_canonical",
    "C40_decode_encode",
    "C40_encoding_shape"
   ],
   "note": ""
  },
  {
   "property": "C41",
   "status": "partial",
   "theorems": [
    "C41_ecdsa_refuted",
    "C41_partial",
    "C41_refuted"
   ],
   "note": "Refuted for ECDSA keys (33 bytes encode to 44 characters, not 47); proved for every other key type."
  },
  {
   "property": "C42",
   "status": "partial",
   "theorems": [
    "C42_key_is_dropped",
    "C42_partial",
    "C42_refuted"
   ],
   "note": "Refuted for keyed Blake2 codes (the key is not in the text); proved for codes without a key."
  },
  {
   "property": "C43",
   "status": "proved",
   "theorems": [
    "C43_signature_round_trip"
   ],
   "note": ""
  },
  {
   "property": "C44",
   "status": "partial",
   "theorems": [
    "C44_partial",
    "C44_refuted",
    "C44_texts_are_unambiguous"
   ],
   "note": "Refuted for ECDSA keys and keyed codes; proved for the others, and texts are unambiguous."
  },
  {
   "property": "C45",
   "status": "partial",
   "theorems": [
    "C45_greater_index_refuted",
    "C45_partial",
    "C45_refuted"
   ],
   "note": "Refuted for indices of 63 and more; proved below."
  },
  {
   "property": "C46",
   "status": "partial",
   "theorems": [
    "C46_partial",
    "C46_refuted"
   ],
   "note": "Refuted; C46_partial gives the exact texts on which each reader panics."
  },
  {
   "property": "C47",
   "status": "proved",
   "theorems": [
    "C47_sn_distinct",
    "C47_sn_round_trip"
   ],
   "note": ""
  },
  {
   "property": "C48",
   "status": "partial",
   "theorems": [
    "C48_count_round_trip_partial",
    "C48_kind_E_refuted",
    "C48_kinds",
    "C48_last_est_count_panics",
    "C48_reader_complete",
    "C48_refuted_from_63",
    "C48_sizes"
   ],
   "note": "Refuted: counts from 63 to 4095 are written as another count, last-establishment counts panic, kind E is written as D; proved below 63, and the reader is right for every count."
  },
  {
   "property": "C49",
   "status": "partial",
   "theorems": [
    "C49_attachment_round_trip_partial",
    "C49_frames_refuted",
    "C49_last_est_refuted",
    "C49_many_signatures_refuted",
    "C49_reader_complete",
    "C49_text_unambiguous",
    "C49_written_as_specified"
   ],
   "note": "Refuted for non-empty frames, last-establishment groups and counts or indices of 63 and more; proved for the others, and the reader is right for every attachment the format can carry."
  },
  {
   "property": "C50",
   "status": "partial",
   "theorems": [
    "C50_flat_groups_no_panic",
    "C50_frame_leftover_panics",
    "C50_no_panic_partial",
    "C50_prefix_parsers_no_panic",
    "C50_unimplemented_codes_panic"
   ],
   "note": "Refuted: unimplemented codes and frames that do not parse to their end panic; proved that a panic only comes from such texts."
  },
  {
   "property": "C51",
   "status": "partial",
   "theorems": [
    "C51_large_sizes_refused",
    "C51_version_round_trip_partial"
   ],
   "note": "Refuted for sizes from 65536 to 16777215; proved for sizes up to 65535."
  },
  {
   "property": "C52",
   "status": "partial",
   "theorems": [
    "C52_bada_order_partial",
    "C52_bare_key_refuted",
    "C52_never_dropped",
    "C52_replacement",
    "C52_transferable_repliers_partial"
   ],
   "note": "Refuted for repliers that are transferable keys (C52_bare_key_refuted: a reply under rotated keys is replaced by one signed with the rotated-out inception key). Proved over all histories for replies signed in the same manner, in particular for every replier that is not a bare key; replacement and never-dropped are proved in full."
  },
  {
   "property": "C53",
   "status": "proved",
   "theorems": [
    "C53_latest_wins",
    "C53_one_per_route",
    "C53_refusal_changes_nothing"
   ],
   "note": "In every reachable store each subject has at most one accepted reply per route; an acceptance replaces exactly the reply of its route; a refusal changes nothing."
  },
  {
   "property": "C54",
   "status": "partial",
   "theorems": [
    "C54_accepted_reply_is_authentic_partial",
    "C54_rotated_key_refuted",
    "C54_table_is_authentic_partial"
   ],
   "note": "Proved in full except that a bare key which has a log need not be in force (C54_rotated_key_refuted); table contents stay justified by the current logs."
  },
  {
   "property": "C55",
   "status": "partial",
   "theorems": [
    "C55_escrow_grows_refuted",
    "C55_overtaken_never_accepted",
    "C55_pass_adds_no_other_reply_partial",
    "C55_pass_removes_only_settled_partial",
    "C55_passes_double_the_escrow",
    "C55_stale_notice_stays_refuted"
   ],
   "note": "Refuted: n passes over unresolvable replies multiply the escrow by 2^n (C55_passes_double_the_escrow), and a notice overtaken by the log, which provably can never be accepted, stays (C55_stale_notice_stays_refuted). Proved: a pass brings in no other reply and takes out only accepted, badly signed or superseded ones."
  },
  {
   "property": "C56",
   "status": "partial",
   "theorems": [
    "C56_decimal_as_hex_refuted",
    "C56_no_delegator_refuted",
    "C56_no_next_keys_refuted",
    "C56_numbers",
    "C56_survivors_partial"
   ],
   "note": "Refuted: numbers are written in decimal and read in hexadecimal, a notice without delegator cannot be read, one without next keys panics. Proved: exactly which numbers and notices survive (numbers below ten). The symmetric parts of the codec are taken as identity."
  },
  {
   "property": "C57",
   "status": "proved",
   "theorems": [
    "C57_contents",
    "C57_json_events_are_accepted",
    "C57_own_events_are_accepted"
   ],
   "note": "For a controller with sound key pairs whose events serialize; randomness and clock are arguments; others may use the store in any way except submit events for this identifier."
  },
  {
   "property": "C58",
   "status": "partial",
   "theorems": [
    "C58_own_digest_partial",
    "C58_refuted",
    "C58_state_frozen_forever"
   ],
   "note": "Refuted: after interact with any digest but that of its own last event the key state never moves again (C58_state_frozen_forever); proved for the own digest."
  },
  {
   "property": "C59",
   "status": "partial",
   "theorems": [
    "C59_careful_partial",
    "C59_failed_rotation_changes_keys",
    "C59_refuted"
   ],
   "note": "Refuted: rotate changes the held keys on every failure; proved that a careful controller's rotation does not fail."
  },
  {
   "property": "C60",
   "status": "partial",
   "theorems": [
    "C60_after_rotation_refuted",
    "C60_before_rotation_partial",
    "C60_only_listed"
   ],
   "note": "Listed-witness half proved; that the receipt is signed by the listed key is refuted after a rotation and proved before."
  },
  {
   "property": "C61",
   "status": "partial",
   "theorems": [
    "C61_accepted_receipt_panics",
    "C61_bad_start_drops_everything",
    "C61_logs_partial",
    "C61_refuted"
   ],
   "note": "Refuted: an accepted witness receipt or key-state reply in the stream panics, and a stream whose start does not parse is dropped whole; proved that without panics the logs are those of processing every message."
  },
  {
   "property": "C62",
   "status": "proved",
   "theorems": [
    "C62_answered",
    "C62_authenticated",
    "C62_log_contents",
    "C62_log_exact",
    "C62_reply_route_panics",
    "C62_state_exact"
   ],
   "note": "Over events that serialize; the third query route panics (C62_reply_route_panics)."
  },
  {
   "property": "C63",
   "status": "partial",
   "theorems": [
    "C63_partial",
    "C63_refuted"
   ],
   "note": "Refuted for texts with padding characters; proved for texts without them."
  },
  {
   "property": "C64",
   "status": "proved",
   "theorems": [
    "C64_seed_round_trip"
   ],
   "note": ""
  },
  {
   "property": "C65",
   "status": "partial",
   "theorems": [
    "C65_short_strings_panic",
    "C65_truncated_strings_panic",
    "C65_version_no_panic_partial"
   ],
   "note": "Refuted for short or non-ASCII texts; proved for ASCII texts of at least 16 characters."
  },
  {
   "property": "C66",
   "status": "partial",
   "theorems": [
    "C66_event_refuted",
    "C66_event_round_trip_partial",
    "C66_extra_groups_dropped",
    "C66_receipt_round_trip",
    "C66_reply_round_trip",
    "C66_transferable_receipt_round_trip"
   ],
   "note": "Refuted for key events whose source seal does not go with their kind (exactly those); proved for all others, receipts and replies."
  },
  {
   "property": "C67",
   "status": "partial",
   "theorems": [
    "C67_conversion_panics_partial",
    "C67_refuted"
   ],
   "note": "Refuted; C67_conversion_panics_partial gives the exact condition and C67_refuted bytes that reach it."
  },
  {
   "property": "C68",
   "status": "partial",
   "theorems": [
    "C68_binary_messages_refused",
    "C68_stream_round_trip_partial"
   ],
   "note": "Refuted for binary serializations; proved for JSON messages, for any event codec that reads back what it writes (serde is not modelled)."
  },
  {
   "property": "C69",
   "status": "partial",
   "theorems": [
    "C69_checked_fields_partial",
    "C69_wrong_keys_refuted"
   ],
   "note": "Refuted: keys, threshold, witnesses and delegator of an accepted notice are not compared with the log. Proved: subject, sequence number and last digest are."
  },
  {
   "property": "C70",
   "status": "partial",
   "theorems": [
    "C70_accepted_then_panic",
    "C70_escrowed_then_lost",
    "C70_escrowed_then_panic",
    "C70_second_reply_panics_refuted",
    "C70_storable_replies_partial"
   ],
   "note": "Refuted: after one accepted (escrowed) reply about an identifier without delegator every further authentic reply about it (every escrow pass) panics, and a further escrowed reply erases it. Proved: replies that read back unchanged never spoil the tables and behave as in the idealized model used by C52-C55."
  },
  {
   "property": "C71",
   "status": "proved",
   "theorems": [
    "C71_receipts_of_known_events"
   ],
   "note": "For careful controllers (C57); also for every other store that has the event and the controller's log."
  },
  {
   "property": "C72",
   "status": "partial",
   "theorems": [
    "C72_bytes_determine_event_partial",
    "C72_refuted",
    "C72_same_bytes"
   ],
   "note": "Proved for events whose keys and digests are not empty, with single-digit version numbers and no key inside Blake2; refuted in general (C72_same_bytes gives the four collisions)."
  },
  {
   "property": "C73",
   "status": "partial",
   "theorems": [
    "C73_long_events_misstate",
    "C73_refuted",
    "C73_stated_length_partial"
   ],
   "note": "Proved for texts shorter than 16^6 bytes; refuted for longer ones."
  },
  {
   "property": "C74",
   "status": "partial",
   "theorems": [
    "C74_digest_of_the_text_partial",
    "C74_refuted"
   ],
   "note": "Proved for every event except inceptions whose identifier is a key, for which it is refuted."
  },
  {
   "property": "C75",
   "status": "partial",
   "theorems": [
    "C75_log_text_partial",
    "C75_refuted",
    "C75_sealed_log_lost"
   ],
   "note": "Refuted: from the first event that has a seal the log is lost (C75_sealed_log_lost); proved for logs without seals and with simple configuration traits. CBOR and MessagePack readers and serde_hex are parameters."
  },
  {
   "property": "C76",
   "status": "partial",
   "theorems": [
    "C76_ecdsa_read_as_receipt",
    "C76_event_round_trip_partial",
    "C76_large_messages_refused",
    "C76_receipt_round_trip_partial",
    "C76_refuted"
   ],
   "note": "Refuted: ECDSA keys and messages that state more than 65535 bytes; proved for all readable events and receipts."
  },
  {
   "property": "C77",
   "status": "partial",
   "theorems": [
    "C77_refuted",
    "C77_relay_partial"
   ],
   "note": "Proved for texts whose literals contain no '=' and whose thresholds are finite; refuted by a padded digest and by a threshold over zero."
  },
  {
   "property": "C78",
   "status": "partial",
   "theorems": [
    "C78_node_panics",
    "C78_panics_partial",
    "C78_refuted",
    "C78_short_version_panics"
   ],
   "note": "Refuted: short version strings and prefixes cut short panic, also through Keri::respond; proved that only those two causes exist (stack exhaustion, f64 and the external readers aside)."
  },
  {
   "property": "C79",
   "status": "partial",
   "theorems": [
    "C79_no_confusion_partial",
    "C79_refuted",
    "C79_unreadable_events_become_receipts"
   ],
   "note": "Refuted: every event with a readable head that the event reader refuses is read as a receipt of itself (C79_unreadable_events_become_receipts); proved for readable events."
  },
  {
   "property": "C80",
   "status": "partial",
   "theorems": [
    "C80_log_transfers_partial",
    "C80_refuted",
    "C80_sealed_inception_lost"
   ],
   "note": "Proved for logs of non-delegated events without seals; refuted for sealed events (C80_sealed_inception_lost)."
  },
  {
   "property": "C81",
   "status": "proved",
   "theorems": [
    "C81_catch_up",
    "C81_catch_up_undelegated",
    "C81_offered_in_any_order"
   ],
   "note": "Theorem for any offered sequence and any reachable store; catch-up in rounds for undelegated logs, and for delegated ones when the delegator's log is known and source seals are offered (C81_catch_up)."
  },
  {
   "property": "C82",
   "status": "proved",
   "theorems": [
    "C82_disagreement_is_duplicity"
   ],
   "note": "For nodes on which no call panicked (a panic in the middle of process leaves an unverified event, C21); a difference at the inception event of a self-addressing identifier is two inceptions naming the same identifier (C09)."
  },
  {
   "property": "C83",
   "status": "partial",
   "theorems": [
    "C83_refuted",
    "C83_signed_event_panics",
    "C83_signed_messages_never_processed",
    "C83_whole_messages_partial"
   ],
   "note": "Refuted: no message written by to_cesr whose version string gives the length of its event is processed (C83_signed_messages_never_processed; with signatures first, a panic). Proved for messages whose version string gives the length of the whole message, one per read."
  },
  {
   "property": "C84",
   "status": "partial",
   "theorems": [
    "C84_one_message_partial",
    "C84_partial_write_truncates",
    "C84_pending_write_repeats",
    "C84_refuted",
    "C84_short_read_never_ends",
    "C84_split_message_never_ends",
    "C84_two_messages_in_one_read"
   ],
   "note": "Refuted: short reads and split messages make the handler spin for ever, two messages in one read are an error, a pending write processes the message again, a partial write truncates the answer. Proved for one message per read."
  },
  {
   "property": "C85",
   "status": "proved",
   "theorems": [
    "C85_accepted_exactly_when_allowed",
    "C85_decided_by_two_logs"
   ],
   "note": "Equivalence, over every reachable store, between acceptance and the rules of SpecRules.v, for events whose content can be written out and keys whose weights are fractions; the decision depends on two logs only."
  },
  {
   "property": "C86",
   "status": "partial",
   "theorems": [
    "C86_built_event_says_what_was_asked_partial",
    "C86_inception_prefix",
    "C86_refuted_delegated_witnesses",
    "C86_refuted_inception_seals",
    "C86_refuted_witness_threshold"
   ],
   "note": "Refuted: seals of inceptions and witnesses of delegated events are always dropped, the witness threshold of a built event is always 0 (C86_refuted_*). Everything else is proved."
  },
  {
   "property": "C87",
   "status": "proved",
   "theorems": [
    "C87_commitment_made_by_builder",
    "C87_inception_is_accepted",
    "C87_next_event_is_accepted"
   ],
   "note": "For rotations, interactions, delegated rotations and inceptions built with any settings; the commitment hypothesis is met when the last establishment event was built with those next keys (C87_commitment_made_by_builder). All for the seven digest algorithms that can be computed (see C133)."
  },
  {
   "property": "C88",
   "status": "partial",
   "theorems": [
    "C88_committed_keys_partial",
    "C88_refuted_revealed",
    "C88_refuted_unrevealed"
   ],
   "note": "Refuted twice: repeated keys cancel out, so published committed keys can be padded with an attacker's key (C88_refuted_revealed); 8n keys with independent n-byte digests open every commitment (C88_refuted_unrevealed). Proved for duplicate-free key lists whose texts have independent digests. What the texts say about the threshold itself is C135."
  },
  {
   "property": "C89",
   "status": "partial",
   "theorems": [
    "C89_logs_follow_the_controller_partial",
    "C89_no_two_histories_partial",
    "C89_nothing_from_nowhere"
   ],
   "note": "Proved for histories without panics in which nobody opens a commitment with other keys, thresholds are not zero and, for self-addressing identifiers, no foreign inception is submitted; each restriction corresponds to a refuted property."
  },
  {
   "property": "C90",
   "status": "proved",
   "theorems": [
    "C90_accepted_receipt_is_added",
    "C90_receipt_accepted_exactly_when_allowed"
   ],
   "note": "For validators whose logged events can be written out again and whose weights are fractions (both decidable of the log)."
  },
  {
   "property": "C91",
   "status": "proved",
   "theorems": [
    "C91_reply_accepted_exactly_when_allowed"
   ],
   "note": "Same provisos as C90, for the replier."
  },
  {
   "property": "C92",
   "status": "proved",
   "theorems": [
    "C92_has_receipt",
    "C92_has_receipt_is_sound",
    "C92_log_is_what_was_accepted",
    "C92_receipts_are_what_was_accepted",
    "C92_witness_receipts_are_what_was_accepted"
   ],
   "note": "The log part for histories without panics and events that can be serialized (otherwise refused events stay in the log, C20); the receipt parts for all histories."
  },
  {
   "property": "C93",
   "status": "partial",
   "theorems": [
    "C93_canonical_partial",
    "C93_refuted",
    "C93_version_texts"
   ],
   "note": "Refuted (capital digits, a plus sign, any text after the size). C93_version_texts says exactly which texts are read and as what; C93_canonical_partial says exactly which of them are the written text."
  },
  {
   "property": "C94",
   "status": "partial",
   "theorems": [
    "C94_clock",
    "C94_new_query",
    "C94_new_query_made",
    "C94_node_cannot_send",
    "C94_other_kinds_unchanged",
    "C94_query_answered_as_sent_partial",
    "C94_query_made_is_read",
    "C94_query_round_trip"
   ],
   "note": "The text round trip, the other kinds and new_query (sizes within u16) are proved; sending a signed query is only proved for the text json ++ attachment, because the library's own writer panics on the attachment of a query (C94_node_cannot_send). The premise about times is discharged for chrono's text of every instant of the years 0 to 9999 (C94_clock, C94_query_made_is_read)."
  },
  {
   "property": "C95",
   "status": "partial",
   "theorems": [
    "C95_large_numbers_change",
    "C95_refuted",
    "C95_reply_round_trip_partial",
    "C95_undelegated_unreadable",
    "C95_witness_answer_unreadable"
   ],
   "note": "Refuted: an absent delegator is written as \"\" and not readable (C95_undelegated_unreadable, so no answer of a witness can be read, C95_witness_answer_unreadable), and numbers are written in decimal and read in hexadecimal (C95_large_numbers_change). Proved for delegated identifiers with numbers below ten."
  },
  {
   "property": "C96",
   "status": "partial",
   "theorems": [
    "C96_bad_route_panics",
    "C96_node_panics",
    "C96_panics_partial",
    "C96_refuted"
   ],
   "note": "Refuted: every query or reply whose route begins with /ksn/ and does not go on with an identifier panics (C96_bad_route_panics, C96_node_panics). C96_panics_partial lists all causes."
  },
  {
   "property": "C97",
   "status": "partial",
   "theorems": [
    "C97_key_events_partial",
    "C97_query_type_ignored",
    "C97_receipt_type_ignored",
    "C97_refuted"
   ],
   "note": "Proved for key events (every text). Refuted for the others: a receipt and a query are read whatever type they state (C97_receipt_type_ignored, C97_query_type_ignored)."
  },
  {
   "property": "C98",
   "status": "partial",
   "theorems": [
    "C98_exact_partial",
    "C98_never_too_lenient",
    "C98_ordinary_weights_fit",
    "C98_overflow_panics",
    "C98_refuted"
   ],
   "note": "Refuted: two signers whose denominators have no 64 bit common multiple make a debug build panic before any signature is checked (C98_overflow_panics) and a release build refuse (C98_overflow). Proved for all weights and both builds: never too lenient (C98_never_too_lenient); exact whenever the sums fit 64 bits (C98_exact_partial), which ordinary weights do (C98_ordinary_weights_fit)."
  },
  {
   "property": "C99",
   "status": "proved",
   "theorems": [
    "C99_answer_depends_on_its_events",
    "C99_log_depends_on_its_events",
    "C99_undelegated"
   ],
   "note": "Non-interference over whole histories, for logs, key states and answers."
  },
  {
   "property": "C100",
   "status": "partial",
   "theorems": [
    "C100_bound_is_reached",
    "C100_bounded_partial",
    "C100_bounded_with_passes",
    "C100_one_record_per_message",
    "C100_refuted"
   ],
   "note": "Refuted: every escrow pass can double the store (C100_bound_is_reached for every number of passes). Proved: one record per message without passes, and messages * 2^passes in general."
  },
  {
   "property": "C101",
   "status": "partial",
   "theorems": [
    "C101_accepted_event_later",
    "C101_escrowed_replies_pile_up",
    "C101_event_again_partial",
    "C101_receipts_pile_up",
    "C101_refuted",
    "C101_reply_again_partial"
   ],
   "note": "Refuted: receipts of both kinds and escrowed replies are stored once per delivery (C101_receipts_pile_up, C101_escrowed_replies_pile_up). Proved for key events, accepted or refused, also any time later for accepted ones, and for replies that are not escrowed."
  },
  {
   "property": "C102",
   "status": "proved",
   "theorems": [
    "C102_any_order",
    "C102_runs_end",
    "C102_threads"
   ],
   "note": "without the two conditions it is false: C37_refuted, C37_lost_event_refuted (same identifier), C37_numbering_refuted (new identifiers). A thread goes on after a panic in the model; escrow passes are not among the threads' calls"
  },
  {
   "property": "C103",
   "status": "proved",
   "theorems": [
    "C103_exactly_json",
    "C103_padding",
    "C103_spelling",
    "C103_unambiguous"
   ],
   "note": "against the grammar of SpecGrammar.v; a number has no value in the model because no message reads one (serde_json's overflow of huge exponents is not modelled)"
  },
  {
   "property": "C104",
   "status": "partial",
   "theorems": [
    "C104_received_is_not_signed",
    "C104_refuted"
   ],
   "note": "refuted: the event is serialized again before its signatures are checked, so white space added to any text is accepted and not covered, and the stated size is not compared with the text; C76 is the direction that holds; a run in ReplayTests.v (published_rotation_fails, no theorem): a rotation published by keripy, quoted in the repository's own test_verify (whose body skips it), has signatures that are good for the bytes received and bad for the bytes the library checks (checked with the real Ed25519)"
  },
  {
   "property": "C105",
   "status": "proved",
   "theorems": [
    "C105_event_is_read",
    "C105_object_is_event",
    "C105_one_event",
    "C105_order_and_extras",
    "C105_receipt_exactly"
   ],
   "note": "up to panics of the prefix readers inside seals (C78 says where these come from); the values of prefixes are those of the prefix readers (C40-C48)"
  },
  {
   "property": "C106",
   "status": "partial",
   "theorems": [
    "C106_header_once_partial",
    "C106_last_wins",
    "C106_refuted",
    "C106_version_once_partial"
   ],
   "note": "holds for v, d, i and s (C106_version_once_partial, C106_header_once_partial); refuted for all others, where the last one counts whatever stands before (C106_last_wins)"
  },
  {
   "property": "C107",
   "status": "proved",
   "theorems": [
    "C107_one_message",
    "C107_query_exactly",
    "C107_reply_exactly"
   ],
   "note": "dates are read by the outside function tr (chrono); numbers by hx (C75)"
  },
  {
   "property": "C108",
   "status": "partial",
   "theorems": [
    "C108_key_events_partial",
    "C108_refuted",
    "C108_type_not_read"
   ],
   "note": "holds for key events (C108_key_events_partial); refuted for the other three, which never look at t (C108_type_not_read, C108_refuted)"
  },
  {
   "property": "C109",
   "status": "proved",
   "theorems": [
    "C109_accepted",
    "C109_alphabet",
    "C109_exact",
    "C109_specified_text",
    "C109_unambiguous"
   ],
   "note": "C109_exact, C109_accepted, C109_alphabet, C109_unambiguous; texts with a padding character are outside (some are accepted, see C110_padding_refuted). Found on the way: an ECDSA key is read from 47 characters, 35 bytes"
  },
  {
   "property": "C110",
   "status": "partial",
   "theorems": [
    "C110_one_text_partial",
    "C110_padding_refuted",
    "C110_refuted"
   ],
   "note": "proved for attachments without sequence numbers (C110_one_text_partial); refuted for the others, since eight of the sixteen bytes of a sequence number are not looked at (C110_refuted), and for texts with padding (C110_padding_refuted)"
  },
  {
   "property": "C111",
   "status": "proved",
   "theorems": [
    "C111_cut_short",
    "C111_message_exactly"
   ],
   "note": "for every event reader that reads a beginning of its input; C111_cut_short is the consequence for truncated streams"
  },
  {
   "property": "C112",
   "status": "proved",
   "theorems": [
    "C112_answer"
   ],
   "note": "For answerable streams (events of others and transferable receipts, no panicking message); any other accepted kind panics: C61_accepted_receipt_panics."
  },
  {
   "property": "C113",
   "status": "proved",
   "theorems": [
    "C113_introduction"
   ],
   "note": "Over JSON, for logs without seals (a log with a seal cannot be sent: C75_sealed_log_lost) whose events fit the format; CBOR and MessagePack readers are any readers that refuse text."
  },
  {
   "property": "C114",
   "status": "partial",
   "theorems": [
    "C114_answer_accepted_exactly",
    "C114_over_the_wire_partial",
    "C114_query_panics_exactly",
    "C114_same_log_accepts"
   ],
   "note": "Proved in full for the answer as a value. Over the wire it holds only for delegated identifiers with numbers below ten; for the others C95 shows the text unreadable or changed. The last sentence is false: C114_query_panics_exactly shows the witness panics for identifiers without next keys and for identifiers of which only a failed inception is known."
  },
  {
   "property": "C115",
   "status": "partial",
   "theorems": [
    "C115_notice_never_states_its_size",
    "C115_refuted",
    "C115_reply_states_size_and_digest_partial"
   ],
   "note": "Proved for the reply; false for the notice inside it, which always states zero (C115_notice_never_states_its_size, C115_refuted)."
  },
  {
   "property": "C116",
   "status": "proved",
   "theorems": [
    "C116_bytes_are_values",
    "C116_log_reads_back",
    "C116_read_events_are_storable"
   ],
   "note": "On the byte model of the store (Cbor.v, EventStore.v)."
  },
  {
   "property": "C117",
   "status": "partial",
   "theorems": [
    "C117_anyone_can_destroy_a_log",
    "C117_partial",
    "C117_refuted"
   ],
   "note": "Proved for events that read back (C117_partial). False in general, and severely: for every identifier, an unsigned interaction that continues its log and carries one signature with index 63 (read from the wire, stored as text that does not read back) stays in the log, because the removal after the failed verification cannot read the log either; every later reading of the log panics, for ever (C117_anyone_can_destroy_a_log). A padded digest in a seal does the same while the caller sees an ordinary signature error (C117_refuted)."
  },
  {
   "property": "C118",
   "status": "proved",
   "theorems": [
    "C118_own_events_are_sound",
    "C118_sound_events_travel",
    "C118_strangers_meet"
   ],
   "note": "C118_own_events_are_sound (JSON as written by the code), C118_sound_events_travel, C118_strangers_meet (C113 without conditions on the logs)."
  },
  {
   "property": "C119",
   "status": "proved",
   "theorems": [
    "C119_restart"
   ],
   "note": "Composition of C118 with the byte model of the store (C116)."
  },
  {
   "property": "C120",
   "status": "proved",
   "theorems": [
    "C120_bytes_are_values",
    "C120_read_receipts_are_storable",
    "C120_receipts_read_back"
   ],
   "note": "Lists of receipts read back; processing events and receipts on bytes equals processing them on values (answers, logs, duplicitous events, receipt tables, has_receipt); receipts read from unpadded text are storable."
  },
  {
   "property": "C121",
   "status": "partial",
   "theorems": [
    "C121_accepted_receipt_panics",
    "C121_anyone_can_erase_receipts",
    "C121_partial",
    "C121_refuted"
   ],
   "note": "Proved for messages whose parts read back from their text (C121_partial). Refuted in general (C121_refuted): a witness receipt with wrong signatures and a digest spelled with padding makes the list unreadable, and the next receipt replaces the whole list (C121_anyone_can_erase_receipts); an accepted validator receipt of this kind makes has_receipt panic (C121_accepted_receipt_panics)."
  },
  {
   "property": "C122",
   "status": "proved",
   "theorems": [
    "C122_bytes_determine_event",
    "C122_event_round_trip",
    "C122_logs_of_any_format_transfer",
    "C122_receipt_round_trip"
   ],
   "note": "Events and receipts in both formats are read back whatever follows; signed bytes determine the event; logs with events in either format transfer (log and key state)."
  },
  {
   "property": "C123",
   "status": "partial",
   "theorems": [
    "C123_first_in_cbor_partial",
    "C123_later_cbor_drops_everything",
    "C123_refuted"
   ],
   "note": "Proved when only the first message is in CBOR (C123_first_in_cbor_partial). Refuted in general (C123_refuted): a CBOR message after any other message makes the reader refuse the whole stream and the node ignore even the messages before it (C123_later_cbor_drops_everything)."
  },
  {
   "property": "C124",
   "status": "partial",
   "theorems": [
    "C124_asking_fills_the_store",
    "C124_known_identifiers_partial",
    "C124_questions_disturb_nobody_partial",
    "C124_refused_events_stay_too",
    "C124_refuted",
    "C124_tables_untouched_partial"
   ],
   "note": "All answers and all nine tables are undisturbed (C124_questions_disturb_nobody_partial, C124_tables_untouched_partial), and the whole store when the identifier has a number (C124_known_identifiers_partial). Refuted for others: each question about an unknown identifier leaves a permanent entry (C124_asking_fills_the_store), as does each refused event (C124_refused_events_stay_too)."
  },
  {
   "property": "C125",
   "status": "partial",
   "theorems": [
    "C125_beside_an_event_partial",
    "C125_refused_events_are_relied_on",
    "C125_refused_events_are_seen",
    "C125_refuted",
    "C125_snapshots_partial"
   ],
   "note": "Refuted in general form: any event whose signatures are its only fault can be given out as the state of the identifier (C125_refused_events_are_seen) and a delegated event anchored in it can be accepted for good (C125_refused_events_are_relied_on). What holds: a question never disturbs a message, and it is told exactly what the store says after some number of accesses of the message (C125_snapshots_partial, an equivalence); beside an accepted event that is the truth before or after it (C125_beside_an_event_partial)."
  },
  {
   "property": "C126",
   "status": "partial",
   "theorems": [
    "C126_count_refuses_all",
    "C126_frame_panics",
    "C126_signatures_partial",
    "C126_source_refuses_all"
   ],
   "note": "Damage is always noticed (C127_damage_is_noticed). Refuted otherwise: after damaged signatures everything behind is silently lost (C126_signatures_partial, which also proves that everything before is read and acted upon); a damaged count or source seal has the whole stream refused, earlier messages included (C126_count_refuses_all, C126_source_refuses_all); inside a frame the process aborts when enough follows (C126_frame_panics). Damaged receipt couplets and identifiers of seal groups are covered by C127_damage_is_noticed only."
  },
  {
   "property": "C127",
   "status": "proved",
   "theorems": [
    "C127_damage_is_noticed"
   ],
   "note": ""
  },
  {
   "property": "C128",
   "status": "proved",
   "theorems": [
    "C128_any_manager",
    "C128_box_is_one",
    "C128_own_events_are_accepted"
   ],
   "note": "Any manager that simulates a pair of key pairs; lock step over the whole public interface, and the promise of C57 carried over."
  },
  {
   "property": "C129",
   "status": "partial",
   "theorems": [
    "C129_partial",
    "C129_refuted",
    "C129_wallet_node"
   ],
   "note": "Refuted: rotate looks its new key up by the controller \"next\", the announcement by the identifier \"next\"; another content with that controller may be taken (C129_refuted). Proved when nothing else has that controller, for any enumeration and any number of rotations (C129_partial), and then the node does exactly what a node over the built-in box does (C129_wallet_node)."
  },
  {
   "property": "C130",
   "status": "partial",
   "theorems": [
    "C130_inception_refused",
    "C130_never_usable",
    "C130_partial",
    "C130_refuted"
   ],
   "note": "Refuted: the identifier declares the Ed25519 key to be an ECDSA key, so no inception is ever accepted (C130_inception_refused) and no sequence of own operations ever succeeds (C130_never_usable). The same wallet under new works (C130_partial)."
  },
  {
   "property": "C131",
   "status": "proved",
   "theorems": [
    "C131_every_event_is_logged",
    "C131_hierarchies_live",
    "C131_needs_the_anchor",
    "C131_quorums_decide"
   ],
   "note": "Any tree of parties; liveness by an invariant over all parties; also the exact growth of every log, the refusal without anchor, and that a step succeeds exactly when the signers reach the thresholds of the acting group and of its delegator. Groups of Ed25519 keys of any size, simple or weighted thresholds; nobody else submits events for their identifiers."
  },
  {
   "property": "C132",
   "status": "partial",
   "theorems": [
    "C132_controller_from_seeds",
    "C132_ecdsa_refuted",
    "C132_ed25519_partial",
    "C132_which_seeds",
    "C132_wrong_sizes"
   ],
   "note": "Proved for Ed25519 seeds, up to a controller working with them (C132_ed25519_partial, C132_controller_from_seeds); exactly which seeds give keys (C132_which_seeds). Refuted for secp256k1: the keys sign and verify, but no text of the prefix is ever read (C132_ecdsa_refuted). The curves are parameters with the usual laws as hypotheses."
  },
  {
   "property": "C133",
   "status": "partial",
   "theorems": [
    "C133_comparisons_partial",
    "C133_keys_frozen",
    "C133_partial",
    "C133_refuted",
    "C133_refuted_inception",
    "C133_refuted_receipt",
    "C133_refuted_reply",
    "C133_refuted_rotation"
   ],
   "note": "Refuted: for Blake2b-256 and Blake2s-256 the library aborts, and an unsigned inception (C133_refuted_inception), a rotation after such a commitment (C133_refuted_rotation), a reply signed with any key (C133_refuted_reply) and an unsigned receipt (C133_refuted_receipt) make it compute them. Proved when every digest the node compares is of one of the other seven algorithms (C133_partial, C133_comparisons_partial)."
  },
  {
   "property": "C134",
   "status": "partial",
   "theorems": [
    "C134_events_refuted",
    "C134_events_undisturbed_partial",
    "C134_one_thread_of_events_partial",
    "C134_replies_lost",
    "C134_replies_refuted"
   ],
   "note": "Proved when the identifiers named by the threads' own replies are ones the store has met: any number of threads, any interleaving (C134_events_undisturbed_partial, C134_one_thread_of_events_partial). Refuted without that: a reply about a new identifier beside its or another's first event makes the accepted event vanish, since both get one number (C134_events_refuted). The second part is refuted in general form: a pass that accepts one reply overwrites the list to which another thread has just added another, which is lost (C134_replies_lost, C134_replies_refuted)."
  },
  {
   "property": "C135",
   "status": "partial",
   "theorems": [
    "C135_downgrade",
    "C135_refuted",
    "C135_rotation_partial",
    "C135_same_kind_partial",
    "C135_same_text",
    "C135_small_counts",
    "C135_weights_move"
   ],
   "note": "Refuted: a number of signatures is hashed as its hexadecimal text and a single whole weight as its decimal text, so a commitment to \"2 of these keys\" (in general, every number with decimal digits only, C135_small_counts) is matched by a rotation with the threshold [\"2\"], which one key, put first, satisfies alone: any one of the committed keys takes the identifier over (C135_downgrade, C135_refuted). And weights do not stay with their keys: the order of the keys is not committed to, so whoever holds keys that would be enough in another order takes over (C135_weights_move). Proved: these are the only pairs of thresholds with the same text (C135_same_text), and between thresholds of one kind the statement holds, for commitments (C135_same_kind_partial) and accepted rotations (C135_rotation_partial, under the independence conditions of C88)."
  },
  {
   "property": "C136",
   "status": "partial",
   "theorems": [
    "C136_default_threshold",
    "C136_disagreement_names_a_key_partial",
    "C136_interactions",
    "C136_minorities_need_not_meet",
    "C136_quorums_meet",
    "C136_refuted"
   ],
   "note": "Proved: thresholds of more than half of the keys, or with a clause of total weight below two, cannot be met by separate groups (C136_quorums_meet); half or less can (C136_minorities_need_not_meet); the default threshold is one of them and all keys together meet it (C136_default_threshold); for two nodes, whenever both events leave the same keys and threshold in force (C136_disagreement_names_a_key_partial), in particular for interactions (C136_interactions). Refuted for rotations: what a commitment was made from does not bind the threshold (C135), and two nodes can accept two rotations each signed by one of two committed keys (C136_refuted)."
  },
  {
   "property": "C137",
   "status": "partial",
   "theorems": [
    "C137_first_rotation_locks_others_out",
    "C137_refuted",
    "C137_same_identifier",
    "C137_until_a_rotation_partial"
   ],
   "note": "Proved as long as nobody rotates (C137_until_a_rotation_partial). Refuted otherwise (C137_refuted), and severely: the first rotation of one member makes every later operation of each other member fail for ever, whatever anybody does, while their logs stay as they are (C137_first_rotation_locks_others_out). Without extra keys all members have the same identifier (C137_same_identifier), so over two stores they write two logs of it (C137_two_logs)."
  },
  {
   "property": "C138",
   "status": "partial",
   "theorems": [
    "C138_a_refusal_makes_known",
    "C138_accepted_tries_out_partial",
    "C138_contents_always_do",
    "C138_exactly",
    "C138_forms",
    "C138_refuted",
    "C138_unknown_identifier",
    "C138_yes_and_signed"
   ],
   "note": "The answer is characterised exactly for each form (C138_exactly, C138_forms, C138_unknown_identifier); an event of a known identifier that would be accepted tries out (C138_accepted_tries_out_partial), and after a yes only signatures and the delegator's anchor can be missing (C138_yes_and_signed). The full claim is refuted (C138_refuted): signatures and anchors are not looked at, a first inception is answered 'unknown' unless a refused attempt came before (C138_a_refusal_makes_known), and contents alone always do unless they are a rotation (C138_contents_always_do)."
  },
  {
   "property": "C139",
   "status": "partial",
   "theorems": [
    "C139_builder",
    "C139_builder_panics",
    "C139_built_receipts_are_accepted",
    "C139_digest_is_not_read",
    "C139_names_position_partial",
    "C139_never_the_events_digest",
    "C139_refuted"
   ],
   "note": "Identifier and sequence number hold (C139_names_position_partial); the builder's result is characterised (C139_builder, C139_builder_panics) and its receipts of events on record are accepted (C139_built_receipts_are_accepted). The digest claim is refuted (C139_refuted), for every JSON event whose own digest is right, up to a hash collision between two given, different texts (C139_never_the_events_digest): the digest is taken over the text that already contains the event's digest. No node notices (C139_digest_is_not_read)."
  },
  {
   "property": "C140",
   "status": "partial",
   "theorems": [
    "C140_groups_partial",
    "C140_groups_text_partial",
    "C140_no_denominator_is_enough",
    "C140_no_denominator_is_not_read",
    "C140_no_denominator_received",
    "C140_no_groups",
    "C140_quotients_matter",
    "C140_refuted",
    "C140_same_quotients",
    "C140_single_partial",
    "C140_single_text_partial",
    "C140_zero_over_zero_never"
   ],
   "note": "Proved whenever every denominator is nonzero, for signatures (C140_single_partial, C140_groups_partial), for equal quotients (C140_same_quotients, C140_quotients_matter) and for the text (C140_single_text_partial, C140_groups_text_partial, which also needs one group). Refuted without: n/0 makes one key alone enough (C140_no_denominator_is_enough), 0/0 makes every list with that key too little (C140_zero_over_zero_never), the text made of such a threshold is not read (C140_no_denominator_is_not_read) although a received n/0 is (C140_no_denominator_received); no groups at all ask for nothing and are read as a group never reached (C140_no_groups)."
  },
  {
   "property": "C141",
   "status": "partial",
   "theorems": [
    "C141_interactions_are_accepted",
    "C141_no_next_keys_partial",
    "C141_refuted",
    "C141_refuted_limits"
   ],
   "note": "Proved: an identifier without next keys keeps its keys and has no further establishment event, whatever comes (C141_no_next_keys_partial). Refuted for the rest, all four limits by one short history (C141_refuted_limits, C141_refuted): traits are stored and never read, an interaction with enough signatures is accepted at the end of every log whatever was declared (C141_interactions_are_accepted), and the number of receipts asked for is compared with nothing."
  },
  {
   "property": "C142",
   "status": "proved",
   "theorems": [
    "C142_chains_end",
    "C142_chains_stay",
    "C142_every_delegated_event_is_sealed"
   ],
   "note": "For histories in which no inception names the empty default identifier as delegator (delegators_named). No condition on panics, serialization or the hash."
  },
  {
   "property": "C143",
   "status": "partial",
   "theorems": [
    "C143_both_order",
    "C143_equal_but_different",
    "C143_equality",
    "C143_moments_do_not_count",
    "C143_only_numbers_count",
    "C143_only_numbers_count_unsigned",
    "C143_order_of_reading_does_not_matter",
    "C143_refuted",
    "C143_same_event_two_moments",
    "C143_seal_is_not_compared",
    "C143_sort",
    "C143_sort_is_the_only_one",
    "C143_within_a_log_partial"
   ],
   "note": "The order is proved: C143_both_order, C143_only_numbers_count, C143_only_numbers_count_unsigned; sorting is proved to be the only stable sort, moments do not count in it (C143_sort, C143_sort_is_the_only_one, C143_moments_do_not_count) and states do not depend on the order of reading (C143_order_of_reading_does_not_matter). Equal exactly when == is proved within a log (C143_within_a_log_partial) and refuted otherwise (C143_equal_but_different, C143_same_event_two_moments); == is characterised (C143_equality) and does not see the delegator seal (C143_seal_is_not_compared)."
  },
  {
   "property": "C144",
   "status": "partial",
   "theorems": [
    "C144_digest_of_the_bytes_partial",
    "C144_long_events_misstate",
    "C144_refuted",
    "C144_stated_length_partial"
   ],
   "note": "Proved: the length below 2^24 bytes (C144_stated_length_partial) and the digest, unless the event is an inception for a key or a signature as identifier (C144_digest_of_the_bytes_partial). Refuted without: an inception for a key carries a digest that the receiver does not compute (C144_refuted), and longer events understate their length (C144_long_events_misstate)."
  }
 ]
}