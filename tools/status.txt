# property | status | note
C01 | proved | For every history from an empty store; identifiers other than Rust's Default identifier, which no text reads as (C00).
C02 | proved | Digest fields chain; see C10 for what the code does not check about the digest field itself.
C03 | proved | 
C04 | proved | 
C05 | proved | 
C06 | proved | 
C07 | partial | Refuted in general (C07_refuted: a rotation may add a witness already in the list); proved when each event adds only new witnesses.
C08 | partial | Refuted for rotations (record has the previous event's digest and exchanged witness lists); C08_partial gives the exact content.
C09 | partial | Refuted for self-addressing prefixes (prefix only compared with the digest field); C09_partial gives exactly what is checked.
C10 | partial | Refuted; C10_digest_field_is_never_checked is the general form of the defect.
C11 | partial | Refuted by the todo!() cases and by the two digest algorithms that abort (C11_refuted_digest); C11_partial characterises exactly the panicking inputs.
C12 | proved | 
C13 | proved | Exact rational arithmetic; overflow inside the fraction crate is not modelled.
C14 | partial | Refuted; C14_partial gives the exact panic condition.
C15 | proved | 
C16 | proved | 
C17 | partial | Refuted: a key listed twice cancels out (C17_refuted), and with more keys than digest bits two different duplicate-free selections always share a commitment (C17_refuted_many_keys). Proved for duplicate-free lists whose texts have independent digests, threshold included.
C18 | partial | Refuted for zero thresholds; proved for the others.
C19 | proved | 
C20 | partial | Refuted for the computed state after a rejected inception of an unknown identifier; the rest proved in C20_partial.
C21 | partial | Refuted (a panic while verifying leaves the event in the log); proved for histories without panics; replaying proved always.
C22 | proved | 
C23 | proved | 
C24 | partial | Refusal without change proved always; the error kind refuted for unknown identifiers and proved for interactions and non-delegated rotations of known ones.
C25 | partial | Refuted for delegated identifiers (stored events lose the source seal); proved for non-delegated logs, and for delegated ones with source seals attached again.
C26 | proved | 
C27 | proved | 
C28 | partial | Refuted: neither the source seal digest nor the anchor's prefix and sn are checked.
C29 | proved | 
C30 | partial | Refuted: the digest of a receipt is never compared.
C31 | partial | Refuted: a signature that does not verify is accepted; C31_partial gives the exact condition under which a receipt is stored.
C32 | partial | Escrowing half proved (and escrow entries are never dropped); promotion once the event arrives refuted.
C33 | proved | 
C34 | partial | Refuted for delegated identifiers; proved for the others.
C35 | partial | Refuted after a rejected inception; C35_partial gives what holds.
C36 | partial | Attempts are messages or escrow passes. Refuted (the event is stored before it is verified); C36_partial: every stored event is properly signed or is one whose processing was killed or panicked; logs always replay and only grow.
C37 | partial | Refuted (forked log, lost event, identifier confusion); C37_partial: calls whose subjects the other call does not read, over already numbered identifiers, are serializable under every schedule.
C38 | proved | For identifiers that have a text of their own, which includes every identifier read from text; C38_empty_identifiers_collide is the boundary. Includes the refinement of message processing (for all histories) and of histories with escrow passes (when none panics) from the numeric-key store to per-identifier tables.
C39 | partial | Refuted: append to an existing entry is dropped; proved for absent entries.
C40 | proved | 
C41 | partial | Refuted for ECDSA keys (33 bytes encode to 44 characters, not 47); proved for every other key type.
C42 | partial | Refuted for keyed Blake2 codes (the key is not in the text); proved for codes without a key.
C43 | proved | 
C44 | partial | Refuted for ECDSA keys and keyed codes; proved for the others, and texts are unambiguous.
C45 | partial | Refuted for indices of 63 and more; proved below.
C46 | partial | Refuted; C46_partial gives the exact texts on which each reader panics.
C47 | proved | 
C48 | partial | Refuted: counts from 63 to 4095 are written as another count, last-establishment counts panic, kind E is written as D; proved below 63, and the reader is right for every count.
C49 | partial | Refuted for non-empty frames, last-establishment groups and counts or indices of 63 and more; proved for the others, and the reader is right for every attachment the format can carry.
C50 | partial | Refuted: unimplemented codes and frames that do not parse to their end panic; proved that a panic only comes from such texts.
C51 | partial | Refuted for sizes from 65536 to 16777215; proved for sizes up to 65535.
C52 | partial | Refuted for repliers that are transferable keys (C52_bare_key_refuted: a reply under rotated keys is replaced by one signed with the rotated-out inception key). Proved over all histories for replies signed in the same manner, in particular for every replier that is not a bare key; replacement and never-dropped are proved in full.
C53 | proved | In every reachable store each subject has at most one accepted reply per route; an acceptance replaces exactly the reply of its route; a refusal changes nothing.
C54 | partial | Proved in full except that a bare key which has a log need not be in force (C54_rotated_key_refuted); table contents stay justified by the current logs.
C55 | partial | Refuted: n passes over unresolvable replies multiply the escrow by 2^n (C55_passes_double_the_escrow), and a notice overtaken by the log, which provably can never be accepted, stays (C55_stale_notice_stays_refuted). Proved: a pass brings in no other reply and takes out only accepted, badly signed or superseded ones.
C56 | partial | Refuted: numbers are written in decimal and read in hexadecimal, a notice without delegator cannot be read, one without next keys panics. Proved: exactly which numbers and notices survive (numbers below ten). The symmetric parts of the codec are taken as identity.
C57 | proved | For a controller with sound key pairs whose events serialize; randomness and clock are arguments; others may use the store in any way except submit events for this identifier.
C58 | partial | Refuted: after interact with any digest but that of its own last event the key state never moves again (C58_state_frozen_forever); proved for the own digest.
C59 | partial | Refuted: rotate changes the held keys on every failure; proved that a careful controller's rotation does not fail.
C60 | partial | Listed-witness half proved; that the receipt is signed by the listed key is refuted after a rotation and proved before.
C61 | partial | Refuted: an accepted witness receipt or key-state reply in the stream panics, and a stream whose start does not parse is dropped whole; proved that without panics the logs are those of processing every message.
C62 | proved | Over events that serialize; the third query route panics (C62_reply_route_panics).
C63 | partial | Refuted for texts with padding characters; proved for texts without them.
C64 | proved | 
C65 | partial | Refuted for short or non-ASCII texts; proved for ASCII texts of at least 16 characters.
C66 | partial | Refuted for key events whose source seal does not go with their kind (exactly those); proved for all others, receipts and replies.
C67 | partial | Refuted; C67_conversion_panics_partial gives the exact condition and C67_refuted bytes that reach it.
C68 | partial | Refuted for binary serializations; proved for JSON messages, for any event codec that reads back what it writes (serde is not modelled).
C69 | partial | Refuted: keys, threshold, witnesses and delegator of an accepted notice are not compared with the log. Proved: subject, sequence number and last digest are.
C70 | partial | Refuted: after one accepted (escrowed) reply about an identifier without delegator every further authentic reply about it (every escrow pass) panics, and a further escrowed reply erases it. Proved: replies that read back unchanged never spoil the tables and behave as in the idealized model used by C52-C55.
C71 | proved | For careful controllers (C57); also for every other store that has the event and the controller's log.
C72 | partial | Proved for events whose keys and digests are not empty, with single-digit version numbers and no key inside Blake2; refuted in general (C72_same_bytes gives the four collisions).
C73 | partial | Proved for texts shorter than 16^6 bytes; refuted for longer ones.
C74 | partial | Proved for every event except inceptions whose identifier is a key, for which it is refuted.
C75 | partial | Refuted: from the first event that has a seal the log is lost (C75_sealed_log_lost); proved for logs without seals and with simple configuration traits. CBOR and MessagePack readers and serde_hex are parameters.
C76 | partial | Refuted: ECDSA keys and messages that state more than 65535 bytes; proved for all readable events and receipts.
C77 | partial | Proved for texts whose literals contain no '=' and whose thresholds are finite; refuted by a padded digest and by a threshold over zero.
C78 | partial | Refuted: short version strings and prefixes cut short panic, also through Keri::respond; proved that only those two causes exist (stack exhaustion, f64 and the external readers aside).
C79 | partial | Refuted: every event with a readable head that the event reader refuses is read as a receipt of itself (C79_unreadable_events_become_receipts); proved for readable events.
C80 | partial | Proved for logs of non-delegated events without seals; refuted for sealed events (C80_sealed_inception_lost).
C81 | proved | Theorem for any offered sequence and any reachable store; catch-up in rounds for undelegated logs, and for delegated ones when the delegator's log is known and source seals are offered (C81_catch_up).
C82 | proved | For nodes on which no call panicked (a panic in the middle of process leaves an unverified event, C21); a difference at the inception event of a self-addressing identifier is two inceptions naming the same identifier (C09).
C83 | partial | Refuted: no message written by to_cesr whose version string gives the length of its event is processed (C83_signed_messages_never_processed; with signatures first, a panic). Proved for messages whose version string gives the length of the whole message, one per read.
C84 | partial | Refuted: short reads and split messages make the handler spin for ever, two messages in one read are an error, a pending write processes the message again, a partial write truncates the answer. Proved for one message per read.
C85 | proved | Equivalence, over every reachable store, between acceptance and the rules of SpecRules.v, for events whose content can be written out and keys whose weights are fractions; the decision depends on two logs only.
C86 | partial | Refuted: seals of inceptions and witnesses of delegated events are always dropped, the witness threshold of a built event is always 0 (C86_refuted_*). Everything else is proved.
C87 | proved | For rotations, interactions, delegated rotations and inceptions built with any settings; the commitment hypothesis is met when the last establishment event was built with those next keys (C87_commitment_made_by_builder). All for the seven digest algorithms that can be computed (see C133).
C88 | partial | Refuted twice: repeated keys cancel out, so published committed keys can be padded with an attacker's key (C88_refuted_revealed); 8n keys with independent n-byte digests open every commitment (C88_refuted_unrevealed). Proved for duplicate-free key lists whose texts have independent digests. What the texts say about the threshold itself is C135.
C89 | partial | Proved for histories without panics in which nobody opens a commitment with other keys, thresholds are not zero and, for self-addressing identifiers, no foreign inception is submitted; each restriction corresponds to a refuted property.
C90 | proved | For validators whose logged events can be written out again and whose weights are fractions (both decidable of the log).
C91 | proved | Same provisos as C90, for the replier.
C92 | proved | The log part for histories without panics and events that can be serialized (otherwise refused events stay in the log, C20); the receipt parts for all histories.
C93 | partial | Refuted (capital digits, a plus sign, any text after the size). C93_version_texts says exactly which texts are read and as what; C93_canonical_partial says exactly which of them are the written text.
C94 | partial | The text round trip, the other kinds and new_query (sizes within u16) are proved; sending a signed query is only proved for the text json ++ attachment, because the library's own writer panics on the attachment of a query (C94_node_cannot_send). The premise about times is discharged for chrono's text of every instant of the years 0 to 9999 (C94_clock, C94_query_made_is_read).
C95 | partial | Refuted: an absent delegator is written as "" and not readable (C95_undelegated_unreadable, so no answer of a witness can be read, C95_witness_answer_unreadable), and numbers are written in decimal and read in hexadecimal (C95_large_numbers_change). Proved for delegated identifiers with numbers below ten.
C96 | partial | Refuted: every query or reply whose route begins with /ksn/ and does not go on with an identifier panics (C96_bad_route_panics, C96_node_panics). C96_panics_partial lists all causes.
C97 | partial | Proved for key events (every text). Refuted for the others: a receipt and a query are read whatever type they state (C97_receipt_type_ignored, C97_query_type_ignored).
C98 | partial | Refuted: two signers whose denominators have no 64 bit common multiple make a debug build panic before any signature is checked (C98_overflow_panics) and a release build refuse (C98_overflow). Proved for all weights and both builds: never too lenient (C98_never_too_lenient); exact whenever the sums fit 64 bits (C98_exact_partial), which ordinary weights do (C98_ordinary_weights_fit).
C99 | proved | Non-interference over whole histories, for logs, key states and answers.
C100 | partial | Refuted: every escrow pass can double the store (C100_bound_is_reached for every number of passes). Proved: one record per message without passes, and messages * 2^passes in general.
C101 | partial | Refuted: receipts of both kinds and escrowed replies are stored once per delivery (C101_receipts_pile_up, C101_escrowed_replies_pile_up). Proved for key events, accepted or refused, also any time later for accepted ones, and for replies that are not escrowed.
C102 | proved | without the two conditions it is false: C37_refuted, C37_lost_event_refuted (same identifier), C37_numbering_refuted (new identifiers). A thread goes on after a panic in the model; escrow passes are not among the threads' calls
C103 | proved | against the grammar of SpecGrammar.v; a number has no value in the model because no message reads one (serde_json's overflow of huge exponents is not modelled)
C104 | partial | refuted: the event is serialized again before its signatures are checked, so white space added to any text is accepted and not covered, and the stated size is not compared with the text; C76 is the direction that holds; a run in ReplayTests.v (published_rotation_fails, no theorem): a rotation published by keripy, quoted in the repository's own test_verify (whose body skips it), has signatures that are good for the bytes received and bad for the bytes the library checks (checked with the real Ed25519)
C105 | proved | up to panics of the prefix readers inside seals (C78 says where these come from); the values of prefixes are those of the prefix readers (C40-C48)
C106 | partial | holds for v, d, i and s (C106_version_once_partial, C106_header_once_partial); refuted for all others, where the last one counts whatever stands before (C106_last_wins)
C107 | proved | dates are read by the outside function tr (chrono); numbers by hx (C75)
C108 | partial | holds for key events (C108_key_events_partial); refuted for the other three, which never look at t (C108_type_not_read, C108_refuted)
C109 | proved | C109_exact, C109_accepted, C109_alphabet, C109_unambiguous; texts with a padding character are outside (some are accepted, see C110_padding_refuted). Found on the way: an ECDSA key is read from 47 characters, 35 bytes
C110 | partial | proved for attachments without sequence numbers (C110_one_text_partial); refuted for the others, since eight of the sixteen bytes of a sequence number are not looked at (C110_refuted), and for texts with padding (C110_padding_refuted)
C111 | proved | for every event reader that reads a beginning of its input; C111_cut_short is the consequence for truncated streams
C112 | proved | For answerable streams (events of others and transferable receipts, no panicking message); any other accepted kind panics: C61_accepted_receipt_panics.
C113 | proved | Over JSON, for logs without seals (a log with a seal cannot be sent: C75_sealed_log_lost) whose events fit the format; CBOR and MessagePack readers are any readers that refuse text.
C114 | partial | Proved in full for the answer as a value. Over the wire it holds only for delegated identifiers with numbers below ten; for the others C95 shows the text unreadable or changed. The last sentence is false: C114_query_panics_exactly shows the witness panics for identifiers without next keys and for identifiers of which only a failed inception is known.
C115 | partial | Proved for the reply; false for the notice inside it, which always states zero (C115_notice_never_states_its_size, C115_refuted).
C116 | proved | On the byte model of the store (Cbor.v, EventStore.v).
C117 | partial | Proved for events that read back (C117_partial). False in general, and severely: for every identifier, an unsigned interaction that continues its log and carries one signature with index 63 (read from the wire, stored as text that does not read back) stays in the log, because the removal after the failed verification cannot read the log either; every later reading of the log panics, for ever (C117_anyone_can_destroy_a_log). A padded digest in a seal does the same while the caller sees an ordinary signature error (C117_refuted).
C118 | proved | C118_own_events_are_sound (JSON as written by the code), C118_sound_events_travel, C118_strangers_meet (C113 without conditions on the logs).
C119 | proved | Composition of C118 with the byte model of the store (C116).
C120 | proved | Lists of receipts read back; processing events and receipts on bytes equals processing them on values (answers, logs, duplicitous events, receipt tables, has_receipt); receipts read from unpadded text are storable.
C121 | partial | Proved for messages whose parts read back from their text (C121_partial). Refuted in general (C121_refuted): a witness receipt with wrong signatures and a digest spelled with padding makes the list unreadable, and the next receipt replaces the whole list (C121_anyone_can_erase_receipts); an accepted validator receipt of this kind makes has_receipt panic (C121_accepted_receipt_panics).
C122 | proved | Events and receipts in both formats are read back whatever follows; signed bytes determine the event; logs with events in either format transfer (log and key state).
C123 | partial | Proved when only the first message is in CBOR (C123_first_in_cbor_partial). Refuted in general (C123_refuted): a CBOR message after any other message makes the reader refuse the whole stream and the node ignore even the messages before it (C123_later_cbor_drops_everything).
C124 | partial | All answers and all nine tables are undisturbed (C124_questions_disturb_nobody_partial, C124_tables_untouched_partial), and the whole store when the identifier has a number (C124_known_identifiers_partial). Refuted for others: each question about an unknown identifier leaves a permanent entry (C124_asking_fills_the_store), as does each refused event (C124_refused_events_stay_too).
C125 | partial | Refuted in general form: any event whose signatures are its only fault can be given out as the state of the identifier (C125_refused_events_are_seen) and a delegated event anchored in it can be accepted for good (C125_refused_events_are_relied_on). What holds: a question never disturbs a message, and it is told exactly what the store says after some number of accesses of the message (C125_snapshots_partial, an equivalence); beside an accepted event that is the truth before or after it (C125_beside_an_event_partial).
C126 | partial | Damage is always noticed (C127_damage_is_noticed). Refuted otherwise: after damaged signatures everything behind is silently lost (C126_signatures_partial, which also proves that everything before is read and acted upon); a damaged count or source seal has the whole stream refused, earlier messages included (C126_count_refuses_all, C126_source_refuses_all); inside a frame the process aborts when enough follows (C126_frame_panics). Damaged receipt couplets and identifiers of seal groups are covered by C127_damage_is_noticed only.
C127 | proved | 
C128 | proved | Any manager that simulates a pair of key pairs; lock step over the whole public interface, and the promise of C57 carried over.
C129 | partial | Refuted: rotate looks its new key up by the controller "next", the announcement by the identifier "next"; another content with that controller may be taken (C129_refuted). Proved when nothing else has that controller, for any enumeration and any number of rotations (C129_partial), and then the node does exactly what a node over the built-in box does (C129_wallet_node).
C130 | partial | Refuted: the identifier declares the Ed25519 key to be an ECDSA key, so no inception is ever accepted (C130_inception_refused) and no sequence of own operations ever succeeds (C130_never_usable). The same wallet under new works (C130_partial).
C131 | proved | Any tree of parties; liveness by an invariant over all parties; also the exact growth of every log, the refusal without anchor, and that a step succeeds exactly when the signers reach the thresholds of the acting group and of its delegator. Groups of Ed25519 keys of any size, simple or weighted thresholds; nobody else submits events for their identifiers.
C132 | partial | Proved for Ed25519 seeds, up to a controller working with them (C132_ed25519_partial, C132_controller_from_seeds); exactly which seeds give keys (C132_which_seeds). Refuted for secp256k1: the keys sign and verify, but no text of the prefix is ever read (C132_ecdsa_refuted). The curves are parameters with the usual laws as hypotheses.
C133 | partial | Refuted: for Blake2b-256 and Blake2s-256 the library aborts, and an unsigned inception (C133_refuted_inception), a rotation after such a commitment (C133_refuted_rotation), a reply signed with any key (C133_refuted_reply) and an unsigned receipt (C133_refuted_receipt) make it compute them. Proved when every digest the node compares is of one of the other seven algorithms (C133_partial, C133_comparisons_partial).
C134 | partial | Proved when the identifiers named by the threads' own replies are ones the store has met: any number of threads, any interleaving (C134_events_undisturbed_partial, C134_one_thread_of_events_partial). Refuted without that: a reply about a new identifier beside its or another's first event makes the accepted event vanish, since both get one number (C134_events_refuted). The second part is refuted in general form: a pass that accepts one reply overwrites the list to which another thread has just added another, which is lost (C134_replies_lost, C134_replies_refuted).
C135 | partial | Refuted: a number of signatures is hashed as its hexadecimal text and a single whole weight as its decimal text, so a commitment to "2 of these keys" (in general, every number with decimal digits only, C135_small_counts) is matched by a rotation with the threshold ["2"], which one key, put first, satisfies alone: any one of the committed keys takes the identifier over (C135_downgrade, C135_refuted). And weights do not stay with their keys: the order of the keys is not committed to, so whoever holds keys that would be enough in another order takes over (C135_weights_move). Proved: these are the only pairs of thresholds with the same text (C135_same_text), and between thresholds of one kind the statement holds, for commitments (C135_same_kind_partial) and accepted rotations (C135_rotation_partial, under the independence conditions of C88).
C136 | partial | Proved: thresholds of more than half of the keys, or with a clause of total weight below two, cannot be met by separate groups (C136_quorums_meet); half or less can (C136_minorities_need_not_meet); the default threshold is one of them and all keys together meet it (C136_default_threshold); for two nodes, whenever both events leave the same keys and threshold in force (C136_disagreement_names_a_key_partial), in particular for interactions (C136_interactions). Refuted for rotations: what a commitment was made from does not bind the threshold (C135), and two nodes can accept two rotations each signed by one of two committed keys (C136_refuted).
C137 | partial | Proved as long as nobody rotates (C137_until_a_rotation_partial). Refuted otherwise (C137_refuted), and severely: the first rotation of one member makes every later operation of each other member fail for ever, whatever anybody does, while their logs stay as they are (C137_first_rotation_locks_others_out). Without extra keys all members have the same identifier (C137_same_identifier), so over two stores they write two logs of it (C137_two_logs).
C138 | partial | The answer is characterised exactly for each form (C138_exactly, C138_forms, C138_unknown_identifier); an event of a known identifier that would be accepted tries out (C138_accepted_tries_out_partial), and after a yes only signatures and the delegator's anchor can be missing (C138_yes_and_signed). The full claim is refuted (C138_refuted): signatures and anchors are not looked at, a first inception is answered 'unknown' unless a refused attempt came before (C138_a_refusal_makes_known), and contents alone always do unless they are a rotation (C138_contents_always_do).
C139 | partial | Identifier and sequence number hold (C139_names_position_partial); the builder's result is characterised (C139_builder, C139_builder_panics) and its receipts of events on record are accepted (C139_built_receipts_are_accepted). The digest claim is refuted (C139_refuted), for every JSON event whose own digest is right, up to a hash collision between two given, different texts (C139_never_the_events_digest): the digest is taken over the text that already contains the event's digest. No node notices (C139_digest_is_not_read).
C140 | partial | Proved whenever every denominator is nonzero, for signatures (C140_single_partial, C140_groups_partial), for equal quotients (C140_same_quotients, C140_quotients_matter) and for the text (C140_single_text_partial, C140_groups_text_partial, which also needs one group). Refuted without: n/0 makes one key alone enough (C140_no_denominator_is_enough), 0/0 makes every list with that key too little (C140_zero_over_zero_never), the text made of such a threshold is not read (C140_no_denominator_is_not_read) although a received n/0 is (C140_no_denominator_received); no groups at all ask for nothing and are read as a group never reached (C140_no_groups).
C141 | partial | Proved: an identifier without next keys keeps its keys and has no further establishment event, whatever comes (C141_no_next_keys_partial). Refuted for the rest, all four limits by one short history (C141_refuted_limits, C141_refuted): traits are stored and never read, an interaction with enough signatures is accepted at the end of every log whatever was declared (C141_interactions_are_accepted), and the number of receipts asked for is compared with nothing.
C142 | proved | For histories in which no inception names the empty default identifier as delegator (delegators_named). No condition on panics, serialization or the hash.
C143 | partial | The order is proved: C143_both_order, C143_only_numbers_count, C143_only_numbers_count_unsigned; sorting is proved to be the only stable sort, moments do not count in it (C143_sort, C143_sort_is_the_only_one, C143_moments_do_not_count) and states do not depend on the order of reading (C143_order_of_reading_does_not_matter). Equal exactly when == is proved within a log (C143_within_a_log_partial) and refuted otherwise (C143_equal_but_different, C143_same_event_two_moments); == is characterised (C143_equality) and does not see the delegator seal (C143_seal_is_not_compared).
C144 | partial | Proved: the length below 2^24 bytes (C144_stated_length_partial) and the digest, unless the event is an inception for a key or a signature as identifier (C144_digest_of_the_bytes_partial). Refuted without: an inception for a key carries a digest that the receiver does not compute (C144_refuted), and longer events understate their length (C144_long_events_misstate).
