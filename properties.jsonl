{"id": "C01", "title": "Sequence numbers advance by exactly one", "statement": "For every sequence of signed key events that the processor accepts for an identifier, the k-th accepted event carries sequence number k (inception is 0) and the key state returned after it reports sn = k; no accepted sequence has a gap or a repetition.", "quantifier": "all finite sequences of key events offered for an identifier, starting from an empty log", "why_tests_cant": "Holds only as a statement about all histories; a test runs finitely many event sequences.", "anchors": ["src/event/mod.rs: Event::apply_to", "src/state/mod.rs: IdentifierState::apply", "src/processor/mod.rs: process_event, compute_state"]}
{"id": "C02", "title": "Accepted events form a digest chain", "statement": "Every accepted rotation, delegated rotation or interaction names as its previous digest the digest field of the event accepted immediately before it, and the key state always reports the digest field of the last accepted event.", "quantifier": "all accepted histories of an identifier", "why_tests_cant": "Holds only as a statement about all histories; a test runs finitely many event sequences.", "anchors": ["src/event_message/key_event_message.rs: EventMessage<KeyEvent>::apply_to"]}
{"id": "C03", "title": "One inception, first, and the identifier never changes", "statement": "The first accepted event of an identifier is an inception or delegated inception with sn 0; no later accepted event is an inception, and the key state's prefix equals the prefix of the inception for ever.", "quantifier": "all accepted histories of an identifier whose prefix is not the empty default prefix", "why_tests_cant": "Holds only as a statement about all histories; a test runs finitely many event sequences.", "anchors": ["src/event/mod.rs: Event::apply_to (Icp|Dip branch)"]}
{"id": "C04", "title": "Keys only change to what was pre-committed", "statement": "The signing keys, threshold and next-key commitment in the key state change only through an accepted (delegated) rotation whose key configuration hashes to the commitment in the state before it; an accepted interaction changes only sn and last digest; a state whose commitment is empty never accepts a rotation again.", "quantifier": "all states and all events accepted in them; all histories", "why_tests_cant": "Holds only as a statement about all histories; a test runs finitely many event sequences.", "anchors": ["src/event/event_data/rotation.rs: RotationEvent::apply_to", "src/event/event_data/interaction.rs: InteractionEvent::apply_to", "src/event/sections/key_config.rs: KeyConfig::verify_next"]}
{"id": "C05", "title": "Delegated and self-governed identifiers do not mix", "statement": "An identifier incepted by icp never accepts drt and never gets a delegator; an identifier incepted by dip never accepts rot and its delegator is for ever the one named in the dip.", "quantifier": "all accepted histories", "why_tests_cant": "Holds only as a statement about all histories; a test runs finitely many event sequences.", "anchors": ["src/event_message/key_event_message.rs: EventMessage<KeyEvent>::apply_to (Rot and Drt branches)"]}
{"id": "C06", "title": "Witness list evolution", "statement": "After an accepted rotation the witness list is the previous list with every pruned witness removed, followed by the grafted witnesses in order, and the witness threshold is the rotation's; no other event changes either after inception.", "quantifier": "all accepted histories and rotation events", "why_tests_cant": "Holds only as a statement about all histories; a test runs finitely many event sequences.", "anchors": ["src/event/event_data/rotation.rs: RotationEvent::apply_to", "src/event/event_data/inception.rs: InceptionEvent::apply_to"]}
{"id": "C07", "title": "Witness list stays a set", "statement": "If the inception witness list has no duplicates then no accepted rotation produces a witness list with duplicates, and only current witnesses can be pruned.", "quantifier": "all accepted histories", "why_tests_cant": "Holds only as a statement about all histories; a test runs finitely many event sequences.", "anchors": ["src/event/event_data/rotation.rs: RotationEvent::apply_to"]}
{"id": "C08", "title": "Last-establishment data describes the last establishment event", "statement": "After every accepted history the state's last-establishment record (ee) reports sn and digest of the last establishment event and, as removed (br) and added (ba) witnesses, those of that event.", "quantifier": "all accepted histories", "why_tests_cant": "Holds only as a statement about all histories; a test runs finitely many event sequences.", "anchors": ["src/state/mod.rs: LastEstablishmentData", "src/event/event_data/rotation.rs: RotationEvent::apply_to"]}
{"id": "C09", "title": "Identifier prefix is bound to the inception", "statement": "An accepted inception with a Basic prefix has exactly that one key; an accepted (delegated) inception with a self-addressing prefix has a prefix that is the digest of its own content.", "quantifier": "all inception events accepted in an empty state", "why_tests_cant": "Ranges over an infinite input space; tests sample a few literals.", "anchors": ["src/event_message/key_event_message.rs: verify_identifier_binding, check_digest"]}
{"id": "C10", "title": "Event digest field is the digest of the event", "statement": "Every accepted event's digest field equals the hash, under its derivation code, of the event content with the digest field blanked.", "quantifier": "all accepted events", "why_tests_cant": "Ranges over an infinite input space; tests sample a few literals.", "anchors": ["src/event_message/key_event_message.rs: check_digest, to_derivation_data"]}
{"id": "C11", "title": "Applying an event to a state never panics", "statement": "For every state and every key event the state transition returns a new state or an error.", "quantifier": "all states and events", "why_tests_cant": "Ranges over an infinite input space; tests sample a few literals.", "anchors": ["src/event_message/key_event_message.rs: apply_to, verify_identifier_binding"]}
{"id": "C12", "title": "Signature set verification is sound and complete", "statement": "Verifying a signature list against a key configuration with a numeric threshold answers true exactly when the list has at least threshold entries, all indices are distinct and in range and every signature verifies under the key at its index.", "quantifier": "all key configurations, messages and signature lists", "why_tests_cant": "Ranges over an infinite input space; tests sample a few literals.", "anchors": ["src/event/sections/key_config.rs: KeyConfig::verify", "src/event/sections/threshold.rs: SignatureThreshold::enough_signatures"]}
{"id": "C13", "title": "Weighted thresholds are rational sums", "statement": "A weighted threshold is satisfied exactly when in every clause the weights of the signing keys that belong to the clause's slice of the key list sum (as rationals) to at least 1.", "quantifier": "all weighted thresholds (any number and size of clauses, any fractions) and signature lists", "why_tests_cant": "Ranges over an infinite input space; tests sample a few literals.", "anchors": ["src/event/sections/threshold.rs: ThresholdClause::enough_signatures, MultiClauses::enough_signatures"]}
{"id": "C14", "title": "Signature verification never panics", "statement": "Verifying any signature list against any key configuration returns a verdict or an error.", "quantifier": "all key configurations and signature lists", "why_tests_cant": "Ranges over an infinite input space; tests sample a few literals.", "anchors": ["src/event/sections/key_config.rs: KeyConfig::verify (acc[sig.index as usize] += 1)", "src/event/sections/threshold.rs: ThresholdClause::enough_signatures (self.0[...])"]}
{"id": "C15", "title": "More valid signatures never hurt, order never matters", "statement": "Permuting a signature list does not change the verdict; adding a valid signature by a key that has not signed keeps an accepted list accepted.", "quantifier": "all key configurations, messages, signature lists", "why_tests_cant": "Ranges over an infinite input space; tests sample a few literals.", "anchors": ["src/event/sections/key_config.rs: KeyConfig::verify"]}
{"id": "C16", "title": "Next-key commitment depends only on threshold and key multiset", "statement": "The commitment to next keys is the xor of the digests of the threshold string and of each key; it is insensitive to key order, and a key configuration satisfies its own commitment.", "quantifier": "all thresholds, key lists, derivations", "why_tests_cant": "Ranges over an infinite input space; tests sample a few literals.", "anchors": ["src/event/sections/key_config.rs: nxt_commitment, verify_next"]}
{"id": "C17", "title": "Next-key commitment binds the key list", "statement": "Two key configurations with the same threshold that match the same commitment contain the same keys (under collision resistance).", "quantifier": "all pairs of key lists", "why_tests_cant": "Ranges over an infinite input space; tests sample a few literals.", "anchors": ["src/event/sections/key_config.rs: nxt_commitment"]}
{"id": "C18", "title": "Every accepted event carries at least one verified signature", "statement": "No event is accepted with an empty signature list.", "quantifier": "all accepted events", "why_tests_cant": "Ranges over an infinite input space; tests sample a few literals.", "anchors": ["src/event/sections/key_config.rs: KeyConfig::verify", "src/event/sections/threshold.rs: SignatureThreshold::Simple(0)"]}
{"id": "C19", "title": "Acceptance appends exactly the event", "statement": "When the processor accepts a key event, the log of its identifier becomes the old log followed by that event, the returned state is the state computed from the new log, and nothing else in the store changes.", "quantifier": "all reachable stores and all key events", "why_tests_cant": "Holds only as a statement about all histories; a test runs finitely many event sequences.", "anchors": ["src/processor/mod.rs: process_event, compute_state"]}
{"id": "C20", "title": "Rejection leaves the log unchanged", "statement": "When the processor returns an error for a key event, every log is what it was before, and the computed state of every identifier is unchanged.", "quantifier": "all reachable stores and all key events", "why_tests_cant": "Holds only as a statement about all histories; a test runs finitely many event sequences.", "anchors": ["src/processor/mod.rs: process_event", "src/database/sled/mod.rs: remove_kel_finalized_event"]}
{"id": "C21", "title": "Everything in a log was properly signed", "statement": "In every reachable store each log replays without error from the empty state, and each event in it was signed by a satisfying set of the keys in force after applying it.", "quantifier": "all finite message histories processed from an empty store", "why_tests_cant": "Holds only as a statement about all histories; a test runs finitely many event sequences.", "anchors": ["src/processor/mod.rs: process, process_event"]}
{"id": "C22", "title": "First seen wins and logs are append-only", "statement": "Whatever messages follow, the log of an identifier at any later time extends its log now; so at most one event is ever accepted per (identifier, sn).", "quantifier": "all message histories", "why_tests_cant": "Holds only as a statement about all histories; a test runs finitely many event sequences.", "anchors": ["src/processor/mod.rs: process_event"]}
{"id": "C23", "title": "Identifiers are isolated", "statement": "Processing a message about one identifier never changes log, receipts, escrows or computed state of another identifier.", "quantifier": "all stores, all messages, all pairs of identifiers", "why_tests_cant": "Holds only as a statement about all histories; a test runs finitely many event sequences.", "anchors": ["src/processor/mod.rs: process", "src/database/sled/mod.rs"]}
{"id": "C24", "title": "Out of order and duplicate events are refused with the right error", "statement": "An event with sn greater than the next one is refused as out of order; one with sn at or below the current is refused as duplicate; neither changes the store.", "quantifier": "all reachable stores and events", "why_tests_cant": "Ranges over an infinite input space; tests sample a few literals.", "anchors": ["src/event/mod.rs: Event::apply_to", "src/processor/mod.rs: process_event"]}
{"id": "C25", "title": "A log can be replayed elsewhere", "statement": "Processing the events of any reachable log, in order, on a node with an empty store that knows the delegator's log is accepted event by event and ends in the same log and the same key state.", "quantifier": "all reachable logs", "why_tests_cant": "Holds only as a statement about all histories; a test runs finitely many event sequences.", "anchors": ["src/processor/mod.rs: get_kerl, process_event"]}
{"id": "C26", "title": "State at sn is the state after that event", "statement": "For every reachable store, the state computed at sn n equals the state after applying the first n+1 events of the log, and for n at or beyond the last event equals the current state.", "quantifier": "all reachable stores, identifiers, sn", "why_tests_cant": "Holds only as a statement about all histories; a test runs finitely many event sequences.", "anchors": ["src/processor/mod.rs: compute_state_at_sn"]}
{"id": "C27", "title": "Delegated events need the delegator's anchor", "statement": "A delegated inception or rotation is accepted only if the delegator's log holds, at the sn named by the source seal, a rotation, delegated rotation or interaction whose data holds an event seal with the digest of the delegated event.", "quantifier": "all stores and delegated events", "why_tests_cant": "Ranges over an infinite input space; tests sample a few literals.", "anchors": ["src/processor/mod.rs: validate_seal, process_event"]}
{"id": "C28", "title": "The source seal and the anchor are fully checked", "statement": "A delegated event is accepted only if the digest in its source seal matches the delegating event and the anchoring seal names the delegated prefix and sn.", "quantifier": "all stores and delegated events", "why_tests_cant": "Ranges over an infinite input space; tests sample a few literals.", "anchors": ["src/processor/mod.rs: validate_seal"]}
{"id": "C29", "title": "Stored transferable receipts are valid", "statement": "A transferable receipt is stored only if the receipted event is in the log at that sn and the signatures satisfy the validator's key configuration at the validator's establishment event named in the seal, over the event's serialization.", "quantifier": "all stores and receipts", "why_tests_cant": "Ranges over an infinite input space; tests sample a few literals.", "anchors": ["src/processor/mod.rs: process_validator_receipt, get_keys_at_event"]}
{"id": "C30", "title": "A receipt receipts the event it names", "statement": "A stored receipt's digest matches the event in the log at its sn.", "quantifier": "all stores and receipts", "why_tests_cant": "Ranges over an infinite input space; tests sample a few literals.", "anchors": ["src/processor/mod.rs: process_validator_receipt, process_witness_receipt"]}
{"id": "C31", "title": "Stored witness receipts are valid", "statement": "A non-transferable receipt is stored only if every couplet's signature verifies under its witness key over the receipted event.", "quantifier": "all stores and receipts", "why_tests_cant": "Ranges over an infinite input space; tests sample a few literals.", "anchors": ["src/processor/mod.rs: process_witness_receipt"]}
{"id": "C32", "title": "Early receipts are escrowed, not lost", "statement": "A receipt for an event not yet in the log is kept in the matching escrow of that identifier and nothing else changes; once the event arrives the receipt becomes available.", "quantifier": "all stores, receipts, continuations", "why_tests_cant": "Holds only as a statement about all histories; a test runs finitely many event sequences.", "anchors": ["src/processor/mod.rs: process_validator_receipt, process_witness_receipt"]}
{"id": "C33", "title": "Data signature verification is sound", "statement": "Verifying data against a transferable signature succeeds only if the named establishment event is in the signer's log and its keys satisfied their threshold over the data; against a non-transferable one only if the key verifies.", "quantifier": "all stores, data, signatures", "why_tests_cant": "Ranges over an infinite input space; tests sample a few literals.", "anchors": ["src/processor/mod.rs: verify, get_keys_at_event"]}
{"id": "C34", "title": "Last establishment seal", "statement": "For every reachable log the establishment seal returned is (prefix, sn, digest) of the latest establishment event in the log.", "quantifier": "all reachable logs", "why_tests_cant": "Holds only as a statement about all histories; a test runs finitely many event sequences.", "anchors": ["src/processor/mod.rs: get_last_establishment_event_seal"]}
{"id": "C35", "title": "Unknown identifiers stay unknown", "statement": "If no event of an identifier was ever accepted, asking for its state returns nothing.", "quantifier": "all message histories", "why_tests_cant": "Holds only as a statement about all histories; a test runs finitely many event sequences.", "anchors": ["src/processor/mod.rs: compute_state, process_event", "src/database/sled/tables.rs: SledEventTreeVec::remove"]}
{"id": "C36", "title": "A crash or panic between two writes never exposes an unverified event", "statement": "At every crash point of processing a message the stored logs satisfy C21.", "quantifier": "all stores, events and crash points", "why_tests_cant": "Holds only as a statement about all histories; a test runs finitely many event sequences.", "anchors": ["src/processor/mod.rs: process_event (add then verify then remove)"]}
{"id": "C37", "title": "Concurrent processing is linearizable", "statement": "Processing two messages on two threads over the same store leaves the same store as processing them in one of the two orders.", "quantifier": "all interleavings of the store accesses of two process_event calls", "why_tests_cant": "A test cannot control or enumerate schedules.", "anchors": ["src/database/sled/tables.rs: push, designated_key", "src/processor/mod.rs: EventProcessor{db: Arc<..>}"]}
{"id": "C38", "title": "Identifier numbering is injective and stable", "statement": "In the store distinct identifiers are assigned distinct numeric keys, an assigned key never changes, and tables behave as per-identifier lists (push appends, remove deletes equal entries, others untouched).", "quantifier": "all operation histories on the store, with identifiers that have a text of their own (every identifier read from text has)", "why_tests_cant": "Holds only as a statement about all histories; a test runs finitely many event sequences.", "anchors": ["src/database/sled/tables.rs: designated_key, push, remove, put"]}
{"id": "C39", "title": "Table append appends", "statement": "Appending a list to a table entry leaves the old entry followed by the list.", "quantifier": "all tables, keys, lists", "why_tests_cant": "Ranges over an infinite input space; tests sample a few literals.", "anchors": ["src/database/sled/tables.rs: append"]}
{"id": "C40", "title": "base64url codec", "statement": "Decoding the unpadded base64url encoding of any byte string gives it back; the encoding of n bytes has ceil(4n/3) characters of the alphabet; every accepted unpadded string is the canonical encoding of what it decodes to.", "quantifier": "all byte strings", "why_tests_cant": "Ranges over an infinite input space; tests sample a few literals.", "anchors": ["src/prefix/mod.rs: Prefix::to_str", "base64::{encode_config,decode_config}"]}
{"id": "C41", "title": "Basic prefix text round trip", "statement": "Every key prefix whose key has the length of its algorithm reads back from its text form.", "quantifier": "all key types and key bytes", "why_tests_cant": "Ranges over an infinite input space; tests sample a few literals.", "anchors": ["src/prefix/basic.rs: from_str, to_str", "src/derivation/basic.rs: derivative_b64_len"]}
{"id": "C42", "title": "Digest prefix text round trip", "statement": "Every self-addressing prefix of the right digest length reads back from its text form.", "quantifier": "all digest codes and digests", "why_tests_cant": "Ranges over an infinite input space; tests sample a few literals.", "anchors": ["src/prefix/self_addressing.rs", "src/derivation/self_addressing.rs"]}
{"id": "C43", "title": "Signature prefix text round trip", "statement": "Every self-signing prefix of the right length reads back from its text form.", "quantifier": "all signature codes and signatures", "why_tests_cant": "Ranges over an infinite input space; tests sample a few literals.", "anchors": ["src/prefix/self_signing.rs"]}
{"id": "C44", "title": "Identifier prefix text form is unambiguous", "statement": "Every well-sized identifier prefix reads back as the same kind and value; two different well-sized prefixes never have the same text.", "quantifier": "all identifier prefixes", "why_tests_cant": "Ranges over an infinite input space; tests sample a few literals.", "anchors": ["src/prefix/mod.rs: IdentifierPrefix::from_str"]}
{"id": "C45", "title": "Indexed signature text round trip", "statement": "Every indexed signature with its algorithm's length reads back with the same index.", "quantifier": "all indices, signatures", "why_tests_cant": "Ranges over an infinite input space; tests sample a few literals.", "anchors": ["src/prefix/attached_signature.rs", "src/derivation/attached_signature_code.rs: num_to_b64, b64_to_num"]}
{"id": "C46", "title": "Reading a prefix never panics", "statement": "Reading any string as a prefix returns a prefix or an error.", "quantifier": "all strings", "why_tests_cant": "Ranges over an infinite input space; tests sample a few literals.", "anchors": ["src/derivation/basic.rs: from_str", "src/derivation/self_addressing.rs: from_str", "src/derivation/attached_signature_code.rs: from_str", "src/prefix/seed.rs: from_str"]}
{"id": "C47", "title": "Packed sequence numbers round trip", "statement": "Every sequence number packed into an attachment is read back.", "quantifier": "all u64", "why_tests_cant": "Ranges over an infinite input space; tests sample a few literals.", "anchors": ["src/event_parsing/mod.rs: pack_sn", "src/event_parsing/prefix.rs: attached_sn"]}
{"id": "C48", "title": "Attachment count codes round trip", "statement": "Every attachment count code written for a count within its capacity is read back with the same kind and count.", "quantifier": "all kinds and counts", "why_tests_cant": "Ranges over an infinite input space; tests sample a few literals.", "anchors": ["src/event_parsing/payload_size.rs"]}
{"id": "C49", "title": "Attachments round trip", "statement": "Every attachment written to CESR text is parsed back to the same attachment with nothing left over, whatever follows it.", "quantifier": "all attachments and trailing input", "why_tests_cant": "Ranges over an infinite input space; tests sample a few literals.", "anchors": ["src/event_parsing/mod.rs: Attachment::to_cesr", "src/event_parsing/attachment.rs: attachment"]}
{"id": "C50", "title": "Attachment parsing never panics", "statement": "Parsing any bytes as an attachment returns a result or an error.", "quantifier": "all byte strings", "why_tests_cant": "Ranges over an infinite input space; tests sample a few literals.", "anchors": ["src/event_parsing/attachment.rs"]}
{"id": "C51", "title": "Version string round trip", "statement": "Every version string written for a message of any size the format can express is read back.", "quantifier": "all versions, kinds, sizes", "why_tests_cant": "Ranges over an infinite input space; tests sample a few literals.", "anchors": ["src/event_message/serialization_info.rs"]}
{"id": "C52", "title": "Replies are accepted only in BADA order", "statement": "Per (subject, replier) the accepted key-state replies never go backwards: the establishment sn of the signing keys never decreases and with equal sn the reply timestamp never decreases.", "quantifier": "all reply histories", "why_tests_cant": "Holds only as a statement about all histories; a test runs finitely many event sequences.", "anchors": ["src/processor/mod.rs: bada_logic, process_signed_reply"]}
{"id": "C53", "title": "One accepted reply per subject and route", "statement": "For each subject the accepted-reply table holds at most one reply per route, the most recently accepted one.", "quantifier": "all reply histories", "why_tests_cant": "Holds only as a statement about all histories; a test runs finitely many event sequences.", "anchors": ["src/database/sled/mod.rs: update_accepted_reply"]}
{"id": "C54", "title": "Accepted replies are authentic and match the log", "statement": "A reply is accepted only if it is signed by the identifier named in its route, its digest binds its content, and its sn and digest are those of the last event in the local log of the subject.", "quantifier": "all stores and replies", "why_tests_cant": "Ranges over an infinite input space; tests sample a few literals.", "anchors": ["src/processor/mod.rs: process_signed_reply, check_ksn, verify"]}
{"id": "C55", "title": "Reply escrow is processed to a fixpoint and does not grow", "statement": "Reprocessing the reply escrow never adds entries, and removes exactly the replies that became accepted or permanently invalid.", "quantifier": "all stores", "why_tests_cant": "Holds only as a statement about all histories; a test runs finitely many event sequences.", "anchors": ["src/processor/mod.rs: process_escrow, escrow_reply"]}
{"id": "C56", "title": "A key state notice survives serialization", "statement": "The numbers in a serialized key state notice are read back as the same numbers.", "quantifier": "all key state notices", "why_tests_cant": "Ranges over an infinite input space; tests sample a few literals.", "anchors": ["src/query/key_state_notice.rs: Serialize for KeyStateNotice"]}
{"id": "C57", "title": "A controller's own inception, rotations and interactions are always accepted", "statement": "Starting from a fresh controller and a sound key manager, incept followed by any sequence of rotate and make_ixn succeeds, each call appends one event to the controller's log, and the controller's key manager always holds the private key of the key in force and of the committed next key.", "quantifier": "all operation sequences", "why_tests_cant": "Holds only as a statement about all histories; a test runs finitely many event sequences.", "anchors": ["src/keri/mod.rs: incept, rotate, make_ixn, make_rotation", "src/signer/mod.rs: CryptoBox::rotate", "src/event_message/event_msg_builder.rs"]}
{"id": "C58", "title": "Interacting with a peer leaves a working controller", "statement": "After interact with any self-addressing peer, the controller's log still replays completely and further rotations and interactions are accepted.", "quantifier": "all controllers and peers", "why_tests_cant": "Holds only as a statement about all histories; a test runs finitely many event sequences.", "anchors": ["src/keri/mod.rs: interact"]}
{"id": "C59", "title": "A failed rotation does not change keys", "statement": "If rotate returns an error, the keys held by the key manager still match the key state.", "quantifier": "all controllers", "why_tests_cant": "Holds only as a statement about all histories; a test runs finitely many event sequences.", "anchors": ["src/keri/mod.rs: rotate"]}
{"id": "C60", "title": "Witness receipts are only generated by listed witnesses", "statement": "A controller generates a non-transferable receipt only if its Basic prefix is an initial witness of the inception or is grafted by the rotation; the receipt verifies over the event under the controller's key.", "quantifier": "all controllers and events", "why_tests_cant": "Ranges over an infinite input space; tests sample a few literals.", "anchors": ["src/keri/mod.rs: make_ntr, generate_ntr"]}
{"id": "C61", "title": "Streams survive bad messages", "statement": "Processing a stream of messages handles every message: an invalid message is dropped and later valid ones are still processed; the call never panics.", "quantifier": "all message streams", "why_tests_cant": "Holds only as a statement about all histories; a test runs finitely many event sequences.", "anchors": ["src/keri/mod.rs: respond", "src/processor/mod.rs: process"]}
{"id": "C62", "title": "Query answers go to authenticated parties and reflect the log", "statement": "A witness answers a signed query only if the signatures satisfy the signer's current keys; a log query returns exactly the stored log, a key-state query a reply with the computed state.", "quantifier": "all stores and queries", "why_tests_cant": "Ranges over an infinite input space; tests sample a few literals.", "anchors": ["src/keri/witness.rs: process_signed_query, process_query"]}
{"id": "C63", "title": "Accepted prefix texts are canonical", "statement": "A text accepted as a prefix is the text form of the prefix it reads as, so two different accepted texts never denote the same prefix.", "quantifier": "all strings", "why_tests_cant": "Ranges over an infinite input space; tests sample a few literals.", "anchors": ["src/prefix/mod.rs: IdentifierPrefix::from_str", "src/prefix/basic.rs: from_str", "src/prefix/self_addressing.rs: from_str", "src/prefix/self_signing.rs: from_str"]}
{"id": "C64", "title": "Seed text round trip", "statement": "Every non-empty seed reads back from its text form.", "quantifier": "all seed kinds and bytes", "why_tests_cant": "Ranges over an infinite input space; tests sample a few literals.", "anchors": ["src/prefix/seed.rs: from_str, to_str"]}
{"id": "C65", "title": "Reading a version string never panics", "statement": "Reading any text as a version string (as happens when any message is deserialized) returns a value or an error.", "quantifier": "all UTF-8 texts", "why_tests_cant": "Ranges over an infinite input space; tests sample a few literals.", "anchors": ["src/event_message/serialization_info.rs: FromStr for SerializationInfo"]}
{"id": "C66", "title": "Signed messages survive conversion to wire form", "statement": "Converting any signed event, receipt or reply to an event with attachments and back gives the same message.", "quantifier": "all signed messages", "why_tests_cant": "Ranges over an infinite input space; tests sample a few literals.", "anchors": ["src/event_parsing/mod.rs: From<..> for SignedEventData, TryFrom<SignedEventData> for Message"]}
{"id": "C67", "title": "Converting parsed messages never panics", "statement": "Converting any parsed event with any attachments to a message returns a message or an error.", "quantifier": "all events and attachment lists", "why_tests_cant": "Ranges over an infinite input space; tests sample a few literals.", "anchors": ["src/event_parsing/mod.rs: signed_key_event, signed_receipt, signed_reply, signed_query"]}
{"id": "C68", "title": "Streams of messages round trip", "statement": "A stream made of any sequence of written messages is parsed to the same sequence, in order, and what follows it is left over.", "quantifier": "all message sequences and trailing input", "why_tests_cant": "Ranges over an infinite input space; tests sample a few literals.", "anchors": ["src/event_parsing/message.rs: signed_message, signed_event_stream", "src/event_parsing/mod.rs: SignedEventData::to_cesr"]}
{"id": "C69", "title": "An accepted key-state reply describes the local key state", "statement": "When a key-state reply is accepted, the key state it carries (returned to the caller as the subject's state) has the keys, threshold, witnesses and delegator of the state computed from the local log of the subject.", "quantifier": "all stores and replies", "why_tests_cant": "Ranges over an infinite input space; tests sample a few literals.", "anchors": ["src/processor/mod.rs: process_signed_reply, check_ksn", "src/query/reply.rs: get_state"]}
{"id": "C70", "title": "A stored reply can be read back", "statement": "Every reply that was accepted or escrowed is read back from the store unchanged, so later replies about the same subject and passes over the escrow do not panic and do not lose earlier replies.", "quantifier": "all stores and reply histories", "why_tests_cant": "Holds only as a statement about all histories; a test runs finitely many event sequences.", "anchors": ["src/query/key_state_notice.rs: Serialize for KeyStateNotice", "src/database/sled/tables.rs: iter_values, push, get_all", "src/processor/mod.rs: process_signed_reply, process_escrow"]}
{"id": "C71", "title": "A controller can receipt every event in its store, and peers accept the receipt", "statement": "make_rct by a working controller on any event in its store succeeds, names the event and its digest, is stored, is signed under the controller's last establishment event, and is accepted by any other processor that has the event and the controller's log.", "quantifier": "all controllers, stores and events", "why_tests_cant": "Ranges over all histories of the controller and of the peer.", "anchors": ["src/keri/mod.rs: make_rct", "src/processor/mod.rs: process_validator_receipt, get_last_establishment_event_seal"]}
{"id": "C72", "title": "The signed bytes of an event determine the event", "statement": "Two events with the same JSON serialization are the same event, and no serialization is a proper prefix of another: a signature or digest over the bytes is a commitment to every field.", "quantifier": "all pairs of JSON events, and all texts that may follow them", "why_tests_cant": "Injectivity ranges over all pairs of events.", "anchors": ["src/event_message/mod.rs: EventMessage::serialize", "src/event/event_data/mod.rs", "src/event/sections/seal.rs", "src/event/sections/threshold.rs"]}
{"id": "C73", "title": "A built event states its own length", "statement": "The size in the version string of an event made by the builder is the length of its serialization.", "quantifier": "all builder inputs and all digest functions", "why_tests_cant": "Ranges over events of every length.", "anchors": ["src/event_message/event_msg_builder.rs: build", "src/event_message/dummy_event.rs", "src/event_message/serialization_info.rs"]}
{"id": "C74", "title": "A built event carries the digest of its own text", "statement": "The digest of an event made by the builder is the digest of its serialization with the digest (and, for an inception, the identifier) blanked out, which is what the receiver recomputes; a self-addressing inception's identifier is that digest.", "quantifier": "all builder inputs and all digest functions", "why_tests_cant": "Ranges over all events.", "anchors": ["src/event_message/dummy_event.rs", "src/event_message/mod.rs: get_digest, SaidEvent", "src/event_message/event_msg_builder.rs: build"]}
{"id": "C75", "title": "A log that is handed out reads back as the log", "statement": "get_kerl of a node writes a text whose messages, read as a stream, are exactly the signed events of the log in order.", "quantifier": "all logs of readable JSON events", "why_tests_cant": "Ranges over all logs.", "anchors": ["src/processor/mod.rs: get_kerl", "src/event_message/serializer.rs", "src/event_message/signed_event_message.rs: Serialize", "src/event_parsing/message.rs: signed_event_stream"]}
{"id": "C76", "title": "An event or receipt written as JSON is read back", "statement": "Reading the JSON serialization of an event or of a receipt, whatever bytes follow it, gives that event or receipt and leaves exactly the bytes that followed.", "quantifier": "all events and receipts, all texts that follow", "why_tests_cant": "Ranges over all events and receipts.", "anchors": ["src/event_parsing/message.rs: key_event_message, receipt_message", "src/event/event_data/mod.rs: Deserialize for EventData", "src/event_message/mod.rs"]}
{"id": "C77", "title": "An event a node reads it can pass on", "statement": "When a node reads an event from JSON text, the event it holds serializes to text that another node reads as the same event, whatever bytes follow.", "quantifier": "all texts that are read as an event, all texts that follow", "why_tests_cant": "Ranges over every text a peer can send, including odd spellings of prefixes, numbers and thresholds.", "anchors": ["src/event_parsing/message.rs: key_event_message", "src/prefix: FromStr and to_str", "src/event/sections/threshold.rs", "src/event_message/mod.rs: serialize"]}
{"id": "C78", "title": "No text makes the reader panic", "statement": "Whatever bytes a peer sends, reading a message from them succeeds or returns an error; it does not panic.", "quantifier": "all byte strings", "why_tests_cant": "Ranges over all byte strings.", "anchors": ["src/event_parsing/message.rs: signed_message", "src/event_message/serialization_info.rs: FromStr", "src/prefix: FromStr", "src/keri/mod.rs: respond"]}
{"id": "C79", "title": "A key event is not read as another kind of message", "statement": "The JSON serialization of a key event is read as a key event or refused; it is never taken for a receipt.", "quantifier": "all key events", "why_tests_cant": "Ranges over all events, including those the reader refuses.", "anchors": ["src/event_parsing/message.rs: signed_message, receipt_message", "src/event/receipt.rs"]}
{"id": "C80", "title": "A log sent as text makes the receiver agree", "statement": "When a node hands out the log of an identifier as text and another node, which does not know the identifier, responds to that text, the second node has the same log and the same key state for the identifier, and its other logs are unchanged.", "quantifier": "all histories of the first node, all stores of the second, all identifiers", "why_tests_cant": "Ranges over all histories of both nodes and over all events.", "anchors": ["src/processor/mod.rs: get_kerl, process", "src/keri/mod.rs: respond", "src/event_parsing/message.rs", "src/event_message/serializer.rs"]}
{"id": "C81", "title": "The order in which events arrive does not matter", "statement": "A node that is only offered events of one accepted history of an identifier, in any order, repeated, with any signatures and mixed with messages about other identifiers and escrow processing, has a beginning of that history as its log; once the history has been offered in order as a subsequence of everything offered, its log is the whole history and its key state is the one computed from it. In particular, offering all events of another node's log, shuffled, as many times as it has events, brings a node that does not know the identifier to that log and key state.", "quantifier": "all histories, all offered sequences, all reachable stores", "why_tests_cant": "Ranges over all permutations, repetitions and interleavings of all histories.", "anchors": ["src/processor/mod.rs: process, process_event", "src/database/sled/mod.rs: add_kel_finalized_event"]}
{"id": "C82", "title": "Two nodes disagree about a log only if the controller signed two events", "statement": "If two nodes on which no call panicked hold logs of the same identifier and neither log continues the other, then at the first difference there are two different events with the same sequence number and the same previous-event digest, each signed by the keys in force and, for rotations, each matching the committed next keys.", "quantifier": "all pairs of histories of two nodes, all identifiers", "why_tests_cant": "Ranges over all pairs of histories.", "anchors": ["src/processor/mod.rs: process, process_event", "src/processor/validator.rs: validate_event"]}
{"id": "C83", "title": "A signed message that arrives whole on an async connection is processed", "statement": "When the text of a signed message arrives in one read of an async connection whose first byte is accepted, the handler processes it as respond_single does, writes the answer and passes the message on.", "quantifier": "all signed messages, all controllers, all connections", "why_tests_cant": "Ranges over all messages and attachments.", "anchors": ["src/processor/async_processing.rs: process", "src/event_parsing/payload_size.rs: size, master_code_size", "src/keri/mod.rs: respond_single"]}
{"id": "C84", "title": "How a stream is cut into reads and writes does not matter to an async connection", "statement": "The effect of an async connection depends only on the bytes it delivers, not on how they are divided into reads; every answer is written completely and no message is processed twice because the writer was not ready.", "quantifier": "all byte streams, all divisions into reads, all behaviours of the writer", "why_tests_cant": "Ranges over all schedules of reads and writes.", "anchors": ["src/processor/async_processing.rs: process"]}
{"id": "C85", "title": "An event is accepted exactly when the rules allow it", "statement": "Offering an event to a node returns a new key state if and only if: it is an inception of an identifier the node has no log for, with sn 0 and an identifier bound to it, or it is the next event of the log, names the digest of the last event and, if a rotation, carries the keys and threshold the last establishment event committed to and is of the delegated kind exactly for delegated identifiers; a delegated event is sealed by the event of the delegator's log its source seal points to; and enough of the keys in force after it signed it. Nothing else in the store has a say.", "quantifier": "all histories of calls, all events, all signature lists", "why_tests_cant": "It is an equivalence over all logs and all events: a test shows neither that nothing else is accepted nor that nothing allowed is refused.", "anchors": ["src/processor/mod.rs: process_event, validate_seal, apply_to_state", "src/event_message/key_event_message.rs: apply_to"]}
{"id": "C86", "title": "A built event says what the builder was told", "statement": "The event that EventMsgBuilder builds has the kind, sequence number, previous digest, identifier, keys, thresholds, next-key commitment, delegator, seals, witnesses and witness threshold that its setters were given.", "quantifier": "all kinds of events, all sequences of setter calls", "why_tests_cant": "Ranges over all sequences of setter calls and all values.", "anchors": ["src/event_message/event_msg_builder.rs: EventMsgBuilder"]}
{"id": "C87", "title": "Events built from the key state and signed by enough keys are accepted", "statement": "A group of key holders that builds the next event from the current key state with the builder (rotation: with the keys and threshold it committed to; delegated: anchored by the delegator) and attaches enough signatures has it accepted by every node with that log; so is a new inception.", "quantifier": "all histories, all key lists and thresholds, all builder settings, all sufficient signature lists", "why_tests_cant": "Liveness over all logs, key lists, weighted thresholds and signature subsets.", "anchors": ["src/event_message/event_msg_builder.rs: build", "src/processor/mod.rs: process"]}
{"id": "C88", "title": "Only the committed keys can take over an identifier", "statement": "A rotation of an identifier is accepted only with the keys and threshold the last establishment event committed to; someone holding other keys cannot make an accepted rotation.", "quantifier": "all histories, all commitments, all rotation events, all key pools of an attacker", "why_tests_cant": "Security statement over every event an attacker can construct; tests try a few wrong keys.", "anchors": ["src/event/sections/key_config.rs: nxt_commitment, verify_next", "src/processor/mod.rs: process_event"]}
{"id": "C89", "title": "An honest controller has one history everywhere", "statement": "If nobody forges signatures of a controller and it signs the events of one log only, then whatever anybody submits to a node in whatever order, the node's log of that identifier is an initial part of the controller's log; two nodes never hold diverging logs, and with logs of the same length they hold the same key state. Everything in a log was submitted.", "quantifier": "all histories of all nodes, all events submitted by anybody", "why_tests_cant": "Ranges over all adversarial histories of any number of nodes.", "anchors": ["src/processor/mod.rs: process, process_event, apply_to_state", "src/event/sections/key_config.rs: verify"]}
{"id": "C90", "title": "Which receipts are accepted", "statement": "A transferable receipt handed to the processor is accepted if and only if the receipted event is in the log of the receipted identifier at the receipt's number, the seal names an establishment event in the validator's log, and the receipt's signatures over the logged event satisfy the keys of that establishment event. An accepted receipt is appended to the identifier's receipts and nothing else changes. The digest written in the receipt has no say (see C30).", "quantifier": "all histories, all receipts", "why_tests_cant": "An equivalence over all receipts and histories; tests see a few accepted and refused ones.", "anchors": ["src/processor/mod.rs: process_validator_receipt, get_keys_at_event", "src/database/sled/mod.rs: add_receipt_t"]}
{"id": "C91", "title": "Which key-state replies are accepted", "statement": "A key-state reply is accepted if and only if its route names its signer, its signatures are of the keys its seal names (or of the bare key), its digest is that of its content, it supersedes the accepted reply by the same replier about the same identifier (newer keys, or the same keys and not an earlier time; the notice not older either), and its notice names the last event of the log of the identifier.", "quantifier": "all histories, all replies", "why_tests_cant": "An equivalence over all replies and histories.", "anchors": ["src/processor/mod.rs: process_signed_reply, bada_logic, check_ksn, check_timestamp_with_last_ksn"]}
{"id": "C92", "title": "A node holds exactly what it said yes to", "statement": "After any history of calls the log of an identifier is the list of its events that were answered with success, in order (histories without panics); its validators' receipts are those answered with success, in order; its witness receipts, stored and escrowed, are those answered with success. Asking whether a validator has receipted an event answers yes exactly when such a receipt was accepted, and then the receipt is justified by the validator's log.", "quantifier": "all histories of calls, all identifiers", "why_tests_cant": "Relates the store to the whole history of answers, for histories of any length.", "anchors": ["src/processor/mod.rs: process, has_receipt", "src/database/sled/tables.rs: push, remove"]}
{"id": "C93", "title": "Which texts are version strings", "statement": "A text that is accepted as the version string of a message is the text the implementation writes for the version, format and size it was read as (signatures and digests are over the written text).", "quantifier": "all texts", "why_tests_cant": "There are unboundedly many texts; a test tries a few.", "anchors": ["src/event_message/serialization_info.rs: SerializationInfo::from_str, to_str"]}
{"id": "C94", "title": "A query that is written out is read back as the same query", "statement": "With the query feature: a query message written as JSON is read back as the same query (its time to the microsecond), whatever follows it in the stream; a signed query that is sent by one node is received by another as the query that was signed; the other kinds of message are read as before; a query made with new_query states its own size and digest.", "quantifier": "all queries (route, registered identifier, times, digests), all texts after the message", "why_tests_cant": "Unboundedly many queries and continuations of the stream; tests fix one text.", "anchors": ["src/query/query.rs: QueryData, new_query", "src/query/mod.rs: Envelope", "src/event_parsing/message.rs: message, signed_message", "src/event_parsing/attachment.rs"]}
{"id": "C95", "title": "A reply that is written out is read back as the same reply", "statement": "With the query feature: a key-state reply written as JSON is read back as the same reply (times to the microsecond), whatever follows it in the stream, and is then written as the same text.", "quantifier": "all replies and key-state notices, all texts after the message", "why_tests_cant": "Unboundedly many notices and continuations; the upstream test edits the text of its one example before reading it.", "anchors": ["src/query/reply.rs: ReplyData", "src/query/key_state_notice.rs: KeyStateNotice", "src/query/mod.rs: Envelope", "src/state/mod.rs: IdentifierState (serde)", "src/event_parsing/message.rs: reply_message"]}
{"id": "C96", "title": "No text makes a node that answers queries panic", "statement": "With the query feature: whatever bytes a node is given to parse, reading them returns a message or an error and never panics.", "quantifier": "all byte strings", "why_tests_cant": "Unboundedly many byte strings.", "anchors": ["src/query/mod.rs: Route::deserialize", "src/event_parsing/message.rs: signed_message, reply_message, query_message", "src/event_message/serialization_info.rs: from_str", "src/keri/mod.rs: respond, respond_single"]}
{"id": "C97", "title": "A message is handled as the kind it says it is", "statement": "A text that is read as a key event, a receipt, a query or a reply states that kind in its type field.", "quantifier": "all texts, all messages", "why_tests_cant": "Unboundedly many texts; tests only read well-labelled ones.", "anchors": ["src/event_parsing/message.rs: signed_message", "src/event_message/mod.rs: EventMessage (serde flatten)", "src/event/event_data/mod.rs: EventData (serde tag)", "src/event/receipt.rs", "src/query/query.rs", "src/query/reply.rs"]}
{"id": "C98", "title": "Thresholds are decided by the exact sums of weights", "statement": "Whatever the weights of a key configuration (any 64 bit fractions), verifying signatures against it succeeds exactly when the signatures are valid, indexed and distinct and the exact rational sums of the signers' weights reach one in every clause; machine arithmetic, in debug and release builds alike, never changes the decision and never panics.", "quantifier": "all key configurations, weights, messages, signature lists, and both build profiles", "why_tests_cant": "Overflow depends on the joint size of all denominators and numerators; a test exercises a handful of small weights.", "anchors": ["src/event/sections/threshold.rs: ThresholdClause::enough_signatures", "src/event/sections/threshold.rs: MultiClauses::enough_signatures", "src/event/sections/key_config.rs: KeyConfig::verify"]}
{"id": "C99", "title": "A log depends only on its own events and its delegators'", "statement": "The log and key state a node computes for an identifier, and its answer to a further key event of that identifier, are those of a node that was given only the key events of the identifier and of the identifiers that delegate to it (directly or not), in the same order: receipts, replies, escrow passes and everybody else's events are immaterial.", "quantifier": "all histories of calls, all sets of identifiers closed under the delegators named in them, all identifiers of the set", "why_tests_cant": "It is a non-interference property: it ranges over all interleavings with arbitrary unrelated traffic.", "anchors": ["src/processor/mod.rs: process", "src/processor/mod.rs: process_event", "src/processor/mod.rs: validate_seal", "src/processor/mod.rs: compute_state"]}
{"id": "C100", "title": "What is stored is bounded by what was sent", "statement": "A node never holds more records, over all its tables together, than messages it was given to process.", "quantifier": "all histories of messages and escrow passes", "why_tests_cant": "Growth depends on the whole history; a test sees a few messages.", "anchors": ["src/processor/mod.rs: process", "src/processor/mod.rs: process_escrow", "src/database/sled/tables.rs: push"]}
{"id": "C101", "title": "A message delivered again changes nothing", "statement": "When a message that did not make the node panic is delivered again, the store stays exactly as it was.", "quantifier": "all histories, all messages of every kind, accepted, refused or escrowed", "why_tests_cant": "Idempotence must hold in every reachable store and for every message.", "anchors": ["src/processor/mod.rs: process", "src/processor/mod.rs: process_validator_receipt", "src/processor/mod.rs: process_witness_receipt", "src/processor/mod.rs: process_signed_reply"]}
{"id": "C102", "title": "Threads that keep to their own identifiers cannot disturb each other", "statement": "Take any number of threads that share one event store, each giving its own list of messages to the processor. If no thread has a message about an identifier that another thread needs (the identifiers its messages name, and whoever delegates to them), and the store already knows those identifiers, then under every interleaving of the store accesses each thread gets exactly the answers it gets when running alone, every execution finishes, and all executions leave the same logs, receipts and escrows: those the threads leave when they run one after another.", "quantifier": "all histories before, all numbers of threads, all message lists, all interleavings of single tree accesses", "why_tests_cant": "the number of interleavings of tree accesses grows exponentially and a test runs a handful of them", "anchors": ["src/processor/mod.rs: EventProcessor::process", "src/database/sled/mod.rs: SledEventDatabase", "src/database/sled/tables.rs: SledEventTreeVec::push, remove, get; SledEventTree::designated_key"]}
{"id": "C103", "title": "The JSON reader accepts exactly JSON", "statement": "A message is read from the front of a byte stream exactly when the stream begins with optional white space and then a JSON object (RFC 8259, strings in valid UTF-8) with exactly one member v, a version string, nested at most 127 deep, whose members are those of the message; what is left over is exactly what follows the object. No text has two readings, and two texts of the same value are read as the same message.", "quantifier": "all byte streams, all message types, all spellings (white space, escapes, surrogate pairs, numbers)", "why_tests_cant": "the grammar has infinitely many texts and infinitely many near misses; a test samples a few of each", "anchors": ["src/event_parsing/message.rs: key_event_message, receipt_message, json_message", "src/event_message/serialization_info.rs: SerializationInfo::from_str"]}
{"id": "C104", "title": "The bytes received are the bytes the signature covers", "statement": "When an event is read from a stream, the bytes consumed are the bytes against which its signatures are later checked.", "quantifier": "all byte streams read as an event", "why_tests_cant": "tests feed the reader what the writer wrote; a peer may send any other spelling", "anchors": ["src/event_parsing/message.rs: key_event_message", "src/event_message/signed_event_message.rs", "src/processor/mod.rs: EventProcessor::verify (serialize)"]}
{"id": "C105", "title": "An event is read exactly from the JSON objects of its type", "statement": "A key event is read from a text exactly when the text is a JSON object that has d, i and s once, t naming the type, and the members of that type with values of the right form (keys, digests and identifiers in their text form, numbers in hexadecimal, thresholds, seals as object or array with the fixed order of precedence); each component of the event is what its member says. The order of members and members of other names do not matter. A receipt is read exactly from an object with d, i and s once.", "quantifier": "all texts, all objects, all events", "why_tests_cant": "the objects that are and are not events are infinite sets; a round trip test reaches only what the writer writes", "anchors": ["src/event/event_data/mod.rs: Deserialize for EventData", "src/event/event_data/inception.rs, rotation.rs, interaction.rs, delegated/mod.rs, receipt.rs", "src/event/sections/: KeyConfig, WitnessConfig, InceptionWitnessConfig, seal.rs, threshold.rs", "src/event_message/mod.rs: SaidEvent, EventTypeTag"]}
{"id": "C106", "title": "A message that gives a member twice is refused", "statement": "An object in which a member that the event uses stands twice is not read as an event: different readers would read different events from it.", "quantifier": "all objects, all member names", "why_tests_cant": "ranges over every position and value of the repeated member", "anchors": ["src/event/event_data/mod.rs: Deserialize for EventData (serde_json::Value)", "src/event_message/mod.rs: SaidEvent"]}
{"id": "C107", "title": "A query and a reply are read exactly from the JSON objects of their form", "statement": "A query is read from a text exactly when the text is a JSON object with v, d, dt, r, rr and q each once and of the right form; a reply exactly when it has v, d, dt, r and a, where a is an object with the members of a key state notice each once (p, et and di may be null or absent). Each component of the message is what its member says, and an object gives at most one message.", "quantifier": "all texts, all objects, all queries and replies", "why_tests_cant": "the objects that are and are not queries or replies are infinite sets; a round trip test reaches only what the writer writes", "anchors": ["src/query/query.rs: QueryData, QueryArgs", "src/query/reply.rs: ReplyData", "src/query/key_state_notice.rs: KeyStateNotice", "src/query/mod.rs: Envelope, Route", "src/state/mod.rs: IdentifierState, LastEstablishmentData", "src/event_message/mod.rs: SaidEvent"]}
{"id": "C108", "title": "A message is of the type that its member t says", "statement": "If a text is read as a key event, a query, a reply or a receipt, its member t names that type.", "quantifier": "all objects, all four readers", "why_tests_cant": "ranges over every object, in particular those with another or no type", "anchors": ["src/query/query.rs", "src/query/reply.rs", "src/event/receipt.rs", "src/event_parsing/message.rs: signed_message"]}
{"id": "C109", "title": "Exactly the texts of the attachment grammar are read as attachments", "statement": "A text without padding characters is read as a given attachment, whatever follows it, exactly when it is made of a count code, two digits giving the number of members and the members one after another, each with its code and its bytes in base64; a frame when its digits give the length of its contents in groups of four characters and its contents are attachments to the end. These texts use URL-safe characters only, and no one of them is a text of another attachment or the beginning of one.", "quantifier": "all texts, all attachments (frames nested to any depth, groups of any size), all following input", "why_tests_cant": "the accepted and the refused texts are both infinite sets, and a round-trip test only sees texts the writer makes", "anchors": ["src/event_parsing/attachment.rs: attachment, source_seal, event_seal, signatures, couplets, id_signatures", "src/event_parsing/prefix.rs: attached_signature, basic_prefix, self_addressing_prefix, self_signing_prefix, attached_sn, prefix", "src/event_parsing/payload_size.rs: PayloadType"]}
{"id": "C110", "title": "An attachment has one text", "statement": "Two texts that are read as the same attachment are the same text, so an attachment cannot be altered in transit without changing what is read.", "quantifier": "all pairs of accepted texts", "why_tests_cant": "it quantifies over pairs of arbitrary texts; no test looks for a second text", "anchors": ["src/event_parsing/prefix.rs: attached_sn", "src/event_parsing/attachment.rs: b64_count", "src/derivation/attached_signature_code.rs: b64_to_num"]}
{"id": "C111", "title": "A signed message takes all the attachments that follow it and nothing else", "statement": "A text is read as a signed message, leaving a rest, exactly when the event reader reads the event at its beginning and what follows is the texts of the message's attachments one after another and then a rest that is not the beginning of an attachment that can be read. In particular a last group of signatures that is cut short at any place is left over and not reported.", "quantifier": "all event readers, all texts, all lists of attachments, all points at which the last group can be cut", "why_tests_cant": "ranges over all numbers and kinds of attachments and over all cut points", "anchors": ["src/event_parsing/message.rs: signed_message", "src/event_parsing/attachment.rs: attachment"]}
{"id": "C112", "title": "What a node sends back, exactly", "statement": "When a node in normal use is given a text of events of others and receipts, its answer consists, for each event it accepted and in order, of its own log if the event is an inception whose sender has not yet acknowledged the node's own inception, followed by its receipt for the event, which names the event's identifier, number and digest and is validly signed under the node's own keys; receipts and refused messages get no answer. Afterwards its store is that of processing the messages one by one plus exactly those receipts.", "quantifier": "all nodes in normal use (any history), all texts, all mixes of accepted and refused messages", "why_tests_cant": "the answer depends on the whole history of the node and of the stream; tests only exchange two fixed inceptions", "anchors": ["src/keri/mod.rs: Keri::respond, make_rct, get_kerl", "src/database/sled/mod.rs: get_receipts_t, add_receipt_t"]}
{"id": "C113", "title": "Two strangers introduce themselves in three messages", "statement": "If one node sends its log to another that has not heard of it, and the answers of each are handed to the other, then after three messages each node has the other's log exactly as the other has it, both hold valid receipts by either node for every event of the other, no other log has changed, and the last answer is empty, so the exchange ends.", "quantifier": "all pairs of nodes in normal use (any earlier history and any other contents of their stores, logs of any length), all serializers and crypto oracles that behave", "why_tests_cant": "the existing test exchanges one inception each in one order with toy histories; the claim ranges over all histories, key sizes and log lengths and goes through writer, parser, verifier and both stores", "anchors": ["src/keri/mod.rs: Keri::respond, make_rct, get_kerl", "src/event_parsing/message.rs: signed_event_stream", "src/processor/mod.rs: EventProcessor::process"]}
{"id": "C114", "title": "A witness's key state answer is accepted by whoever asked", "statement": "A node that holds the same log of the identifier as the witness, and has not accepted a later answer of that witness, accepts the witness's answer to a key state query; precisely, it is accepted exactly when the last event of the identifier is the same, by number and digest, at both, and no accepted answer of this witness is dated after it. The same holds for what the node reads when the witness's answer is sent to it. A witness answers every key state query about an identifier it knows.", "quantifier": "all histories of the two stores, identifiers, witnesses, times, serializers of instants and crypto oracles that behave", "why_tests_cant": "acceptance depends on both stores' whole histories, on the digest of the answer's own text and on all answers accepted before; the one test uses one answer on one log", "anchors": ["src/keri/witness.rs: Witness::process_query, get_ksn_for_prefix", "src/query/reply.rs: ReplyEvent::new_reply", "src/query/key_state_notice.rs: KeyStateNotice::new_ksn", "src/processor/mod.rs: EventProcessor::process_signed_reply, check_ksn, bada_logic"]}
{"id": "C115", "title": "Key state replies state their own length and digest", "statement": "The version text of a key state reply made by a witness, and of the notice inside it, gives the length of the text of that message, and the reply's digest is the digest of its own text with the digest blanked out.", "quantifier": "all key states, routes, digest algorithms, times and digest functions with outputs of the right size", "why_tests_cant": "the length depends on every field of the state; a test looks at one reply", "anchors": ["src/query/reply.rs: ReplyEvent::new_reply", "src/query/key_state_notice.rs: KeyStateNotice::new_ksn", "src/event_message/mod.rs: SaidEvent::to_message", "src/event_message/dummy_event.rs: DummyEventMessage::dummy_event"]}
{"id": "C116", "title": "The store gives back the events it was given", "statement": "For events whose every value is written as text that reads back (which includes every event read from text without padding characters and fractions over zero, with signature indices below 63): the bytes of a log in the database read back as the same events with the same signatures and times in the same order, and processing any sequence of such events against the database of bytes gives the same answers and the same logs and key states as processing them against a store that keeps the events themselves.", "quantifier": "all sequences of such signed events and times of any length whose total size is below 2^64, all signature schemes and digest functions", "why_tests_cant": "every log is read back and rewritten at every use; a test stores a few events", "anchors": ["src/database/sled/tables.rs: get, put, push, remove, iter_values", "src/event_message/signed_event_message.rs: Serialize for SignedEventMessage, TimestampedSignedEventMessage", "src/event_message/mod.rs: Serialize, Deserialize for EventMessage", "src/processor/mod.rs: process_event"]}
{"id": "C117", "title": "A message that is refused leaves every key state as it was", "statement": "When the processor refuses a signed event with an error, the key state of every identifier computed from the database is what it was before.", "quantifier": "all histories, all signed events, all identifiers, on the database of bytes", "why_tests_cant": "the offending event is one that an attacker composes, not one that a controller would make", "anchors": ["src/processor/mod.rs: process_event", "src/database/sled/tables.rs: push, remove, iter_values", "src/derivation/attached_signature_code.rs: num_to_b64", "src/prefix/attached_signature.rs"]}
{"id": "C118", "title": "What a controller makes can be stored, sent and read", "statement": "A controller with keys of the right sizes that is incepted (with up to three hundred further keys and witnesses) and then rotates and interacts, with or without payloads, any number of times, while others process anything that is not a key event of its identifier, never gets an error; each event it makes has parts that fit their algorithms, states a size of at most 65535, carries exactly one signature, is storable, and reads back from its text whatever follows. Any two such controllers that worked alone and anchored nothing can introduce themselves with three messages, after which each has the other's whole log and receipts for every event.", "quantifier": "all key pairs of the right size, all payloads, all sequences of operations up to 2^64, all foreign calls in between, all digest and signature functions of the right sizes", "why_tests_cant": "the sizes and shapes must hold for every history, key and payload; each earlier guarantee has conditions that a test meets by accident", "anchors": ["src/keri/mod.rs: incept, incept_with_extra_keys, rotate, make_ixn, respond", "src/event_message/event_msg_builder.rs: build", "src/event_message/mod.rs: to_message, EventMessage", "src/event_message/serialization_info.rs"]}
{"id": "C119", "title": "A restarted node finds what the controller had", "statement": "The bytes left in the database by the events of a controller that worked alone are read after a restart as the same log, and the key state computed from them is the one that the controller had: its current key in force and its next key committed to; no other identifier has a log.", "quantifier": "all lives of a controller as in C118 with any payloads, all times of storage, total size below 2^64", "why_tests_cant": "each operation reads, rewrites and re-reads the whole log as bytes; tests restart after a few events", "anchors": ["src/database/sled/tables.rs: push, get, iter_values", "src/processor/mod.rs: process_event, compute_state", "src/keri/mod.rs: new, incept, rotate, make_ixn"]}
{"id": "C120", "title": "Receipts come back from the store as they were put in", "statement": "A list of witness or validator receipts written to the store as bytes reads back as the same receipts; and processing any sequence of events and receipts on the store of bytes gives the same answers, the same logs, the same four receipt tables and the same answers to has_receipt as processing them on values, for receipts and events whose parts read back from their own text (which holds for everything read from text without base64 padding).", "quantifier": "every sequence of signed events, witness receipts and validator receipts of total size below 2^64, every environment, identifier, sequence number and validator", "why_tests_cant": "The store writes CBOR and reads it back on every use; equality must hold for every receipt and every history.", "anchors": ["src/database/sled/tables.rs: SledEventTree::get, put, push, iter_values", "src/database/sled/mod.rs: add_receipt_t, add_receipt_nt, add_escrow_t_receipt, add_escrow_nt_receipt", "src/processor/mod.rs: process_witness_receipt, process_validator_receipt, has_receipt", "src/event_message/signed_event_message.rs: SignedTransferableReceipt, SignedNontransferableReceipt"]}
{"id": "C121", "title": "A receipt on record stays on record", "statement": "Once the store shows a receipt for an identifier, it still shows it after any further event or receipt is processed, whoever sent it.", "quantifier": "every history of events and receipts, every further message, every identifier and receipt", "why_tests_cant": "The loss needs a message whose stored form does not read back, and must be excluded for every message.", "anchors": ["src/database/sled/tables.rs: push", "src/processor/mod.rs: process_witness_receipt, process_validator_receipt, has_receipt"]}
{"id": "C122", "title": "Messages in CBOR read back, and logs of any format transfer", "statement": "A key event or receipt serialized in JSON or CBOR, according to the format stated in its version string, is read back as itself whatever bytes follow; so the signed bytes determine the event, also across formats. A log whose events were signed in JSON or CBOR, handed out by one node and read by another that has no log for the identifier, gives that node the same log and the same key state.", "quantifier": "every key event and receipt with readable parts below 2^64 bytes, all following bytes, every history of the sending node, every state of the receiving node", "why_tests_cant": "The repository has no test that reads a CBOR message; agreement of two writers and three readers must hold for every event and every following byte.", "anchors": ["src/event_parsing/message.rs: message, cbor_message, key_event_message, receipt_message", "src/event_message/serialization_info.rs: SerializationFormats::encode", "src/event_message/mod.rs: EventMessage::serialize", "src/event_message/signed_event_message.rs: impl Serialize for SignedEventMessage"]}
{"id": "C123", "title": "Streams of messages in any format", "statement": "A stream of signed messages, each an event or receipt in JSON or CBOR with its attachments, is read back as that list of messages.", "quantifier": "every list of readable messages in either format with any attachments", "why_tests_cant": "The end of one message's attachments is found by trying to read one more attachment, so what is read depends on the first bytes of the next message.", "anchors": ["src/event_parsing/message.rs: signed_event_stream, signed_message", "src/event_parsing/attachment.rs: attachment", "src/keri/mod.rs: Keri::respond"]}
{"id": "C124", "title": "Asking a node changes nothing", "statement": "Asking for a key state (now or at a sequence number), a log, an event, the keys at an event, the last establishment seal, whether a receipt is there, a table entry, or for the verification of signed data, leaves the store as it was; in a history of messages and questions all answers are those that the messages alone determine.", "quantifier": "every history of messages and questions, every store, every question", "why_tests_cant": "The store gives an identifier a number on its first use, also by a read, and the tables are addressed by these numbers; that no answer is disturbed must hold for every interleaving of reads and writes.", "anchors": ["src/database/sled/tables.rs: designated_key, get_key_by_value, get_next_key", "src/database/sled/mod.rs: get_kel_finalized_events, get_receipts_t", "src/processor/mod.rs: compute_state, compute_state_at_sn, get_kerl, get_event_at_sn, get_keys_at_event, get_last_establishment_event_seal, has_receipt, verify"]}
{"id": "C125", "title": "A refused event is seen and relied on by nobody", "statement": "While one thread processes an event that ends up refused, questions asked by other threads on the same store are answered as if it had not arrived, and no other event is accepted on the strength of it; a question asked beside a message never disturbs the message.", "quantifier": "every history, every event or message, every question beside it, every interleaving of the store accesses", "why_tests_cant": "The event is written to the log before its signatures are checked and taken out again afterwards; whether someone looks in between depends on the schedule.", "anchors": ["src/processor/mod.rs: process_event, compute_state, validate_seal, get_event_at_sn", "src/database/sled/mod.rs: add_kel_finalized_event, remove_kel_finalized_event, get_kel_finalized_events", "src/database/sled/tables.rs: push, remove, designated_key"]}
{"id": "C126", "title": "Damage to one message of a stream affects only that message", "statement": "When one character of one attachment of a stream is damaged, the damaged text is not taken for an attachment, and the messages before and after the damaged message are read and acted upon as if it were undamaged.", "quantifier": "every stream of signed messages, every kind of attachment group, every position of the damaged character, every character that cannot stand in an attachment, whatever follows, every state of the node", "why_tests_cant": "Whether the rest is skipped, the whole stream is refused or the process aborts depends on the kind of the group, the position in it and the length of what follows.", "anchors": ["src/event_parsing/attachment.rs: b64_count, signatures, source_seal, attachment", "src/event_parsing/prefix.rs: attached_signature, attached_sn, self_addressing_prefix", "src/event_parsing/message.rs: signed_message, signed_event_stream", "src/keri/mod.rs: respond"]}
{"id": "C127", "title": "A damaged attachment is never accepted", "statement": "If any character of an attachment is replaced by one that cannot stand in an attachment, then whatever follows it, no attachment is read at that place: the damaged text is not taken for another, shorter or longer attachment.", "quantifier": "every attachment of every kind (nested frames included), every position, every foreign character, every continuation", "why_tests_cant": "Counts decide how much text a group takes; a damaged count, code or member could in principle make the text readable as something else for some continuation.", "anchors": ["src/event_parsing/attachment.rs: attachment", "src/event_parsing/prefix.rs"]}
{"id": "C128", "title": "A key manager that keeps its word is as good as the built-in one", "statement": "A controller over any implementation of the key manager trait that reports its current and next public keys, signs with the current private key and on rotation makes the announced key current, gives the same answers, writes the same store and has the same identifier as the controller over the built-in key box; in particular all its own events are accepted.", "quantifier": "every key manager type and implementation keeping its word, every state of it, every store, every sequence of calls of the controller and of the processor over the shared store", "why_tests_cant": "The controller is generic: the promise ranges over all implementations of the trait and all histories.", "anchors": ["src/signer/mod.rs: KeyManager, CryptoBox", "src/keri/mod.rs: Keri, incept, incept_with_extra_keys, rotate, make_rotation, make_ixn, interact, make_rct, make_ntr, respond, respond_single"]}
{"id": "C129", "title": "A wallet rotates to the key that it announced", "statement": "After the wallet's keys were made, every rotation succeeds and makes the key that the wallet reported as its next key the current one, with which it then signs, whatever else the wallet holds.", "quantifier": "every wallet content, every order in which the wallet's map enumerates contents, every sequence of rotations and generated keys", "why_tests_cant": "Which content is found depends on the other contents and on the order of a hash map.", "anchors": ["src/signer/wallet.rs: incept_keys, get_public_key, KeyManager for UnlockedWallet, rotate"]}
{"id": "C130", "title": "A node made with a fresh wallet can be used", "statement": "A controller made by new_with_fresh_wallet can incept its identifier and then rotate, interact and give receipts.", "quantifier": "every store, all generated keys, every sequence of calls", "why_tests_cant": "That no sequence of calls ever succeeds is a statement about all histories and stores.", "anchors": ["src/keri/mod.rs: new_with_fresh_wallet, incept", "src/signer/wallet.rs: incept_keys", "src/event_message/key_event_message.rs: verify_identifier_binding"]}
{"id": "C131", "title": "A hierarchy of delegated identifiers can be created and operated for life", "statement": "Parties who incept identifiers of their own or under another party, rotate their keys and anchor data with the event builder, each delegator anchoring the delegated events in its own log by an interaction event with an event seal and the delegate attaching the source seal, each identifier being held by a group of keys with a simple or weighted signing threshold, have every one of these events accepted exactly when enough of the group (and, for the anchor, of the delegator's group) sign, at any depth of delegation and in any order; afterwards the key state of each identifier names its delegator and the keys that its party holds, and every log has exactly the events made. A delegated event without the anchor is refused.", "quantifier": "every number of parties and depth of delegation, every sequence of inceptions, rotations, anchors and calls about other identifiers (also between anchor and delegated event), every store to start with, all groups of keys that sign and verify, all thresholds and sets of signers", "why_tests_cant": "The delegation rules relate several logs; that no sequence of correct steps ever gets stuck is an induction over histories of unbounded length and depth.", "anchors": ["src/event_message/event_msg_builder.rs: EventMsgBuilder", "src/processor/mod.rs: process_event, validate_seal, compute_state", "src/event/event_data/delegated/mod.rs: DelegatedInceptionEvent"]}
{"id": "C132", "title": "Keys derived from a seed can be used", "statement": "For every seed of a signing algorithm, written and read as text, the derived key pair signs and verifies, the derived prefix carries the asked transferability and its text reads back as key and as identifier; other seeds are refused with an error. A controller whose keys come from seeds has all its own events accepted. Signatures and keys of the wrong size verify nothing.", "quantifier": "every seed of every kind and length, both transferabilities, every message, every store and sequence of operations of a controller", "why_tests_cant": "The test derives keys of eight seeds of one algorithm; the promise is about all seeds of all kinds and what can be done with the keys later.", "anchors": ["src/prefix/seed.rs: SeedPrefix, derive_key_pair", "src/prefix/mod.rs: derive", "src/keys/mod.rs: PublicKey, PrivateKey, verify_ed, verify_ecdsa, sign_ed, sign_ecdsa"]}
{"id": "C133", "title": "Naming a digest algorithm aborts no node", "statement": "Whatever digest algorithm a prefix, a commitment to next keys, a seal or the digest of a message names, a node that is given the message answers it, by accepting or refusing it, and does not abort.", "quantifier": "every history of calls, every event, reply and receipt, every digest algorithm that can be named", "why_tests_cant": "The tests compute digests with one algorithm; nine can be named, in several places of a message, and a node compares them in places that depend on what it received before.", "anchors": ["src/derivation/self_addressing.rs: SelfAddressing::digest, blake2s_256_digest, blake2b_256_digest", "src/prefix/self_addressing.rs: verify_binding", "src/event/sections/key_config.rs: verify_next", "src/event_message/key_event_message.rs: check_digest"]}
{"id": "C134", "title": "Replies and escrow passes beside other calls", "statement": "What is done about replies on other threads of a node (receiving them, accepting or refusing them, passes over the escrow) never changes what happens to events and receipts: these get the same answers and leave the same logs, receipts and escrowed receipts as if the replies and passes had not been. And a reply whose sender is told that it has to wait is still waiting when all threads are done.", "quantifier": "every history of calls before, every number of threads with any calls each, every interleaving of their accesses to the database", "why_tests_cant": "The node's methods take a shared reference and are called from several threads; the tests use one. The database is read and written in several steps per call, and which interleavings happen is up to the scheduler.", "anchors": ["src/processor/mod.rs: EventProcessor::process, process_signed_reply, process_escrow, escrow_reply", "src/database/sled/mod.rs: add_escrowed_reply, remove_escrowed_reply, update_accepted_reply, get_all_escrowed_replys", "src/database/sled/tables.rs: push, remove, designated_key"]}
{"id": "C135", "title": "A commitment fixes which signatures the next rotation needs", "statement": "The commitment to next keys also fixes which of them have to sign: if the same keys with two thresholds give the same commitment (and the digest algorithm has no relations between the texts), then the thresholds ask for the same signatures. So a rotation that matches the commitment needs the signatures that were committed to.", "quantifier": "every digest function, all keys, every two thresholds (numbers of signatures, weights, lists of weights), every signature list, every history and every rotation", "why_tests_cant": "A test fixes two or three thresholds; the property compares all pairs of thresholds, of any length and with any weights, through the text they are hashed as.", "anchors": ["src/event/sections/key_config.rs: nxt_commitment, KeyConfig::verify_next, KeyConfig::verify", "src/event/sections/threshold.rs: extract_threshold, WeightedThreshold, SignatureThreshold::enough_signatures"]}
{"id": "C136", "title": "Two stories need a key that signed both", "statement": "If half of the keys is not enough for a threshold (the threshold the library puts by default is of this kind), then any two sets of signatures that meet it share a key. So where two nodes hold different events at the same place of an identifier's log, some one key signed both: separate groups of the keys cannot sign two stories.", "quantifier": "every key configuration, weighted or not, all signature lists over any two texts, every two histories of calls at two nodes", "why_tests_cant": "It compares all pairs of signature sets and all pairs of histories; a test has one node and a fixed set of signers.", "anchors": ["src/event/sections/key_config.rs: KeyConfig::new, KeyConfig::verify", "src/event/sections/threshold.rs: SignatureThreshold::enough_signatures", "src/processor/mod.rs: EventProcessor::process_event, process_actual_event"]}
{"id": "C137", "title": "Controllers that share a key manager can all be used", "statement": "A controller takes its key manager shared (Keri::new) and hands it out (key_manager()), and stores can be shared too. Controllers made over one manager, each careful by itself, can all go on: no operation of one makes a later operation of another fail.", "quantifier": "any number of controllers, over one store or several, all sequences of their operations and of calls by others, all key pairs the generator returns", "why_tests_cant": "The claim is about every interleaving of operations of several controllers, and its failure about every continuation for ever; a test runs one short sequence.", "anchors": ["src/keri/mod.rs: Keri::new, key_manager, incept, incept_with_extra_keys, rotate, make_ixn", "src/signer/mod.rs: KeyManager, CryptoBox::rotate", "src/processor/mod.rs: EventProcessor::process_event"]}
{"id": "C138", "title": "Trying an event out tells whether it will be accepted", "statement": "Keri::process(id, event) and EventProcessor::process_actual_event report, without storing anything, whether an event is good for an identifier: the answer is yes exactly when handing the event in would be accepted.", "quantifier": "all histories of the store, all identifiers and events, all forms in which the event can be handed over (signed, message, bare event, contents)", "why_tests_cant": "The claim compares two answers for every history and every event; a test compares them for one event. Where they part company depends on what was refused before.", "anchors": ["src/keri/mod.rs: Keri::process", "src/processor/mod.rs: process_actual_event, compute_state", "src/event/mod.rs: EventSemantics for Event", "src/event/event_data/mod.rs: EventSemantics for EventData", "src/event_message/key_event_message.rs: EventSemantics for KeyEvent, EventMessage"]}
{"id": "C139", "title": "A receipt names the event it is about by the event's digest", "statement": "A receipt made for an event, with ReceiptBuilder, Keri::make_rct or Keri::make_ntr, carries the event's identifier, sequence number and a digest by which the library recognises the event.", "quantifier": "all events, all settings of the builder, all controllers, every hash function", "why_tests_cant": "It relates two serializations of every event under every hash function; the failure is not visible in any call, because the digest in a receipt is never read.", "anchors": ["src/event_message/event_msg_builder.rs: ReceiptBuilder", "src/keri/mod.rs: make_rct, make_ntr, generate_ntr", "src/event/receipt.rs: Receipt::to_message", "src/processor/mod.rs: process_validator_receipt", "src/event_message/key_event_message.rs: check_digest"]}
{"id": "C140", "title": "A threshold built from pairs of numbers asks for those weights", "statement": "A threshold made with SignatureThreshold::single_weighted or multi_weighted from pairs (n, d) is met exactly by the signatures whose quotients n/d reach 1 in every group, does not depend on how a quotient is written, and the text it has in an event is read as the same threshold.", "quantifier": "all pairs of 64-bit numbers, any number and size of groups, all signature lists", "why_tests_cant": "The tests use five fractions with small numerators and denominators; the claim is about all pairs and about the text they are written as, and it fails for denominators of zero, which no type excludes.", "anchors": ["src/event/sections/threshold.rs: SignatureThreshold::single_weighted, multi_weighted, ThresholdClause::new_from_tuples, MultiClauses::new_from_tuples, ThresholdFraction::new, ThresholdFraction::from_str"]}
{"id": "C141", "title": "What an identifier declares about its own future is kept to", "statement": "When an inception event declares that only establishment events follow (configuration trait EO) or that the identifier delegates nothing (DND), when an establishment event commits to no next keys, and when a number of witness receipts is asked for, every log that a node holds keeps to it: no interaction in an establishment-only log, no identifier delegated by one that does not delegate, no event after an event without next keys, never more receipts asked for than there are witnesses.", "quantifier": "every history of calls, every identifier, every declaration", "why_tests_cant": "It is about everything that any later message can do to a log; and that a declaration has no effect at all is a statement about all later events.", "anchors": ["src/event/event_data/inception.rs: inception_configuration, InceptionEvent::apply_to", "src/event/event_data/interaction.rs: apply_to", "src/event/event_data/delegated/mod.rs: apply_to", "src/event/sections/key_config.rs: verify_next", "src/processor/mod.rs: process_event"]}
{"id": "C142", "title": "Every chain of delegators ends", "statement": "Each identifier with events in a store has exactly one chain of delegators; it is finite, contains nobody twice and ends with an identifier that nobody delegated; everyone in it has events in the store, and the chain never changes. Every delegated event in a log is sealed by an event in the log of the delegator. This holds after every history, also where calls failed or panicked.", "quantifier": "all histories of calls of any length, all identifiers, all hash and signature functions (also with collisions and fixed points)", "why_tests_cant": "It is about chains of any length and about the absence of cycles under every order of arrival, including events left behind by a panic.", "anchors": ["src/processor/mod.rs: process_event, validate_seal", "src/event/event_data/delegated/mod.rs: DelegatedInceptionEvent", "src/state/mod.rs: delegator"]}
{"id": "C143", "title": "Held events have one order, that of their sequence numbers", "statement": "Comparing held events (TimestampedEventMessage, TimestampedSignedEventMessage) orders them by sequence number alone, cmp and partial_cmp agree, cmp says Equal exactly when == holds, == holds only between the same events; sorting the events of a log gives their one order, whatever order the store gives them back in.", "quantifier": "all held events, all lists of them, all reachable stores and all rearrangements of their logs", "why_tests_cant": "The tests never compare two held events of one number and never read a log in another order; the claim is about every pair, every list and every history, and part of it fails for pairs that no test builds.", "anchors": ["src/event_message/mod.rs: TimestampedEventMessage, Ord, PartialOrd, PartialEq", "src/event_message/signed_event_message.rs: TimestampedSignedEventMessage, SignedEventMessage: PartialEq, Ord, PartialOrd", "src/processor/mod.rs: EventProcessor::compute_state, compute_state_at_sn (sort)"]}
{"id": "C144", "title": "Events made in CBOR state their own length and carry the digest of their own bytes", "statement": "An event made in CBOR, by incept_self_addressing of an inception or a delegated inception or by Event::to_message, states in its version text the length of its own bytes, and its digest is the digest of those bytes with the digest (and, in an inception, the identifier) blanked out, which is what a receiver hashes.", "quantifier": "all events of every kind with any content, all digest algorithms, all digest functions of the right sizes", "why_tests_cant": "No test makes an event in CBOR; the claim is about every content and every length, and it fails for lengths and identifiers that no test tries.", "anchors": ["src/event_message/dummy_event.rs: DummyInceptionEvent::derive_data, DummyEventMessage::dummy_event", "src/event/event_data/inception.rs: incept_self_addressing", "src/event/event_data/delegated/mod.rs: incept_self_addressing", "src/event/mod.rs: Event::to_message", "src/event_message/key_event_message.rs: to_derivation_data"]}
