# Formal model of keriox in Rocq (Coq 8.16.1)

The model is a function-by-function transcription of `/repo/src` into Gallina; every definition
cites the file and lines it models.  Properties (`properties.jsonl`) are theorems in the
`Prop_*.v` files, stated with the vocabulary of the small `Spec*.v` files, which do not use the
transition functions of the model.  `MANIFEST.json` (generated by `tools/manifest.py` from
`tools/status.txt`) maps properties to theorem names; the notes there say what is missing from
a partial one.

## 1. Trusted base

* The Coq 8.16.1 kernel (`coqc`; `vm_compute` is used, `native_compute` is not), and the standard
  library.
* **Axioms: none.**  Every property theorem is followed by `Print Assumptions` and prints
  "Closed under the global context".  (The seven `Coq.ssr.ssrunder.Under_rel.*` names that `vcheck`
  lists as library axioms are fields of a sealed module in the standard library's
  `ssrunder.v`, which standard files such as `ZArith` and `Lia` load; no theorem depends on them.)
* No functor, module type, `Declare Module`, `Admitted`, `admit`, disabled check or plugin.
* The reading of the Rust source: that each Gallina definition says what the cited lines do.
  This is the part that no machine checked (no Rust toolchain or dependency in the sandbox).
* The statements in the `Prop_*.v` and `Spec*.v` files mean what the English says.

What the theorems quantify over, instead of assuming:

* **Cryptography and external codecs** are fields of the records `Env` (digest, Ed25519 and ECDSA
  verification, serialization of events, signed events, replies, queries; derivation data) and
  `KEnv` (dummy-event serialization, signing, the parser of event texts).  Theorems hold for every
  `Env`/`KEnv`; where a fact about them is needed (a digest has its algorithm's length, a
  signing key works, an event serializes) it is a visible hypothesis.  `Json.v` and `JsonRead.v`
  replace the serialization and parser fields by the real ones (`with_json`), and C72-C80 and
  `C57_json_events_are_accepted` are about those.
* **Randomness and the clock** are arguments (the key pairs generated, the instants read).
* **Histories** are arbitrary lists of API calls with arbitrary arguments and outcomes from an empty
  store (`run E db_empty cs`); crash points and schedules are arbitrary in `Crash.v`/`Conc.v`.

`id_default` is the identifier of Rust's `Default` (an empty self-addressing prefix), used by the
code as "no state yet".  Theorems about an identifier assume it is not that value; `C00` proves that
no text reads as it.

## 2. What is modelled

| file of /repo/src | model | notes |
|---|---|---|
| `prefix/*`, `derivation/*`, `keys/mod.rs` | `Base64.v`, `Codes.v`, `Keys.v` | text forms, parsers with exact panic conditions; base64 written out; the curve arithmetic of `ed25519_dalek` and `k256` is a record of functions, and the conversion of 64 bytes to an Ed25519 signature is taken not to panic (no lock file pins the version of the crate); the digest functions are parameters, except that Blake2b-256 and Blake2s-256 abort: the code asks the `blake2` crate (0.9.1 in Cargo.toml) for an output of 256 bytes, and its constructor asserts at most 64 and 32 (knowledge of that crate, whose source is not in /repo) |
| `event/sections/threshold.rs`, `key_config.rs` | `KeyConf.v` | exact rationals here; `Arith.v` models the same functions in machine arithmetic (`u64` in the fraction crate, `u16` in the clause offsets, debug and release builds; the fraction crate's addition is written from knowledge of num-rational 0.4, whose source is not in this sandbox) and C98 relates the two |
| `event/*`, `event_message/key_event_message.rs`, `state/mod.rs` | `Types.v`, `State.v` | `apply_to` of every event kind; `state.sn + 1` does not wrap (needs 2^64 events) |
| `event_message/event_msg_builder.rs` | `Keri.v` (`build`), `Builder.v` (setters) | `ReceiptBuilder` through the controller |
| `event_message/dummy_event.rs`, `serializer.rs`, `serialization_info.rs`, serde derives | `Json.v`, `Version.v` | the JSON texts byte by byte, including the malformed text the hand-written serializer makes for seals |
| `query/{mod,query,reply,key_state_notice}.rs` serde, `event_parsing/message.rs:68-99` with the `query` feature | `JsonQuery.v` | texts and readers of queries, replies and notices; the text of a time (chrono) is a parameter with the hypothesis `instant_kept` |
| serde_json and the `Deserialize` impls | `JsonRead.v` | build without the `query` feature; CBOR and MessagePack readers and `serde_hex` are parameters; `f64` range and borrowed-string details not modelled |
| `event_message/signed_event_message.rs`, `event_message/mod.rs` | `Types.v`, `Message.v` | stored events drop the source seal, as the hand-written `Serialize` does; the timestamp wrapper only in `Cbor.v` |
| `event_parsing/*` | `Cesr.v`, `Message.v` | nom's size hints and offending input in errors not modelled; integer overflow is a panic (debug build); stack exhaustion not modelled |
| `processor/mod.rs` | `Processor.v`, `Prog.v` | every function; `Prog.v` is the same as a program over single store accesses, proved equal (`ProgProofs.v`) |
| `database/sled/*` | `Db.v` (per-identifier tables), `Sled.v` (numeric keys, identifier table) | `Sled.v` refines `Db.v` (C38); sled I/O errors, flush durability and `u64` key overflow not modelled; the live iterator of `get_all` equals a snapshot because only the current key is modified while iterating |
| `database/sled/tables.rs` values, serde_cbor | `Cbor.v`, `EventStore.v` | event logs as CBOR bytes, written and read back at every use; C116 proves that this is `Processor.v` on `Db.v` for events that read back, C117 shows what happens otherwise, so the theorems about `Db.v` are about such events; the other tables stay values |
| `query/*` | `Processor.v` (replies), `ReplyStore.v` (reply tables through their real codec), `Keri.v` (queries) | in `Db.v` a reply is stored exactly; `ReplyStore.v` re-reads every entry through the asymmetric codec of key-state notices; symmetric parts of that codec are the identity; instants in nanoseconds |
| `keri/mod.rs`, `keri/witness.rs`, `signer/mod.rs` | `Keri.v`; over any key manager and the wallet `Manager.v` | mutex poisoning not modelled |
| `processor/async_processing.rs` | `Async.v` | `BufReader` contract (8192 bytes), the channel always accepts, a pending reader only delays |

The crate `universal_wallet` that `signer/wallet.rs` uses is external: its contents map, lookup by identifier and by controller (any content of that controller: `pick`) and signing are modelled from its documentation (Manager.v). Not modelled: `database/lmdb.rs` (dead code, not
compiled), the `EventDatabase` trait of `database/mod.rs` (unused), `error/*` beyond the error kind,
tests, plain getters.  The CI does not enable the `query` feature; it is modelled where named above.

Panics (`unwrap`, `todo!`, out-of-range index or slice, arithmetic overflow) are the outcome
`Panic`, with the store as it was at that moment.

Concurrency: one access to a sled tree is atomic; calls are interleaved at that grain.
C36 and `C38_histories_agree` cover both calls, `process` and `process_escrow`; C37 covers `process` of every
kind of message, not `process_escrow`.  A pass meets the escrowed replies in the order of the numeric keys;
`PassProofs` shows that the order across identifiers is immaterial when nothing panics.

### Conformance with the repository's own tests

`Replay.v` instantiates the model with the real functions: Blake3 (`Blake3.v`), SHA-512 and Ed25519
(`Ed25519.v`, RFC 8032), chrono's text of an instant (`Clock.v`), and the JSON of `Json.v`,
`JsonRead.v`, `JsonQuery.v`. `ReplayData.v` (made by `tools/replay.py`) holds the byte strings of the
repository's test functions as they are written there, and `ReplayProcess.v`, `ReplayReply.v`,
`ReplayTests.v` run these tests in the model with the same calls and the same assertions; the kernel
computes every digest and every signature check when these files are compiled. All of them pass:
test_process, test_process_receipt, test_process_delegated, test_validate_seal,
test_compute_state_at_sn, test_reply_escrow, test_query, and the tests of commitments, builders,
thresholds, seals, message and attachment parsing, prefixes and seeds. Tests that draw random keys are
not repeated. These runs are tests of the model (they show that it says what the code says on the
authors' data), not proofs of a property, and they are no theorems: each is a `Succeed Definition`,
which stops the build when it fails and leaves no constant behind, because coqchk has no virtual
machine and would need hours to run them again. One of them shows C104 failing on published data. The
three crates are written from their published specifications; no theorem with an abstract `Env` depends on them. Not kept: the offset of a timestamp that is read.

## 3. How the properties are proved

Keys: **I** invariant by induction over histories (or over crash points / schedules); **F** a
function meets an independent specification for all inputs; **R** codec round trip / injectivity;
**X** the code violates the property: a `_refuted` theorem (often a general theorem of the
defect, not only a witness) next to the strongest true part, named `_partial`.

| id | modelled by | proof |
|----|-------|-------|
| C01-C06 | `State`, `Processor` | I: `LogProofs.Inv` (every log replays completely), then facts of replayed logs |
| C07 C08 | same | X; I for the true part |
| C09 C10 C11 | `verify_identifier_binding`, `check_digest`, `apply_msg` | X; F: exactly what is checked, exactly which inputs panic |
| C12-C15 | `KeyConf.kc_verify`; weights in Q (`SpecSig`) | F; C14 X with the exact panic condition |
| C16 C17 | `nxt_commitment` = xor of digests | F; C17 X (repeated keys cancel) |
| C18 | `kc_verify` | X for threshold 0, F otherwise |
| C19-C24 | `process` over `Db` | I, F; C20, C21, C24 X in the cases named in the manifest |
| C25 C26 C34 C35 | replay functions | I; X for delegated logs / rejected inceptions |
| C27 C28 | `validate_seal` | F; C28 X |
| C29-C33 | receipts, `verify` | I, F; C30, C31, C32 X |
| C36 C37 | `Prog`, `Crash`, `Conc`: arbitrary cut or interleaving of store accesses | X with schedules; I over all schedules for the rest |
| C38 C39 | `Sled` refines `Db` | I (simulation); C39 X |
| C40-C48, C51, C63-C65 | codecs on byte strings | R, exact panic conditions; X where named |
| C49 C50 | CESR attachments against `SpecCesr` | R by mutual induction; X |
| C52-C55, C69 | replies | I over histories; X |
| C56 C70 | `ReplyStore` | X; I: storable replies behave as in `Db` |
| C57-C62, C71 | `Keri`: controller, witness over a shared store | I over the controller's life; X |
| C66-C68 | `Message` | R; X |
| C72-C74 | `Json` | injectivity and length of the text; X |
| C75-C80 | `Json` + `JsonRead` | R through the whole parser; X |
| C81 C82 | `Processor`, two stores | I: confluence of `process` over permuted and repeated offers |
| C83 C84 | `Async` over lists of reads and write outcomes | F; X |
| C85 | `Processor` against `SpecRules` | F: acceptance if and only if the rules hold, for every reachable store |
| C86 C87 | `Builder`, `Keri.build`, C85 | F; C86 X |
| C88 | XOR of digests as a linear map over bits: counting of selections (`BindProofs`), C85 | F X |
| C89 | induction over the log, C21, C04, C09 (`HonestProofs`) | F |
| C90, C91 | case analysis of the two functions over the log invariants, both directions (`RulesProofs`, rules in `SpecRules2`) | F |
| C92 | induction over the history of calls, appending at the end (`HistoryProofs`) | F |
| C93 | `Version`; spec `SpecVersion` | F, X |
| C94, C95 | `JsonQuery` (texts and readers of queries and replies, the message reader with the `query` feature); spec `SpecJsonQ` | R through the whole parser, X |
| C96 | `JsonQuery`; `JsonProofs12` traces every panic of the readers to a literal of the text | F, X |
| C97 | `JsonRead`, `JsonQuery`; where the members of a message stand in its text | F, X |
| C98 | `kc_verify64` (Arith.v) | F |
| C99 | `process`, `process_event`, `validate_seal` over histories | I |
| C100 | all tables of `Db.v` over histories | I, X with passes |
| C101 | `process` for each kind of message | I, F; X for receipts |
| C102 | n threads as programs over single tree accesses, `runs` = any interleaving; footprints (ConcProofs) and an invariant "the common store agrees with the thread's own store off the other threads' writes" | F |
| C103 | RFC 8259 and RFC 3629 as inductive relations in SpecGrammar.v; soundness by induction on the reader's fuel, completeness by induction on the fuel with 2*length of text as bound | F |
| C104 | refuted by padding the text of any readable event (C103_padding, C104_received_is_not_signed) | F |
| C105 | a table of member names and value forms per event type (SpecSchema.v); soundness and completeness of each reader, field by field | F |
| C106 | read off C105; refuted by adding a member in front of any event object | F |
| C107 | a table of member names and value forms (SpecSchema2.v); exactness of each reader, field by field | F |
| C108 | read off C105 and C107; refuted by putting t: icp in front of a query | F |
| C109 | grammar as relations between attachments and texts (SpecCesr2.v); soundness and completeness of each parser, induction on the length for frames | F |
| C110 | the grammar is functional where no sequence number occurs; two texts otherwise | F |
| C111 | from C109; parsers are stable under more input and fail softly on less | F |
| C112 | Keri.respond over the processor model; `answers` in SpecRespond says which introductions and receipts are due; induction over the accepted messages with the store view (logs, own receipts) kept fixed | F |
| C113 | the whole pipeline: Keri.respond, JSON writer and reader, attachment grammar, processor; C75 for the log text, C25 for acceptance, C112 for each answer, receipts read back and taken by the other store | F |
| C114 | Keri.process_query over the JSON environment, then Processor.process at the asking store; C91's exact rule, with the answer's signature, digest and state facts (C01, C02, C03) discharged | F |
| C115 | Keri.new_reply over JsonQuery's writer; lengths of the dummy and the final text compared, as for C73 and C94 | P |
| C116 | Cbor.v: serde_cbor writer and reader; EventStore.v: the kels table as bytes, process_event on it; simulation against Processor.process_event by an invariant (every log is write_log of readable entries) | F |
| C117 | the same model; unreadable logs are stable under every later event; C20 for the positive part | P |
| C118 | SpecOwn.v, OwnProofs.v: bounds on the JSON text of each event the controller builds (so that its size field reads back), shape of each event by the builder, induction over the operations with the invariant Working of KeriProofs; C113 for two such controllers | F |
| C119 | C118 gives storable events that are all accepted; C116 transfers them to the store of bytes | F |
| C120 | The four receipt tables as CBOR bytes (ReceiptStore.v), read back at each use; simulation invariant against the store of values. | ReceiptStore, Prop_ReceiptStore |
| C121 | On the same model: monotonicity for storable messages; general erasure theorem and refutation with wire text. | ReceiptStore, Prop_ReceiptStore |
| C122 | CBOR writer and reader of messages (CborWire.v over Cbor.v), tried in the code's order JSON, CBOR, MessagePack (external); round trip by the reader lemmas of C120, transfer by C25 and C61. | CborWire, Prop_CborWire |
| C123 | The stream reader of C68 with the format reader of C122; induction over the list of messages. | CborWire, Prop_CborWire |
| C124 | Questions as programs over the numeric-key store (Ask.v), same refinement relation as C38; growth of the identifier table by induction. | Ask, SpecAsk, Prop_Ask |
| C125 | A message and a question (or two messages) as interleaved programs (Mixed.v over Threads.v); the runs that show the added event are constructed from the program text, the snapshot theorem is by induction on runs. | Mixed, MixedProofs, Prop_Mixed |
| C126 | For every reader: accepted text has only base64 characters and padding (induction over groups and frames); with the exactness of C109 a damaged text is never accepted; then which kind of failure arises, by position, and what nom's loops do with it. | DamageProofs, Prop_Damage |
| C127 | Accepted text has only base64 characters and padding; by the exactness of C109 an attachment accepted before the damage would be a proper beginning of the undamaged one, which C109 excludes. | DamageProofs, Prop_Damage |
| C128 | The controller modelled over a record of the trait's functions; lock-step simulation with the CryptoBox instance, for every call, by induction over the calls. | Manager, SpecManager, ManagerProofs, Prop_Manager |
| C129 | Contents as an association list, lookup by controller as any choice among the matching contents; invariant: the entry "next" is the only one of that controller. | Manager, ManagerProofs, Prop_Manager |
| C130 | The binding check of an inception whose identifier is an ECDSA prefix and whose keys are Ed25519; induction over the calls. | Manager, ManagerProofs, Prop_Manager |
| C131 | The user's program over builder and processor as a step function on a world of parties; invariant: each party's log is valid, ends in its keys, names its delegator, identifiers are distinct; induction over the steps. | SpecDelegate, DelegateProofs, Prop_Delegate |
| C132 | Key and seed functions over a record of curve functions; laws of the curves as hypotheses of the theorems; composed with the codecs (C41, C43, C44, C64) and C57. | Keys, SpecKeys, Prop_Keys |
| C133 | The two aborting algorithms are modelled as panics wherever a digest is computed; C04, C11, C16, C85, C87, C88, C94 follow. Refutations by exhibited messages for every history; the positive part by cases over the processor, from C85. | KeyConf, Prop_Digest |
| C134 | Threads as in C102, calls as in C125. Simulation: the accesses that replies and passes make read and write only the two reply tables (and numbers already given), so a run is shadowed by the run without them, access by access. The lost reply by a schedule, for every store in which the hypotheses hold. | Desk, DeskProofs, DeskProofs2, Prop_Desk; specification in SpecDesk |
| C135 | The texts of fractions, clauses and thresholds are injective (no separator occurs in a part), so two thresholds have the same text only in the listed cases; the xor of the keys cancels. Refutation by an exhibited rotation for every history (from TakeoverProofs). | Prop_Threshold; specification in SpecThreshold |
| C136 | Disjoint index lists would have more entries, or more weight, than there is (sums over a clause's places). With C82 for the two nodes. Refutation by two rotations as in C135. | Prop_Quorum; specification in SpecQuorum |
| C137 | The members' operations act on one manager and on their stores (SpecShared). Careful controllers stay careful under each other's interactions, which are calls about others. After a rotation the manager holds no pair that signs for, or opens the commitment of, another member: invariant over all later operations. | Prop_Shared, SharedProofs |
| C138 | Trial.v: apply_to of each EventSemantics form to the computed state. Exact characterisation over reachable stores by the good-log invariant, against SpecTrial; compared with the acceptance rules of C85. | Prop_Trial, TrialProofs |
| C139 | Receipts.v: ReceiptBuilder function by function; make_rct and make_ntr as in Keri.v. Exact result by unfolding; the JSON text and the text with the digest blanked are shown different by prefix-freeness of JSON strings; acceptance via C90. | Prop_Receipts, ReceiptsProofs |
| C140 | Weights.v: the constructors of thresholds function by function. Values via C13 for pairs with denominators; canonical fractions by Gauss; text via C76; absorbing values by induction on the signatures. | Prop_Weights |
| C141 | No new model. Keys for ever: append-only logs (C22), C04; acceptance of interactions from C85; refutation by a history in the toy environment. | Prop_Declared |
| C142 | No new model. One step lemma: a log grows only by an event whose delegation check passed against the logs before, whatever the call's outcome; chains by induction on the history, uniqueness by determinism. | Prop_Ancestry |
| C143 | Order.v: the four impls function by function and the stable sort. Order via N.compare; sort by permutation, sortedness and per-number filters, unique by induction; logs via C01. | Prop_Order |
| C144 | The makers of Keri.v over the CBOR writer of CborWire.v. Byte layout of an event around digest and identifier; lengths depend only on the lengths of the texts; the version text has 17 bytes below 2^24. | SpecCborSize, Prop_CborSize |

All properties are expressible in the model; none is "not applicable".

## 4. Independence and non-vacuity

* `Spec*.v` mention data types and `log`/`get_*` views only.  `SpecRules`, `SpecSig`, `SpecCesr`
  are independent formulations (rational sums, text grammar, rules over logs).
* Beside each theorem an `Example` shows a non-trivial instance meeting its hypotheses, on the toy
  environment of `Demo.v` (real key-event flow with alice, delegated bob, receipts and replies) or of
  `Prop_Keri.v`, `Prop_Json*.v`.
* Wrong programs: `seeded/LOG.jsonl` records edits of the model and the theorems that failed.
