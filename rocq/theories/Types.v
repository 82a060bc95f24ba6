(** * Types: thresholds, key configuration, seals, events, messages, state. *)
From Verif Require Import Base Base64 Codes NumFmt.

(** ** Thresholds ([src/event/sections/threshold.rs]) *)

(** [fraction::Fraction] values that [Fraction::new(u64, u64)] and their sums can be:
    NaN (0/0), +infinity (n/0) and a reduced ratio. *)
(** crate fraction; event/sections/threshold.rs:9-11 *)
Inductive frac := FNaN | FInf | FRat (num den : N).
(** [Fraction::new(n, d)] (threshold.rs:14-18) *)
Definition frac_new (n d : N) : frac :=
  if (d =? 0)%N then (if (n =? 0)%N then FNaN else FInf)
  else let g := N.gcd n d in FRat (n / g) (d / g).

(** threshold.rs:137-138 [ThresholdClause], 172-173 [MultiClauses], 76-81 [WeightedThreshold],
    68-74 [SignatureThreshold] *)
Definition ThresholdClause := list frac.
Inductive WeightedThreshold := WSingle (c : ThresholdClause) | WMulti (cs : list ThresholdClause).
Inductive SignatureThreshold := Simple (t : N) | Weighted (w : WeightedThreshold).
(** threshold.rs:132-136 [Default] *)
Definition threshold_default : SignatureThreshold := Simple 1.

(** ** Key configuration ([src/event/sections/key_config.rs:11-21]) *)
Record KeyConfig := mkKC {
  kc_threshold : SignatureThreshold;
  kc_keys : list BasicPrefix;
  kc_next : option SelfAddressingPrefix (* threshold_key_digest *) }.
Definition kc_default : KeyConfig := mkKC threshold_default [] None.

(** ** Witness configuration ([src/event/sections/mod.rs:11-31]) *)
Record WitnessConfig := mkWC {
  wc_tally : N; wc_prune : list BasicPrefix; wc_graft : list BasicPrefix }.
Record InceptionWitnessConfig := mkIWC {
  iwc_tally : N; iwc_witnesses : list BasicPrefix }.

(** ** Seals ([src/event/sections/seal.rs]) *)
Record EventSeal := mkES { es_prefix : IdentifierPrefix; es_sn : N; es_digest : SelfAddressingPrefix }.
Record LocationSeal := mkLS {
  ls_prefix : IdentifierPrefix; ls_sn : N; ls_ilk : bytes; ls_prior : SelfAddressingPrefix }.
Inductive Seal :=
| SealLocation (l : LocationSeal)
| SealEvent (e : EventSeal)
| SealDigest (d : SelfAddressingPrefix)
| SealRoot (d : SelfAddressingPrefix).
Record SourceSeal := mkSrc { src_sn : N; src_digest : SelfAddressingPrefix }.

(** ** Event data ([src/event/event_data]) *)
(** inception.rs:21-34 *)
Record InceptionEvent := mkIcp {
  icp_kc : KeyConfig; icp_wc : InceptionWitnessConfig; icp_config : list bytes; icp_data : list Seal }.
(** rotation.rs:13-26 *)
Record RotationEvent := mkRot {
  rot_prev : SelfAddressingPrefix; rot_kc : KeyConfig; rot_wc : WitnessConfig; rot_data : list Seal }.
(** interaction.rs:8-15 *)
Record InteractionEvent := mkIxn { ixn_prev : SelfAddressingPrefix; ixn_data : list Seal }.
(** delegated/mod.rs:15-22 *)
Record DelegatedInceptionEvent := mkDip { dip_icp : InceptionEvent; dip_delegator : IdentifierPrefix }.
(** event_data/mod.rs:22-30 *)
Inductive EventData :=
| Icp (e : InceptionEvent)
| Rot (e : RotationEvent)
| Ixn (e : InteractionEvent)
| Dip (e : DelegatedInceptionEvent)
| Drt (e : RotationEvent).

(** ** Messages *)
(** serialization_info.rs:6-11, 41-47 *)
Inductive SerializationFormats := JSON | MGPK | CBOR.
Record SerializationInfo := mkSI {
  si_major : N; si_minor : N; si_size : N; si_kind : SerializationFormats }.

(** [EventMessage<SaidEvent<Event>>]: event_message/mod.rs:40-47, 83-93 and event/mod.rs:15-25,
    flattened into one record. *)
Record EventMessage := mkEM {
  em_info : SerializationInfo;
  em_digest : SelfAddressingPrefix;
  em_prefix : IdentifierPrefix;
  em_sn : N;
  em_data : EventData }.

(** signed_event_message.rs:34-42.  The timestamp wrapper
    [TimestampedSignedEventMessage] is not modelled: it is never read. *)
Record SignedEventMessage := mkSEM {
  sem_msg : EventMessage;
  sem_sigs : list AttachedSignaturePrefix;
  sem_seal : option SourceSeal (* delegator_seal *) }.

(** [EventMessage<Receipt>]: event/receipt.rs:13-29 *)
Record ReceiptMessage := mkRct {
  rct_info : SerializationInfo;
  rct_digest : SelfAddressingPrefix;
  rct_prefix : IdentifierPrefix;
  rct_sn : N }.
(** signed_event_message.rs:178-183 *)
Record SignedTransferableReceipt := mkTRct {
  tr_body : ReceiptMessage; tr_seal : EventSeal; tr_sigs : list AttachedSignaturePrefix }.
(** signed_event_message.rs:206-210 *)
Record SignedNontransferableReceipt := mkNRct {
  nr_body : ReceiptMessage; nr_couplets : list (BasicPrefix * SelfSigningPrefix) }.

(** event_message/signature.rs:8-21 *)
Inductive Signature :=
| Transferable (seal : EventSeal) (sigs : list AttachedSignaturePrefix)
| NonTransferable (bp : BasicPrefix) (sig : SelfSigningPrefix).
Definition get_signer (s : Signature) : IdentifierPrefix :=
  match s with Transferable seal _ => es_prefix seal | NonTransferable bp _ => IdBasic bp end.

(** event_message/mod.rs:26-39 [EventTypeTag] *)
Inductive EventTypeTag := TIcp | TRot | TIxn | TDip | TDrt | TRct | TRpy | TQry.
(** state/mod.rs:64-73 *)
Definition event_type (d : EventData) : EventTypeTag :=
  match d with Icp _ => TIcp | Rot _ => TRot | Ixn _ => TIxn | Dip _ => TDip | Drt _ => TDrt end.

(** ** Identifier state ([src/state/mod.rs:12-53]) *)
Record LastEst := mkLE {
  le_sn : N; le_digest : SelfAddressingPrefix; le_br : list BasicPrefix; le_ba : list BasicPrefix }.
Record IdentifierState := mkState {
  st_prefix : IdentifierPrefix;
  st_sn : N;
  st_last_digest : SelfAddressingPrefix;
  st_last_previous : option SelfAddressingPrefix;
  st_last_type : option EventTypeTag;
  st_current : KeyConfig;
  st_tally : N;
  st_witnesses : list BasicPrefix;
  st_delegator : option IdentifierPrefix;
  st_last_est : LastEst }.
Definition state_default : IdentifierState :=
  mkState id_default 0 sap_default None None kc_default 0 [] None (mkLE 0 sap_default [] []).

(** ** Derived equality of messages *)
(** [PartialEq] (derived); used by [==] and [Vec::retain], database/sled/tables.rs:65-75 *)
Definition frac_eq_dec (a b : frac) : {a = b} + {a <> b}.
Proof. decide equality; apply N.eq_dec. Defined.
(** [PartialEq] (derived); used by [==] and [Vec::retain], database/sled/tables.rs:65-75 *)
Definition Weighted_eq_dec (a b : WeightedThreshold) : {a = b} + {a <> b}.
Proof. decide equality; repeat (apply list_eq_dec; intros); apply frac_eq_dec. Defined.
(** [PartialEq] (derived); used by [==] and [Vec::retain], database/sled/tables.rs:65-75 *)
Definition Threshold_eq_dec (a b : SignatureThreshold) : {a = b} + {a <> b}.
Proof. decide equality; [apply N.eq_dec | apply Weighted_eq_dec]. Defined.
(** [PartialEq] (derived); used by [==] and [Vec::retain], database/sled/tables.rs:65-75 *)
Definition opt_eq_dec {A} (d : forall a b : A, {a = b} + {a <> b}) (a b : option A) : {a = b} + {a <> b}.
Proof. decide equality. Defined.
(** [PartialEq] (derived); used by [==] and [Vec::retain], database/sled/tables.rs:65-75 *)
Definition KeyConfig_eq_dec (a b : KeyConfig) : {a = b} + {a <> b}.
Proof.
  decide equality;
  [apply (opt_eq_dec SAP_eq_dec) | apply (list_eq_dec BasicPrefix_eq_dec) | apply Threshold_eq_dec].
Defined.
(** [PartialEq] (derived); used by [==] and [Vec::retain], database/sled/tables.rs:65-75 *)
Definition WitnessConfig_eq_dec (a b : WitnessConfig) : {a = b} + {a <> b}.
Proof. decide equality; [apply (list_eq_dec BasicPrefix_eq_dec)..|apply N.eq_dec]. Defined.
(** [PartialEq] (derived); used by [==] and [Vec::retain], database/sled/tables.rs:65-75 *)
Definition IWC_eq_dec (a b : InceptionWitnessConfig) : {a = b} + {a <> b}.
Proof. decide equality; [apply (list_eq_dec BasicPrefix_eq_dec)|apply N.eq_dec]. Defined.
(** [PartialEq] (derived); used by [==] and [Vec::retain], database/sled/tables.rs:65-75 *)
Definition EventSeal_eq_dec (a b : EventSeal) : {a = b} + {a <> b}.
Proof. decide equality; [apply SAP_eq_dec | apply N.eq_dec | apply IdentifierPrefix_eq_dec]. Defined.
(** [PartialEq] (derived); used by [==] and [Vec::retain], database/sled/tables.rs:65-75 *)
Definition LocationSeal_eq_dec (a b : LocationSeal) : {a = b} + {a <> b}.
Proof. decide equality; [apply SAP_eq_dec | apply bytes_eq_dec | apply N.eq_dec | apply IdentifierPrefix_eq_dec]. Defined.
(** [PartialEq] (derived); used by [==] and [Vec::retain], database/sled/tables.rs:65-75 *)
Definition Seal_eq_dec (a b : Seal) : {a = b} + {a <> b}.
Proof. decide equality; [apply LocationSeal_eq_dec | apply EventSeal_eq_dec | apply SAP_eq_dec | apply SAP_eq_dec]. Defined.
(** [PartialEq] (derived); used by [==] and [Vec::retain], database/sled/tables.rs:65-75 *)
Definition Icp_eq_dec (a b : InceptionEvent) : {a = b} + {a <> b}.
Proof. decide equality; [apply (list_eq_dec Seal_eq_dec) | apply (list_eq_dec bytes_eq_dec) | apply IWC_eq_dec | apply KeyConfig_eq_dec]. Defined.
(** [PartialEq] (derived); used by [==] and [Vec::retain], database/sled/tables.rs:65-75 *)
Definition Rot_eq_dec (a b : RotationEvent) : {a = b} + {a <> b}.
Proof. decide equality; [apply (list_eq_dec Seal_eq_dec) | apply WitnessConfig_eq_dec | apply KeyConfig_eq_dec | apply SAP_eq_dec]. Defined.
(** [PartialEq] (derived); used by [==] and [Vec::retain], database/sled/tables.rs:65-75 *)
Definition Ixn_eq_dec (a b : InteractionEvent) : {a = b} + {a <> b}.
Proof. decide equality; [apply (list_eq_dec Seal_eq_dec) | apply SAP_eq_dec]. Defined.
(** [PartialEq] (derived); used by [==] and [Vec::retain], database/sled/tables.rs:65-75 *)
Definition Dip_eq_dec (a b : DelegatedInceptionEvent) : {a = b} + {a <> b}.
Proof. decide equality; [apply IdentifierPrefix_eq_dec | apply Icp_eq_dec]. Defined.
(** [PartialEq] (derived); used by [==] and [Vec::retain], database/sled/tables.rs:65-75 *)
Definition EventData_eq_dec (a b : EventData) : {a = b} + {a <> b}.
Proof. decide equality; [apply Icp_eq_dec | apply Rot_eq_dec | apply Ixn_eq_dec | apply Dip_eq_dec | apply Rot_eq_dec]. Defined.
(** [PartialEq] (derived); used by [==] and [Vec::retain], database/sled/tables.rs:65-75 *)
Definition Fmt_eq_dec (a b : SerializationFormats) : {a = b} + {a <> b}.
Proof. decide equality. Defined.
(** [PartialEq] (derived); used by [==] and [Vec::retain], database/sled/tables.rs:65-75 *)
Definition SI_eq_dec (a b : SerializationInfo) : {a = b} + {a <> b}.
Proof. decide equality; [apply Fmt_eq_dec | apply N.eq_dec | apply N.eq_dec | apply N.eq_dec]. Defined.
(** [PartialEq] (derived); used by [==] and [Vec::retain], database/sled/tables.rs:65-75 *)
Definition EM_eq_dec (a b : EventMessage) : {a = b} + {a <> b}.
Proof. decide equality; [apply EventData_eq_dec | apply N.eq_dec | apply IdentifierPrefix_eq_dec | apply SAP_eq_dec | apply SI_eq_dec]. Defined.
(** [PartialEq] (derived); used by [==] and [Vec::retain], database/sled/tables.rs:65-75 *)
Definition sigs_eq_dec : forall a b : list AttachedSignaturePrefix, {a = b} + {a <> b} := list_eq_dec ASP_eq_dec.
(** signed_event_message.rs:67-71: equality ignores [delegator_seal] *)
Definition sem_eqb (a b : SignedEventMessage) : bool :=
  (if EM_eq_dec (sem_msg a) (sem_msg b) then true else false)
  && (if sigs_eq_dec (sem_sigs a) (sem_sigs b) then true else false).
Definition RM_eq_dec (a b : ReceiptMessage) : {a = b} + {a <> b}.
Proof. decide equality; [apply N.eq_dec | apply IdentifierPrefix_eq_dec | apply SAP_eq_dec | apply SI_eq_dec]. Defined.
Definition TR_eq_dec (a b : SignedTransferableReceipt) : {a = b} + {a <> b}.
Proof. decide equality; [apply sigs_eq_dec | apply EventSeal_eq_dec | apply RM_eq_dec]. Defined.
Definition NR_eq_dec (a b : SignedNontransferableReceipt) : {a = b} + {a <> b}.
Proof.
  decide equality; [apply list_eq_dec; decide equality; [apply SSP_eq_dec | apply BasicPrefix_eq_dec] | apply RM_eq_dec].
Defined.
Definition Signature_eq_dec (a b : Signature) : {a = b} + {a <> b}.
Proof. decide equality; [apply sigs_eq_dec | apply EventSeal_eq_dec | apply SSP_eq_dec | apply BasicPrefix_eq_dec]. Defined.
Definition Tag_eq_dec (a b : EventTypeTag) : {a = b} + {a <> b}.
Proof. decide equality. Defined.
Definition LastEst_eq_dec (a b : LastEst) : {a = b} + {a <> b}.
Proof. decide equality; [apply (list_eq_dec BasicPrefix_eq_dec)..|apply SAP_eq_dec | apply N.eq_dec]. Defined.
Definition State_eq_dec (a b : IdentifierState) : {a = b} + {a <> b}.
Proof.
  decide equality; [apply LastEst_eq_dec | apply (opt_eq_dec IdentifierPrefix_eq_dec)
  | apply (list_eq_dec BasicPrefix_eq_dec) | apply N.eq_dec | apply KeyConfig_eq_dec
  | apply (opt_eq_dec Tag_eq_dec) | apply (opt_eq_dec SAP_eq_dec) | apply SAP_eq_dec | apply N.eq_dec
  | apply IdentifierPrefix_eq_dec].
Defined.

(** ** Replies and queries ([src/query]) *)
(** query/mod.rs:66-71; timestamps ([DateTime<FixedOffset>]) are instants, modelled as [Z] *)
Inductive Route := RLog | RKsn | RReplyKsn (id : IdentifierPrefix).
(** query/key_state_notice.rs:10-26 *)
Record KeyStateNotice := mkKsn {
  ksn_info : SerializationInfo; ksn_state : IdentifierState; ksn_first_seen : N;
  ksn_timestamp : Z; ksn_config : list bytes }.
(** [EventMessage<SaidEvent<Envelope<ReplyData>>>]: query/mod.rs:22-32, query/reply.rs:18-24 *)
Record ReplyMessage := mkReply {
  rp_info : SerializationInfo; rp_digest : SelfAddressingPrefix; rp_timestamp : Z;
  rp_route : Route; rp_ksn : KeyStateNotice }.
(** query/reply.rs:82-86 *)
Record SignedReply := mkSRpy { sr_reply : ReplyMessage; sr_sig : Signature }.
(** query/query.rs:14-26, 59-64: [EventMessage<QueryEvent>] and [SignedQuery] *)
Record QueryMessage := mkQry {
  q_info : SerializationInfo; q_digest : SelfAddressingPrefix; q_timestamp : Z; q_route : Route;
  q_reply_route : bytes; q_i : IdentifierPrefix }.
Record SignedQuery := mkSQry {
  sq_envelope : QueryMessage; sq_signer : IdentifierPrefix; sq_sigs : list AttachedSignaturePrefix }.
(** query/reply.rs:43-45 [get_prefix]: the subject of the reply *)
Definition sr_prefix (r : SignedReply) : IdentifierPrefix := st_prefix (ksn_state (rp_ksn (sr_reply r))).

(** [PartialEq] (derived); used by [==] and [Vec::retain], database/sled/tables.rs:65-75 *)
Definition Route_eq_dec (a b : Route) : {a = b} + {a <> b}.
Proof. decide equality; apply IdentifierPrefix_eq_dec. Defined.
(** [PartialEq] (derived); used by [==] and [Vec::retain], database/sled/tables.rs:65-75 *)
Definition Ksn_eq_dec (a b : KeyStateNotice) : {a = b} + {a <> b}.
Proof. decide equality; [apply (list_eq_dec bytes_eq_dec) | apply Z.eq_dec | apply N.eq_dec | apply State_eq_dec | apply SI_eq_dec]. Defined.
(** [PartialEq] (derived); used by [==] and [Vec::retain], database/sled/tables.rs:65-75 *)
Definition Reply_eq_dec (a b : ReplyMessage) : {a = b} + {a <> b}.
Proof. decide equality; [apply Ksn_eq_dec | apply Route_eq_dec | apply Z.eq_dec | apply SAP_eq_dec | apply SI_eq_dec]. Defined.
(** [PartialEq] (derived); used by [==] and [Vec::retain], database/sled/tables.rs:65-75 *)
Definition SRpy_eq_dec (a b : SignedReply) : {a = b} + {a <> b}.
Proof. decide equality; [apply Signature_eq_dec | apply Reply_eq_dec]. Defined.

(** signed_event_message.rs:20-31 [Message] *)
Inductive Message :=
| MEvent (e : SignedEventMessage)
| MNontransferableRct (r : SignedNontransferableReceipt)
| MTransferableRct (r : SignedTransferableReceipt)
| MKeyStateNotice (r : SignedReply)
| MQuery (q : SignedQuery).

(** ** External functions: cryptography and serde.
    Every theorem quantifies over [Env]; nothing is assumed about the fields unless a
    theorem says so in its hypotheses. *)
(** crates serde, ed25519_dalek, blake3 and others, as called from /repo/src *)
Record Env := mkEnv {
  (** [SelfAddressing::digest] (self_addressing.rs:31-43): blake3, blake2, sha2, sha3 *)
  e_digest : SelfAddressing -> bytes -> bytes;
  (** [PublicKey::verify_ed], [verify_ecdsa] (keys/mod.rs:26-60): key, message, signature *)
  e_verify_ed : bytes -> bytes -> bytes -> bool;
  e_verify_ecdsa : bytes -> bytes -> bytes -> bool;
  (** [EventMessage<KeyEvent>::serialize] (event_message/mod.rs:202-204) *)
  e_ser_event : EventMessage -> out bytes;
  (** [SignedEventMessage::serialize] (signed_event_message.rs:161-163) *)
  e_ser_signed : SignedEventMessage -> out bytes;
  (** [EventMessage<KeyEvent>::to_derivation_data] (key_event_message.rs:63-82) *)
  e_deriv_data : EventMessage -> out bytes;
  (** [EventMessage<ReplyEvent>::serialize]; panics inside when the notice has no next-key
      digest (key_state_notice.rs:51-54 [unwrap]) *)
  e_ser_reply : ReplyMessage -> out bytes;
  (** the dummy serialization hashed by [EventMessage<ReplyEvent>::check_digest]
      (query/reply.rs:62-67) *)
  e_deriv_reply : ReplyMessage -> out bytes;
  (** [EventMessage<QueryEvent>::serialize] *)
  e_ser_query : QueryMessage -> out bytes }.
