(** * SpecProc: vocabulary for the properties of the processor. *)
From Verif Require Import Base Base64 Codes NumFmt Types KeyConf SpecSig State Db Processor Spec.

(** The identifier a message is about. *)
Definition subject (m : Message) : option IdentifierPrefix :=
  match m with
  | MEvent e => Some (em_prefix (sem_msg e))
  | MNontransferableRct r => Some (rct_prefix (nr_body r))
  | MTransferableRct r => Some (rct_prefix (tr_body r))
  | MKeyStateNotice r => Some (sr_prefix r)
  | MQuery _ => None
  end.

(** Two stores agree on everything recorded under an identifier. *)
Definition same_for (id : IdentifierPrefix) (d d' : Db) : Prop :=
  get_kel d' id = get_kel d id /\ get_dup d' id = get_dup d id
  /\ get_receipts_nt d' id = get_receipts_nt d id /\ get_receipts_t d' id = get_receipts_t d id
  /\ get_escrow_nt d' id = get_escrow_nt d id /\ get_escrow_t d' id = get_escrow_t d id
  /\ get_accepted_replys d' id = get_accepted_replys d id
  /\ get_escrowed_replys d' id = get_escrowed_replys d id.
(** Two stores agree on everything but the event logs. *)
Definition same_but_logs (d d' : Db) : Prop :=
  forall id, get_dup d' id = get_dup d id
  /\ get_receipts_nt d' id = get_receipts_nt d id /\ get_receipts_t d' id = get_receipts_t d id
  /\ get_escrow_nt d' id = get_escrow_nt d id /\ get_escrow_t d' id = get_escrow_t d id
  /\ get_accepted_replys d' id = get_accepted_replys d id
  /\ get_escrowed_replys d' id = get_escrowed_replys d id.

(** The log of an identifier as a list ([[]] when there is none). *)
Definition log (d : Db) (id : IdentifierPrefix) : list SignedEventMessage := olist (get_kel d id).

(** Did a call panic? *)
Definition panics (E : Env) (d : Db) (c : Call) : bool :=
  match c with
  | CProcess m => is_panic (snd (process E d m))
  | CEscrow => is_panic (snd (process_escrow E d))
  end.
(** A history in which no call panics. *)
Fixpoint quiet (E : Env) (d : Db) (cs : list Call) : bool :=
  match cs with [] => true | c :: r => negb (panics E d c) && quiet E (call E d c) r end.

(** A digest given for an event can be compared with it: it names the algorithm of the
    event's digest field, or one that is computable. *)
Definition checkable (m : EventMessage) (g : SelfAddressingPrefix) : Prop :=
  sap_code (em_digest m) = sap_code g \/ computable (sap_code g).
(** A digest given for an event: equal to its digest field, or (other, computable algorithm)
    the digest of its content. *)
Definition digest_of_event (E : Env) (m : EventMessage) (g : SelfAddressingPrefix) : Prop :=
  em_digest m = g
  \/ (sap_code (em_digest m) <> sap_code g /\ computable (sap_code g)
      /\ exists data, e_deriv_data E m = Ok data /\ e_digest E (sap_code g) data = sap_digest g).

(** The data field of an event that can anchor a delegated event. *)
Definition anchor_data (m : EventMessage) : option (list Seal) :=
  match em_data m with
  | Rot r | Drt r => Some (rot_data r)
  | Ixn i => Some (ixn_data i)
  | _ => None
  end.
Definition is_delegated (m : EventMessage) : bool :=
  match em_data m with Dip _ | Drt _ => true | _ => false end.

(** The algorithms of a key and a signature go together. *)
Definition types_fit (k : BasicPrefix) (s : SelfSigningPrefix) : Prop :=
  ((bp_code k = Ed25519 \/ bp_code k = Ed25519NT) /\ ssp_code s = Ed25519Sha512)
  \/ ((bp_code k = ECDSAsecp256k1 \/ bp_code k = ECDSAsecp256k1NT) /\ ssp_code s = ECDSAsecp256k1Sha256).

(** In store [d] the seal names an establishment event of the signer's log, whose keys'
    signatures [sigs] over [data] satisfy its threshold (for thresholds whose weights are
    fractions with a non-zero denominator). *)
Definition signed_under_seal (E : Env) (d : Db) (seal : EventSeal) (data : bytes)
    (sigs : list AttachedSignaturePrefix) : Prop :=
  exists e kc, In e (log d (es_prefix seal)) /\ em_sn (sem_msg e) = es_sn seal
    /\ digest_of_event E (sem_msg e) (es_digest seal) /\ est_keys (sem_msg e) = Some kc
    /\ (rational_threshold (kc_threshold kc) -> satisfies E kc data sigs).

(** A transferable receipt that is justified by the store: the receipted event is in the log
    at the receipt's sn, and the validator's keys signed its serialization. *)
Definition receipt_justified (E : Env) (d : Db) (r : SignedTransferableReceipt) : Prop :=
  exists ev ser, In ev (log d (rct_prefix (tr_body r))) /\ em_sn (sem_msg ev) = rct_sn (tr_body r)
    /\ e_ser_event E (sem_msg ev) = Ok ser /\ signed_under_seal E d (tr_seal r) ser (tr_sigs r).
