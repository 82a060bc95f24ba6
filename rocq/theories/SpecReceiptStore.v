(** * SpecReceiptStore: what C120 and C121 say. *)
From Verif Require Import Base Base64 Codes NumFmt Types KeyConf State Db Processor Version Cesr Message Keri Json JsonRead JsonQuery SpecJson Cbor EventStore SpecEventStore ReceiptStore.

(** receipts whose every part reads back as it was written *)
Definition rct_stable (c : ReceiptMessage) : Prop :=
  version_readable (rct_info c) /\ sap_stable (rct_digest c) /\ id_stable (rct_prefix c) /\ u64 (rct_sn c).
Definition seal_stable (s : EventSeal) : Prop := id_stable (es_prefix s) /\ u64 (es_sn s) /\ sap_stable (es_digest s).
Definition ssp_stable (s : SelfSigningPrefix) : Prop := ssp_from (ssp_str s) = Ok s.
Definition nr_storable (r : SignedNontransferableReceipt) : Prop :=
  rct_stable (nr_body r) /\ Forall (fun c => bp_stable (fst c) /\ ssp_stable (snd c)) (nr_couplets r).
Definition tr_storable (r : SignedTransferableReceipt) : Prop :=
  rct_stable (tr_body r) /\ seal_stable (tr_seal r) /\ Forall sig_stable (tr_sigs r).
Definition item_storable (x : Item) : Prop :=
  match x with IEvent ts se => storable_at (ts, se) | INt r => nr_storable r | IT r => tr_storable r end.
(** the bytes that an item takes in the store *)
Definition item_size (x : Item) : nat :=
  match x with IEvent ts se => entry_size (ts, se) | INt r => List.length (cbor (nr_val r)) | IT r => List.length (cbor (tr_val r)) end.
Definition items_size (l : list Item) : nat := fold_right (fun x n => item_size x + n) 0 l.
Definition items_fit (l : list Item) : Prop := (N.of_nat (9 + items_size l) <= u64_max)%N.
(** the message of an item, and a sequence of messages on a store of values *)
Definition item_message (x : Item) : Message :=
  match x with IEvent _ se => MEvent se | INt r => MNontransferableRct r | IT r => MTransferableRct r end.
Fixpoint run_m (E : Env) (d : Db) (l : list Message) : Db * list (out (option IdentifierState)) :=
  match l with
  | [] => (d, [])
  | m :: r => let (d1, o) := process E d m in let (d2, os) := run_m E d1 r in (d2, o :: os)
  end.
(** the two stores show the same: logs, duplicitous events, and the four tables of receipts *)
Definition same_records (hx : bytes -> option N) (c : CDb) (d : Db) : Prop :=
  forall id, b_log hx (c_log c) id = Ok (get_kel d id) /\ get_dup (b_rest (c_log c)) id = get_dup d id
    /\ iter_nt hx (c_nt c) id = Ok (get_receipts_nt d id) /\ iter_nt hx (c_esc_nt c) id = Ok (get_escrow_nt d id)
    /\ iter_t hx (c_t c) id = Ok (get_receipts_t d id) /\ iter_t hx (c_esc_t c) id = Ok (get_escrow_t d id).
(** the receipts that the store shows for an identifier *)
Definition shows_nt (hx : bytes -> option N) (c : CDb) (id : IdentifierPrefix) (r : SignedNontransferableReceipt) : Prop :=
  exists rs, iter_nt hx (c_nt c) id = Ok (Some rs) /\ In r rs.
Definition shows_t (hx : bytes -> option N) (c : CDb) (id : IdentifierPrefix) (r : SignedTransferableReceipt) : Prop :=
  exists rs, iter_t hx (c_t c) id = Ok (Some rs) /\ In r rs.
