(** * ReceiptStore: event logs and receipts as the bytes that the store holds.

    [EventStore.v] keeps the logs as bytes; here the four tables of receipts are bytes as well
    (database/sled/mod.rs:22-46, trees "rcts", "ures", "vrcs", "vres"), and the receipts are
    processed on them.  Not here: replies and queries (their tables stay values and are not
    touched; see [ReplyStore.v]).  Simplifications as in [Cbor.v]. *)
From Verif Require Import Base Base64 Codes NumFmt Types KeyConf State Db Processor Version Cesr Message Keri Json JsonRead JsonQuery Cbor EventStore.

(** ** A table of lists, as bytes *)
(** database/sled/tables.rs:10-13 *)
Definition btable := list (IdentifierPrefix * bytes).
Section Table.
  Context {T : Type} (val : T -> sval) (read : jval -> out T).
  (** database/sled/tables.rs:45-49 [put], what is written *)
  Definition write_vec (l : list T) : bytes := cbor (VSeq (map val l)).
  (** database/sled/tables.rs:36-37 [from_slice] *)
  Definition read_vec (s : bytes) : out (list T) :=
    match from_cbor s with Some v => as_vec read v | None => jerr end.
  (** database/sled/tables.rs:34-41 [get] *)
  Definition bt_get (t : btable) (id : IdentifierPrefix) : out (option (list T)) :=
    match aget IdentifierPrefix_eq_dec t id with
    | None => Ok None
    | Some s => omap (fun l => Some l) (read_vec s)
    end.
  (** database/sled/tables.rs:45-49 [put] *)
  Definition bt_put (t : btable) (id : IdentifierPrefix) (l : list T) : btable := aput IdentifierPrefix_eq_dec t id (write_vec l).
  (** database/sled/tables.rs:54-61 [push]: a list that cannot be read is replaced *)
  Definition bt_push (t : btable) (id : IdentifierPrefix) (x : T) : out btable :=
    match bt_get t id with
    | Ok (Some l) => Ok (bt_put t id (l ++ [x]))
    | Ok None | Err _ => Ok (bt_put t id [x])
    | Panic => Panic
    end.
  (** database/sled/tables.rs:108-118 [iter_values]: [unwrap] *)
  Definition bt_iter (t : btable) (id : IdentifierPrefix) : out (option (list T)) :=
    match bt_get t id with Err _ => Panic | x => x end.
End Table.

(** ** Receipts as values *)
(** seal.rs:25-35, [derive(Serialize)] *)
Definition event_seal_val (s : EventSeal) : sval :=
  VStruct [sfld "i" (id_str (es_prefix s)); sfld "s" (fmt_hex (es_sn s)); sfld "d" (sap_str (es_digest s))].
(** signed_event_message.rs:173-178 *)
Definition tr_val (r : SignedTransferableReceipt) : sval :=
  VStruct [fld "body" (receipt_val (tr_body r)); fld "validator_seal" (event_seal_val (tr_seal r)); fld "signatures" (asps_val (tr_sigs r))].
(** signed_event_message.rs:201-205: a pair is an array of two *)
Definition couplets_val (l : list (BasicPrefix * SelfSigningPrefix)) : sval :=
  VSeq (map (fun c => VSeq [VStr (bp_str (fst c)); VStr (ssp_str (snd c))]) l).
(** signed_event_message.rs:201-205 *)
Definition nr_val (r : SignedNontransferableReceipt) : sval :=
  VStruct [fld "body" (receipt_val (nr_body r)); fld "couplets" (couplets_val (nr_couplets r))].
Section Reading.
  Context (hx : bytes -> option N).
  (** seal.rs:25-35, [derive(Deserialize)] *)
  Definition as_seal_rec (v : jval) : out EventSeal :=
    match v with
    | JObj l =>
        let? x := scan [own "i" as_id; own "s" (as_hex hx); own "d" as_sap] [] l in
        let (m, _) := (x : list (bytes * jval) * list (bytes * jval)) in
        let? i := got as_id m "i" in let? s := got (as_hex hx) m "s" in let? d := got as_sap m "d" in
        Ok (mkES i s d)
    | _ => jerr
    end.
  (** signed_event_message.rs:173-178, [derive(Deserialize)] *)
  Definition as_tr (v : jval) : out SignedTransferableReceipt :=
    match v with
    | JObj l =>
        let? x := scan [own "body" (as_message (read_receipt hx)); own "validator_seal" as_seal_rec; own "signatures" (as_vec as_asp)] [] l in
        let (m, _) := (x : list (bytes * jval) * list (bytes * jval)) in
        let? b := got (as_message (read_receipt hx)) m "body" in let? s := got as_seal_rec m "validator_seal" in let? g := got (as_vec as_asp) m "signatures" in
        Ok (mkTRct b s g)
    | _ => jerr
    end.
  (** the pairs of signed_event_message.rs:204 *)
  Definition as_couplet (v : jval) : out (BasicPrefix * SelfSigningPrefix) :=
    match v with
    | JArr [p; s] => let? p := as_bp p in let? s := as_ssp s in Ok (p, s)
    | _ => jerr
    end.
  (** signed_event_message.rs:201-205, [derive(Deserialize)] *)
  Definition as_nr (v : jval) : out SignedNontransferableReceipt :=
    match v with
    | JObj l =>
        let? x := scan [own "body" (as_message (read_receipt hx)); own "couplets" (as_vec as_couplet)] [] l in
        let (m, _) := (x : list (bytes * jval) * list (bytes * jval)) in
        let? b := got (as_message (read_receipt hx)) m "body" in let? c := got (as_vec as_couplet) m "couplets" in
        Ok (mkNRct b c)
    | _ => jerr
    end.
End Reading.

(** ** The store *)
(** database/sled/mod.rs:22-46; the values of receipts in [c_log] are not used *)
Record CDb := mkCDb { c_log : BDb; c_nt : btable; c_esc_nt : btable; c_t : btable; c_esc_t : btable }.
Definition cdb_empty : CDb := mkCDb bdb_empty [] [] [] [].
(** what is processed, at the time [ts] of the clock: an event, a witness receipt or a
    validator receipt (processor/mod.rs:252-256) *)
Inductive Item := IEvent (ts : bytes) (se : SignedEventMessage) | INt (r : SignedNontransferableReceipt) | IT (r : SignedTransferableReceipt).

Section WithEnv.
  Context (E : Env) (hx : bytes -> option N).
  (** database/sled/mod.rs:113-133, 144-157, 168-181: [add_*] and [get_*] *)
  Definition push_nt (t : btable) (id : IdentifierPrefix) (r : SignedNontransferableReceipt) : out btable := bt_push nr_val (as_nr hx) t id r.
  Definition push_t (t : btable) (id : IdentifierPrefix) (r : SignedTransferableReceipt) : out btable := bt_push tr_val (as_tr hx) t id r.
  Definition iter_nt (t : btable) (id : IdentifierPrefix) : out (option (list SignedNontransferableReceipt)) := bt_iter (as_nr hx) t id.
  Definition iter_t (t : btable) (id : IdentifierPrefix) : out (option (list SignedTransferableReceipt)) := bt_iter (as_tr hx) t id.
  (** processor/mod.rs:234-247 [has_receipt] *)
  Definition has_receipt_c (c : CDb) (id : IdentifierPrefix) (sn : N) (validator : IdentifierPrefix) : out bool :=
    let? o := iter_t (c_t c) id in
    Ok (existsb (fun r => (rct_sn (tr_body r) =? sn)%N && (if IdentifierPrefix_eq_dec (es_prefix (tr_seal r)) validator then true else false)) (olist o)).
  (** processor/mod.rs:425-435 [get_event_at_sn] *)
  Definition event_at_b (b : BDb) (id : IdentifierPrefix) (sn : N) : out (option SignedEventMessage) :=
    let? d := b_view hx b id in Ok (get_event_at_sn d id sn).
  (** processor/mod.rs:158-190 [get_keys_at_event] *)
  Definition keys_at_b (b : BDb) (id : IdentifierPrefix) (sn : N) (dig : SelfAddressingPrefix) : out KeyConfig :=
    let? d := b_view hx b id in get_keys_at_event E d id sn dig.
  (** processor/mod.rs:399-423 [process_witness_receipt] *)
  Definition process_nt_c (c : CDb) (r : SignedNontransferableReceipt) : CDb * out (option IdentifierState) :=
    let id := rct_prefix (nr_body r) in
    match event_at_b (c_log c) id (rct_sn (nr_body r)) with
    | Ok (Some event) =>
        match e_ser_signed E event with
        | Err e => (c, Err e)
        | Panic => (c, Panic)
        | Ok ser =>
            match rev (couplet_errors E ser (nr_couplets r)) with
            | [] =>
                match push_nt (c_nt c) id r with
                | Ok t => (mkCDb (c_log c) t (c_esc_nt c) (c_t c) (c_esc_t c), compute_state_b E hx (c_log c) id)
                | Err e => (c, Err e)
                | Panic => (c, Panic)
                end
            | e :: _ => (c, Err e)
            end
        end
    | Ok None =>
        match push_nt (c_esc_nt c) id r with
        | Ok t => (mkCDb (c_log c) (c_nt c) t (c_t c) (c_esc_t c), compute_state_b E hx (c_log c) id)
        | Err e => (c, Err e)
        | Panic => (c, Panic)
        end
    | Err e => (c, Err e)
    | Panic => (c, Panic)
    end.
  (** processor/mod.rs:365-391 [process_validator_receipt] *)
  Definition process_t_c (c : CDb) (r : SignedTransferableReceipt) : CDb * out (option IdentifierState) :=
    let id := rct_prefix (tr_body r) in
    match event_at_b (c_log c) id (rct_sn (tr_body r)) with
    | Ok (Some event) =>
        match (let? kc := keys_at_b (c_log c) (es_prefix (tr_seal r)) (es_sn (tr_seal r)) (es_digest (tr_seal r)) in
               let? ser := e_ser_event E (sem_msg event) in
               kc_verify E kc ser (tr_sigs r)) with
        | Ok true =>
            match push_t (c_t c) id r with
            | Ok t => (mkCDb (c_log c) (c_nt c) (c_esc_nt c) t (c_esc_t c), compute_state_b E hx (c_log c) id)
            | Err e => (c, Err e)
            | Panic => (c, Panic)
            end
        | Ok false => (c, Err (ESemantic "Incorrect receipt signatures"))
        | Err e => (c, Err e)
        | Panic => (c, Panic)
        end
    | Ok None =>
        match push_t (c_esc_t c) id r with
        | Ok t => (mkCDb (c_log c) (c_nt c) (c_esc_nt c) (c_t c) t, Err (ESemantic "Receipt escrowed"))
        | Err e => (c, Err e)
        | Panic => (c, Panic)
        end
    | Err e => (c, Err e)
    | Panic => (c, Panic)
    end.
  (** processor/mod.rs:252-256 [process] *)
  Definition process_c (c : CDb) (x : Item) : CDb * out (option IdentifierState) :=
    match x with
    | IEvent ts se =>
        let (b, o) := process_event_b E hx (c_log c) ts se in
        (mkCDb b (c_nt c) (c_esc_nt c) (c_t c) (c_esc_t c), o)
    | INt r => process_nt_c c r
    | IT r => process_t_c c r
    end.
  (** processor/mod.rs:252-256, called again and again *)
  Fixpoint run_c (c : CDb) (l : list Item) : CDb * list (out (option IdentifierState)) :=
    match l with
    | [] => (c, [])
    | x :: r => let (c1, o) := process_c c x in let (c2, os) := run_c c1 r in (c2, o :: os)
    end.
End WithEnv.
