(** * Db: the event store, as the per-identifier tables that its API exposes.

    [src/database/sled/mod.rs]: every table maps an identifier (through a numeric key,
    see [Sled.v] for that level and the refinement) to a list of entries.  An absent
    entry ([None]) and an empty list are different: [get] returns [None] only when the
    entry was never written. *)
From Verif Require Import Base Codes Types.

(** one table of database/sled/mod.rs:22-46 *)
Definition table (T : Type) := list (IdentifierPrefix * list T).
(** database/sled/tables.rs:34-41 *)
Definition tget {T} (t : table T) (id : IdentifierPrefix) : option (list T) :=
  aget IdentifierPrefix_eq_dec t id.
(** tables.rs:45-49 [put] *)
Definition tput {T} (t : table T) (id : IdentifierPrefix) (l : list T) : table T :=
  aput IdentifierPrefix_eq_dec t id l.
(** tables.rs:54-61 [push] *)
Definition tpush {T} (t : table T) (id : IdentifierPrefix) (x : T) : table T :=
  match tget t id with Some l => tput t id (l ++ [x]) | None => tput t id [x] end.
(** tables.rs:65-75 [remove]: [retain(|e| e != value)], written back even when empty *)
Definition tremove {T} (eqb : T -> T -> bool) (t : table T) (id : IdentifierPrefix) (x : T) : table T :=
  match tget t id with Some l => tput t id (filter (fun e => negb (eqb e x)) l) | None => t end.

(** sled/mod.rs:22-46 [SledEventDatabase] *)
Record Db := mkDb {
  db_kel : table SignedEventMessage;                    (* key_event_logs *)
  db_ldup : table EventMessage;                         (* likely_duplicious_events *)
  db_dup : table SignedEventMessage;                    (* duplicitous_events *)
  db_rct_nt : table SignedNontransferableReceipt;       (* receipts_nt *)
  db_esc_nt : table SignedNontransferableReceipt;       (* escrowed_receipts_nt *)
  db_rct_t : table SignedTransferableReceipt;           (* receipts_t *)
  db_esc_t : table SignedTransferableReceipt;           (* escrowed_receipts_t *)
  db_rpy : table SignedReply;                           (* accepted_rpy *)
  db_esc_rpy : table SignedReply }.                     (* escrowed_replys *)
Definition db_empty : Db := mkDb [] [] [] [] [] [] [] [] [].

(** one table of database/sled/mod.rs:22-46 replaced *)
Definition set_kel (d : Db) t := mkDb t (db_ldup d) (db_dup d) (db_rct_nt d) (db_esc_nt d) (db_rct_t d) (db_esc_t d) (db_rpy d) (db_esc_rpy d).
(** one table of database/sled/mod.rs:22-46 replaced *)
Definition set_dup (d : Db) t := mkDb (db_kel d) (db_ldup d) t (db_rct_nt d) (db_esc_nt d) (db_rct_t d) (db_esc_t d) (db_rpy d) (db_esc_rpy d).
(** one table of database/sled/mod.rs:22-46 replaced *)
Definition set_rct_nt (d : Db) t := mkDb (db_kel d) (db_ldup d) (db_dup d) t (db_esc_nt d) (db_rct_t d) (db_esc_t d) (db_rpy d) (db_esc_rpy d).
(** one table of database/sled/mod.rs:22-46 replaced *)
Definition set_esc_nt (d : Db) t := mkDb (db_kel d) (db_ldup d) (db_dup d) (db_rct_nt d) t (db_rct_t d) (db_esc_t d) (db_rpy d) (db_esc_rpy d).
(** one table of database/sled/mod.rs:22-46 replaced *)
Definition set_rct_t (d : Db) t := mkDb (db_kel d) (db_ldup d) (db_dup d) (db_rct_nt d) (db_esc_nt d) t (db_esc_t d) (db_rpy d) (db_esc_rpy d).
(** one table of database/sled/mod.rs:22-46 replaced *)
Definition set_esc_t (d : Db) t := mkDb (db_kel d) (db_ldup d) (db_dup d) (db_rct_nt d) (db_esc_nt d) (db_rct_t d) t (db_rpy d) (db_esc_rpy d).
(** one table of database/sled/mod.rs:22-46 replaced *)
Definition set_rpy (d : Db) t := mkDb (db_kel d) (db_ldup d) (db_dup d) (db_rct_nt d) (db_esc_nt d) (db_rct_t d) (db_esc_t d) t (db_esc_rpy d).
(** one table of database/sled/mod.rs:22-46 replaced *)
Definition set_esc_rpy (d : Db) t := mkDb (db_kel d) (db_ldup d) (db_dup d) (db_rct_nt d) (db_esc_nt d) (db_rct_t d) (db_esc_t d) (db_rpy d) t.

(** signed_event_message.rs:44-65: the stored (CBOR) form has no [delegator_seal] *)
Definition stored (e : SignedEventMessage) : SignedEventMessage := mkSEM (sem_msg e) (sem_sigs e) None.

(** sled/mod.rs:70-94 *)
Definition add_kel (d : Db) (e : SignedEventMessage) (id : IdentifierPrefix) : Db :=
  set_kel d (tpush (db_kel d) id (stored e)).
Definition get_kel (d : Db) (id : IdentifierPrefix) : option (list SignedEventMessage) := tget (db_kel d) id.
Definition remove_kel (d : Db) (id : IdentifierPrefix) (e : SignedEventMessage) : Db :=
  set_kel d (tremove sem_eqb (db_kel d) id e).
(** sled/mod.rs:96-190 *)
Definition add_receipt_t (d : Db) r id := set_rct_t d (tpush (db_rct_t d) id r).
Definition get_receipts_t (d : Db) id := tget (db_rct_t d) id.
Definition add_receipt_nt (d : Db) r id := set_rct_nt d (tpush (db_rct_nt d) id r).
Definition get_receipts_nt (d : Db) id := tget (db_rct_nt d) id.
Definition add_escrow_t (d : Db) r id := set_esc_t d (tpush (db_esc_t d) id r).
Definition get_escrow_t (d : Db) id := tget (db_esc_t d) id.
Definition add_escrow_nt (d : Db) r id := set_esc_nt d (tpush (db_esc_nt d) id r).
Definition get_escrow_nt (d : Db) id := tget (db_esc_nt d) id.
Definition nr_eqb (a b : SignedNontransferableReceipt) : bool := if NR_eq_dec a b then true else false.
(** sled/mod.rs:130-138 [remove_receipts_nt]: removes every receipt that was read *)
Definition remove_receipts_nt (d : Db) (id : IdentifierPrefix) : Db :=
  match get_receipts_nt d id with
  | Some rs => fold_left (fun d r => set_rct_nt d (tremove nr_eqb (db_rct_nt d) id r)) rs d
  | None => d
  end.
(** sled/mod.rs:209-224 *)
Definition add_dup (d : Db) (e : SignedEventMessage) id := set_dup d (tpush (db_dup d) id (stored e)).
Definition get_dup (d : Db) id := tget (db_dup d) id.
(** sled/mod.rs:227-248 [update_accepted_reply] *)
Definition update_accepted_reply (d : Db) (r : SignedReply) (id : IdentifierPrefix) : Db :=
  match tget (db_rpy d) id with
  | Some rs =>
      set_rpy d (tput (db_rpy d) id
        (filter (fun s => if Route_eq_dec (rp_route (sr_reply s)) (rp_route (sr_reply r)) then false else true) rs
         ++ [r]))
  | None => set_rpy d (tpush (db_rpy d) id r)
  end.
(** sled/mod.rs:251-297 *)
Definition get_accepted_replys (d : Db) id := tget (db_rpy d) id.
Definition add_escrowed_reply (d : Db) (r : SignedReply) id := set_esc_rpy d (tpush (db_esc_rpy d) id r).
Definition get_escrowed_replys (d : Db) id := tget (db_esc_rpy d) id.
Definition srpy_eqb (a b : SignedReply) : bool := if SRpy_eq_dec a b then true else false.
Definition remove_escrowed_reply (d : Db) id (r : SignedReply) : Db :=
  set_esc_rpy d (tremove srpy_eqb (db_esc_rpy d) id r).
(** [get_all]: table order (the numeric key order of the store is not modelled here) *)
Definition get_all_escrowed_replys (d : Db) : list SignedReply := flat_map snd (db_esc_rpy d).
