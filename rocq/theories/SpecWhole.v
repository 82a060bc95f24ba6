(** * SpecWhole: what whole histories are said to do. *)
From Verif Require Import Base Codes Types State Db Processor Spec SpecProc.

(** The calls that offer a key event of one of the identifiers of [S]. *)
Definition concerns (S : IdentifierPrefix -> bool) (c : Call) : bool :=
  match c with CProcess (MEvent se) => S (em_prefix (sem_msg se)) | _ => false end.
(** Whoever delegates to an identifier of [S] is in [S]. *)
Definition with_delegators (S : IdentifierPrefix -> bool) (cs : list Call) : Prop :=
  forall se dl, In (CProcess (MEvent se)) cs -> S (em_prefix (sem_msg se)) = true ->
    named_delegator (sem_msg se) = Some dl -> S dl = true.

(** ** How much a store holds *)
(** Everything that is kept in a table, for all identifiers. *)
Definition contents {T} (t : table T) : list T := flat_map snd t.
(** The number of records in the whole store. *)
Definition records (d : Db) : nat :=
  List.length (contents (db_kel d)) + List.length (contents (db_ldup d)) + List.length (contents (db_dup d))
  + List.length (contents (db_rct_nt d)) + List.length (contents (db_esc_nt d))
  + List.length (contents (db_rct_t d)) + List.length (contents (db_esc_t d))
  + List.length (contents (db_rpy d)) + List.length (contents (db_esc_rpy d)).
(** The messages and the escrow passes of a history. *)
Definition messages (cs : list Call) : nat :=
  List.length (filter (fun c => match c with CProcess _ => true | CEscrow => false end) cs).
Definition passes (cs : list Call) : nat :=
  List.length (filter (fun c => match c with CProcess _ => false | CEscrow => true end) cs).
Definition is_receipt (m : Message) : bool :=
  match m with MNontransferableRct _ | MTransferableRct _ => true | _ => false end.
