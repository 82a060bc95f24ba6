(** * SpecHistory: what a node was told and said yes to. *)
From Verif Require Import Base Base64 Codes NumFmt Types KeyConf SpecSig State Db Processor Spec SpecProc.

(** Was the message answered with success? *)
Definition succeeds (E : Env) (d : Db) (m : Message) : bool :=
  match snd (process E d m) with Ok _ => true | _ => false end.
(** The messages of a history of calls from [d] on that were answered with success, in order. *)
Fixpoint successes (E : Env) (d : Db) (cs : list Call) : list Message :=
  match cs with
  | [] => []
  | c :: r => (match c with CProcess m => if succeeds E d m then [m] else [] | CEscrow => [] end) ++ successes E (call E d c) r
  end.
(** Those about [id], by kind. *)
Definition events_of (id : IdentifierPrefix) (ms : list Message) : list SignedEventMessage :=
  flat_map (fun m => match m with
    | MEvent se => if IdentifierPrefix_eq_dec (em_prefix (sem_msg se)) id then [se] else []
    | _ => [] end) ms.
Definition receipts_of (id : IdentifierPrefix) (ms : list Message) : list SignedTransferableReceipt :=
  flat_map (fun m => match m with
    | MTransferableRct r => if IdentifierPrefix_eq_dec (rct_prefix (tr_body r)) id then [r] else []
    | _ => [] end) ms.
Definition witness_receipts_of (id : IdentifierPrefix) (ms : list Message) : list SignedNontransferableReceipt :=
  flat_map (fun m => match m with
    | MNontransferableRct r => if IdentifierPrefix_eq_dec (rct_prefix (nr_body r)) id then [r] else []
    | _ => [] end) ms.
