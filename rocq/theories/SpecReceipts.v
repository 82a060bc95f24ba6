(** * SpecReceipts: what a user of the receipt builder asked for: of each kind of setting, the last
    counts. *)
From Verif Require Import Base Base64 Codes NumFmt Types KeyConf State Db Processor Cesr Message Keri Builder Receipts.

Fixpoint last_set {A} (f : RSetting -> option A) (l : list RSetting) : option A :=
  match l with
  | [] => None
  | s :: r => match last_set f r with Some a => Some a | None => f s end
  end.
Definition set_event := last_set (fun s => match s with REvent m => Some m | _ => None end).
Definition set_format := last_set (fun s => match s with RFormat f => Some f | _ => None end).
Definition set_derivation := last_set (fun s => match s with RDerivation g => Some g | _ => None end).
Definition or_else {A} (o : option A) (a : A) : A := match o with Some x => x | None => a end.
