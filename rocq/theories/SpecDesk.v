(** * SpecDesk: vocabulary for replies and escrow passes beside other messages. *)
From Verif Require Import Base Base64 Codes NumFmt Types KeyConf State Db Processor Prog Sled Crash SpecThreads.

(** Calls that have to do with replies only: a reply, or a pass over the escrow. *)
Definition reply_call (c : Call) : bool :=
  match c with CProcess (MKeyStateNotice _) | CEscrow => true | _ => false end.
(** A thread without its replies and passes ... *)
Definition without_replies (cs : list Call) : list Call := filter (fun c => negb (reply_call c)) cs.
(** ... and its answers without theirs. *)
Fixpoint answers_without (cs : list Call) (l : list outcome) : list outcome :=
  match cs, l with
  | c :: cs', a :: l' => if reply_call c then answers_without cs' l' else a :: answers_without cs' l'
  | _, _ => []
  end.
(** The tables that replies are kept in. *)
Definition reply_table (n : tname) : bool := match n with TRpy | TEscRpy => true | _ => false end.
