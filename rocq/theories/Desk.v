(** * Desk: threads that process messages and make escrow passes.

    [EventProcessor] is shared between threads without a lock (processor/mod.rs:28-41), and
    [process_escrow] (processor/mod.rs:654-671) is a call like any other: a thread may make a
    pass while others process messages.  As in Threads.v one tree access is atomic and
    anything else interleaves. *)
From Verif Require Import Base Base64 Codes NumFmt Types KeyConf State Db Processor Prog Sled Crash Threads.

(** one call: a message (processor/mod.rs:252-262) or a pass over the escrow (654-671) *)
Definition p_call (E : Env) (c : Call) : prog op outcome :=
  match c with
  | CProcess m => let* r := p_process E m in Ret (AMessage r)
  | CEscrow => let* r := p_process_escrow E in Ret (APass r)
  end.
(** One thread: its calls one after another, the answers kept.  Simplification: a thread goes
    on after an error and after a panic (as with [catch_unwind] around the call). *)
(** no counterpart in /repo: a thread of calls *)
Fixpoint p_calls (E : Env) (cs : list Call) : prog op (list outcome) :=
  match cs with
  | [] => Ret []
  | c :: r => let* a := p_call E c in let* l := p_calls E r in Ret (a :: l)
  end.
(** [at_once E ths s s' l]: threads that make the calls [ths], all started on the store [s],
    can end with the store [s'] and the answers [l]. *)
(** no counterpart in /repo: threads over one store *)
Definition at_once (E : Env) (ths : list (list Call)) (s s' : Sled) (l : list (list outcome)) : Prop :=
  runs (map (fun cs => expand (p_calls E cs)) ths) s s' l.
(** the store after calls made one after another *)
(** no counterpart in /repo: a history of calls *)
Definition store_after (E : Env) (cs : list Call) : Sled := fold_left (fun s c => fst (scall E s c)) cs sled_empty.
