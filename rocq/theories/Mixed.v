(** * Mixed: messages and questions at the same time.

    [EventProcessor] is shared between threads without a lock (processor/mod.rs:28-41): one
    thread may process a message while another asks a question or processes another
    message.  As in Threads.v one tree access is atomic and anything else interleaves. *)
From Verif Require Import Base Base64 Codes NumFmt Types KeyConf State Db Processor Prog Sled Crash Threads Ask.

(** no counterpart in /repo: the accesses made by a message (processor/mod.rs:252-262) or a question *)
Definition p_step (E : Env) (st : step) : prog op answer :=
  match st with
  | Tell m => let* r := p_process E m in Ret (ADone r)
  | Ask q => p_ask E q
  end.
(** [together E sts s s' l]: messages and questions [sts], each in a thread of its own, all
    started on the store [s], can end with the store [s'] and the answers [l] (in the order
    of [sts]). *)
(** no counterpart in /repo: threads over one store *)
Definition together (E : Env) (sts : list step) (s s' : Sled) (l : list answer) : Prop :=
  runs (map (fun st => expand (p_step E st)) sts) s s' l.
