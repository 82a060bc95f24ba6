(** * Threads: any number of threads over one store.

    [EventProcessor] is cloned around an [Arc<SledEventDatabase>] (processor/mod.rs:28-41)
    without a lock.  As in Conc.v one tree access is atomic and anything else interleaves.
    [runs] says how the threads can run together to their ends: any thread that is not at
    its end may make its next access.  [pool] computes such a run from a schedule. *)
From Verif Require Import Base Base64 Codes NumFmt Types KeyConf State Db Processor Prog Sled Crash.

(** put [x] in place of the [i]-th member *)
(** no counterpart in /repo: threads over one store *)
Fixpoint replace {A} (i : nat) (x : A) (l : list A) : list A :=
  match l, i with
  | [], _ => []
  | _ :: r, O => x :: r
  | y :: r, S j => y :: replace j x r
  end.
(** [runs ps s s' l]: the threads [ps], starting from the store [s], can reach their ends
    with the store [s'] and the answers [l]. *)
(** no counterpart in /repo: threads over one store *)
Inductive runs {A} : list (prog prim A) -> Sled -> Sled -> list A -> Prop :=
| runs_ended l s : runs (map Ret l) s s l
| runs_access ps i X (o : prim X) k s s' x s2 l :
    nth_error ps i = Some (Do o k) -> prim_sem o s = (s', x) ->
    runs (replace i (k x) ps) s' s2 l -> runs ps s s2 l.
(** the threads one after another *)
(** no counterpart in /repo: threads over one store *)
Fixpoint in_turn {A} (ps : list (prog prim A)) (s : Sled) : Sled * list A :=
  match ps with
  | [] => (s, [])
  | p :: r => let (s1, a) := sinterp p s in let (s2, l) := in_turn r s1 in (s2, a :: l)
  end.
(** under a schedule (a list of thread numbers): thread [i] makes its next tree access; when
    the schedule is used up the threads run to their ends in turn *)
(** no counterpart in /repo: threads over one store *)
Fixpoint pool {A} (sch : list nat) (ps : list (prog prim A)) (s : Sled) : Sled * list A :=
  match sch with
  | [] => in_turn ps s
  | i :: r =>
      match nth_error ps i with
      | Some (Do o k) => let (s', x) := prim_sem o s in pool r (replace i (k x) ps) s'
      | _ => pool r ps s
      end
  end.
(** One thread: each message of its list is given to [process] (processor/mod.rs:252-262) in
    turn, and the answers are kept.  Simplification: a thread goes on after an error and
    after a panic (as with [catch_unwind] around the call). *)
Fixpoint p_all (E : Env) (ms : list Message) : prog op (list (out (option IdentifierState))) :=
  match ms with
  | [] => Ret []
  | m :: r => let* a := p_process E m in let* l := p_all E r in Ret (a :: l)
  end.
Definition threads (E : Env) (ths : list (list Message)) : list (prog prim (list (out (option IdentifierState)))) :=
  map (fun ms => expand (p_all E ms)) ths.
Definition threads_process (E : Env) (sch : list nat) (s : Sled) (ths : list (list Message))
  : Sled * list (list (out (option IdentifierState))) :=
  pool sch (threads E ths) s.
