(** * Conc: two calls running at the same time over one store.

    [EventProcessor] holds an [Arc<SledEventDatabase>] (processor/mod.rs:28-41) and no
    lock, so the tree accesses of calls made on different threads interleave freely.  One
    tree access is atomic (sled's guarantee).  A schedule says which thread makes the next
    access; when it is used up the first thread, then the second, runs to its end. *)
From Verif Require Import Base Base64 Codes NumFmt Types KeyConf State Db Processor Prog Sled Crash.

(** no counterpart in /repo: threads over one store *)
Fixpoint par {A B} (sch : list bool) (p : prog prim A) (q : prog prim B) (s : Sled) : Sled * (A * B) :=
  match sch with
  | [] =>
      let (s1, a) := sinterp p s in
      let (s2, b) := sinterp q s1 in (s2, (a, b))
  | true :: r =>
      match p with
      | Ret _ => par r p q s
      | Do o k => let (s', x) := prim_sem o s in par r (k x) q s'
      end
  | false :: r =>
      match q with
      | Ret _ => par r p q s
      | Do o k => let (s', x) := prim_sem o s in par r p (k x) s'
      end
  end.
(** two [process] calls *)
(** processor/mod.rs [process] on two threads *)
Definition par_process (E : Env) (sch : list bool) (s : Sled) (m1 m2 : Message)
  : Sled * (out (option IdentifierState) * out (option IdentifierState)) :=
  par sch (expand (p_process E m1)) (expand (p_process E m2)) s.
