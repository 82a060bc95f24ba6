(** * Crash: processing cut short between two accesses to the store.

    The store writes of one call are separate sled operations ([add_kel_finalized_event],
    signature check, [remove_kel_finalized_event], processor/mod.rs:331-353); the process
    may be killed between any two of them.  What was written stays (sled persists every
    completed operation; flushing and I/O errors are not modelled), and the next process
    starts from it. *)
From Verif Require Import Base Base64 Codes NumFmt Types KeyConf State Db Processor Prog Sled.

(** the store after the first [k] tree accesses of a program *)
(** no counterpart in /repo: the process is killed *)
Fixpoint cut {R} (k : nat) (p : prog prim R) (s : Sled) : Sled :=
  match k, p with
  | S k', Do o c => let (s', a) := prim_sem o s in cut k' (c a) s'
  | _, _ => s
  end.

Section WithEnv.
  Context (E : Env).
  (** processor/mod.rs:252-262 [process] on the numeric-key store *)
  Definition sprocess (s : Sled) (m : Message) : Sled * out (option IdentifierState) :=
    sinterp (expand (p_process E m)) s.
  (** processor/mod.rs:654-671 [process_escrow] on the numeric-key store *)
  Definition spass (s : Sled) : Sled * out unit := sinterp (expand (p_process_escrow E)) s.
  (** a call and what it answers *)
  Inductive outcome : Type := AMessage (r : out (option IdentifierState)) | APass (r : out unit).
  Definition outcome_panics (a : outcome) : bool := match a with AMessage r => is_panic r | APass r => is_panic r end.
  Definition scall (s : Sled) (c : Call) : Sled * outcome :=
    match c with
    | CProcess m => let (s', r) := sprocess s m in (s', AMessage r)
    | CEscrow => let (s', r) := spass s in (s', APass r)
    end.
  (** an attempt at a call: complete, or killed after [k] tree accesses *)
  Definition attempt : Type := Call * option nat.
  Definition cut_call (k : nat) (c : Call) (s : Sled) : Sled :=
    match c with
    | CProcess m => cut k (expand (p_process E m)) s
    | CEscrow => cut k (expand (p_process_escrow E)) s
    end.
  Definition try_one (s : Sled) (a : attempt) : Sled :=
    match a with (c, None) => fst (scall s c) | (c, Some k) => cut_call k c s end.
  Definition try_all (s : Sled) (l : list attempt) : Sled := fold_left try_one l s.
  (** the calls that did not return: killed, or ended in a panic *)
  Fixpoint interrupted (s : Sled) (l : list attempt) : list Call :=
    match l with
    | [] => []
    | (c, o) :: r =>
        match o with
        | Some _ => [c]
        | None => if outcome_panics (snd (scall s c)) then [c] else []
        end ++ interrupted (try_one s (c, o)) r
    end.
End WithEnv.
