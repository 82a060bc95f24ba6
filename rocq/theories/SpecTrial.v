(** * SpecTrial: what trying an event out answers.

    Stated over the log held for the identifier named in the call; nothing here refers to the
    functions that apply events. *)
From Verif Require Import Base Base64 Codes NumFmt Types KeyConf State Db Processor Spec SpecProc SpecRules Trial.

(** The store answers a question about the state of [id]. *)
Definition known (E : Env) (d : Db) (id : IdentifierPrefix) : Prop :=
  exists s, compute_state E d id = Ok (Some s).
(** A rotation reveals the keys that the last establishment event of [l] committed to. *)
Definition opens (E : Env) (l : list EventMessage) (m : EventMessage) : Prop :=
  is_rotation m = true -> exists est, last_establishment l = Some est /\ commits_to E est m.
(** What the trial of each form of an event asks for, given the log [l] of [id]. *)
Definition trial_rule (E : Env) (id : IdentifierPrefix) (l : list EventMessage) (f : Form)
    (m : EventMessage) : Prop :=
  match f with
  | FSigned | FMessage =>
      if is_inception m then begins E l m else em_prefix m = id /\ continues E l m
  | FEvent =>
      if is_inception m then l = [] /\ em_sn m = 0%N
      else em_prefix m = id /\ l <> [] /\ em_sn m = N.of_nat (List.length l) /\ opens E l m
  | FData => opens E l m
  end.
