(** * SpecAncestry: who delegated whom, read off the logs of a store. *)
From Verif Require Import Base Base64 Codes NumFmt Types KeyConf State Db Processor Spec SpecProc.

(** The first event of the log of [id] names [p] as the delegator. *)
Definition parent (d : Db) (id p : IdentifierPrefix) : Prop :=
  exists first, hd_error (log_of (log d id)) = Some first /\ named_delegator first = Some p.
(** [chain] starts with [id], each is delegated by the next, and the last is nobody's delegate.
    All have events in the store. *)
Inductive ancestry (d : Db) : IdentifierPrefix -> list IdentifierPrefix -> Prop :=
| self_governed id first : hd_error (log_of (log d id)) = Some first -> named_delegator first = None -> ancestry d id [id]
| delegated_by id p chain : parent d id p -> ancestry d p chain -> ancestry d id (id :: chain).
(** No inception handed in names the empty default identifier as its delegator. *)
Definition delegators_named (cs : list Call) : Prop :=
  forall se p, In (CProcess (MEvent se)) cs -> named_delegator (sem_msg se) = Some p -> p <> id_default.
(** The log of the delegator of [id] holds an event that seals [m]. *)
Definition sealed_by_parent (E : Env) (d : Db) (id : IdentifierPrefix) (m : EventMessage) : Prop :=
  exists p x seals s, parent d id p /\ In x (log_of (log d p)) /\ anchor_data x = Some seals
    /\ In (SealEvent s) seals /\ digest_of_event E m (es_digest s).
