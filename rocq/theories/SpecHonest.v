(** * SpecHonest: a controller who signs one history, and what reaches a node. *)
From Verif Require Import Base Base64 Codes NumFmt Types KeyConf SpecSig State Db Processor Spec SpecProc SpecRules.

(** [L] is a log of [id]: event number [j] has sequence number [j]. *)
Definition own_log (id : IdentifierPrefix) (L : list EventMessage) : Prop :=
  forall j m, nth_error L j = Some m -> em_prefix m = id /\ em_sn m = N.of_nat j.
(** [se] is handed to the node, as an event of [id]. *)
Definition submitted (cs : list Call) (id : IdentifierPrefix) (se : SignedEventMessage) : Prop :=
  In (CProcess (MEvent se)) cs /\ em_prefix (sem_msg se) = id.
(** Nobody forges signatures of the controller (who holds the keys [K]): what is submitted with
    a signature that verifies under one of them is an event of [L]. *)
Definition no_forgery (E : Env) (id : IdentifierPrefix) (L : list EventMessage) (K : BasicPrefix -> Prop) (cs : list Call) : Prop :=
  forall se sg k ser, submitted cs id se -> In sg (sem_sigs se) -> K k ->
    e_ser_event E (sem_msg se) = Ok ser -> sig_ok E k ser (asp_sig sg) -> In (sem_msg se) L.
(** Nobody finds other keys for a commitment made in [L]. *)
Definition no_other_opening (E : Env) (id : IdentifierPrefix) (L : list EventMessage) (K : BasicPrefix -> Prop) (cs : list Call) : Prop :=
  forall se e0 kc, submitted cs id se -> is_rotation (sem_msg se) = true -> In e0 L -> commits_to E e0 (sem_msg se) ->
    est_keys (sem_msg se) = Some kc -> Forall K (kc_keys kc).
(** The identifier is one of the controller's keys, or nobody submits an inception for it with
    other keys. *)
Definition owned (id : IdentifierPrefix) (K : BasicPrefix -> Prop) (cs : list Call) : Prop :=
  (exists k, id = IdBasic k /\ K k)
  \/ (forall se kc, submitted cs id se -> is_inception (sem_msg se) = true -> est_keys (sem_msg se) = Some kc -> Forall K (kc_keys kc)).
(** Every submitted threshold asks for a signature. *)
Definition thresholds_ask (id : IdentifierPrefix) (cs : list Call) : Prop :=
  forall se kc, submitted cs id se -> est_keys (sem_msg se) = Some kc -> nonzero (kc_threshold kc).
