(** * SpecThreads: vocabulary for threads that keep to their own identifiers. *)
From Verif Require Import Base Base64 Codes NumFmt Types KeyConf State Db Processor Spec SpecProc.

(** The identifiers a message names: the one it is about, the delegator of a delegated
    inception, the validator or signer of a seal. *)
Definition names (m : Message) (id : IdentifierPrefix) : Prop :=
  match m with
  | MEvent e => id = em_prefix (sem_msg e) \/ named_delegator (sem_msg e) = Some id
  | MNontransferableRct r => id = rct_prefix (nr_body r)
  | MTransferableRct r => id = rct_prefix (tr_body r) \/ id = es_prefix (tr_seal r)
  | MKeyStateNotice r =>
      id = sr_prefix r \/ match sr_sig r with Transferable seal _ => id = es_prefix seal | _ => False end
  | MQuery _ => False
  end.
(** [area] is enough for the messages [ms] after the history [h]: it has all the
    identifiers they name, and with an identifier everyone who delegates to it. *)
Definition enough_for (area : IdentifierPrefix -> bool) (h ms : list Message) : Prop :=
  (forall m id, In m ms -> names m id -> area id = true)
  /\ (forall se dl, In (MEvent se) (h ++ ms) -> area (em_prefix (sem_msg se)) = true ->
        named_delegator (sem_msg se) = Some dl -> area dl = true).
