(** * SpecStore: vocabulary for the properties of the store. *)
From Verif Require Import Base Base64 Codes NumFmt Types KeyConf State Db Processor SpecCodec.

(** Every identifier a message names is one that has a text of its own ([id_ok]). *)
Definition event_ids_ok (m : EventMessage) : Prop :=
  id_ok (em_prefix m) /\ match em_data m with Dip d => id_ok (dip_delegator d) | _ => True end.
Definition signature_ids_ok (s : Signature) : Prop :=
  match s with Transferable seal _ => id_ok (es_prefix seal) | NonTransferable _ _ => True end.
Definition message_ids_ok (m : Message) : Prop :=
  match m with
  | MEvent e => event_ids_ok (sem_msg e)
  | MNontransferableRct r => id_ok (rct_prefix (nr_body r))
  | MTransferableRct r => id_ok (rct_prefix (tr_body r)) /\ id_ok (es_prefix (tr_seal r))
  | MKeyStateNotice r => id_ok (sr_prefix r) /\ signature_ids_ok (sr_sig r)
  | MQuery _ => True
  end.

Definition call_ids_ok (c : Call) : Prop := match c with CProcess m => message_ids_ok m | CEscrow => True end.

(** The identifiers whose tables processing a message in store [d] reads: the subject, the
    delegator of a delegated event (named by the inception or recorded in the state), the
    validator or signer that a seal names. *)
Definition reads_of (E : Env) (d : Db) (m : Message) (id : IdentifierPrefix) : Prop :=
  match m with
  | MEvent e =>
      id = em_prefix (sem_msg e)
      \/ match em_data (sem_msg e) with
         | Dip x => id = dip_delegator x
         | Drt _ => exists s, compute_state E d (em_prefix (sem_msg e)) = Ok (Some s) /\ st_delegator s = Some id
         | _ => False
         end
  | MNontransferableRct r => id = rct_prefix (nr_body r)
  | MTransferableRct r => id = rct_prefix (tr_body r) \/ id = es_prefix (tr_seal r)
  | MKeyStateNotice r =>
      id = sr_prefix r \/ match sr_sig r with Transferable seal _ => id = es_prefix seal | _ => False end
  | MQuery _ => False
  end.
