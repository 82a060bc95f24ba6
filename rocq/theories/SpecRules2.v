(** * SpecRules2: when a receipt or a key-state reply is to be taken.

    As in [SpecRules.v], over the logs [logs id] (and, for replies, the replies [held] about the
    same identifier) alone. *)
From Verif Require Import Base Base64 Codes NumFmt Types KeyConf SpecSig State Db Processor Spec SpecProc SpecQuery.

(** [data] is signed by enough of the keys of the establishment event that [seal] names. *)
Definition signed_by_sealed_keys (E : Env) (logs : IdentifierPrefix -> list EventMessage) (seal : EventSeal)
    (data : bytes) (sigs : list AttachedSignaturePrefix) : Prop :=
  exists e kc, In e (logs (es_prefix seal)) /\ em_sn e = es_sn seal /\ digest_of_event E e (es_digest seal)
    /\ est_keys e = Some kc /\ in_single (kc_threshold kc) sigs /\ satisfies E kc data sigs.
(** The receipted event is there, and the receipt's signatures are over it. The digest written in
    the receipt has no say (C30). *)
Definition receiptable (E : Env) (logs : IdentifierPrefix -> list EventMessage) (r : SignedTransferableReceipt) : Prop :=
  exists m ser, In m (logs (rct_prefix (tr_body r))) /\ em_sn m = rct_sn (tr_body r)
    /\ e_ser_event E m = Ok ser /\ signed_by_sealed_keys E logs (tr_seal r) ser (tr_sigs r).

(** The reply may take the place of [old], by the same replier: both under seals, with newer keys
    or the same keys and not an earlier time; or by a bare key and not at an earlier time.
    Neither may its notice be older than [old]. *)
Definition supersedes (old new : SignedReply) : Prop :=
  match sr_sig new with
  | Transferable seal _ =>
      exists seal' sigs', sr_sig old = Transferable seal' sigs'
        /\ ((es_sn seal' < es_sn seal)%N \/ (es_sn seal' = es_sn seal /\ (reply_time old <= reply_time new)%Z))
  | NonTransferable _ _ => (reply_time old <= reply_time new)%Z
  end
  /\ (reply_time old <= ksn_timestamp (rp_ksn (sr_reply new)))%Z.
Definition reply_allowed (E : Env) (logs : IdentifierPrefix -> list EventMessage) (held : list SignedReply) (r : SignedReply) : Prop :=
  reply_route r = RReplyKsn (replier r)
  /\ (exists ser, e_ser_reply E (sr_reply r) = Ok ser
        /\ match sr_sig r with
           | Transferable seal sigs => signed_by_sealed_keys E logs seal ser sigs
           | NonTransferable k sg => sig_ok E k ser sg
           end)
  /\ (exists data, e_deriv_reply E (sr_reply r) = Ok data
        /\ computable (sap_code (rp_digest (sr_reply r)))
        /\ e_digest E (sap_code (rp_digest (sr_reply r))) data = sap_digest (rp_digest (sr_reply r)))
  /\ (forall old, In old held -> reply_route old = reply_route r -> supersedes old r)
  /\ (exists e, last_event (logs (sr_prefix r)) = Some e /\ em_sn e = st_sn (ksn_state (rp_ksn (sr_reply r)))
        /\ digest_of_event E e (st_last_digest (ksn_state (rp_ksn (sr_reply r))))).
