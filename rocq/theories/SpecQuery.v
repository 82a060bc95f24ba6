(** * SpecQuery: vocabulary for the properties of key-state replies. *)
From Verif Require Import Base Base64 Codes NumFmt Types KeyConf SpecSig State Db Processor Spec SpecProc.

(** Who vouches for a reply. *)
Definition replier (r : SignedReply) : IdentifierPrefix :=
  match sr_sig r with
  | Transferable seal _ => es_prefix seal
  | NonTransferable key _ => IdBasic key
  end.
(** The sequence number of the establishment event whose keys signed a reply: the seal's; a
    bare key is the key of the inception (number 0) of the identifier that it is. *)
Definition key_sn (r : SignedReply) : N :=
  match sr_sig r with Transferable seal _ => es_sn seal | NonTransferable _ _ => 0 end.
Definition by_bare_key (r : SignedReply) : bool :=
  match sr_sig r with Transferable _ _ => false | NonTransferable _ _ => true end.
Definition reply_time (r : SignedReply) : Z := rp_timestamp (sr_reply r).
Definition reply_route (r : SignedReply) : Route := rp_route (sr_reply r).
(** the BADA order: newer keys, or the same keys and not an earlier time *)
Definition not_before (old new : SignedReply) : Prop :=
  (key_sn old < key_sn new)%N \/ (key_sn old = key_sn new /\ (reply_time old <= reply_time new)%Z).

(** The accepted (and the waiting) replies about an identifier, as a list. *)
Definition accepted (d : Db) (id : IdentifierPrefix) : list SignedReply := olist (get_accepted_replys d id).
Definition waiting (d : Db) (id : IdentifierPrefix) : list SignedReply := olist (get_escrowed_replys d id).

(** The signature of a reply covers its serialization under keys of the replier. *)
Definition reply_signed (E : Env) (d : Db) (r : SignedReply) : Prop :=
  exists ser, e_ser_reply E (sr_reply r) = Ok ser
    /\ match sr_sig r with
       | Transferable seal sigs => signed_under_seal E d seal ser sigs
       | NonTransferable key sig => sig_ok E key ser sig
       end.
(** The digest of a reply is the digest of its content. *)
Definition reply_bound (E : Env) (r : SignedReply) : Prop :=
  exists data, e_deriv_reply E (sr_reply r) = Ok data
    /\ computable (sap_code (rp_digest (sr_reply r)))
    /\ e_digest E (sap_code (rp_digest (sr_reply r))) data = sap_digest (rp_digest (sr_reply r)).
(** The notice of a reply names an event by its number and digest. *)
Definition notice_names (E : Env) (r : SignedReply) (e : EventMessage) : Prop :=
  em_sn e = st_sn (ksn_state (rp_ksn (sr_reply r)))
  /\ digest_of_event E e (st_last_digest (ksn_state (rp_ksn (sr_reply r)))).
