(** * SpecRespond: what a node sends back. *)
From Verif Require Import Base Base64 Codes NumFmt Types KeyConf State Db Processor Spec SpecProc SpecHistory Cesr Message Keri SpecKeri.

(** the text of a receipt: its body, then the seal and the signatures *)
Definition receipt_text (K : KEnv) (r : SignedTransferableReceipt) (t : bytes) : Prop :=
  exists body att, k_ser_rct K (tr_body r) = Ok body
    /\ to_cesr (SealSignaturesGroups [(tr_seal r, tr_sigs r)]) = Ok att /\ t = body ++ att.
(** [r] is the receipt for the event [m] of the controller [me] with the signing key pair [p]: it names the
    event, states its size, is signed over the text of the event by the pair and names the
    establishment event of [me] that the signature is to be checked against *)
Definition my_receipt (E : Env) (K : KEnv) (d : Db) (me : IdentifierPrefix) (p : KeyPair) (m : EventMessage) (r : SignedTransferableReceipt) : Prop :=
  rct_prefix (tr_body r) = em_prefix m /\ rct_sn (tr_body r) = em_sn m
  /\ (exists ser sig, e_ser_event E m = Ok ser /\ rct_digest (tr_body r) = derive E Blake3_256 ser
        /\ k_sign_ed K (kp_priv p) ser = Ok sig /\ tr_sigs r = [mkASP 0 (mkSSP Ed25519Sha512 sig)])
  /\ (exists b, k_ser_rct K (mkRct (si_new JSON 0) (rct_digest (tr_body r)) (rct_prefix (tr_body r)) (rct_sn (tr_body r))) = Ok b
        /\ rct_info (tr_body r) = si_new JSON (List.length b))
  /\ es_prefix (tr_seal r) = me
  /\ (exists y, In y (log d me) /\ em_sn (sem_msg y) = es_sn (tr_seal r) /\ em_digest (sem_msg y) = es_digest (tr_seal r))
  /\ receipt_justified E d r.
(** any store that has the two logs takes [r] *)
Definition taken_elsewhere (E : Env) (d : Db) (me : IdentifierPrefix) (r : SignedTransferableReceipt) : Prop :=
  forall cs, let d' := run E db_empty cs in let id := rct_prefix (tr_body r) in
    incl (log d me) (log d' me) -> incl (log d id) (log d' id) ->
    exists s, process E d' (MTransferableRct r) = (add_receipt_t d' r id, Ok (Some s)).
(** [peer] has acknowledged the inception of [me] *)
Definition acknowledged (d : Db) (me peer : IdentifierPrefix) : Prop :=
  exists r, In r (olist (get_receipts_t d me)) /\ rct_sn (tr_body r) = 0%N /\ es_prefix (tr_seal r) = peer.
(** An introduction is due to who sends an inception and has not acknowledged ours: the own log. *)
Definition introduction (E : Env) (d : Db) (me : IdentifierPrefix) (m : EventMessage) (t : bytes) : Prop :=
  ((exists i, em_data m = Icp i) /\ ~ acknowledged d me (em_prefix m) /\ get_kerl E d me = Ok (Some t))
  \/ (~ ((exists i, em_data m = Icp i) /\ ~ acknowledged d me (em_prefix m)) /\ t = []).
(** The answer to accepted messages [ms] over the store [d]: for each event an introduction if due
    and a receipt; nothing for receipts. *)
Inductive answers (E : Env) (K : KEnv) (d : Db) (me : IdentifierPrefix) (p : KeyPair) :
  list Message -> list SignedTransferableReceipt -> bytes -> Prop :=
| an_nil : answers E K d me p [] [] []
| an_receipt r ms rs out : answers E K d me p ms rs out -> answers E K d me p (MTransferableRct r :: ms) rs out
| an_event ev ms r rs intro t out :
    my_receipt E K d me p (sem_msg ev) r -> receipt_text K r t -> introduction E d me (sem_msg ev) intro ->
    answers E K d me p ms rs out -> answers E K d me p (MEvent ev :: ms) (r :: rs) (intro ++ t ++ out).
(** the receipts about [id] *)
Definition about (id : IdentifierPrefix) (rs : list SignedTransferableReceipt) : list SignedTransferableReceipt :=
  filter (fun r => if IdentifierPrefix_eq_dec (rct_prefix (tr_body r)) id then true else false) rs.
(** what can be answered: receipts, and events of others that can be written *)
Definition answerable (E : Env) (me : IdentifierPrefix) (m : Message) : Prop :=
  match m with
  | MEvent ev => em_prefix (sem_msg ev) <> me /\ em_prefix (sem_msg ev) <> id_default /\ exists ser, e_ser_event E (sem_msg ev) = Ok ser
  | MTransferableRct _ => True
  | _ => False
  end.
(** the store [d] holds a valid receipt by [who] for the event [e] *)
Definition receipted_by (E : Env) (d : Db) (who : IdentifierPrefix) (e : SignedEventMessage) : Prop :=
  exists r, In r (olist (get_receipts_t d (em_prefix (sem_msg e)))) /\ rct_sn (tr_body r) = em_sn (sem_msg e)
    /\ es_prefix (tr_seal r) = who /\ receipt_justified E d r.
(** the store of [k] is one that the processor reached without panics *)
Definition undisturbed (E : Env) (k : Keri) : Prop := exists cs, quiet E db_empty cs = true /\ k_db k = run E db_empty cs.
