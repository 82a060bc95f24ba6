(** * Prop_History: a node holds exactly what it said yes to (C92).

    See [Prop_State.v] for [run E db_empty cs] and [id_default]; [SpecHistory.v] for [successes]. *)
From Coq Require Import Permutation.
From Verif Require Import Base Base64 Codes NumFmt Types KeyConf SpecSig State Db Processor Spec SpecProc SpecHistory SpecRules2
  StateProofs LogProofs LogTheorems ProcProofs ProcProofs2 ProcProofs3 HistoryProofs Demo.

(** ** C92: logs and receipts are the messages answered with success *)
(** The log: the accepted events in order of acceptance, with their signatures and without the
    source seal. For histories without panics (the event stays in the log after a panic, C20). *)
Theorem C92_log_is_what_was_accepted :
  forall E cs id,
    id <> id_default -> (forall m x, e_ser_event E m <> Err x) -> quiet E db_empty cs = true ->
    log (run E db_empty cs) id
    = map (fun se => mkSEM (sem_msg se) (sem_sigs se) None) (events_of id (successes E db_empty cs)).
Proof. exact log_history. Qed.
Print Assumptions C92_log_is_what_was_accepted.

(** The validators' receipts: the accepted ones in order of acceptance. *)
Theorem C92_receipts_are_what_was_accepted :
  forall E cs id,
    id <> id_default ->
    olist (get_receipts_t (run E db_empty cs) id) = receipts_of id (successes E db_empty cs).
Proof. exact receipts_history. Qed.
Print Assumptions C92_receipts_are_what_was_accepted.

(** The witnesses' receipts: the accepted ones are all stored, or held in escrow. *)
Theorem C92_witness_receipts_are_what_was_accepted :
  forall E cs id,
    id <> id_default ->
    Permutation (olist (get_receipts_nt (run E db_empty cs) id) ++ olist (get_escrow_nt (run E db_empty cs) id))
                (witness_receipts_of id (successes E db_empty cs)).
Proof. exact witness_history. Qed.
Print Assumptions C92_witness_receipts_are_what_was_accepted.

(** Asking for a validator's receipt: yes exactly when one was accepted, and then the event is
    there and signed by the keys that the validator's seal names. *)
Theorem C92_has_receipt :
  forall E cs id sn validator,
    id <> id_default ->
    (has_receipt (run E db_empty cs) id sn validator = true <->
     exists r, In (MTransferableRct r) (successes E db_empty cs) /\ rct_prefix (tr_body r) = id
       /\ rct_sn (tr_body r) = sn /\ es_prefix (tr_seal r) = validator).
Proof.
  intros E cs id sn v Hid.
  assert (Hiff : forall r, In r (olist (get_receipts_t (run E db_empty cs) id)) <->
    In (MTransferableRct r) (successes E db_empty cs) /\ rct_prefix (tr_body r) = id).
  { intros r. rewrite receipts_history by exact Hid. unfold receipts_of. rewrite in_flat_map. split.
    - intros (m & Hm & Hr). destruct m as [e|x|x|x|q]; try contradiction.
      destruct (IdentifierPrefix_eq_dec (rct_prefix (tr_body x)) id) as [He|]; [|contradiction].
      destruct Hr as [-> | []]. auto.
    - intros (Hm & <-). exists (MTransferableRct r). split; [exact Hm|].
      destruct (IdentifierPrefix_eq_dec _ _) as [_|Hn]; [now left|now destruct Hn]. }
  assert (Hh : has_receipt (run E db_empty cs) id sn v = true <->
    exists r, In r (olist (get_receipts_t (run E db_empty cs) id)) /\ rct_sn (tr_body r) = sn /\ es_prefix (tr_seal r) = v).
  { unfold has_receipt. destruct (get_receipts_t _ id) as [rs|]; cbn [olist].
    - rewrite existsb_exists. split; intros (r & Hr & H); exists r; (split; [exact Hr|]).
      + apply andb_true_iff in H as (H1 & H2). apply N.eqb_eq in H1. destruct (IdentifierPrefix_eq_dec _ _); [auto|discriminate].
      + destruct H as (<- & <-). rewrite N.eqb_refl. destruct (IdentifierPrefix_eq_dec _ _) as [_|Hn]; [reflexivity|now destruct Hn].
    - split; [discriminate|]. intros (r & [] & _). }
  rewrite Hh. split; intros (r & H); exists r.
  - destruct H as (H1 & H2 & H3). apply Hiff in H1 as (H1 & H4). auto.
  - destruct H as (H1 & H2 & H3 & H4). split; [|auto]. apply Hiff. auto.
Qed.
Print Assumptions C92_has_receipt.
Theorem C92_has_receipt_is_sound :
  forall E cs id sn validator,
    id <> id_default -> validator <> id_default -> has_receipt (run E db_empty cs) id sn validator = true ->
    exists r, rct_prefix (tr_body r) = id /\ rct_sn (tr_body r) = sn /\ es_prefix (tr_seal r) = validator
      /\ receipt_justified E (run E db_empty cs) r.
Proof.
  intros E cs id sn v Hid Hv H. unfold has_receipt in H.
  destruct (get_receipts_t _ id) as [rs|] eqn:Hrs; [|discriminate H].
  apply existsb_exists in H as (r & Hr & H). apply andb_true_iff in H as (H1 & H2). apply N.eqb_eq in H1.
  destruct (IdentifierPrefix_eq_dec (es_prefix (tr_seal r)) v) as [He|]; [|discriminate H2]. clear H2.
  destruct (c29_reachable E cs id rs r Hid Hrs Hr) as (Hp & Hj); [congruence|]. exists r. auto.
Qed.
Print Assumptions C92_has_receipt_is_sound.

(** Hypotheses met: the demo, with a refused and an escrowed receipt, and a refused event. *)
Definition history : list Call := CProcess (MEvent s_rot) :: demo_calls.
Example C92_example :
  alice <> id_default /\ quiet toy db_empty history = true
  /\ List.length (successes toy db_empty history) = 9 /\ List.length history = 12
  /\ has_receipt (run toy db_empty history) alice 1 bob = true
  /\ has_receipt (run toy db_empty history) alice 2 bob = false
  /\ has_receipt (run toy db_empty history) alice 1 alice = false.
Proof. repeat apply conj; try (vm_compute; reflexivity). vm_compute. discriminate. Qed.
Example C92_example_serialises : forall m x, e_ser_event toy m <> Err x.
Proof. intros m x. discriminate. Qed.
