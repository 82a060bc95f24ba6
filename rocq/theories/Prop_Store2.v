(** * C38: histories with escrow passes on the numeric-key store. *)
From Verif Require Import Base Base64 Codes NumFmt Types KeyConf SpecSig State Db Processor Prog Sled
  SpecCodec SledProofs Spec SpecProc SpecStore StoreProofs Crash PassStore Demo Prop_Query.

(** For every history of calls, messages and escrow passes alike, none of which panics, the
    numeric-key store gives the answers of the per-identifier tables and ends with their
    contents.  (The pass meets the escrowed replies in the order of the numbers, not of
    the tables; that order makes no difference.) *)
Theorem C38_histories_agree :
  forall E cs, Forall call_ids_ok cs -> quiet E db_empty cs = true ->
    sanswers E sled_empty cs = danswers E db_empty cs
    /\ forall n id, id_ok id -> lookup (scalls E sled_empty cs) n id = tget (dtab n (run E db_empty cs)) id.
Proof.
  intros E cs Hcs Hq.
  destruct (calls_refine E cs Hcs _ _ _ Rel_empty store_ok_empty escrow_ok_empty Hq) as (M & R & Er).
  split; [exact Er|]. intros n id Hid. exact (lookup_rel _ _ _ n id R Hid).
Qed.
Print Assumptions C38_histories_agree.
(** a test for the hypothesis *)
Definition id_okb (p : IdentifierPrefix) : bool :=
  match id_material p with [] => false | _ => true end && (if IdentifierPrefix_eq_dec (id_unkeyed p) p then true else false).
Definition call_ids_okb (c : Call) : bool :=
  match c with
  | CProcess (MEvent e) =>
      id_okb (em_prefix (sem_msg e)) && match em_data (sem_msg e) with Dip d => id_okb (dip_delegator d) | _ => true end
  | CProcess (MKeyStateNotice r) =>
      id_okb (sr_prefix r) && match sr_sig r with Transferable seal _ => id_okb (es_prefix seal) | _ => true end
  | CProcess (MNontransferableRct r) => id_okb (rct_prefix (nr_body r))
  | CProcess (MTransferableRct r) => id_okb (rct_prefix (tr_body r)) && id_okb (es_prefix (tr_seal r))
  | _ => true
  end.
Lemma id_okb_ok p : id_okb p = true -> id_ok p.
Proof.
  unfold id_okb, id_ok. intros H. apply andb_prop in H as (H1 & H2). destruct (IdentifierPrefix_eq_dec _ _) as [He|]; [|discriminate H2].
  split; [|exact He]. intros Q. rewrite Q in H1. discriminate H1.
Qed.
Lemma call_ids_okb_ok c : call_ids_okb c = true -> call_ids_ok c.
Proof.
  destruct c as [m|]; [|intros _; exact I]. destruct m as [e|r|r|r|q]; cbn [call_ids_okb call_ids_ok message_ids_ok]; intros H; [| | | |exact I].
  - apply andb_prop in H as (H1 & H2). split; [now apply id_okb_ok|]. destruct (em_data (sem_msg e)); try exact I. now apply id_okb_ok.
  - now apply id_okb_ok.
  - apply andb_prop in H as (H1 & H2). split; now apply id_okb_ok.
  - apply andb_prop in H as (H1 & H2). split; [now apply id_okb_ok|]. unfold signature_ids_ok. destruct (sr_sig r); [now apply id_okb_ok|exact I].
Qed.
Lemma calls_okb cs : forallb call_ids_okb cs = true -> Forall call_ids_ok cs.
Proof. intros H. rewrite forallb_forall in H. apply Forall_forall. intros c Hc. apply call_ids_okb_ok. now apply H. Qed.
(** the reply comes before the events it needs, is escrowed, and the pass accepts it *)
Definition with_pass : list Call := early_then_events ++ [CEscrow].
Example C38_histories_example :
  Forall call_ids_ok with_pass
  /\ quiet toy db_empty with_pass = true
  /\ lookup (scalls toy sled_empty with_pass) TRpy alice = Some [early]
  /\ lookup (scalls toy sled_empty with_pass) TEscRpy alice = Some [].
Proof.
  apply conj.
  - apply calls_okb. vm_compute. reflexivity.
  - apply conj; [vm_compute; reflexivity|]. apply conj; vm_compute; reflexivity.
Qed.
