(** * ProcProofs3: receipts (C29-C32) and data signatures (C33). *)
From Verif Require Import Base Base64 Codes NumFmt Types KeyConf SpecSig State Db Processor Spec SpecProc
  StateProofs LogProofs LogTheorems LogTheorems2 SigProofs ProcProofs ProcProofs2.

Section WithEnv.
  Context (E : Env).

  Lemma keys_at_event_spec d id sn g kc :
    get_keys_at_event E d id sn g = Ok kc ->
    exists e, In e (log d id) /\ em_sn (sem_msg e) = sn /\ digest_of_event E (sem_msg e) g /\ est_keys (sem_msg e) = Some kc.
  Proof.
    unfold get_keys_at_event. destruct (get_event_at_sn d id sn) as [e|] eqn:He; [|discriminate].
    intros H. apply obind_ok in H. destruct H as (b & Hb & H). destruct b; [|discriminate H].
    destruct (get_event_spec _ _ _ _ He) as [H1 H2]. exists e. split; [exact H1|]. split; [exact H2|].
    split; [now apply check_digest_spec|]. unfold est_keys.
    destruct (em_data (sem_msg e)); inversion H; reflexivity.
  Qed.

  (** C33 *)
  Lemma signed_under d seal data sigs kc :
    get_keys_at_event E d (es_prefix seal) (es_sn seal) (es_digest seal) = Ok kc ->
    kc_verify E kc data sigs = Ok true -> signed_under_seal E d seal data sigs.
  Proof.
    intros H Hv. destruct (keys_at_event_spec _ _ _ _ _ H) as (e & H1 & H2 & H3 & H4).
    exists e, kc. split; [exact H1|]. split; [exact H2|]. split; [exact H3|]. split; [exact H4|].
    intros Hr. now apply verify_sound.
  Qed.
  Lemma c33_transferable d data seal sigs :
    proc_verify E d data (Transferable seal sigs) = Ok tt -> signed_under_seal E d seal data sigs.
  Proof.
    cbn. intros H. apply obind_ok in H. destruct H as (kc & Hk & H). apply obind_ok in H.
    destruct H as (b & Hb & H). destruct b; [|discriminate H]. eapply signed_under; eauto.
  Qed.
  Lemma c33_nontransferable d data bp sig :
    proc_verify E d data (NonTransferable bp sig) = Ok tt <-> sig_ok E bp data sig.
  Proof.
    cbn. rewrite <- key_verify_ok. split.
    - intros H. apply obind_ok in H. destruct H as (b & Hb & H). destruct b; [exact Hb|discriminate H].
    - intros ->. reflexivity.
  Qed.

  (** ** Frames *)
  Lemma tget_tpush_same {T} (t : table T) id x : tget (tpush t id x) id = Some (olist (tget t id) ++ [x]).
  Proof. rewrite tget_tpush. destruct (IdentifierPrefix_eq_dec id id); congruence. Qed.
  (** a reply leaves the store as it was, is put in escrow, or becomes the accepted one *)
  Lemma reply_cases d r :
    fst (process_signed_reply E d r) = d \/ fst (process_signed_reply E d r) = escrow_reply d r
    \/ fst (process_signed_reply E d r) = update_accepted_reply d r (sr_prefix r).
  Proof.
    unfold process_signed_reply. destruct (rp_route _); auto. destruct (IdentifierPrefix_eq_dec _ _); auto.
    destruct (e_ser_reply _ _); auto. destruct (proc_verify _ _ _ _) as [|[]|]; auto.
    destruct (obind _ _); auto. destruct (check_ksn _ _ _ _) as [|[]|]; auto. destruct q; auto.
  Qed.
  (** induction over what [process_escrow] does *)
  Lemma escrow_ind (P : Db -> Prop) :
    (forall d r, P d -> P (fst (process_signed_reply E d r))) ->
    (forall d r, P d -> P (remove_escrowed_reply d (sr_prefix r) r)) ->
    forall d, P d -> P (fst (process_escrow E d)).
  Proof.
    intros H1 H2 d. unfold process_escrow. generalize (get_all_escrowed_replys d). intros l. revert d.
    induction l as [|r l IH]; intros d Hd; [exact Hd|]. cbn [process_escrow_loop].
    specialize (H1 d r Hd). destruct (process_signed_reply E d r) as [d1 res]. cbn in H1.
    destruct res as [|e|]; [now apply IH, H2| |exact H1].
    destruct e; try (now apply IH); try (now apply IH, H2). destruct q; try (now apply IH); now apply IH, H2.
  Qed.
  Lemma upd_frame {T} (f : Db -> T) :
    (forall d t, f (set_rpy d t) = f d) -> forall d r id, f (update_accepted_reply d r id) = f d.
  Proof. intros H d r id. unfold update_accepted_reply. destruct (tget _ _); apply H. Qed.
  Lemma reply_frame {T} (f : Db -> T) :
    (forall d t, f (set_rpy d t) = f d) -> (forall d t, f (set_esc_rpy d t) = f d) ->
    forall d r, f (fst (process_signed_reply E d r)) = f d.
  Proof.
    intros H1 H2 d r. destruct (reply_cases d r) as [->|[->| ->]]; [reflexivity|apply H2|].
    apply (upd_frame f H1).
  Qed.
  Lemma escrow_frame {T} (f : Db -> T) :
    (forall d t, f (set_rpy d t) = f d) -> (forall d t, f (set_esc_rpy d t) = f d) ->
    forall d, f (fst (process_escrow E d)) = f d.
  Proof.
    intros H1 H2 d. apply (escrow_ind (fun x => f x = f d)); [| |reflexivity].
    - intros x r <-. now apply reply_frame.
    - intros x r <-. apply H2.
  Qed.
  Lemma event_frame {T} (f : Db -> T) :
    (forall d t, f (set_kel d t) = f d) -> (forall d t, f (set_dup d t) = f d) ->
    forall d se, f (fst (process_event E d se)) = f d.
  Proof.
    intros H1 H2 d se. unfold process_event. destruct (check_delegation E d se); try reflexivity.
    destruct (apply_to_state _ _ _); try reflexivity. destruct (e_ser_event _ _); cbn; try apply H1.
    destruct (verify_signatures _ _ _ _) as [|e|]; cbn; try apply H1.
    unfold remove_kel. rewrite H1. destruct e; try apply H1. unfold add_dup. rewrite H2. apply H1.
  Qed.
  Lemma witness_frame {T} (f : Db -> T) :
    (forall d t, f (set_rct_nt d t) = f d) -> (forall d t, f (set_esc_nt d t) = f d) ->
    forall d r, f (fst (process_witness_receipt E d r)) = f d.
  Proof.
    intros H1 H2 d r. unfold process_witness_receipt. destruct (get_event_at_sn _ _ _); [|apply H2].
    destruct (e_ser_signed _ _); try reflexivity. destruct (rev _); [apply H1|reflexivity].
  Qed.
  Lemma validator_frame {T} (f : Db -> T) :
    (forall d t, f (set_rct_t d t) = f d) -> (forall d t, f (set_esc_t d t) = f d) ->
    forall d r, f (fst (process_validator_receipt E d r)) = f d.
  Proof.
    intros H1 H2 d r. unfold process_validator_receipt. destruct (get_event_at_sn _ _ _); [|apply H2].
    destruct (obind _ _) as [[|]| |]; try reflexivity. apply H1.
  Qed.

  (** ** C29 *)
  Lemma c29_accept d r d' res :
    process E d (MTransferableRct r) = (d', res) ->
    get_receipts_t d' (rct_prefix (tr_body r)) = get_receipts_t d (rct_prefix (tr_body r))
    \/ (get_receipts_t d' (rct_prefix (tr_body r)) = Some (olist (get_receipts_t d (rct_prefix (tr_body r))) ++ [r])
        /\ receipt_justified E d r).
  Proof.
    cbn. unfold process_validator_receipt.
    destruct (get_event_at_sn d (rct_prefix (tr_body r)) (rct_sn (tr_body r))) as [ev|] eqn:Hev;
      [|intros H; injection H as <- _; now left].
    destruct (obind _ _) as [[|]|e|] eqn:Hv; intros H; injection H as <- <-; try (now left).
    right. split; [apply tget_tpush_same|].
    apply obind_ok in Hv. destruct Hv as (kc & Hk & Hv). apply obind_ok in Hv. destruct Hv as (ser & Hs & Hv).
    destruct (get_event_spec _ _ _ _ Hev) as [H1 H2]. exists ev, ser. split; [exact H1|]. split; [exact H2|].
    split; [exact Hs|]. eapply signed_under; eauto.
  Qed.

  Definition RctInv (d : Db) : Prop :=
    forall id rs r, id <> id_default -> get_receipts_t d id = Some rs -> In r rs -> es_prefix (tr_seal r) <> id_default ->
      rct_prefix (tr_body r) = id /\ receipt_justified E d r.
  Lemma justified_extends d d' r :
    rct_prefix (tr_body r) <> id_default -> es_prefix (tr_seal r) <> id_default ->
    (forall id, id <> id_default -> exists ext, log d' id = log d id ++ ext) ->
    receipt_justified E d r -> receipt_justified E d' r.
  Proof.
    intros Hid Hv Hx (ev & ser & H1 & H2 & H3 & e & kc & H4 & H5). exists ev, ser.
    destruct (Hx _ Hid) as [x1 Hx1]. destruct (Hx _ Hv) as [x2 Hx2].
    split; [rewrite Hx1; apply in_or_app; now left|]. split; [exact H2|]. split; [exact H3|].
    exists e, kc. split; [rewrite Hx2; apply in_or_app; now left|exact H5].
  Qed.
  Lemma RctInv_call d c : Inv E d -> RctInv d -> RctInv (call E d c).
  Proof.
    intros HI HR.
    assert (Hext : forall id, id <> id_default -> exists ext, log (call E d c) id = log d id ++ ext)
      by (intros; now apply call_extends).
    assert (Hframe : db_rct_t (call E d c) = db_rct_t d -> RctInv (call E d c)).
    { intros Hf id rs r Hid Hg Hin Hv. unfold get_receipts_t in Hg. rewrite Hf in Hg.
      destruct (HR id rs r Hid Hg Hin Hv) as [Hp Hj]. split; [exact Hp|].
      eapply justified_extends; eauto. congruence. }
    destruct c as [m|]; [destruct m as [se|r|r|r|q]|].
    - apply Hframe. apply (event_frame db_rct_t); reflexivity.
    - apply Hframe. apply (witness_frame db_rct_t); reflexivity.
    - intros id rs x Hid Hg Hin Hv. cbn [call] in *.
      destruct (process E d (MTransferableRct r)) as [d' res] eqn:Hp. cbn [fst] in *.
      assert (Hold : In x (olist (get_receipts_t d id)) -> rct_prefix (tr_body x) = id /\ receipt_justified E d' x).
      { intros Hx. destruct (get_receipts_t d id) as [l|] eqn:Hl; [|destruct Hx].
        destruct (HR id l x Hid Hl Hx Hv) as [Hpx Hj]. split; [exact Hpx|].
        eapply justified_extends; eauto. congruence. }
      destruct (IdentifierPrefix_eq_dec id (rct_prefix (tr_body r))) as [->|Hne].
      + destruct (c29_accept _ _ _ _ Hp) as [Hs|[Hs Hj]].
        * apply Hold. rewrite <- Hs, Hg. exact Hin.
        * rewrite Hs in Hg. injection Hg as <-. apply in_app_or in Hin. destruct Hin as [Hin|[<-|[]]]; [now apply Hold|].
          split; [reflexivity|]. eapply justified_extends; eauto.
      + apply Hold. assert (Hs : get_receipts_t d' id = get_receipts_t d id).
        { pose proof (c23 E d (MTransferableRct r) id) as Hc. rewrite Hp in Hc. apply Hc. cbn. congruence. }
        rewrite <- Hs, Hg. exact Hin.
    - apply Hframe. apply (reply_frame db_rct_t); reflexivity.
    - apply Hframe. reflexivity.
    - apply Hframe. apply (escrow_frame db_rct_t); reflexivity.
  Qed.
  Lemma c29_reachable cs : RctInv (run E db_empty cs).
  Proof.
    assert (G : forall cs d, Inv E d -> RctInv d -> RctInv (run E d cs)).
    { clear cs. induction cs as [|c cs IH]; intros d HI HR; [exact HR|]. cbn.
      apply IH; [now apply Inv_call|now apply RctInv_call]. }
    apply G; [apply Inv_empty|]. intros id rs r _ H. discriminate H.
  Qed.

  (** ** C30: the digest of a receipt plays no role *)
  Definition with_digest (r : ReceiptMessage) (g : SelfAddressingPrefix) : ReceiptMessage :=
    mkRct (rct_info r) g (rct_prefix r) (rct_sn r).
  Lemma c30_transferable d r g d' res :
    process E d (MTransferableRct r) = (d', Ok res) ->
    exists d2 res2, process E d (MTransferableRct (mkTRct (with_digest (tr_body r) g) (tr_seal r) (tr_sigs r))) = (d2, Ok res2)
      /\ get_receipts_t d2 (rct_prefix (tr_body r))
         = Some (olist (get_receipts_t d (rct_prefix (tr_body r))) ++ [mkTRct (with_digest (tr_body r) g) (tr_seal r) (tr_sigs r)]).
  Proof.
    cbn. unfold process_validator_receipt. cbn.
    destruct (get_event_at_sn _ _ _) as [ev|]; [|discriminate].
    destruct (obind _ _) as [[|]|e|]; try discriminate. intros H. injection H as _ H.
    exists (add_receipt_t d (mkTRct (with_digest (tr_body r) g) (tr_seal r) (tr_sigs r)) (rct_prefix (tr_body r))), res.
    split; [|apply tget_tpush_same]. f_equal. rewrite <- H. reflexivity.
  Qed.
  Lemma c30_nontransferable d r g d' res :
    process E d (MNontransferableRct r) = (d', Ok res) ->
    get_receipts_nt d' (rct_prefix (nr_body r)) <> get_receipts_nt d (rct_prefix (nr_body r)) ->
    exists d2 res2, process E d (MNontransferableRct (mkNRct (with_digest (nr_body r) g) (nr_couplets r))) = (d2, Ok res2)
      /\ get_receipts_nt d2 (rct_prefix (nr_body r))
         = Some (olist (get_receipts_nt d (rct_prefix (nr_body r))) ++ [mkNRct (with_digest (nr_body r) g) (nr_couplets r)]).
  Proof.
    cbn. unfold process_witness_receipt. cbn.
    destruct (get_event_at_sn _ _ _) as [ev|]; [|intros H Hn; injection H as <- _; now destruct Hn].
    destruct (e_ser_signed E ev) as [ser|e|]; try discriminate.
    destruct (rev _) as [|e0 l0]; [|discriminate]. intros H _. injection H as _ H.
    exists (add_receipt_nt d (mkNRct (with_digest (nr_body r) g) (nr_couplets r)) (rct_prefix (nr_body r))), res.
    split; [|apply tget_tpush_same]. f_equal. rewrite <- H. reflexivity.
  Qed.

  (** ** C31 *)
  Lemma key_verify_types k msg s : types_fit k s <-> exists b, key_verify E k msg s = Ok b.
  Proof.
    unfold types_fit, key_verify. split.
    - intros [[[->| ->] ->]|[[->| ->] ->]]; eauto.
    - intros [b H]. destruct (bp_code k); try discriminate H; destruct (ssp_code s); try discriminate H; auto.
  Qed.
  Lemma couplet_errors_nil ser cs :
    couplet_errors E ser cs = [] <-> Forall (fun c => types_fit (fst c) (snd c)) cs.
  Proof.
    induction cs as [|c cs IH]; [split; [constructor|reflexivity]|].
    change (couplet_errors E ser (c :: cs))
      with ((match key_verify E (fst c) ser (snd c) with Err e => [e] | _ => [] end) ++ couplet_errors E ser cs).
    rewrite Forall_cons_iff, (key_verify_types _ ser). split.
    - intros H. apply app_eq_nil in H. destruct H as [H1 H2]. split; [|now apply IH].
      destruct (key_verify E (fst c) ser (snd c)) eqn:Hk; [eauto|discriminate|].
      exfalso. eapply key_verify_nopanic; eauto.
    - intros [[b Hb] H2]. rewrite Hb. cbn. now apply IH.
  Qed.
  (** exactly when a witness receipt is stored *)
  Lemma c31 d r d' res :
    process E d (MNontransferableRct r) = (d', res) ->
    (get_receipts_nt d' (rct_prefix (nr_body r)) <> get_receipts_nt d (rct_prefix (nr_body r)) <->
     exists ev ser, get_event_at_sn d (rct_prefix (nr_body r)) (rct_sn (nr_body r)) = Some ev
        /\ e_ser_signed E ev = Ok ser /\ Forall (fun c => types_fit (fst c) (snd c)) (nr_couplets r))
    /\ (get_receipts_nt d' (rct_prefix (nr_body r)) <> get_receipts_nt d (rct_prefix (nr_body r)) ->
        get_receipts_nt d' (rct_prefix (nr_body r)) = Some (olist (get_receipts_nt d (rct_prefix (nr_body r))) ++ [r])).
  Proof.
    cbn. unfold process_witness_receipt.
    destruct (get_event_at_sn _ _ _) as [ev|].
    2:{ intros H. injection H as <- _. split; [|now intros H]. split; [intros H; now destruct H|].
        intros (ev & ser & H & _). discriminate H. }
    destruct (e_ser_signed E ev) as [ser|e|] eqn:Hser.
    2,3: intros H; injection H as <- _; split; [|now intros H]; split; [intros H; now destruct H|];
        intros (ev' & ser' & H & H2 & _); injection H as <-; congruence.
    destruct (rev (couplet_errors E ser (nr_couplets r))) as [|e0 l0] eqn:Hr.
    - apply rev_nil_inv in Hr. apply couplet_errors_nil in Hr. intros H. injection H as <- _.
      assert (Hs : get_receipts_nt (add_receipt_nt d r (rct_prefix (nr_body r))) (rct_prefix (nr_body r))
                   = Some (olist (get_receipts_nt d (rct_prefix (nr_body r))) ++ [r])) by apply tget_tpush_same.
      split; [|auto]. split; [eauto|]. intros _. rewrite Hs.
      destruct (get_receipts_nt d (rct_prefix (nr_body r))) as [l|]; [|discriminate]. cbn. intros H. injection H as H.
      apply (f_equal (@List.length _)) in H. rewrite app_length in H. cbn in H. lia.
    - intros H. injection H as <- _. split; [|now intros H]. split; [intros H; now destruct H|].
      intros (ev' & ser' & H & H2 & H3). injection H as <-. rewrite Hser in H2. injection H2 as <-.
      apply couplet_errors_nil with (ser := ser) in H3. rewrite H3 in Hr. discriminate Hr.
  Qed.

  (** ** C32 *)
  Lemma absent_iff d id sn :
    get_event_at_sn d id sn = None <-> forall e, In e (log d id) -> em_sn (sem_msg e) <> sn.
  Proof.
    rewrite get_event_log. split.
    - intros H e Hin Hsn. pose proof (find_none _ _ H e Hin) as Hf. cbn in Hf. apply N.eqb_neq in Hf. congruence.
    - intros H. destruct (find _ _) as [e|] eqn:Hf; [|reflexivity]. apply find_some in Hf. destruct Hf as [H1 H2].
      apply N.eqb_eq in H2. exfalso. eapply H; eauto.
  Qed.
  Lemma c32_nontransferable d r :
    let id := rct_prefix (nr_body r) in
    (forall e, In e (log d id) -> em_sn (sem_msg e) <> rct_sn (nr_body r)) ->
    let d' := fst (process E d (MNontransferableRct r)) in
    get_escrow_nt d' id = Some (olist (get_escrow_nt d id) ++ [r])
    /\ (forall i, i <> id -> get_escrow_nt d' i = get_escrow_nt d i)
    /\ (forall i, get_kel d' i = get_kel d i /\ get_dup d' i = get_dup d i
          /\ get_receipts_nt d' i = get_receipts_nt d i /\ get_receipts_t d' i = get_receipts_t d i
          /\ get_escrow_t d' i = get_escrow_t d i
          /\ get_accepted_replys d' i = get_accepted_replys d i /\ get_escrowed_replys d' i = get_escrowed_replys d i).
  Proof.
    cbv zeta. intros H. cbn. unfold process_witness_receipt.
    apply absent_iff in H. rewrite H. cbn [fst]. split; [apply tget_tpush_same|].
    split; [intros i Hi; now apply tpush_other|]. intros i. repeat split.
  Qed.
  Lemma c32_transferable d r :
    let id := rct_prefix (tr_body r) in
    (forall e, In e (log d id) -> em_sn (sem_msg e) <> rct_sn (tr_body r)) ->
    let d' := fst (process E d (MTransferableRct r)) in
    get_escrow_t d' id = Some (olist (get_escrow_t d id) ++ [r])
    /\ (forall i, i <> id -> get_escrow_t d' i = get_escrow_t d i)
    /\ (forall i, get_kel d' i = get_kel d i /\ get_dup d' i = get_dup d i
          /\ get_receipts_nt d' i = get_receipts_nt d i /\ get_receipts_t d' i = get_receipts_t d i
          /\ get_escrow_nt d' i = get_escrow_nt d i
          /\ get_accepted_replys d' i = get_accepted_replys d i /\ get_escrowed_replys d' i = get_escrowed_replys d i).
  Proof.
    cbv zeta. intros H. cbn. unfold process_validator_receipt.
    apply absent_iff in H. rewrite H. cbn [fst]. split; [apply tget_tpush_same|].
    split; [intros i Hi; now apply tpush_other|]. intros i. repeat split.
  Qed.
  (** the escrows and receipts only grow, whatever follows *)
  Lemma push_grows {T} (t : table T) id x i : exists ext, olist (tget (tpush t id x) i) = olist (tget t i) ++ ext.
  Proof.
    rewrite tget_tpush. destruct (IdentifierPrefix_eq_dec i id) as [->|]; [eexists; reflexivity|exists []; now rewrite app_nil_r].
  Qed.
  Lemma grows_run (f : Db -> IdentifierPrefix -> option (list SignedNontransferableReceipt)) cs d id :
    (forall d c, exists ext, olist (f (call E d c) id) = olist (f d id) ++ ext) ->
    exists ext, olist (f (run E d cs) id) = olist (f d id) ++ ext.
  Proof.
    intros H. revert d. induction cs as [|c cs IH]; intros d; [exists []; now rewrite app_nil_r|].
    cbn. destruct (IH (call E d c)) as [x Hx]. destruct (H d c) as [y Hy]. exists (y ++ x).
    unfold run in Hx. now rewrite Hx, Hy, app_assoc.
  Qed.
  Lemma grows_run_t (f : Db -> IdentifierPrefix -> option (list SignedTransferableReceipt)) cs d id :
    (forall d c, exists ext, olist (f (call E d c) id) = olist (f d id) ++ ext) ->
    exists ext, olist (f (run E d cs) id) = olist (f d id) ++ ext.
  Proof.
    intros H. revert d. induction cs as [|c cs IH]; intros d; [exists []; now rewrite app_nil_r|].
    cbn. destruct (IH (call E d c)) as [x Hx]. destruct (H d c) as [y Hy]. exists (y ++ x).
    unfold run in Hx. now rewrite Hx, Hy, app_assoc.
  Qed.
  Lemma same_grows {T} (a b : option (list T)) : a = b -> exists ext, olist a = olist b ++ ext.
  Proof. intros ->. exists []. now rewrite app_nil_r. Qed.
  Lemma c32_escrow_nt_grows d cs id : exists ext, olist (get_escrow_nt (run E d cs) id) = olist (get_escrow_nt d id) ++ ext.
  Proof.
    apply (grows_run get_escrow_nt). clear. intros d c. destruct c as [m|]; [destruct m as [se|r|r|r|q]|]; cbn [call process].
    - apply same_grows. unfold get_escrow_nt. f_equal. apply (event_frame db_esc_nt); reflexivity.
    - unfold process_witness_receipt. destruct (get_event_at_sn _ _ _); [|apply push_grows].
      destruct (e_ser_signed _ _); try (apply same_grows; reflexivity). destruct (rev _); apply same_grows; reflexivity.
    - apply same_grows. unfold get_escrow_nt. f_equal. apply (validator_frame db_esc_nt); reflexivity.
    - apply same_grows. unfold get_escrow_nt. f_equal. apply (reply_frame db_esc_nt); reflexivity.
    - now apply same_grows.
    - apply same_grows. unfold get_escrow_nt. f_equal. apply (escrow_frame db_esc_nt); reflexivity.
  Qed.
  Lemma c32_escrow_t_grows d cs id : exists ext, olist (get_escrow_t (run E d cs) id) = olist (get_escrow_t d id) ++ ext.
  Proof.
    apply (grows_run_t get_escrow_t). clear. intros d c. destruct c as [m|]; [destruct m as [se|r|r|r|q]|]; cbn [call process].
    - apply same_grows. unfold get_escrow_t. f_equal. apply (event_frame db_esc_t); reflexivity.
    - apply same_grows. unfold get_escrow_t. f_equal. apply (witness_frame db_esc_t); reflexivity.
    - unfold process_validator_receipt. destruct (get_event_at_sn _ _ _); [|apply push_grows].
      destruct (obind _ _) as [[|]| |]; apply same_grows; reflexivity.
    - apply same_grows. unfold get_escrow_t. f_equal. apply (reply_frame db_esc_t); reflexivity.
    - now apply same_grows.
    - apply same_grows. unfold get_escrow_t. f_equal. apply (escrow_frame db_esc_t); reflexivity.
  Qed.
  (** and a receipt only becomes available by being processed *)
  Lemma c32_not_promoted d cs id :
    (forall r, ~ In (CProcess (MNontransferableRct r)) cs) -> (forall r, ~ In (CProcess (MTransferableRct r)) cs) ->
    get_receipts_nt (run E d cs) id = get_receipts_nt d id /\ get_receipts_t (run E d cs) id = get_receipts_t d id.
  Proof.
    revert d. induction cs as [|c cs IH]; intros d H1 H2; [auto|]. cbn.
    destruct (IH (call E d c)) as [I1 I2]; [intros r Hr; apply (H1 r); now right|intros r Hr; apply (H2 r); now right|].
    unfold run in I1, I2. rewrite I1, I2. clear I1 I2 IH.
    destruct c as [m|]; [destruct m as [se|r|r|r|q]|]; cbn [call process].
    - split; [unfold get_receipts_nt|unfold get_receipts_t]; f_equal;
        [apply (event_frame db_rct_nt)|apply (event_frame db_rct_t)]; reflexivity.
    - exfalso. apply (H1 r). now left.
    - exfalso. apply (H2 r). now left.
    - split; [unfold get_receipts_nt|unfold get_receipts_t]; f_equal;
        [apply (reply_frame db_rct_nt)|apply (reply_frame db_rct_t)]; reflexivity.
    - auto.
    - split; [unfold get_receipts_nt|unfold get_receipts_t]; f_equal;
        [apply (escrow_frame db_rct_nt)|apply (escrow_frame db_rct_t)]; reflexivity.
  Qed.
End WithEnv.
