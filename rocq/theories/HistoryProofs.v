(** * HistoryProofs: the tables hold exactly what was answered with success. *)
From Coq Require Import Permutation.
From Verif Require Import Base Base64 Codes NumFmt Types KeyConf SpecSig State Db Processor Spec SpecProc SpecHistory
  StateProofs LogProofs LogTheorems ProcProofs ProcProofs2 ProcProofs3 AcceptProofs.

Section S.
  Context (E : Env).

  Lemma successes_app d cs c :
    successes E d (cs ++ [c]) = successes E d cs
      ++ (match c with CProcess m => if succeeds E (run E d cs) m then [m] else [] | CEscrow => [] end).
  Proof.
    revert d; induction cs as [|x cs IH]; intros d; cbn [app successes run fold_left].
    - rewrite app_nil_r. reflexivity.
    - rewrite IH, app_assoc. reflexivity.
  Qed.
  Lemma run_snoc cs c : run E db_empty (cs ++ [c]) = call E (run E db_empty cs) c.
  Proof. unfold run. rewrite fold_left_app. reflexivity. Qed.
  Lemma quiet_snoc d cs c : quiet E d (cs ++ [c]) = true -> quiet E d cs = true /\ panics E (run E d cs) c = false.
  Proof.
    revert d; induction cs as [|x cs IH]; intros d H; cbn [app quiet run fold_left] in *.
    - split; [reflexivity|]. apply andb_true_iff in H as (H & _). now apply negb_true_iff in H.
    - apply andb_true_iff in H as (H1 & H2). apply IH in H2 as (H2 & H3). rewrite H1. auto.
  Qed.

  Lemma log_history cs id :
    id <> id_default -> (forall m x, e_ser_event E m <> Err x) -> quiet E db_empty cs = true ->
    log (run E db_empty cs) id = map stored (events_of id (successes E db_empty cs)).
  Proof.
    intros Hid Hser. induction cs as [|c cs IH] using rev_ind; intros Hq; [reflexivity|].
    apply quiet_snoc in Hq as (Hq & Hp). specialize (IH Hq). rewrite run_snoc, successes_app.
    unfold events_of in *. rewrite flat_map_app, map_app, <- IH. clear IH. set (d := run E db_empty cs) in *.
    assert (Hk : db_kel (call E d c) = db_kel d ->
       (match c with CProcess (MEvent se) => False | _ => True end) ->
       log (call E d c) id = log d id ++ map stored (flat_map (fun m => match m with
         | MEvent se => if IdentifierPrefix_eq_dec (em_prefix (sem_msg se)) id then [se] else [] | _ => [] end)
         (match c with CProcess m => if succeeds E d m then [m] else [] | CEscrow => [] end))).
    { intros H Hc. unfold log, get_kel. rewrite H. destruct c as [m|]; [|now rewrite app_nil_r].
      destruct (succeeds E d m); [|now rewrite app_nil_r]. destruct m; [contradiction|now rewrite app_nil_r..]. }
    destruct c as [m|]; [|apply Hk; [apply process_escrow_kel|exact I]].
    destruct m as [se|r|r|r|q]; [|apply Hk; [apply process_other_kel; discriminate|exact I]..]. clear Hk.
    cbn [call]. unfold panics in Hp. unfold succeeds. 
    destruct (IdentifierPrefix_eq_dec (em_prefix (sem_msg se)) id) as [He|Hne].
    - destruct (process E d (MEvent se)) as [d' [os|e|]] eqn:H; cbn [fst snd is_panic] in *; [| |discriminate Hp].
      + rewrite <- He in *. destruct (c19 E cs se d' os Hid H) as (s & _ & Hl & _).
        unfold log at 1. rewrite Hl. cbn [olist flat_map]. destruct (IdentifierPrefix_eq_dec _ _); [reflexivity|congruence].
      + cbn [flat_map map]. rewrite app_nil_r. rewrite <- He in Hid.
        destruct (c20 E cs se d' e Hid (Hser _) H) as (_ & Hl & _). apply Hl.
    - assert (Hs : same_for id d (fst (process E d (MEvent se)))) by (apply c23; cbn; congruence).
      destruct Hs as (Hs & _). unfold log. rewrite Hs.
      destruct (snd _); cbn [flat_map map]; try rewrite app_nil_r; try reflexivity.
      destruct (IdentifierPrefix_eq_dec _ _); [congruence|cbn; now rewrite app_nil_r].
  Qed.

  Lemma receipts_history cs id :
    id <> id_default ->
    olist (get_receipts_t (run E db_empty cs) id) = receipts_of id (successes E db_empty cs).
  Proof.
    intros Hid. induction cs as [|c cs IH] using rev_ind; [reflexivity|]. rewrite run_snoc, successes_app.
    unfold receipts_of in *. rewrite flat_map_app, <- IH. clear IH. set (d := run E db_empty cs) in *.
    assert (Hk : db_rct_t (call E d c) = db_rct_t d ->
       (match c with CProcess (MTransferableRct r) => False | _ => True end) ->
       olist (get_receipts_t (call E d c) id) = olist (get_receipts_t d id) ++ flat_map (fun m => match m with
         | MTransferableRct r => if IdentifierPrefix_eq_dec (rct_prefix (tr_body r)) id then [r] else [] | _ => [] end)
         (match c with CProcess m => if succeeds E d m then [m] else [] | CEscrow => [] end)).
    { intros H Hc. unfold get_receipts_t. rewrite H. destruct c as [m|]; [|now rewrite app_nil_r].
      destruct (succeeds E d m); [|now rewrite app_nil_r]. destruct m; try contradiction; now rewrite app_nil_r. }
    destruct c as [m|]; [|apply Hk; [apply (escrow_frame E db_rct_t); reflexivity|exact I]].
    destruct m as [se|r|r|r|q]; [apply Hk; [|exact I]; apply (event_frame E db_rct_t); reflexivity
      |apply Hk; [|exact I]; apply (witness_frame E db_rct_t); reflexivity|
      |apply Hk; [|exact I]; apply (reply_frame E db_rct_t); reflexivity|apply Hk; [reflexivity|exact I]].
    clear Hk. unfold succeeds. cbn [call process]. unfold process_validator_receipt.
    destruct (get_event_at_sn d _ _) as [ev|] eqn:Hev; [|cbn [fst snd flat_map]; now rewrite app_nil_r].
    destruct (obind _ _) as [[|]| |]; try (cbn [fst snd flat_map]; now rewrite app_nil_r).
    cbn [fst snd]. set (p := rct_prefix (tr_body r)) in *.
    destruct (IdentifierPrefix_eq_dec p id) as [He|Hne].
    - assert (Hc : exists s, compute_state E (add_receipt_t d r p) p = Ok s).
      { change (compute_state E (add_receipt_t d r p) p) with (compute_state E d p).
        rewrite He. destruct (reach_log_good E cs _ Hid) as (s & _ & Hs). destruct (compute_state _ _ _); try contradiction. eauto. }
      destruct Hc as (s & ->). cbn [flat_map]. fold p. destruct (IdentifierPrefix_eq_dec p id) as [_|Hn]; [|contradiction].
      unfold get_receipts_t, add_receipt_t, set_rct_t. cbn [db_rct_t]. rewrite LogProofs.tget_tpush.
      destruct (IdentifierPrefix_eq_dec id p) as [_|Hn]; [|congruence]. cbn [olist app]. now rewrite He.
    - unfold get_receipts_t at 1, add_receipt_t, set_rct_t. cbn [db_rct_t]. rewrite LogProofs.tget_tpush.
      destruct (IdentifierPrefix_eq_dec id p) as [Hx|_]; [congruence|].
      destruct (compute_state _ _ _); cbn [flat_map]; try now rewrite app_nil_r.
      fold p. destruct (IdentifierPrefix_eq_dec p id) as [Hx|_]; [congruence|now rewrite app_nil_r].
  Qed.

  Lemma witness_history cs id :
    id <> id_default ->
    Permutation (olist (get_receipts_nt (run E db_empty cs) id) ++ olist (get_escrow_nt (run E db_empty cs) id))
                (witness_receipts_of id (successes E db_empty cs)).
  Proof.
    intros Hid. induction cs as [|c cs IH] using rev_ind; [constructor|]. rewrite run_snoc, successes_app.
    unfold witness_receipts_of in *. rewrite flat_map_app. set (d := run E db_empty cs) in *.
    assert (Hk : db_rct_nt (call E d c) = db_rct_nt d -> db_esc_nt (call E d c) = db_esc_nt d ->
       (match c with CProcess (MNontransferableRct r) => False | _ => True end) ->
       Permutation (olist (get_receipts_nt (call E d c) id) ++ olist (get_escrow_nt (call E d c) id))
         (flat_map (fun m => match m with
            | MNontransferableRct r => if IdentifierPrefix_eq_dec (rct_prefix (nr_body r)) id then [r] else [] | _ => [] end)
            (successes E db_empty cs) ++ flat_map (fun m => match m with
         | MNontransferableRct r => if IdentifierPrefix_eq_dec (rct_prefix (nr_body r)) id then [r] else [] | _ => [] end)
         (match c with CProcess m => if succeeds E d m then [m] else [] | CEscrow => [] end))).
    { intros H1 H2 Hc. unfold get_receipts_nt, get_escrow_nt in *. rewrite H1, H2. rewrite IH.
      destruct c as [m|]; [|now rewrite app_nil_r].
      destruct (succeeds E d m); [|now rewrite app_nil_r]. destruct m; try contradiction; now rewrite app_nil_r. }
    destruct c as [m|]; [|apply Hk; [apply (escrow_frame E db_rct_nt); reflexivity|apply (escrow_frame E db_esc_nt); reflexivity|exact I]].
    destruct m as [se|r|r|r|q];
      [apply Hk; [apply (event_frame E db_rct_nt); reflexivity|apply (event_frame E db_esc_nt); reflexivity|exact I]
      | |apply Hk; [apply (validator_frame E db_rct_nt); reflexivity|apply (validator_frame E db_esc_nt); reflexivity|exact I]
      |apply Hk; [apply (reply_frame E db_rct_nt); reflexivity|apply (reply_frame E db_esc_nt); reflexivity|exact I]
      |apply Hk; [reflexivity|reflexivity|exact I]].
    clear Hk. unfold succeeds. cbn [call process]. unfold process_witness_receipt. set (p := rct_prefix (nr_body r)) in *.
    assert (Hnil : forall l, Permutation (olist (get_receipts_nt d id) ++ olist (get_escrow_nt d id)) l ->
      Permutation (olist (get_receipts_nt d id) ++ olist (get_escrow_nt d id)) (l ++ [])) by (intros l; now rewrite app_nil_r).
    assert (Hc : forall d1, db_kel d1 = db_kel d -> p = id -> exists s, compute_state E d1 p = Ok s).
    { intros d1 H1 He. unfold compute_state, get_kel. rewrite H1. change (tget (db_kel d) p) with (get_kel d p).
      change (exists s, compute_state E d p = Ok s).
      rewrite He. destruct (reach_log_good E cs _ Hid) as (s & _ & Hs). destruct (compute_state _ _ _); try contradiction. eauto. }
    destruct (get_event_at_sn d p _) as [ev|] eqn:Hev.
    - destruct (e_ser_signed E ev) as [ser| |]; try (cbn [fst snd flat_map]; now apply Hnil).
      destruct (rev (couplet_errors E ser (nr_couplets r))); [|cbn [fst snd flat_map]; now apply Hnil].
      cbn [fst snd]. unfold get_receipts_nt at 1, add_receipt_nt at 1, set_rct_nt. cbn [db_rct_nt]. rewrite LogProofs.tget_tpush.
      change (get_escrow_nt (add_receipt_nt d r p) id) with (get_escrow_nt d id).
      destruct (IdentifierPrefix_eq_dec id p) as [He|Hne].
      + destruct (Hc (add_receipt_nt d r p) eq_refl (eq_sym He)) as (s & ->). cbn [flat_map]. fold p.
        destruct (IdentifierPrefix_eq_dec p id) as [_|Hn]; [|congruence]. cbn [olist app].
        rewrite <- IH. rewrite <- He. rewrite <- !app_assoc. apply Permutation_app_head. apply Permutation_app_comm.
      + destruct (compute_state _ _ _); cbn [flat_map]; try now apply Hnil.
        fold p. destruct (IdentifierPrefix_eq_dec p id) as [Hx|_]; [congruence|now apply Hnil].
    - cbn [fst snd]. change (get_escrow_nt (add_escrow_nt d r p) id) with (tget (tpush (db_esc_nt d) p r) id). rewrite LogProofs.tget_tpush.
      change (get_receipts_nt (add_escrow_nt d r p) id) with (get_receipts_nt d id).
      destruct (IdentifierPrefix_eq_dec id p) as [He|Hne].
      + destruct (Hc (add_escrow_nt d r p) eq_refl (eq_sym He)) as (s & ->). cbn [flat_map]. fold p.
        destruct (IdentifierPrefix_eq_dec p id) as [_|Hn]; [|congruence]. cbn [olist app].
        rewrite <- IH. rewrite <- He. rewrite app_assoc. reflexivity.
      + destruct (compute_state _ _ _); cbn [flat_map]; try now apply Hnil.
        fold p. destruct (IdentifierPrefix_eq_dec p id) as [Hx|_]; [congruence|now apply Hnil].
  Qed.
End S.
