(** * ReceiptStoreProofs: tables of receipts as bytes against tables of values. *)
From Coq Require Import ZifyBool ZifyN ZifyNat.
From Verif Require Import Base Base64 Base64Proofs Codes NumFmt NumProofs Types SpecCodec CodecProofs CodecProofs2 KeyConf Version Cesr CesrProofs Message Keri Json JsonRead JsonQuery JsonProofs SpecJson JsonProofs2 JsonProofs3 JsonProofs4 JsonProofs7 JsonProofs8 JsonProofs10 JsonProofs11 Cbor CborProofs
  State Db Processor Spec StateProofs LogProofs EventStore SpecEventStore EventStoreProofs ReceiptStore SpecReceiptStore.

(** ** One table *)
Section Table.
  Context {T : Type} (val : T -> sval) (read : jval -> out T) (ok : T -> Prop).
  Context (Hread : forall x, ok x -> read (erase (val x)) = Ok x) (Hfits : forall x, fits 5 (val x)).
  Definition vsize (l : list T) : nat := fold_right (fun x n => List.length (cbor (val x)) + n) 0 l.
  Lemma vsize_app l1 l2 : vsize (l1 ++ l2) = vsize l1 + vsize l2.
  Proof. unfold vsize. induction l1 as [|x l IH]; [reflexivity|]. cbn [app fold_right]. rewrite IH. lia. Qed.
  Lemma vec_length l : List.length (write_vec val l) <= 9 + vsize l.
  Proof.
    unfold write_vec. cbn [cbor]. rewrite app_length. pose proof (cbor_head_short 4 (N.of_nat (List.length (map val l)))).
    assert (List.length (flat_map cbor (map val l)) = vsize l); [|lia]. clear. induction l as [|x l IH]; [reflexivity|]. cbn [map flat_map vsize fold_right]. rewrite app_length, IH. reflexivity.
  Qed.
  Lemma vec_cbor l : held (List.length (write_vec val l)) -> from_cbor (write_vec val l) = Some (JArr (map (fun x => erase (val x)) l)).
  Proof.
    intros H. unfold write_vec in *. rewrite from_cbor_back; [cbn [erase]; now rewrite map_map| |exact H].
    apply (fits_le 6 127); [lia|]. apply fits_seq. apply Forall_map. apply Forall_forall. intros x _. apply Hfits.
  Qed.
  Lemma vec_back l : Forall ok l -> held (List.length (write_vec val l)) -> read_vec read (write_vec val l) = Ok l.
  Proof.
    intros H Hh. unfold read_vec. rewrite vec_cbor by exact Hh. cbn [as_vec]. clear Hh.
    induction H as [|x l Hx _ IH]; [reflexivity|]. cbn [map omapm]. rewrite (Hread x Hx). cbn [obind]. now rewrite IH.
  Qed.
  Lemma vec_err l x e : Forall ok l -> read (erase (val x)) = Err e -> held (List.length (write_vec val (l ++ [x]))) -> read_vec read (write_vec val (l ++ [x])) = Err e.
  Proof.
    intros H Hx Hh. unfold read_vec. rewrite vec_cbor by exact Hh. cbn [as_vec]. clear Hh.
    induction H as [|y l Hy _ IH]; cbn [app map omapm]; [now rewrite Hx|]. rewrite (Hread y Hy). cbn [obind]. now rewrite IH.
  Qed.
  Definition tinv (n : nat) (t : btable) (v : table T) : Prop :=
    forall id, match aget IdentifierPrefix_eq_dec t id with
               | None => tget v id = None
               | Some s => exists xs, s = write_vec val xs /\ Forall ok xs /\ vsize xs <= n /\ tget v id = Some xs
               end.
  Lemma tinv_get n t v id : tinv n t v -> held (9 + n) -> bt_get read t id = Ok (tget v id).
  Proof.
    intros H Hn. specialize (H id). unfold bt_get. destruct (aget IdentifierPrefix_eq_dec t id) as [s|]; [|now rewrite H].
    destruct H as (xs & -> & Ho & Hs & ->). rewrite vec_back; [reflexivity|exact Ho|]. eapply held_le; [|exact Hn]. pose proof (vec_length xs). lia.
  Qed.
  Lemma tinv_iter n t v id : tinv n t v -> held (9 + n) -> bt_iter read t id = Ok (tget v id).
  Proof. intros H Hn. unfold bt_iter. now rewrite (tinv_get n t v id H Hn). Qed.
  Lemma tinv_mono n m t v : n <= m -> tinv n t v -> tinv m t v.
  Proof.
    intros L H id. specialize (H id). destruct (aget _ t id); [|exact H]. destruct H as (xs & A & B & C & D). exists xs. split; [exact A|]. split; [exact B|]. split; [lia|exact D].
  Qed.
  Lemma tinv_list n t v id : tinv n t v -> Forall ok (olist (tget v id)) /\ vsize (olist (tget v id)) <= n.
  Proof.
    intros H. specialize (H id). destruct (aget _ t id).
    - destruct H as (xs & _ & B & C & ->). now split.
    - rewrite H. cbn. split; [constructor|lia].
  Qed.
  (** what [push] writes, whatever is pushed *)
  Lemma push_is n t v id x : tinv n t v -> held (9 + n) -> bt_push val read t id x = Ok (bt_put val t id (olist (tget v id) ++ [x])).
  Proof. intros H Hn. unfold bt_push. rewrite (tinv_get n t v id H Hn). destruct (tget v id); reflexivity. Qed.
  Lemma tinv_push n t v id x : tinv n t v -> held (9 + n) -> ok x ->
    exists t', bt_push val read t id x = Ok t' /\ tinv (n + List.length (cbor (val x))) t' (tpush v id x).
  Proof.
    intros H Hn Hx. rewrite (push_is n t v id x H Hn). eexists. split; [reflexivity|]. destruct (tinv_list n t v id H) as [Ho Hs].
    intros i. unfold bt_put. rewrite aget_aput.
    assert (G : tget (tpush v id x) i = if IdentifierPrefix_eq_dec i id then Some (olist (tget v id) ++ [x]) else tget v i).
    { unfold tpush. destruct (tget v id) as [l|] eqn:G; unfold tget at 1, tput; rewrite aget_aput; reflexivity. }
    rewrite G. destruct (IdentifierPrefix_eq_dec i id) as [->|Ne].
    - eexists. split; [reflexivity|]. split; [apply Forall_app; split; [exact Ho|now constructor]|]. split; [|reflexivity]. rewrite vsize_app. cbn [vsize fold_right]. lia.
    - specialize (H i). destruct (aget IdentifierPrefix_eq_dec t i); [|exact H]. destruct H as (xs & A & B & C & D). exists xs. split; [exact A|]. split; [exact B|]. split; [lia|exact D].
  Qed.
  Lemma bad_push n t v id x e : tinv n t v -> held (9 + n + List.length (cbor (val x))) -> read (erase (val x)) = Err e ->
    exists t', bt_push val read t id x = Ok t' /\ bt_iter read t' id = Panic /\ (forall i, i <> id -> bt_iter read t' i = bt_iter read t i)
      /\ forall y, ok y -> held (9 + List.length (cbor (val y))) -> exists t'', bt_push val read t' id y = Ok t'' /\ bt_iter read t'' id = Ok (Some [y]).
  Proof.
    intros H Hn Hx. assert (Hn0 : held (9 + n)) by (eapply held_le; [|exact Hn]; lia).
    rewrite (push_is n t v id x H Hn0). eexists. split; [reflexivity|]. destruct (tinv_list n t v id H) as [Ho Hs].
    assert (G : bt_get read (bt_put val t id (olist (tget v id) ++ [x])) id = Err e).
    { unfold bt_get, bt_put. rewrite aget_aput. destruct (IdentifierPrefix_eq_dec id id); [|congruence]. erewrite vec_err; [reflexivity|exact Ho|exact Hx|].
      eapply held_le; [|exact Hn]. pose proof (vec_length (olist (tget v id) ++ [x])) as L. rewrite vsize_app in L. cbn [vsize fold_right] in L. lia. }
    split; [unfold bt_iter; now rewrite G|]. split.
    - intros i Hi. unfold bt_iter, bt_get, bt_put. rewrite aget_aput. destruct (IdentifierPrefix_eq_dec i id); [congruence|reflexivity].
    - intros y Hy Hh. unfold bt_push. rewrite G. eexists. split; [reflexivity|]. unfold bt_iter, bt_get, bt_put. rewrite aget_aput. destruct (IdentifierPrefix_eq_dec id id); [|congruence].
      rewrite vec_back; [reflexivity|now constructor|]. eapply held_le; [|exact Hh]. pose proof (vec_length [y]) as L. cbn [vsize fold_right] in L. lia.
  Qed.
  Lemma tinv_empty : tinv 0 [] [].
  Proof. intros id. reflexivity. Qed.
End Table.

(** ** Receipts *)
Section Hex.
  Context (hx : bytes -> option N) (Hhx : reads_hex hx).
  Lemma body_text c : rct_stable c -> as_message (read_receipt hx) (erase (receipt_val c)) = Ok c.
  Proof.
    intros (Hv & Hd & Hi & Hs). unfold receipt_val, head_fields. cbn [app erase map].
    change (fst (sfld ?k ?x), erase (snd (sfld ?k ?x))) with (bstr k, JStr x). unfold as_message.
    rewrite (scan_mine _ _ _ _ _ [] [(bstr "t", JStr (bstr "rct")); (bstr "d", JStr (sap_str (rct_digest c))); (bstr "i", JStr (id_str (rct_prefix c)));
      (bstr "s", JStr (fmt_hex (rct_sn c)))] (chk as_si)); [|reflexivity|reflexivity|exact (chk_ok _ _ _ (si_text _ Hv))|].
    - cbn [obind]. erewrite (got_ok as_si _ "v"); [|reflexivity|exact (si_text _ Hv)]. cbn [obind].
      destruct c as [info d i s]. cbn [rct_info rct_digest rct_prefix rct_sn] in *.
      apply receipt_fields; [now apply as_sap_st|now apply as_id_st|now apply as_hex_ok].
    - do 4 (apply scan_rest; [reflexivity|]). reflexivity.
  Qed.
  Lemma seal_rec_text s : seal_stable s -> as_seal_rec hx (erase (event_seal_val s)) = Ok s.
  Proof.
    intros (Hi & Hs & Hd). apply as_id_st in Hi. apply as_sap_st in Hd. pose proof (as_hex_ok hx Hhx _ Hs) as Hn. unfold event_seal_val. cbn [erase map].
    change (fst (sfld ?k ?x), erase (snd (sfld ?k ?x))) with (bstr k, JStr x). unfold as_seal_rec.
    rewrite (scan_mine _ _ _ _ _ [(bstr "s", JStr (fmt_hex (es_sn s))); (bstr "d", JStr (sap_str (es_digest s)))] [] (chk as_id)); [|reflexivity|reflexivity|exact (chk_ok _ _ _ Hi)|].
    - cbn [obind]. erewrite (got_ok as_id _ "i"); [|reflexivity|exact Hi]. cbn [obind]. erewrite (got_ok (as_hex hx) _ "s"); [|reflexivity|exact Hn]. cbn [obind].
      erewrite (got_ok as_sap _ "d"); [|reflexivity|exact Hd]. cbn [obind]. now destruct s.
    - apply (scan_mine _ _ _ _ _ [(bstr "d", JStr (sap_str (es_digest s)))] [] (chk (as_hex hx))); [reflexivity|reflexivity|exact (chk_ok _ _ _ Hn)|].
      apply (scan_mine _ _ _ _ _ [] [] (chk as_sap)); [reflexivity|reflexivity|exact (chk_ok _ _ _ Hd)|reflexivity].
  Qed.
  Lemma tr_text r : tr_storable r -> as_tr hx (erase (tr_val r)) = Ok r.
  Proof.
    intros (Hb & Hs & Hg). apply body_text in Hb. apply seal_rec_text in Hs. apply sigs_text in Hg. unfold tr_val. cbn [erase map].
    change (fst (fld ?k ?x), erase (snd (fld ?k ?x))) with (bstr k, erase x). unfold as_tr.
    rewrite (scan_mine _ _ _ _ _ [(bstr "validator_seal", erase (event_seal_val (tr_seal r))); (bstr "signatures", erase (asps_val (tr_sigs r)))] [] (chk (as_message (read_receipt hx))));
      [|reflexivity|reflexivity|exact (chk_ok _ _ _ Hb)|].
    - cbn [obind]. erewrite (got_ok _ _ "body"); [|reflexivity|exact Hb]. cbn [obind]. erewrite (got_ok _ _ "validator_seal"); [|reflexivity|exact Hs]. cbn [obind].
      erewrite (got_ok _ _ "signatures"); [|reflexivity|exact Hg]. cbn [obind]. now destruct r.
    - apply (scan_mine _ _ _ _ _ [(bstr "signatures", erase (asps_val (tr_sigs r)))] [] (chk (as_seal_rec hx))); [reflexivity|reflexivity|exact (chk_ok _ _ _ Hs)|].
      apply (scan_mine _ _ _ _ _ [] [] (chk (as_vec as_asp))); [reflexivity|reflexivity|exact (chk_ok _ _ _ Hg)|reflexivity].
  Qed.
  Lemma couplets_text l : Forall (fun c => bp_stable (fst c) /\ ssp_stable (snd c)) l -> as_vec as_couplet (erase (couplets_val l)) = Ok l.
  Proof.
    intros H. unfold couplets_val. cbn [erase as_vec]. rewrite map_map. induction H as [|[p s] l [Hp Hs] _ IH]; [reflexivity|]. cbn [map omapm fst snd] in *.
    change (erase (VSeq [VStr (bp_str p); VStr (ssp_str s)])) with (JArr [JStr (bp_str p); JStr (ssp_str s)]). unfold as_couplet at 1.
    rewrite (as_bp_st p Hp). cbn [obind]. unfold as_ssp. cbn [as_str obind]. unfold ssp_stable in Hs. rewrite Hs. cbn [custom obind]. rewrite IH. reflexivity.
  Qed.
  Lemma nr_text r : nr_storable r -> as_nr hx (erase (nr_val r)) = Ok r.
  Proof.
    intros (Hb & Hc). apply body_text in Hb. apply couplets_text in Hc. unfold nr_val. cbn [erase map].
    change (fst (fld ?k ?x), erase (snd (fld ?k ?x))) with (bstr k, erase x). unfold as_nr.
    rewrite (scan_mine _ _ _ _ _ [(bstr "couplets", erase (couplets_val (nr_couplets r)))] [] (chk (as_message (read_receipt hx))));
      [|reflexivity|reflexivity|exact (chk_ok _ _ _ Hb)|].
    - cbn [obind]. erewrite (got_ok _ _ "body"); [|reflexivity|exact Hb]. cbn [obind]. erewrite (got_ok _ _ "couplets"); [|reflexivity|exact Hc]. cbn [obind]. now destruct r.
    - apply (scan_mine _ _ _ _ _ [] [] (chk (as_vec as_couplet))); [reflexivity|reflexivity|exact (chk_ok _ _ _ Hc)|reflexivity].
  Qed.
  (** a receipt whose digest does not read back *)
  Lemma body_err c e : version_readable (rct_info c) -> sap_from (sap_str (rct_digest c)) = Err e -> exists e', as_message (read_receipt hx) (erase (receipt_val c)) = Err e'.
  Proof.
    intros Hv Hd. unfold receipt_val, head_fields. cbn [app erase map].
    change (fst (sfld ?k ?x), erase (snd (sfld ?k ?x))) with (bstr k, JStr x). unfold as_message.
    rewrite (scan_mine _ _ _ _ _ [] [(bstr "t", JStr (bstr "rct")); (bstr "d", JStr (sap_str (rct_digest c))); (bstr "i", JStr (id_str (rct_prefix c)));
      (bstr "s", JStr (fmt_hex (rct_sn c)))] (chk as_si)); [|reflexivity|reflexivity|exact (chk_ok _ _ _ (si_text _ Hv))|do 4 (apply scan_rest; [reflexivity|]); reflexivity].
    cbn [obind]. erewrite (got_ok as_si _ "v"); [|reflexivity|exact (si_text _ Hv)]. cbn [obind].
    unfold read_receipt. cbn [take_rct]. change (is (bstr "t") "d") with false. change (is (bstr "t") "i") with false. change (is (bstr "t") "s") with false.
    change (is (bstr "d") "d") with true. cbv iota. unfold as_sap at 1. cbn [as_str obind]. rewrite Hd. cbn [custom obind]. eexists. reflexivity.
  Qed.
  Lemma nr_err r e : version_readable (rct_info (nr_body r)) -> sap_from (sap_str (rct_digest (nr_body r))) = Err e -> exists e', as_nr hx (erase (nr_val r)) = Err e'.
  Proof.
    intros Hv Hd. destruct (body_err _ _ Hv Hd) as [e' B]. unfold nr_val. cbn [erase map]. change (fst (fld ?k ?x), erase (snd (fld ?k ?x))) with (bstr k, erase x). unfold as_nr.
    rewrite (scan_step _ _ _ _ _ (chk (as_message (read_receipt hx)))) by reflexivity. unfold chk at 1. rewrite B. eexists. reflexivity.
  Qed.
  Lemma tr_err r e : version_readable (rct_info (tr_body r)) -> sap_from (sap_str (rct_digest (tr_body r))) = Err e -> exists e', as_tr hx (erase (tr_val r)) = Err e'.
  Proof.
    intros Hv Hd. destruct (body_err _ _ Hv Hd) as [e' B]. unfold tr_val. cbn [erase map]. change (fst (fld ?k ?x), erase (snd (fld ?k ?x))) with (bstr k, erase x). unfold as_tr.
    rewrite (scan_step _ _ _ _ _ (chk (as_message (read_receipt hx)))) by reflexivity. unfold chk at 1. rewrite B. eexists. reflexivity.
  Qed.
End Hex.
Lemma tr_fits r : fits 5 (tr_val r).
Proof.
  unfold tr_val. apply fits_struct. constructor; [split; [reflexivity|]; apply (fits_le 3 4); [lia|apply fits_receipt]|]. constructor.
  - split; [reflexivity|]. unfold event_seal_val. cbn [snd fld]. apply fits_struct.
    constructor; [split; [reflexivity|apply fits_ascii, id_str_ascii]|]. constructor; [split; [reflexivity|apply fits_ascii, hex_ascii]|]. constructor; [split; [reflexivity|apply fits_ascii, sap_str_ascii]|constructor].
  - constructor; [|constructor]. split; [reflexivity|]. cbn [snd fld]. unfold asps_val. apply fits_seq. apply Forall_map. apply Forall_forall. intros s _. apply fits_ascii, asp_str_ascii.
Qed.
Lemma nr_fits r : fits 5 (nr_val r).
Proof.
  unfold nr_val. apply fits_struct. constructor; [split; [reflexivity|]; apply (fits_le 3 4); [lia|apply fits_receipt]|]. constructor; [|constructor].
  split; [reflexivity|]. cbn [snd fld]. unfold couplets_val. apply fits_seq. apply Forall_map. apply Forall_forall. intros c _. apply fits_seq.
  repeat constructor; apply fits_ascii; [apply bp_str_ascii|apply ssp_str_ascii].
Qed.

(** ** The stores *)
(** the store without its receipts *)
Definition bare (d : Db) : Db := mkDb (db_kel d) (db_ldup d) (db_dup d) [] [] [] [] (db_rpy d) (db_esc_rpy d).
Lemma process_event_bare E d se : process_event E (bare d) se = (bare (fst (process_event E d se)), snd (process_event E d se)).
Proof.
  unfold process_event.
  assert (C : check_delegation E (bare d) se = check_delegation E d se) by reflexivity.
  assert (A : apply_to_state E (bare d) (sem_msg se) = apply_to_state E d (sem_msg se)) by reflexivity.
  rewrite C, A. destruct (check_delegation E d se); try reflexivity. destruct (apply_to_state E d (sem_msg se)) as [ns|e|]; try reflexivity.
  destruct (e_ser_event E (sem_msg se)) as [ser|e|]; try reflexivity. destruct (verify_signatures E ns ser se) as [s|e|]; try reflexivity. destruct e; reflexivity.
Qed.
Lemma process_event_tables E d se : let d' := fst (process_event E d se) in
  db_rct_nt d' = db_rct_nt d /\ db_esc_nt d' = db_esc_nt d /\ db_rct_t d' = db_rct_t d /\ db_esc_t d' = db_esc_t d.
Proof.
  unfold process_event. destruct (check_delegation E d se); try (cbn; tauto). destruct (apply_to_state E d (sem_msg se)) as [ns|e|]; try (cbn; tauto).
  destruct (e_ser_event E (sem_msg se)) as [ser|e|]; try (cbn; tauto). destruct (verify_signatures E ns ser se) as [s|e|]; try (cbn; tauto). destruct e; cbn; tauto.
Qed.
Section Stores.
  Context (E : Env) (hx : bytes -> option N) (Hhx : reads_hex hx).
  Definition cinv (n : nat) (c : CDb) (d : Db) : Prop :=
    inv n (c_log c) (bare d) /\ tinv nr_val nr_storable n (c_nt c) (db_rct_nt d) /\ tinv nr_val nr_storable n (c_esc_nt c) (db_esc_nt d)
    /\ tinv tr_val tr_storable n (c_t c) (db_rct_t d) /\ tinv tr_val tr_storable n (c_esc_t c) (db_esc_t d).
  Lemma cinv_mono n m c d : n <= m -> cinv n c d -> cinv m c d.
  Proof.
    intros L (A & B & C & D & F). split; [eapply inv_mono; eassumption|]. split; [eapply tinv_mono; eassumption|]. split; [eapply tinv_mono; eassumption|]. split; eapply tinv_mono; eassumption.
  Qed.
  Lemma cinv_empty : cinv 0 cdb_empty db_empty.
  Proof. split; [exact inv_empty|]. split; [apply tinv_empty|]. split; [apply tinv_empty|]. split; apply tinv_empty. Qed.
  Lemma event_at n b d id sn : inv n b d -> held (9 + n) -> event_at_b hx b id sn = Ok (get_event_at_sn d id sn).
  Proof. intros H Hn. unfold event_at_b. destruct (inv_view hx Hhx n b d id H Hn) as (d' & -> & K). cbn [obind]. unfold get_event_at_sn. now rewrite K. Qed.
  Lemma keys_at n b d id sn g : inv n b d -> held (9 + n) -> keys_at_b E hx b id sn g = get_keys_at_event E d id sn g.
  Proof. intros H Hn. unfold keys_at_b. destruct (inv_view hx Hhx n b d id H Hn) as (d' & -> & K). cbn [obind]. unfold get_keys_at_event, get_event_at_sn. now rewrite K. Qed.
  Lemma compute_bare d id : compute_state E (bare d) id = compute_state E d id.
  Proof. now apply compute_state_kel. Qed.
  Lemma push_nt_ok n t v id r : tinv nr_val nr_storable n t v -> held (9 + n) -> nr_storable r ->
    exists t', push_nt hx t id r = Ok t' /\ tinv nr_val nr_storable (n + item_size (INt r)) t' (tpush v id r).
  Proof. intros H Hn Hr. exact (tinv_push nr_val (as_nr hx) nr_storable (nr_text hx Hhx) nr_fits n t v id r H Hn Hr). Qed.
  Lemma push_t_ok n t v id r : tinv tr_val tr_storable n t v -> held (9 + n) -> tr_storable r ->
    exists t', push_t hx t id r = Ok t' /\ tinv tr_val tr_storable (n + item_size (IT r)) t' (tpush v id r).
  Proof. intros H Hn Hr. exact (tinv_push tr_val (as_tr hx) tr_storable (tr_text hx Hhx) tr_fits n t v id r H Hn Hr). Qed.
  Theorem cinv_process n c d x : cinv n c d -> held (9 + n + item_size x) -> item_storable x ->
    cinv (n + item_size x) (fst (process_c E hx c x)) (fst (process E d (item_message x)))
    /\ snd (process_c E hx c x) = snd (process E d (item_message x)).
  Proof.
    intros H Hn Hx. assert (Hn0 : held (9 + n)) by (eapply held_le; [|exact Hn]; clear; lia).
    assert (H' : cinv (n + item_size x) c d) by (eapply cinv_mono; [|exact H]; clear; lia).
    destruct H as (A & B & C & D & F). destruct H' as (A' & B' & C' & D' & F'). destruct x as [ts se|r|r]; cbn [item_message process process_c item_storable] in *.
    - destruct (inv_process E hx Hhx n (c_log c) (bare d) ts se A Hn Hx) as [I R]. rewrite process_event_bare in I, R. cbn [fst snd] in I, R.
      destruct (process_event_tables E d se) as (T1 & T2 & T3 & T4). destruct (process_event_b E hx (c_log c) ts se) as [b o]. cbn [fst snd] in *.
      split; [|exact R]. unfold cinv. cbn [c_log c_nt c_esc_nt c_t c_esc_t]. rewrite T1, T2, T3, T4. auto.
    - unfold process_nt_c, process_witness_receipt. rewrite (event_at n _ _ _ _ A Hn0). change (get_event_at_sn (bare d)) with (get_event_at_sn d).
      rewrite (inv_compute E hx Hhx n _ _ _ A Hn0), compute_bare.
      destruct (push_nt_ok n _ _ (rct_prefix (nr_body r)) r B Hn0 Hx) as (t1 & P1 & I1). destruct (push_nt_ok n _ _ (rct_prefix (nr_body r)) r C Hn0 Hx) as (t2 & P2 & I2).
      destruct (get_event_at_sn d (rct_prefix (nr_body r)) (rct_sn (nr_body r))) as [ev|].
      + destruct (e_ser_signed E ev) as [ser|e|]; try (split; [exact (conj A' (conj B' (conj C' (conj D' F'))))|reflexivity]).
        destruct (rev (couplet_errors E ser (nr_couplets r))) as [|e l]; [|split; [exact (conj A' (conj B' (conj C' (conj D' F'))))|reflexivity]].
        rewrite P1. cbn [fst snd]. split; [|now apply compute_state_kel]. split; [exact A'|]. split; [exact I1|]. split; [exact C'|]. split; [exact D'|exact F'].
      + rewrite P2. cbn [fst snd]. split; [|now apply compute_state_kel]. split; [exact A'|]. split; [exact B'|]. split; [exact I2|]. split; [exact D'|exact F'].
    - unfold process_t_c, process_validator_receipt. rewrite (event_at n _ _ _ _ A Hn0). change (get_event_at_sn (bare d)) with (get_event_at_sn d).
      rewrite (inv_compute E hx Hhx n _ _ _ A Hn0), compute_bare.
      destruct (push_t_ok n _ _ (rct_prefix (tr_body r)) r D Hn0 Hx) as (t1 & P1 & I1). destruct (push_t_ok n _ _ (rct_prefix (tr_body r)) r F Hn0 Hx) as (t2 & P2 & I2).
      destruct (get_event_at_sn d (rct_prefix (tr_body r)) (rct_sn (tr_body r))) as [ev|].
      + rewrite (keys_at n _ _ _ _ _ A Hn0). change (get_keys_at_event E (bare d)) with (get_keys_at_event E d).
        destruct (let? kc := get_keys_at_event E d _ _ _ in _) as [[|]|e|]; try (split; [exact (conj A' (conj B' (conj C' (conj D' F'))))|reflexivity]).
        rewrite P1. cbn [fst snd]. split; [|now apply compute_state_kel]. split; [exact A'|]. split; [exact B'|]. split; [exact C'|]. split; [exact I1|exact F'].
      + rewrite P2. cbn [fst snd]. split; [|reflexivity]. split; [exact A'|]. split; [exact B'|]. split; [exact C'|]. split; [exact D'|exact I2].
  Qed.
  Theorem cinv_run l : forall n c d, cinv n c d -> held (9 + n + items_size l) -> Forall item_storable l ->
    cinv (n + items_size l) (fst (run_c E hx c l)) (fst (run_m E d (map item_message l))) /\ snd (run_c E hx c l) = snd (run_m E d (map item_message l)).
  Proof.
    induction l as [|x l IH]; intros n c d H Hn Hs.
    - cbn [run_c run_m map fst snd]. split; [|reflexivity]. eapply cinv_mono; [|exact H]. lia.
    - apply Forall_cons_iff in Hs as [Hx Hs]. assert (Ht : items_size (x :: l) = item_size x + items_size l) by reflexivity. rewrite Ht in *. clear Ht.
      set (k := items_size l) in *. clearbody k.
      assert (H1 : held (9 + n + item_size x)) by (apply (held_le _ (9 + n + (item_size x + k))); [clear; lia|exact Hn]).
      assert (H2 : held (9 + (n + item_size x) + k)) by (apply (held_le _ (9 + n + (item_size x + k))); [clear; lia|exact Hn]).
      destruct (cinv_process n c d x H H1 Hx) as [I1 R1].
      cbn [run_c run_m map]. destruct (process_c E hx c x) as [c1 o1]. destruct (process E d (item_message x)) as [d1 o1']. cbn [fst snd] in I1, R1. subst o1'.
      destruct (IH (n + item_size x) c1 d1 I1 H2 Hs) as [I2 R2].
      destruct (run_c E hx c1 l) as [c2 os]. destruct (run_m E d1 (map item_message l)) as [d2 os']. cbn [fst snd] in *. subst os'.
      split; [|reflexivity]. eapply cinv_mono; [|exact I2]. clear; lia.
  Qed.
  Lemma cinv_same n c d : cinv n c d -> held (9 + n) -> same_records hx c d.
  Proof.
    intros (A & B & C & D & F) Hn id. split; [exact (inv_log hx Hhx n _ _ id A Hn)|]. split; [rewrite (proj1 A); reflexivity|].
    split; [exact (tinv_iter nr_val (as_nr hx) nr_storable (nr_text hx Hhx) nr_fits n _ _ id B Hn)|].
    split; [exact (tinv_iter nr_val (as_nr hx) nr_storable (nr_text hx Hhx) nr_fits n _ _ id C Hn)|].
    split; [exact (tinv_iter tr_val (as_tr hx) tr_storable (tr_text hx Hhx) tr_fits n _ _ id D Hn)|].
    exact (tinv_iter tr_val (as_tr hx) tr_storable (tr_text hx Hhx) tr_fits n _ _ id F Hn).
  Qed.
  Lemma same_has c d id sn v : same_records hx c d -> has_receipt_c hx c id sn v = Ok (has_receipt d id sn v).
  Proof. intros H. destruct (H id) as (_ & _ & _ & _ & T & _). unfold has_receipt_c. rewrite T. cbn [obind]. unfold has_receipt. destruct (get_receipts_t d id); reflexivity. Qed.
  Lemma items_app l1 l2 : items_size (l1 ++ l2) = items_size l1 + items_size l2.
  Proof. unfold items_size. induction l1 as [|x l IH]; [reflexivity|]. cbn [app fold_right]. rewrite IH. lia. Qed.
  Lemma run_c_app l1 l2 : forall c, fst (run_c E hx c (l1 ++ l2)) = fst (run_c E hx (fst (run_c E hx c l1)) l2).
  Proof.
    induction l1 as [|x l1 IH]; intros c; [reflexivity|]. cbn [app run_c]. destruct (process_c E hx c x) as [c1 o]. specialize (IH c1).
    destruct (run_c E hx c1 (l1 ++ l2)). destruct (run_c E hx c1 l1). exact IH.
  Qed.
End Stores.
