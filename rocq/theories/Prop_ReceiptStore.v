(** * Receipts in the bytes of the store: C120, C121. *)
From Coq Require Import ZifyBool ZifyN ZifyNat.
From Verif Require Import Base Base64 Base64Proofs Codes NumFmt NumProofs Types SpecCodec CodecProofs CodecProofs2 KeyConf Version Cesr CesrProofs Message Keri Json JsonRead JsonQuery JsonProofs SpecJson JsonProofs2 JsonProofs3 JsonProofs4 JsonProofs5 JsonProofs8 JsonProofs9 JsonProofs10 JsonProofs11 Prop_Version Prop_Codec Prop_Json Prop_Json2 Prop_Json3 Prop_Json4 Prop_JsonQ Cbor CborProofs
  State Db Processor Spec StateProofs LogProofs SpecKeri Prop_Proc Prop_Keri Demo EventStore SpecEventStore EventStoreProofs Prop_EventStore ReceiptStore SpecReceiptStore ReceiptStoreProofs.
Notation json := Json.json.

(** ** C120: the store gives back the receipts it was given *)
Theorem C120_receipts_read_back :
  forall (hx : bytes -> option N), reads_hex hx ->
    (forall l, Forall nr_storable l -> items_fit (map INt l) -> read_vec (as_nr hx) (write_vec nr_val l) = Ok l)
    /\ (forall l, Forall tr_storable l -> items_fit (map IT l) -> read_vec (as_tr hx) (write_vec tr_val l) = Ok l).
Proof.
  intros hx Hhx. split; intros l Hl Hf.
  - apply (vec_back nr_val (as_nr hx) nr_storable (nr_text hx Hhx) nr_fits l Hl). eapply held_le; [apply vec_length|].
    assert (S : vsize nr_val l = items_size (map INt l)) by (clear; unfold vsize, items_size; induction l as [|x l IH]; [reflexivity|cbn [fold_right map]; now rewrite IH]). rewrite S. exact Hf.
  - apply (vec_back tr_val (as_tr hx) tr_storable (tr_text hx Hhx) tr_fits l Hl). eapply held_le; [apply vec_length|].
    assert (S : vsize tr_val l = items_size (map IT l)) by (clear; unfold vsize, items_size; induction l as [|x l IH]; [reflexivity|cbn [fold_right map]; now rewrite IH]). rewrite S. exact Hf.
Qed.
Print Assumptions C120_receipts_read_back.
(** and processing events and receipts on a store of bytes is processing them on values *)
Theorem C120_bytes_are_values :
  forall (E : Env) (hx : bytes -> option N) (l : list Item),
    reads_hex hx -> Forall item_storable l -> items_fit l ->
    let c := fst (run_c E hx cdb_empty l) in
    let d := fst (run_m E db_empty (map item_message l)) in
    snd (run_c E hx cdb_empty l) = snd (run_m E db_empty (map item_message l))
    /\ same_records hx c d
    /\ (forall id, compute_state_b E hx (c_log c) id = compute_state E d id)
    /\ forall id sn validator, has_receipt_c hx c id sn validator = Ok (has_receipt d id sn validator).
Proof.
  intros E hx l Hhx Hs Hf c d. destruct (cinv_run E hx Hhx l 0 cdb_empty db_empty cinv_empty Hf Hs) as [I R]. fold c d in I.
  pose proof (cinv_same hx Hhx _ _ _ I Hf) as S. split; [exact R|]. split; [exact S|]. split.
  - intros id. rewrite (inv_compute E hx Hhx _ _ _ id (proj1 I) Hf). apply compute_bare.
  - intros id sn v. now apply same_has.
Qed.
Print Assumptions C120_bytes_are_values.
(** a receipt read from text without padded values is storable *)
Lemma read_body hx (bk : bytes -> pres EventMessage) (br : bytes -> pres ReceiptMessage) t rest c :
  hex_u64 hx -> br t = PErr -> read_event_type hx bk br t = POk rest (ReceiptT c) -> (forall x, has_literal t x -> ~ In "="%byte x) -> rct_stable c.
Proof.
  intros Hu Bt H Hl. unfold read_event_type, palt at 1 in H.
  assert (J : json_message (read_receipt hx) t = POk rest c).
  { assert (H' : receipt_message hx br t = POk rest (ReceiptT c)).
    { unfold key_event_message in H. destruct (palt (json_message (read_key_event hx)) bk t); cbn [pmap] in H; try discriminate H; exact H. }
    unfold receipt_message, palt in H'. rewrite Bt in H'. destruct (json_message (read_receipt hx) t); cbn [pmap] in H'; congruence. }
  clear H. unfold json_message in J. pose proof (skip_ws_suffix t) as St. destruct (skip_ws t) as [|ch b]; [discriminate|]. destruct (c_is ch 123); [|discriminate].
  apply suffix_cons in St.
  pose proof (top_from t pure) as T. specialize (T ltac:(intros w x r (u & Hs') Hr; split; [exact (read_string_utf8 _ _ _ Hr)|]; apply Hl; now exists u, w, r)).
  specialize (T (fuel_for b) 127 true None b St). destruct (read_top (fuel_for b) 127 true None b) as [[[ov l] r]|e|]; cbn [obind] in J; [|discriminate|discriminate].
  destruct T as (_ & Hall & Hv). destruct ov as [v|]; [|discriminate J]. change (need (Some v)) with (Ok v) in J. cbn [obind] in J.
  destruct (read_receipt hx v l) as [m'|e|] eqn:R; cbn [obind] in J; cbv beta iota in J; try discriminate J. assert (m' = c) by congruence. subst m'.
  destruct Hv as [Hv|(x & v' & Hv & _ & Hx)]; [discriminate|]. assert (v' = v) by congruence. subst v'. apply si_from_readable in Hx. clear - Hu Hall Hx R.
  unfold read_receipt in R.
  assert (G : forall l od oi os d i s, Forall (fun kv => jall pure (snd kv)) l -> (forall a, od = Some a -> sap_stable a) -> (forall a, oi = Some a -> id_stable a) -> (forall a, os = Some a -> u64 a) ->
    take_rct hx l od oi os = Ok (d, i, s) -> (forall a, d = Some a -> sap_stable a) /\ (forall a, i = Some a -> id_stable a) /\ (forall a, s = Some a -> u64 a)).
  { clear - Hu. induction l as [|[k v] l IH]; intros od oi os d i s Hl Hd Hi Hs H; cbn [take_rct] in H; [assert (od = d /\ oi = i /\ os = s) as (-> & -> & ->) by (repeat split; congruence); auto|].
    apply Forall_cons_iff in Hl as [Hv Hl]. cbn [snd] in Hv. destruct (is k "d"); [|destruct (is k "i"); [|destruct (is k "s")]].
    - destruct od; [discriminate H|]. destruct (as_sap v) as [a|e|] eqn:A; cbn [obind] in H; [|discriminate H..]. apply (IH _ _ _ _ _ _ Hl) in H; [exact H| |exact Hi|exact Hs].
      intros b Hb. assert (b = a) by congruence. subst. exact (as_sap_got v a Hv A).
    - destruct oi; [discriminate H|]. destruct (as_id v) as [a|e|] eqn:A; cbn [obind] in H; [|discriminate H..]. apply (IH _ _ _ _ _ _ Hl) in H; [exact H|exact Hd| |exact Hs].
      intros b Hb. assert (b = a) by congruence. subst. exact (as_id_got v a Hv A).
    - destruct os; [discriminate H|]. destruct (as_hex hx v) as [a|e|] eqn:A; cbn [obind] in H; [|discriminate H..]. apply (IH _ _ _ _ _ _ Hl) in H; [exact H|exact Hd|exact Hi|].
      intros b Hb. assert (b = a) by congruence. subst. exact (as_hex_got hx Hu v a A).
    - exact (IH _ _ _ _ _ _ Hl Hd Hi Hs H). }
  destruct (take_rct hx l None None None) as [[[d i] s]|e|] eqn:T; cbn [obind] in R; [|discriminate R..].
  apply G in T; [|exact Hall|discriminate..]. destruct T as (T1 & T2 & T3). destruct d as [d|]; [|discriminate R]. destruct i as [i|]; [|discriminate R]. destruct s as [s|]; [|discriminate R].
  cbn in R. injection R as <-. unfold rct_stable. cbn [rct_info rct_digest rct_prefix rct_sn]. auto.
Qed.
Theorem C120_read_receipts_are_storable :
  forall (hx : bytes -> option N) (bk : bytes -> pres EventMessage) (br : bytes -> pres ReceiptMessage) (t rest : bytes) (c : ReceiptMessage),
    hex_u64 hx -> br t = PErr -> read_event_type hx bk br t = POk rest (ReceiptT c) -> (forall x, has_literal t x -> ~ In "="%byte x) ->
    (forall couplets, Forall (fun p => bp_readable (fst p) /\ ssp_sized (snd p)) couplets -> nr_storable (mkNRct c couplets))
    /\ (forall seal sigs, id_readable (es_prefix seal) -> u64 (es_sn seal) -> sap_readable (es_digest seal) ->
          Forall (fun s => asp_sized s /\ (asp_index s < 63)%N) sigs -> tr_storable (mkTRct c seal sigs)).
Proof.
  intros hx bk br t rest c Hu Bt H Hl. pose proof (read_body hx bk br t rest c Hu Bt H Hl) as B. split.
  - intros cs Hc. split; [exact B|]. eapply Forall_impl; [|exact Hc]. intros [p s] [Hp Hs]. split; [|now apply c43].
    destruct Hp as [Hp He]. unfold bp_stable. now apply c41.
  - intros seal sigs H1 H2 H3 H4. split; [exact B|]. split.
    + split; [now apply as_id_stable|]. split; [exact H2|now apply as_sap_stable].
    + eapply Forall_impl; [|exact H4]. intros s [A C]. now apply c45.
Qed.
Print Assumptions C120_read_receipts_are_storable.

(** ** C121: a receipt on record stays on record *)
Definition C121_statement : Prop :=
  forall (E : Env) (hx : bytes -> option N) (l : list Item) (x : Item) (id : IdentifierPrefix),
    reads_hex hx -> items_fit (l ++ [x]) ->
    let c := fst (run_c E hx cdb_empty l) in
    let c' := fst (run_c E hx cdb_empty (l ++ [x])) in
    (forall r, shows_nt hx c id r -> shows_nt hx c' id r) /\ (forall r, shows_t hx c id r -> shows_t hx c' id r).
Lemma tpush_keeps {T} (t : table T) id x i l : tget t i = Some l -> exists l', tget (tpush t id x) i = Some (l ++ l').
Proof.
  intros H. unfold tpush. destruct (IdentifierPrefix_eq_dec i id) as [->|Ne].
  - rewrite H. unfold tget, tput. rewrite aget_aput. destruct (IdentifierPrefix_eq_dec id id); [|congruence]. now eexists.
  - exists []. rewrite app_nil_r. rewrite <- H. destruct (tget t id); unfold tget, tput; rewrite aget_aput; destruct (IdentifierPrefix_eq_dec i id); congruence.
Qed.
(** so it is for items that read back *)
Theorem C121_partial :
  forall (E : Env) (hx : bytes -> option N) (l : list Item) (x : Item) (id : IdentifierPrefix),
    reads_hex hx -> items_fit (l ++ [x]) -> Forall item_storable (l ++ [x]) ->
    let c := fst (run_c E hx cdb_empty l) in
    let c' := fst (run_c E hx cdb_empty (l ++ [x])) in
    (forall r, shows_nt hx c id r -> shows_nt hx c' id r) /\ (forall r, shows_t hx c id r -> shows_t hx c' id r).
Proof.
  intros E hx l x id Hhx Hf Hs c c'. unfold items_fit in Hf. change (held (9 + items_size (l ++ [x]))) in Hf. rewrite items_app in Hf.
  assert (T : items_size [x] = item_size x + 0) by reflexivity. rewrite T in Hf. clear T. apply Forall_app in Hs as [Hl Hx]. apply Forall_cons_iff in Hx as [Hx _].
  assert (Hf0 : held (9 + 0 + items_size l)) by (eapply held_le; [|exact Hf]; clear; lia).
  assert (Hf1 : held (9 + items_size l + item_size x)) by (eapply held_le; [|exact Hf]; clear; lia).
  destruct (cinv_run E hx Hhx l 0 cdb_empty db_empty cinv_empty Hf0 Hl) as [I _]. cbn [plus] in I, Hf0.
  assert (Ec : c' = fst (process_c E hx c x)).
  { unfold c', c. rewrite run_c_app. cbn [run_c]. destruct (process_c E hx (fst (run_c E hx cdb_empty l)) x). reflexivity. }
  fold c in I. destruct (cinv_process E hx Hhx _ c _ x I Hf1 Hx) as [I' _]. rewrite <- Ec in I'.
  set (d := fst (run_m E db_empty (map item_message l))) in *. set (d' := fst (process E d (item_message x))) in *.
  assert (S : same_records hx c d) by exact (cinv_same hx Hhx _ _ _ I Hf0).
  assert (S' : same_records hx c' d') by (apply (cinv_same hx Hhx _ _ _ I'); eapply held_le; [|exact Hf1]; clear; lia).
  destruct (S id) as (_ & _ & N1 & _ & T1 & _). destruct (S' id) as (_ & _ & N2 & _ & T2 & _).
  assert (G : (forall rs, get_receipts_nt d id = Some rs -> exists rs', get_receipts_nt d' id = Some (rs ++ rs'))
    /\ (forall rs, get_receipts_t d id = Some rs -> exists rs', get_receipts_t d' id = Some (rs ++ rs'))).
  { assert (Same : forall d2, db_rct_nt d2 = db_rct_nt d -> db_rct_t d2 = db_rct_t d ->
      (forall rs, get_receipts_nt d id = Some rs -> exists rs', get_receipts_nt d2 id = Some (rs ++ rs')) /\ (forall rs, get_receipts_t d id = Some rs -> exists rs', get_receipts_t d2 id = Some (rs ++ rs'))).
    { intros d2 A B. unfold get_receipts_nt, get_receipts_t. rewrite A, B. split; intros rs R; exists []; now rewrite app_nil_r. }
    unfold d'. clear - Same. destruct x as [ts se|r|r]; cbn [item_message process].
    - destruct (process_event_tables E d se) as (A & _ & B & _). now apply Same.
    - unfold process_witness_receipt. destruct (get_event_at_sn d _ _) as [ev|]; [|now apply Same]. destruct (e_ser_signed E ev) as [ser|e|]; try (now apply Same).
      destruct (rev (couplet_errors E ser (nr_couplets r))); [|now apply Same]. cbn [fst]. destruct (Same d eq_refl eq_refl) as [_ B]. split; [|exact B].
      intros rs R. unfold get_receipts_nt, add_receipt_nt. cbn [set_rct_nt db_rct_nt]. now apply tpush_keeps.
    - unfold process_validator_receipt. destruct (get_event_at_sn d _ _) as [ev|]; [|now apply Same].
      destruct (let? kc := get_keys_at_event E d _ _ _ in _) as [[|]|e|]; try (now apply Same). cbn [fst]. destruct (Same d eq_refl eq_refl) as [A _]. split; [exact A|].
      intros rs R. unfold get_receipts_t, add_receipt_t. cbn [set_rct_t db_rct_t]. now apply tpush_keeps. }
  destruct G as [G1 G2]. unfold shows_nt, shows_t. rewrite N1, N2, T1, T2. split; intros r (rs & Hr & Hin).
  - assert (Hr' : get_receipts_nt d id = Some rs) by congruence. destruct (G1 rs Hr') as (rs' & ->). eexists. split; [reflexivity|]. apply in_or_app. now left.
  - assert (Hr' : get_receipts_t d id = Some rs) by congruence. destruct (G2 rs Hr') as (rs' & ->). eexists. split; [reflexivity|]. apply in_or_app. now left.
Qed.
Print Assumptions C121_partial.

(** Not in general: anyone can erase the witness receipts of any identifier.  A first receipt
    for a known event, whose digest reads from the wire but is stored as text that does not
    read back, makes the list of receipts unreadable; the next one replaces the list.  No key
    is needed: every signature of both receipts may be wrong. *)
Lemma no_errors E ser cs : Forall (fun p => key_verify E (fst p) ser (snd p) = Ok false) cs -> rev (couplet_errors E ser cs) = [].
Proof.
  intros H. assert (couplet_errors E ser cs = []) as ->; [|reflexivity]. unfold couplet_errors. induction H as [|p cs Hp _ IH]; [reflexivity|]. cbn [flat_map]. rewrite Hp. exact IH.
Qed.
Theorem C121_anyone_can_erase_receipts :
  forall (E : Env) (hx : bytes -> option N) (l : list Item) (id : IdentifierPrefix) (ev : SignedEventMessage) (ser : bytes) (r1 r2 : SignedNontransferableReceipt) (e : error),
    reads_hex hx -> Forall item_storable l -> items_fit (l ++ [INt r1; INt r2]) ->
    event_at_b hx (c_log (fst (run_c E hx cdb_empty l))) id (rct_sn (nr_body r1)) = Ok (Some ev) -> e_ser_signed E ev = Ok ser ->
    rct_prefix (nr_body r1) = id -> rct_prefix (nr_body r2) = id -> rct_sn (nr_body r2) = rct_sn (nr_body r1) ->
    Forall (fun p => key_verify E (fst p) ser (snd p) = Ok false) (nr_couplets r1 ++ nr_couplets r2) ->
    version_readable (rct_info (nr_body r1)) -> sap_from (sap_str (rct_digest (nr_body r1))) = Err e -> nr_storable r2 ->
    let c1 := fst (run_c E hx cdb_empty (l ++ [INt r1])) in
    let c2 := fst (run_c E hx cdb_empty (l ++ [INt r1; INt r2])) in
    iter_nt hx (c_nt c1) id = Panic /\ iter_nt hx (c_nt c2) id = Ok (Some [r2]).
Proof.
  intros E hx l id ev ser r1 r2 e Hhx Hl Hf He Hser I1 I2 Hsn Hk Hv Hd H2 c1 c2.
  unfold items_fit in Hf. change (held (9 + items_size (l ++ [INt r1; INt r2]))) in Hf. rewrite items_app in Hf.
  assert (T : items_size [INt r1; INt r2] = item_size (INt r1) + (item_size (INt r2) + 0)) by reflexivity. rewrite T in Hf. clear T.
  assert (Hf0 : held (9 + 0 + items_size l)) by (eapply held_le; [|exact Hf]; clear; lia).
  destruct (cinv_run E hx Hhx l 0 cdb_empty db_empty cinv_empty Hf0 Hl) as [I _]. cbn [plus] in I, Hf0.
  set (c := fst (run_c E hx cdb_empty l)) in *. set (d := fst (run_m E db_empty (map item_message l))) in *.
  apply Forall_app in Hk as [K1 K2]. apply no_errors in K1. apply no_errors in K2.
  destruct (nr_err hx r1 e Hv Hd) as [e' Hr].
  destruct (bad_push nr_val (as_nr hx) nr_storable (nr_text hx Hhx) nr_fits _ _ _ id r1 e' (proj1 (proj2 I))) as (t1 & P1 & U & _ & P2);
    [eapply held_le; [|exact Hf]; cbn [item_size]; clear; lia|exact Hr|].
  destruct (P2 r2 H2) as (t2 & Q2 & G); [eapply held_le; [|exact Hf]; cbn [item_size]; clear; lia|].
  assert (S1 : process_c E hx c (INt r1) = (mkCDb (c_log c) t1 (c_esc_nt c) (c_t c) (c_esc_t c), compute_state_b E hx (c_log c) id)).
  { cbn [process_c]. unfold process_nt_c. rewrite I1, He, Hser, K1. unfold push_nt. rewrite P1. reflexivity. }
  assert (E1 : c1 = mkCDb (c_log c) t1 (c_esc_nt c) (c_t c) (c_esc_t c)) by (unfold c1; rewrite run_c_app; fold c; cbn [run_c]; now rewrite S1).
  assert (E2 : c2 = mkCDb (c_log c) t2 (c_esc_nt c) (c_t c) (c_esc_t c)).
  { unfold c2. rewrite run_c_app. fold c. cbn [run_c]. rewrite S1. cbn [process_c]. unfold process_nt_c. rewrite I2, Hsn. cbn [c_log c_nt c_esc_nt c_t c_esc_t].
    rewrite He, Hser, K2. unfold push_nt. rewrite Q2. reflexivity. }
  rewrite E1, E2. cbn [c_nt]. split; [exact U|exact G].
Qed.
Print Assumptions C121_anyone_can_erase_receipts.
(** And an accepted validator receipt with such a digest (signed by the sender's own keys)
    makes every question for validator receipts of the event's identifier panic. *)
Theorem C121_accepted_receipt_panics :
  forall (E : Env) (hx : bytes -> option N) (l : list Item) (r : SignedTransferableReceipt) (e : error) (o : option IdentifierState),
    reads_hex hx -> Forall item_storable l -> items_fit (l ++ [IT r]) ->
    version_readable (rct_info (tr_body r)) -> sap_from (sap_str (rct_digest (tr_body r))) = Err e ->
    snd (process_c E hx (fst (run_c E hx cdb_empty l)) (IT r)) = Ok o ->
    forall sn validator, has_receipt_c hx (fst (run_c E hx cdb_empty (l ++ [IT r]))) (rct_prefix (tr_body r)) sn validator = Panic.
Proof.
  intros E hx l r e o Hhx Hl Hf Hv Hd Ho sn v.
  unfold items_fit in Hf. change (held (9 + items_size (l ++ [IT r]))) in Hf. rewrite items_app in Hf.
  assert (T : items_size [IT r] = item_size (IT r) + 0) by reflexivity. rewrite T in Hf. clear T.
  assert (Hf0 : held (9 + 0 + items_size l)) by (eapply held_le; [|exact Hf]; clear; lia).
  destruct (cinv_run E hx Hhx l 0 cdb_empty db_empty cinv_empty Hf0 Hl) as [I _]. cbn [plus] in I, Hf0.
  rewrite run_c_app. set (c := fst (run_c E hx cdb_empty l)) in *. set (d := fst (run_m E db_empty (map item_message l))) in *.
  destruct (tr_err hx r e Hv Hd) as [e' Hr].
  destruct (bad_push tr_val (as_tr hx) tr_storable (tr_text hx Hhx) tr_fits _ _ _ (rct_prefix (tr_body r)) r e' (proj1 (proj2 (proj2 (proj2 I))))) as (t1 & P1 & U & _ & _);
    [eapply held_le; [|exact Hf]; cbn [item_size]; clear; lia|exact Hr|].
  assert (S : fst (run_c E hx c [IT r]) = mkCDb (c_log c) (c_nt c) (c_esc_nt c) t1 (c_esc_t c)).
  { cbn [run_c]. cbn [process_c] in Ho |- *. unfold process_t_c in Ho |- *. destruct (event_at_b hx (c_log c) (rct_prefix (tr_body r)) (rct_sn (tr_body r))) as [[ev|]|x|]; try discriminate Ho.
    - destruct (let? kc := keys_at_b E hx (c_log c) _ _ _ in _) as [[|]|x|]; try discriminate Ho. unfold push_t. rewrite P1. reflexivity.
    - unfold push_t in Ho. destruct (bt_push tr_val (as_tr hx) (c_esc_t c) (rct_prefix (tr_body r)) r); discriminate Ho. }
  rewrite S. unfold has_receipt_c, iter_t. cbn [c_t]. now rewrite U.
Qed.
Print Assumptions C121_accepted_receipt_panics.

(** the store of C116 with a witness receipt on record, and the two receipts *)
Definition y_key : BasicPrefix := mkBP Ed25519NT (repeat x07 32).
Definition y_sig : SelfSigningPrefix := mkSSP Ed25519Sha512 (repeat x00 64).
Definition y_body : ReceiptMessage := mkRct (mkSI 1 0 0 JSON) (jd x01) x_id 0.
Definition y_first : SignedNontransferableReceipt := mkNRct y_body [(y_key, y_sig)].
Definition y_bad_body : ReceiptMessage := mkRct (mkSI 1 0 0 JSON) (mkSAP Blake3_256 (repeat x00 31)) x_id 0.
Definition y_bad : SignedNontransferableReceipt := mkNRct y_bad_body [(y_key, y_sig)].
Definition y_next : SignedNontransferableReceipt := mkNRct y_body [(mkBP Ed25519NT (repeat x08 32), y_sig)].
Definition y_history : list Item := [IEvent x_time x_icp; INt y_first].
Definition y_text (digest : bytes) (key : BasicPrefix) : bytes :=
  bstr "{""v"":""KERI10JSON000000_"",""t"":""rct"",""d"":""" ++ digest ++ bstr """,""i"":""" ++ id_str x_id ++ bstr """,""s"":""0""}-CAB" ++ bp_str key ++ bstr "0B" ++ repeat x41 86.
Example C121_texts :
  (exists d, signed_message (read_event_type hx0 no_key no_rct) (y_text (bstr "E" ++ repeat x41 42 ++ bstr "=") y_key) = POk [] d /\ to_message d = Ok (MNontransferableRct y_bad))
  /\ (exists d, signed_message (read_event_type hx0 no_key no_rct) (y_text (sap_str (jd x01)) (mkBP Ed25519NT (repeat x08 32))) = POk [] d /\ to_message d = Ok (MNontransferableRct y_next)).
Proof. split; eexists; apply conj; try (vm_compute; reflexivity). Qed.
Example C121_erased :
  exists c, run_c x_env hx0 cdb_empty y_history = c /\ iter_nt hx0 (c_nt (fst c)) x_id = Ok (Some [y_first])
  /\ iter_nt hx0 (c_nt (fst (run_c x_env hx0 (fst c) [INt y_bad]))) x_id = Panic
  /\ iter_nt hx0 (c_nt (fst (run_c x_env hx0 (fst c) [INt y_bad; INt y_next]))) x_id = Ok (Some [y_next]).
Proof. eexists. apply conj; [reflexivity|]. apply conj; [vm_compute; reflexivity|]. apply conj; vm_compute; reflexivity. Qed.
Definition y_bad_t : SignedTransferableReceipt := mkTRct y_bad_body (mkES x_id 0 (jd x01)) (sem_sigs x_icp).
Definition y_good_t : SignedTransferableReceipt := mkTRct y_body (mkES x_id 0 (jd x01)) (sem_sigs x_icp).
Lemma y_body_stable : rct_stable y_body.
Proof. split; [apply conj; [apply conj; vm_compute; reflexivity|vm_compute; discriminate]|]. split; [vm_compute; reflexivity|]. split; [vm_compute; reflexivity|]. vm_compute. discriminate. Qed.
Lemma y_storable_nr k : bp_stable k -> nr_storable (mkNRct y_body [(k, y_sig)]).
Proof. intros H. split; [exact y_body_stable|]. constructor; [|constructor]. split; [exact H|]. vm_compute. reflexivity. Qed.
Lemma y_good_storable : tr_storable y_good_t.
Proof.
  split; [exact y_body_stable|]. split; [split; [vm_compute; reflexivity|]; split; [vm_compute; discriminate|vm_compute; reflexivity]|].
  constructor; [vm_compute; reflexivity|constructor].
Qed.
Definition y_long : list Item := y_history ++ [INt y_next; IT y_good_t].
Lemma y_storable : Forall item_storable y_long.
Proof.
  pose proof x_storable as X. apply Forall_cons_iff in X as [X _].
  constructor; [exact X|]. constructor; [apply y_storable_nr; vm_compute; reflexivity|]. constructor; [apply y_storable_nr; vm_compute; reflexivity|]. constructor; [exact y_good_storable|constructor].
Qed.
Lemma y_history_storable : Forall item_storable y_history.
Proof. pose proof y_storable as H. unfold y_long in H. apply Forall_app in H. apply H. Qed.
Example C120_example :
  Forall item_storable y_long /\ items_fit y_long
  /\ exists c, run_c x_env hx0 cdb_empty y_long = c /\ iter_nt hx0 (c_nt (fst c)) x_id = Ok (Some [y_first; y_next]) /\ iter_t hx0 (c_t (fst c)) x_id = Ok (Some [y_good_t])
     /\ has_receipt_c hx0 (fst c) x_id 0 x_id = Ok true.
Proof.
  split; [exact y_storable|]. split; [unfold items_fit; apply N.leb_le; vm_compute; reflexivity|]. eexists. apply conj; [reflexivity|]. apply conj; [vm_compute; reflexivity|]. apply conj; vm_compute; reflexivity.
Qed.
Example C121_example :
  Forall item_storable y_history /\ items_fit (y_history ++ [INt y_bad; INt y_next])
  /\ (exists ser, event_at_b hx0 (c_log (fst (run_c x_env hx0 cdb_empty y_history))) x_id 0 = Ok (Some (stored x_icp)) /\ e_ser_signed x_env (stored x_icp) = Ok ser
      /\ Forall (fun p => key_verify x_env (fst p) ser (snd p) = Ok false) (nr_couplets y_bad ++ nr_couplets y_next))
  /\ (exists e, sap_from (sap_str (rct_digest (nr_body y_bad))) = Err e) /\ nr_storable y_next /\ version_readable (rct_info (nr_body y_bad)).
Proof.
  split; [exact y_history_storable|]. split; [unfold items_fit; apply N.leb_le; vm_compute; reflexivity|]. split.
  - eexists. apply conj; [vm_compute; reflexivity|]. apply conj; [vm_compute; reflexivity|]. repeat (apply Forall_cons; [vm_compute; reflexivity|]). apply Forall_nil.
  - split; [eexists; vm_compute; reflexivity|]. split; [apply y_storable_nr; vm_compute; reflexivity|]. exact (proj1 y_body_stable).
Qed.
Example C121_validator_example :
  items_fit (y_history ++ [IT y_bad_t]) /\ exists o, snd (process_c x_env hx0 (fst (run_c x_env hx0 cdb_empty y_history)) (IT y_bad_t)) = Ok o.
Proof. split; [unfold items_fit; apply N.leb_le; vm_compute; reflexivity|]. eexists. vm_compute. reflexivity. Qed.
Theorem C121_refuted : ~ C121_statement.
Proof.
  intros H. assert (F : items_fit (y_history ++ [INt y_bad])) by (unfold items_fit; apply N.leb_le; vm_compute; reflexivity).
  destruct (H x_env hx0 y_history (INt y_bad) x_id hx0_reads F) as [A _].
  assert (S : shows_nt hx0 (fst (run_c x_env hx0 cdb_empty y_history)) x_id y_first).
  { exists [y_first]. split; [vm_compute; reflexivity|now left]. }
  destruct (A y_first S) as (rs & R & _).
  assert (P : iter_nt hx0 (c_nt (fst (run_c x_env hx0 cdb_empty (y_history ++ [INt y_bad])))) x_id = Panic) by (vm_compute; reflexivity).
  rewrite P in R. discriminate R.
Qed.
Print Assumptions C121_refuted.
