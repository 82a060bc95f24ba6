(** * Prop_CborWire: messages in CBOR (C122, C123).

    [with_formats E]: the environment whose events of format JSON and CBOR are written as
    [serde_json] and [serde_cbor] write them (MessagePack as [E] says); [read_formats hx mk mr]: the
    reader that tries JSON, CBOR and MessagePack ([mk], [mr]); [hx] as in C75. *)
From Coq Require Import ZifyBool ZifyN ZifyNat.
From Verif Require Import Base Base64 Codes NumFmt Types SpecCodec KeyConf Version Cesr SpecCesr CesrProofs CesrProofs2 CesrProofs3 Message Keri Json JsonRead JsonProofs JsonProofs6 SpecJson Cbor CborProofs Prop_Message Prop_Json Prop_Json2 Prop_Json3
  State Db Processor Spec SpecProc StateProofs LogProofs LogTheorems ProcProofs ProcProofs2 Prop_Proc SpecKeri KeriProofs KeriProofs2 Prop_Keri Demo CborWire SpecCborWire CborWireProofs.

(** ** C122: events and receipts in CBOR are read back, whatever follows *)
Theorem C122_event_round_trip :
  forall (hx : bytes -> option N) (mk : bytes -> pres EventMessage) (mr : bytes -> pres ReceiptMessage), reads_hex hx ->
  forall (E : Env) (m : EventMessage) (t r : bytes),
    event_readable m -> si_kind (em_info m) = JSON \/ si_kind (em_info m) = CBOR ->
    e_ser_event (with_formats E) m = Ok t -> addressable t ->
    read_formats hx mk mr (t ++ r) = POk r (KeyEventT m).
Proof.
  intros hx mk mr Hhx E m t r Hm Hk Ht Hl. cbn [with_formats e_ser_event with_json with_cbor] in Ht.
  destruct Hk as [Hk|Hk]; rewrite Hk in Ht; cbn in Ht; injection Ht as <-; [now apply event_in_json|now apply event_in_cbor].
Qed.
Print Assumptions C122_event_round_trip.
Theorem C122_receipt_round_trip :
  forall (hx : bytes -> option N) (mk : bytes -> pres EventMessage) (mr : bytes -> pres ReceiptMessage),
    reads_hex hx -> refuses_map mk -> refuses_text mk ->
  forall (K : KEnv) (c : ReceiptMessage) (t r : bytes),
    receipt_readable c -> si_kind (rct_info c) = JSON \/ si_kind (rct_info c) = CBOR ->
    k_ser_rct (with_formats_k K) c = Ok t -> addressable t ->
    read_formats hx mk mr (t ++ r) = POk r (ReceiptT c).
Proof.
  intros hx mk mr Hhx Hmk Hmk' K c t r Hc Hk Ht Hl. cbn [with_formats_k k_ser_rct with_json_k with_cbor_k] in Ht.
  destruct Hk as [Hk|Hk]; rewrite Hk in Ht; cbn in Ht; injection Ht as <-; [now apply receipt_in_json|now apply receipt_in_cbor].
Qed.
Print Assumptions C122_receipt_round_trip.
(** So the bytes that are signed determine the event, also across formats. *)
Theorem C122_bytes_determine_event :
  forall (E : Env) (m1 m2 : EventMessage) (b1 b2 r1 r2 : bytes),
    event_readable m1 -> event_readable m2 ->
    si_kind (em_info m1) = JSON \/ si_kind (em_info m1) = CBOR -> si_kind (em_info m2) = JSON \/ si_kind (em_info m2) = CBOR ->
    e_ser_event (with_formats E) m1 = Ok b1 -> e_ser_event (with_formats E) m2 = Ok b2 -> addressable b1 -> addressable b2 ->
    b1 ++ r1 = b2 ++ r2 -> m1 = m2 /\ r1 = r2.
Proof.
  intros E m1 m2 b1 b2 r1 r2 H1 H2 K1 K2 S1 S2 L1 L2 Heq.
  pose proof (C122_event_round_trip hx0 no_key no_rct hx0_reads E m1 b1 r1 H1 K1 S1 L1) as R1.
  pose proof (C122_event_round_trip hx0 no_key no_rct hx0_reads E m2 b2 r2 H2 K2 S2 L2) as R2.
  rewrite Heq in R1. split; congruence.
Qed.
Print Assumptions C122_bytes_determine_event.

(** A log is handed out as JSON text whatever the formats its events were signed in; the reader
    gets back the events with their stated formats, so it checks the signatures over the bytes
    that were signed, and ends with the same log. *)
Section Travel.
  Context (hx : bytes -> option N) (bk : bytes -> pres EventMessage) (br : bytes -> pres ReceiptMessage).
  Context (Hhx : reads_hex hx) (Hbk : refuses_text bk) (Hbr : refuses_text br).
  Definition ser_text (e : EventType) : out bytes :=
    match e with KeyEventT m => Ok (Json.json (event_val m)) | _ => Err ESerialization end.
  Lemma travels_fits e : travels e -> data_fits (read_event_type hx bk br) ser_text (sed_of_event e).
  Proof.
    intros (H1 & _ & _ & H3 & H4 & H5). unfold data_fits, sed_of_event. rewrite H5. cbn [sed_event sed_atts].
    split; [|split].
    - exists (Json.json (event_val (sem_msg e))). split; [reflexivity|]. intros r. now apply c76_event.
    - intros b Hb. assert (b = Json.json (event_val (sem_msg e))) by (cbn [ser_text] in Hb; congruence). subst b. apply event_opens.
    - apply Forall_cons; [split; assumption|apply Forall_nil].
  Qed.
  Lemma travels_cesr E e : travels e -> e_ser_signed (with_json E) e = sed_cesr ser_text (sed_of_event e).
  Proof.
    intros (H1 & Hs & Hc & H3 & H4 & H5). unfold sed_of_event. rewrite H5. unfold sed_cesr. cbn [sed_event sed_atts oconcat].
    rewrite att_write by assumption. cbn [obind ser_text].
    rewrite app_nil_r. cbn [e_ser_signed with_json]. rewrite att_write by assumption. cbn [obind]. f_equal.
    apply (signed_text _ (sem_sigs e)); [now apply att_write|apply flat_event; [now apply config_simple|exact Hs]|reflexivity].
  Qed.
  Lemma kerl_travels E l : Forall travels l -> forall t, oconcat (sed_cesr ser_text) (map sed_of_event l) = Ok t ->
    kerl_bytes (with_json E) l = Ok t.
  Proof.
    induction 1 as [|e l He _ IH]; intros t Ht; [exact Ht|].
    cbn [map oconcat] in Ht. apply obind_ok in Ht. destruct Ht as (a & Ha & Ht). apply obind_ok in Ht. destruct Ht as (c & Hc & Ht). injection Ht as <-.
    cbn [kerl_bytes]. rewrite (travels_cesr E e He), Ha. rewrite (IH c Hc). reflexivity.
  Qed.
  Lemma log_text E d id l : get_kel d id = Some l -> Forall travels l ->
    exists t, get_kerl (with_json E) d id = Ok (Some t) /\ signed_event_stream (read_event_type hx bk br) t = POk [] (map sed_of_event l).
  Proof.
    intros Hl Hs. destruct (C68_stream_round_trip_partial (read_event_type hx bk br) ser_text (map sed_of_event l)) with (r := @nil byte) as (t & Ht & Hr).
    - apply Forall_map. eapply Forall_impl; [|exact Hs]. intros e He. now apply travels_fits.
    - reflexivity.
    - unfold read_event_type, palt, key_event_message, receipt_message, palt. cbn [json_message skip_ws]. now rewrite (proj1 Hbk), (proj1 Hbr).
    - exists t. rewrite app_nil_r in Hr. split; [|exact Hr]. unfold get_kerl. rewrite Hl.
      rewrite (kerl_travels E l Hs t Ht). reflexivity.
  Qed.
End Travel.
Theorem C122_logs_of_any_format_transfer :
  forall (hx : bytes -> option N) (mk : bytes -> pres EventMessage) (mr : bytes -> pres ReceiptMessage),
    reads_hex hx -> refuses_text mk -> refuses_text mr ->
  forall (E0 : Env) (K : KEnv) (cs : list Call) (id : IdentifierPrefix) (l : list SignedEventMessage) (k : Keri),
    let E := with_formats E0 in let d := run E db_empty cs in
    k_parse K = read_formats hx mk mr ->
    (forall m x, e_ser_event E0 m <> Err x) -> quiet E db_empty cs = true -> id <> id_default ->
    get_kel d id = Some l -> l <> [] -> Forall travels l ->
    (forall e, In e l -> SpecProc.is_delegated (sem_msg e) = false) ->
    log (k_db k) id = [] ->
    exists t, get_kerl E d id = Ok (Some t)
      /\ signed_event_stream (k_parse K) t = POk [] (map sed_of_event l)
      /\ let k' := fst (respond E K k t) in
         log (k_db k') id = l
         /\ compute_state E (k_db k') id = compute_state E d id
         /\ forall id', id' <> id -> get_kel (k_db k') id' = get_kel (k_db k) id'.
Proof.
  intros hx mk mr Hhx Hmk Hmr E0 K cs id l k E d HK Hser Hq Hid Hl Hne Hs Hnd Hk.
  destruct (log_text hx (palt (cbor_message (read_key_event hx)) mk) (palt (cbor_message (read_receipt hx)) mr) Hhx) with (E := with_cbor E0) (d := d) (id := id) (l := l) as (t & Ht & Hp);
    [apply palt_refuses; [apply cbor_refuses_text|assumption]..|exact Hl|exact Hs|].
  change (read_event_type hx _ _) with (read_formats hx mk mr) in Hp. rewrite <- HK in Hp.
  exists t. split; [exact Ht|]. split; [exact Hp|]. cbv zeta.
  assert (HserE : forall m x, e_ser_event E m <> Err x).
  { intros m x. unfold E. cbn [with_formats e_ser_event with_json with_cbor]. destruct (si_kind (em_info m)); [discriminate|apply Hser|discriminate]. }
  destruct (C25_partial E cs id l (k_db k) HserE Hq Hid Hl Hne Hnd Hk) as (Ha & Hlog & Hst).
  assert (Hseal : Forall (fun e => sem_seal e = None) l).
  { eapply Forall_impl; [|exact Hs]. intros e He. apply He. }
  destruct (converted_log l Hnd Hseal) as [Hcv Hpn].
  assert (G : forall i, get_kel (k_db (fst (respond E K k t))) i = get_kel (run E (k_db k) (ProcProofs2.submit l)) i).
  { intros i. rewrite (C61_logs_partial E K k t [] (map sed_of_event l) Hp Hpn); rewrite Hcv, <- submit_process; [reflexivity|].
    now apply accepts_quiet. }
  split; [|split].
  - unfold log in *. rewrite G. exact Hlog.
  - rewrite (compute_state_ext E (run E (k_db k) (ProcProofs2.submit l)) _ id (G id)). exact Hst.
  - intros id' Hd'. rewrite G. apply (run_submit_other E l (k_db k) id id'); [|exact Hd'].
    intros e He. destruct (reach_good E cs id l Hid Hl) as (s & Hg & _). destruct Hg as [Hf _].
    rewrite Forall_forall in Hf. exact (Hf e He).
Qed.
Print Assumptions C122_logs_of_any_format_transfer.

(** ** C123: streams *)
(** A message as it is sent: an event or receipt in JSON or CBOR, and its attachments. *)
Definition sent_ok (d : SignedEventData) : Prop :=
  type_readable (sed_event d) /\ (exists b, ser_formats (sed_event d) = Ok b /\ addressable b)
  /\ Forall (fun a => att_fits a /\ att_small a) (sed_atts d).
Definition in_cbor (d : SignedEventData) : Prop := type_kind (sed_event d) = Some CBOR.
Definition C123_statement : Prop :=
  forall (hx : bytes -> option N) (mk : bytes -> pres EventMessage) (mr : bytes -> pres ReceiptMessage),
    reads_hex hx -> refuses_map mk -> refuses_text mk -> refuses_text mr ->
  forall ds, Forall sent_ok ds ->
  exists t, oconcat (sed_cesr ser_formats) ds = Ok t /\ signed_event_stream (read_formats hx mk mr) t = POk [] ds.
Section Streams.
  Context (hx : bytes -> option N) (mk : bytes -> pres EventMessage) (mr : bytes -> pres ReceiptMessage).
  Context (Hhx : reads_hex hx) (Hmap : refuses_map mk) (Hmk : refuses_text mk) (Hmr : refuses_text mr).
  Notation rd := (read_formats hx mk mr).
  Lemma sent_reads d : sent_ok d -> exists b, ser_formats (sed_event d) = Ok b /\ b <> [] /\ forall r, rd (b ++ r) = POk r (sed_event d).
  Proof.
    intros (Hr & (b & Hb & Hl) & _). exists b. split; [exact Hb|]. unfold ser_formats in Hb.
    destruct (sed_event d) as [m|c|q|p]; cbn [type_readable] in Hr; try contradiction.
    - destruct (si_kind (em_info m)); cbv iota in Hb; [|discriminate|].
      + assert (b = Json.json (event_val m)) by congruence. subst b. split; [|intros r; now apply event_in_json].
        destruct (event_opens m) as [t ->]. discriminate.
      + assert (b = cbor (event_val m)) by congruence. subst b. split; [discriminate|intros r; now apply event_in_cbor].
    - destruct (si_kind (rct_info c)); cbv iota in Hb; [|discriminate|].
      + assert (b = Json.json (receipt_val c)) by congruence. subst b. split; [|intros r; now apply receipt_in_json].
        destruct (receipt_opens c) as [t ->]. discriminate.
      + assert (b = cbor (receipt_val c)) by congruence. subst b. split; [discriminate|intros r; now apply receipt_in_cbor].
  Qed.
  Lemma json_sent_fits d : sent_ok d -> ~ in_cbor d -> data_fits rd ser_formats d.
  Proof.
    intros H Hj. destruct (sent_reads d H) as (b & Hb & _ & Hrd). destruct H as (_ & _ & Ha). split; [now exists b|]. split; [|exact Ha].
    intros b' Hb'. assert (b' = b) by congruence. subst b'. unfold in_cbor, type_kind, ser_formats in *. destruct (sed_event d) as [m|c|q|p]; try discriminate.
    - destruct (si_kind (em_info m)); [|discriminate|now destruct Hj]. assert (b = Json.json (event_val m)) by congruence. subst b. apply event_opens.
    - destruct (si_kind (rct_info c)); [|discriminate|now destruct Hj]. assert (b = Json.json (receipt_val c)) by congruence. subst b. apply receipt_opens.
  Qed.
  Lemma first_read d : sent_ok d -> forall r, ends r -> exists t, sed_cesr ser_formats d = Ok t /\ t <> [] /\ signed_message rd (t ++ r) = POk r d.
  Proof.
    intros H r Hr. destruct (sent_reads d H) as (b & Hb & Hne & Hrd). destruct H as (_ & _ & Ha).
    destruct (attachments_read rd _ Ha r Hr) as (t & E & Ht). exists (b ++ t). unfold sed_cesr. rewrite E, Hb. split; [reflexivity|]. split.
    - intros Q. apply app_eq_nil in Q. now destruct Q.
    - unfold signed_message. rewrite <- app_assoc, Hrd. cbn [pbnd]. unfold many0. rewrite Ht by (rewrite app_length; lia).
      cbn [pbnd]. now destruct d.
  Qed.
  Lemma rd_nil : rd [] = PErr.
  Proof. unfold read_formats, read_event_type, palt, key_event_message, receipt_message, palt. cbn [json_message skip_ws cbor_message read_cbor]. now rewrite (proj1 Hmk), (proj1 Hmr). Qed.
  Lemma sed_prefix d : sent_ok d -> exists b t, sed_cesr ser_formats d = Ok (b ++ t) /\ ser_formats (sed_event d) = Ok b.
  Proof.
    intros (_ & (b & Hb & _) & Ha). destruct (attachments_read rd _ Ha (bstr "{") (json_ends _ (ex_intro _ [] eq_refl))) as (t & E & _).
    exists b, t. unfold sed_cesr. now rewrite E, Hb.
  Qed.
  Lemma attachments_fail x y r l : valid_utf8 [x; y] = false -> Forall (fun a => att_fits a /\ att_small a) l ->
    exists t, oconcat to_cesr l = Ok t /\ forall fuel, List.length t < fuel -> many0_f attachment fuel (t ++ [x; y] ++ r) = PFail.
  Proof.
    intros Hu. assert (Hf : attachment ([x; y] ++ r) = PFail).
    { rewrite attachment_eq. unfold attachment_body. rewrite take_app by reflexivity. cbn [pbnd]. now rewrite Hu. }
    induction 1 as [|a l [Hfa Hs] Hl IH].
    - exists []. split; [reflexivity|]. intros [|fuel] Hl; [cbn in Hl; lia|].
      change (([] : bytes) ++ [x; y] ++ r) with ([x; y] ++ r). cbn [many0_f]. now rewrite Hf.
    - destruct IH as (t & E & Ht). pose proof (att_write a Hfa Hs) as Hw. exists (att_text a ++ t).
      split; [cbn [oconcat]; rewrite Hw, E; reflexivity|]. intros [|fuel] Hl'; [lia|].
      apply to_cesr_ne in Hw. rewrite app_length in Hl'. rewrite <- app_assoc. cbn [many0_f]. rewrite att_read by exact Hfa.
      match goal with |- (if ?b then _ else _) = _ => replace b with false by (rewrite !app_length; lia) end.
      rewrite Ht by lia. reflexivity.
  Qed.
  Lemma stream_fails x y r : valid_utf8 [x; y] = false -> forall ds d, sent_ok d -> Forall sent_ok ds -> Forall (fun z => ~ in_cbor z) ds ->
    exists t, oconcat (sed_cesr ser_formats) (d :: ds) = Ok t
      /\ forall fuel, List.length t < fuel -> many0_f (signed_message rd) fuel (t ++ [x; y] ++ r) = PFail.
  Proof.
    intros Hu. induction ds as [|d2 ds IH]; intros d Hd Hds Hj.
    - destruct (sent_reads d Hd) as (b & Hb & Hne & Hrd). destruct Hd as (_ & _ & Ha).
      destruct (attachments_fail x y r _ Hu Ha) as (t & E & Ht). exists (b ++ t). split.
      + cbn [oconcat]. unfold sed_cesr. rewrite E, Hb. cbn [obind]. now rewrite app_nil_r.
      + intros [|fuel] Hl; [lia|]. cbn [many0_f]. unfold signed_message. rewrite <- app_assoc, Hrd. cbn [pbnd]. unfold many0.
        rewrite Ht by (rewrite app_length; lia). reflexivity.
    - pose proof (Forall_inv Hds) as H2. pose proof (Forall_inv_tail Hds) as Hds'. pose proof (Forall_inv Hj) as J2. pose proof (Forall_inv_tail Hj) as Hj'. cbn beta in J2.
      destruct (IH d2 H2 Hds' Hj') as (t & Et & Ht).
      assert (He : ends (t ++ [x; y] ++ r)).
      { apply json_ends. cbn [oconcat] in Et. destruct (sed_prefix d2 H2) as (b & u & Es & Hb). rewrite Es in Et. cbn [obind] in Et.
        apply obind_ok in Et. destruct Et as (z & _ & Et). injection Et as <-.
        destruct (json_sent_fits d2 H2 J2) as (_ & Hjs & _). destruct (Hjs b Hb) as [w ->].
        exists (w ++ u ++ z ++ [x; y] ++ r). now rewrite <- !app_assoc. }
      destruct (first_read d Hd _ He) as (u & Eu & Hne & Hr). exists (u ++ t). split.
      + change (oconcat (sed_cesr ser_formats) (d :: d2 :: ds)) with (let? a := sed_cesr ser_formats d in let? c := oconcat (sed_cesr ser_formats) (d2 :: ds) in Ok (a ++ c)).
        now rewrite Eu, Et.
      + intros [|fuel] Hl; [lia|]. cbn [many0_f]. rewrite <- app_assoc, Hr.
        assert (Hlu : List.length u <> 0) by (destruct u; [now destruct Hne|discriminate]).
        match goal with |- (if ?b then _ else _) = _ => replace b with false by (rewrite !app_length; lia) end.
        rewrite Ht by (rewrite app_length in Hl; lia). reflexivity.
  Qed.
  Lemma cbor_begins d b : in_cbor d -> ser_formats (sed_event d) = Ok b -> exists w, b = [xbf; x61] ++ w.
  Proof.
    unfold in_cbor, type_kind, ser_formats. destruct (sed_event d) as [m|c|q|p]; try discriminate.
    - destruct (si_kind (em_info m)); try discriminate. intros _ H. assert (b = cbor (event_val m)) by congruence. subst b. eexists. reflexivity.
    - destruct (si_kind (rct_info c)); try discriminate. intros _ H. assert (b = cbor (receipt_val c)) by congruence. subst b. eexists. reflexivity.
  Qed.
End Streams.
Lemma oconcat_app {A} (f : A -> out bytes) l1 l2 a b : oconcat f l1 = Ok a -> oconcat f l2 = Ok b -> oconcat f (l1 ++ l2) = Ok (a ++ b).
Proof.
  revert a. induction l1 as [|x l IH]; intros a H1 H2; cbn [oconcat app] in *.
  - injection H1 as <-. exact H2.
  - apply obind_ok in H1. destruct H1 as (u & Hu & H1). apply obind_ok in H1. destruct H1 as (v & Hv & H1). injection H1 as <-.
    rewrite Hu. cbn [obind]. rewrite (IH v Hv H2). cbn [obind]. now rewrite app_assoc.
Qed.
(** Only the first message of a stream may be in CBOR. *)
Theorem C123_first_in_cbor_partial :
  forall (hx : bytes -> option N) (mk : bytes -> pres EventMessage) (mr : bytes -> pres ReceiptMessage),
    reads_hex hx -> refuses_map mk -> refuses_text mk -> refuses_text mr ->
  forall d ds, sent_ok d -> Forall sent_ok ds -> Forall (fun x => ~ in_cbor x) ds ->
  exists t, oconcat (sed_cesr ser_formats) (d :: ds) = Ok t /\ signed_event_stream (read_formats hx mk mr) t = POk [] (d :: ds).
Proof.
  intros hx mk mr Hhx Hmap Hmk Hmr d ds Hd Hds Hj.
  assert (Hf : Forall (data_fits (read_formats hx mk mr) ser_formats) ds).
  { rewrite Forall_forall in *. intros x Hx. apply json_sent_fits; auto. }
  destruct (stream_read (read_formats hx mk mr) ser_formats ds Hf [] eq_refl (rd_nil hx mk mr Hmk Hmr)) as (t & Et & He & Ht).
  destruct (first_read hx mk mr Hhx Hmap Hmk d Hd _ He) as (u & Eu & Hu & Hr).
  exists (u ++ t). split; [cbn [oconcat]; rewrite Eu, Et; reflexivity|].
  unfold signed_event_stream, many0. rewrite app_nil_r in *. cbn [many0_f]. rewrite Hr.
  assert (Hlu : List.length u <> 0) by (destruct u; [now destruct Hu|discriminate]).
  match goal with |- (if ?b then _ else _) = _ => replace b with false by (rewrite !app_length; lia) end.
  rewrite Ht by (rewrite app_length; lia). reflexivity.
Qed.
Print Assumptions C123_first_in_cbor_partial.
(** A CBOR message anywhere later makes the reader refuse the whole stream; the node does not
    process even the messages before it. *)
Theorem C123_later_cbor_drops_everything :
  forall (hx : bytes -> option N) (mk : bytes -> pres EventMessage) (mr : bytes -> pres ReceiptMessage),
    reads_hex hx -> refuses_map mk -> refuses_text mk -> refuses_text mr ->
  forall d ds c more t, sent_ok d -> Forall sent_ok ds -> Forall (fun x => ~ in_cbor x) ds -> sent_ok c -> in_cbor c ->
    oconcat (sed_cesr ser_formats) (d :: ds ++ [c]) = Ok t ->
    signed_event_stream (read_formats hx mk mr) (t ++ more) = PFail
    /\ forall (E : Env) (K : KEnv) (k : Keri), k_parse K = read_formats hx mk mr ->
       exists e, respond E K k (t ++ more) = (k, Err e).
Proof.
  intros hx mk mr Hhx Hmap Hmk Hmr d ds c more t Hd Hds Hj Hc Hic Ht.
  destruct (sed_prefix hx mk mr c Hc) as (b & u & Es & Hb). destruct (cbor_begins c b Hic Hb) as (w & ->).
  destruct (stream_fails hx mk mr Hhx Hmap Hmk xbf x61 (w ++ u ++ more) eq_refl ds d Hd Hds Hj) as (t1 & E1 & H1).
  assert (Q : t = t1 ++ [xbf; x61] ++ w ++ u).
  { assert (X : oconcat (sed_cesr ser_formats) ((d :: ds) ++ [c]) = Ok (t1 ++ [xbf; x61] ++ w ++ u)).
    { apply oconcat_app; [exact E1|]. cbn [oconcat]. rewrite Es. cbn [obind]. now rewrite app_nil_r, <- app_assoc. }
    change ((d :: ds) ++ [c]) with (d :: ds ++ [c]) in X. congruence. }
  assert (F : signed_event_stream (read_formats hx mk mr) (t ++ more) = PFail).
  { subst t. unfold signed_event_stream, many0. rewrite <- !app_assoc. apply H1. rewrite !app_length. lia. }
  split; [exact F|]. intros E K k HK. exists (EDeserialize "parse"). unfold respond. rewrite HK, F. reflexivity.
Qed.
Print Assumptions C123_later_cbor_drops_everything.

(** ** Cases *)
Definition w_ev : EventMessage :=
  mkEM (mkSI 1 0 500 CBOR) (jd x01) (IdBasic (jk x11)) 0
    (Icp (mkIcp (mkKC (Simple 1) [jk x11] (Some (jd x21))) (mkIWC 0 []) [bstr "EO"] [])).
Definition w_signed : SignedEventMessage :=
  mkSEM w_ev [mkASP 0 (mkSSP Ed25519Sha512 (repeat x11 32 ++ toy_digest Blake3_256 (cbor (event_val w_ev))))] None.
Definition w_rct : ReceiptMessage := mkRct (mkSI 1 0 145 CBOR) (jd x01) j_id 7.
Lemma w_readable : event_readable w_ev.
Proof.
  split; [split; [split; reflexivity|vm_compute; discriminate]|]. split; [apply jd_readable|]. split; [apply jkid_readable|]. split; [unfold u64; vm_compute; discriminate|].
  split; [|split; [|split; [|split; [|split]]]];
  cbn [data_keys data_digests data_ids data_numbers data_thresholds data_strings data_kc data_seals opt_list flat_map app map em_data w_ev icp_kc kc_keys kc_next kc_threshold icp_wc iwc_witnesses iwc_tally icp_data icp_config seal_digest seal_ids seal_numbers];
  all_of; first [apply jk_readable|apply jd_readable|reflexivity|unfold threshold_readable, u64; vm_compute; discriminate].
Qed.
Lemma w_rct_readable : receipt_readable w_rct.
Proof.
  split; [split; [split; reflexivity|vm_compute; discriminate]|].
  split; [apply jd_readable|]. split; [apply jid_readable|unfold u64; vm_compute; discriminate].
Qed.
Lemma w_sig_fits : let a := AttachedSignatures (sem_sigs w_signed) in att_fits a /\ att_small a.
Proof.
  cbv zeta. unfold att_fits, att_small, counted, small, w_signed. cbn [sem_sigs]. set (x := repeat x11 32 ++ _).
  assert (L : List.length x = 64) by (unfold x; rewrite app_length, toy_digest_len; reflexivity).
  split; (split; [cbn; lia|]); (apply Forall_cons; [|apply Forall_nil]); [|vm_compute; reflexivity].
  unfold sig_fits, asp_sized. cbn [asp_sig asp_index ssp_sig ssp_code]. split; [exact L|].
  vm_compute; reflexivity.
Qed.
Lemma no_key_map : refuses_map no_key.
Proof. intros s. reflexivity. Qed.
Example C122_example :
  event_readable w_ev /\ si_kind (em_info w_ev) = CBOR /\ receipt_readable w_rct /\ si_kind (rct_info w_rct) = CBOR
  /\ addressable (cbor (event_val w_ev)) /\ addressable (cbor (receipt_val w_rct)) /\ refuses_map no_key /\ refuses_text no_key
  /\ (forall m x, e_ser_event etoy m <> Err x)
  /\ travels w_signed /\ SpecProc.is_delegated (sem_msg w_signed) = false
  /\ quiet (with_formats etoy) db_empty [CProcess (MEvent w_signed)] = true
  /\ get_kel (run (with_formats etoy) db_empty [CProcess (MEvent w_signed)]) (IdBasic (jk x11)) = Some [w_signed].
Proof.
  apply conj; [exact w_readable|]. apply conj; [reflexivity|]. apply conj; [exact w_rct_readable|]. apply conj; [reflexivity|].
  apply conj; [apply N.leb_le; vm_compute; reflexivity|]. apply conj; [apply N.leb_le; vm_compute; reflexivity|].
  apply conj; [exact no_key_map|]. apply conj; [exact no_key_refuses|]. apply conj; [intros m x Hx; discriminate Hx|].
  apply conj.
  { split; [exact w_readable|]. split; [reflexivity|]. split; [apply Forall_cons; [exact j_eo_simple|apply Forall_nil]|].
    split; [apply w_sig_fits|]. split; [apply w_sig_fits|reflexivity]. }
  apply conj; [reflexivity|]. apply conj; vm_compute; reflexivity.
Qed.
(** a receipt in CBOR, and the inception above; then the same in JSON *)
Definition w_rct_data : SignedEventData := mkSED (ReceiptT w_rct) [].
Definition w_icp_data : SignedEventData := sed_of_event w_signed.
Definition w_json_data : SignedEventData := sed_of_event (mkSEM j_plain j_sig None).
Lemma w_rct_sent : sent_ok w_rct_data.
Proof.
  split; [exact w_rct_readable|]. split; [|apply Forall_nil]. exists (cbor (receipt_val w_rct)). split; [reflexivity|].
  apply N.leb_le; vm_compute; reflexivity.
Qed.
Lemma w_icp_sent : sent_ok w_icp_data.
Proof.
  split; [exact w_readable|]. split; [|apply Forall_cons; [apply w_sig_fits|apply Forall_nil]].
  exists (cbor (event_val w_ev)). split; [reflexivity|]. apply N.leb_le; vm_compute; reflexivity.
Qed.
Lemma w_json_sent : sent_ok w_json_data /\ ~ in_cbor w_json_data.
Proof.
  split; [|intros H; discriminate H]. split; [exact j_plain_readable|]. split; [|apply Forall_cons; [apply j_sig_fits|apply Forall_nil]].
  exists (Json.json (event_val j_plain)). split; [reflexivity|]. apply N.leb_le; vm_compute; reflexivity.
Qed.
Example C123_example :
  sent_ok w_icp_data /\ in_cbor w_icp_data /\ sent_ok w_json_data /\ ~ in_cbor w_json_data /\ sent_ok w_rct_data /\ in_cbor w_rct_data.
Proof.
  split; [exact w_icp_sent|]. split; [reflexivity|]. split; [apply w_json_sent|]. split; [apply w_json_sent|]. split; [exact w_rct_sent|reflexivity].
Qed.
Theorem C123_refuted : ~ C123_statement.
Proof.
  intros H. destruct (H hx0 no_key no_rct hx0_reads no_key_map no_key_refuses no_rct_refuses [w_icp_data; w_rct_data]) as (t & Ht & Hr).
  - apply Forall_cons; [exact w_icp_sent|apply Forall_cons; [exact w_rct_sent|apply Forall_nil]].
  - destruct (C123_later_cbor_drops_everything hx0 no_key no_rct hx0_reads no_key_map no_key_refuses no_rct_refuses w_icp_data [] w_rct_data [] t
      w_icp_sent (Forall_nil _) (Forall_nil _) w_rct_sent eq_refl Ht) as [Hf _].
    rewrite app_nil_r in Hf. rewrite Hf in Hr. discriminate Hr.
Qed.
Print Assumptions C123_refuted.
