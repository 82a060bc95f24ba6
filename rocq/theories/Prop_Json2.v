(** * Events as JSON on the wire: C75, C76, C79, C80. *)
From Coq Require Import ZifyBool ZifyN ZifyNat.
From Verif Require Import Base Base64 Base64Proofs Codes NumFmt NumProofs Types SpecCodec CodecProofs KeyConf Version Cesr CesrProofs SpecCesr CesrProofs2 Message Keri Json JsonRead JsonProofs SpecJson JsonProofs2 JsonProofs3 JsonProofs4 JsonProofs5 JsonProofs6 JsonProofs7 Prop_Version Prop_Message Prop_Json
  State Db Processor Spec SpecProc StateProofs LogProofs ProcProofs ProcProofs2 Prop_Proc SpecKeri KeriProofs KeriProofs2 Prop_Keri Demo.
Notation json := Json.json.

Lemma undashed_simple s : simple_text s -> plain s /\ undashed s.
Proof.
  intros (_ & H & H'). split; [exact H|]. unfold undashed, starts_dash. destruct s as [|c s]; [reflexivity|].
  destruct (Byte.byte_eq_dec c "-"%byte) as [->|]; [|reflexivity]. exfalso. exact (H' s eq_refl).
Qed.
Lemma config_simple d : Forall simple_text (data_config d) -> Forall (fun s => plain s /\ undashed s) (config_of d).
Proof. apply Forall_impl. exact undashed_simple. Qed.
Lemma obj_opens l : l <> [] -> exists t, json (VMap l) = bstr "{""" ++ t.
Proof.
  intros H. destruct l as [|kv l]; [congruence|]. rewrite json_obj, join_members. destruct (member_head kv) as (t & ->).
  exists (t ++ tail_text l ++ bstr "}"). cbn [app]. now rewrite <- app_assoc.
Qed.
Lemma event_opens m : exists t, json (event_val m) = bstr "{""" ++ t.
Proof. apply obj_opens. discriminate. Qed.
Lemma receipt_opens r : exists t, json (receipt_val r) = bstr "{""" ++ t.
Proof. apply obj_opens. discriminate. Qed.

Section Readers.
  Context (hx : bytes -> option N) (bk : bytes -> pres EventMessage) (br : bytes -> pres ReceiptMessage).
  Context (Hhx : reads_hex hx) (Hbk : refuses_text bk) (Hbr : refuses_text br).

  (** ** C76: an event or receipt written as JSON is read back *)
  Lemma c76_event m r : event_readable m -> read_event_type hx bk br (json (event_val m) ++ r) = POk r (KeyEventT m).
  Proof. intros H. unfold read_event_type, palt, key_event_message, pmap, palt. now rewrite event_reads_back. Qed.
  Lemma c76_receipt c r : receipt_readable c -> read_event_type hx bk br (json (receipt_val c) ++ r) = POk r (ReceiptT c).
  Proof.
    intros H. unfold read_event_type, palt at 1, key_event_message, palt at 1. rewrite receipt_no_key_event by assumption.
    destruct (receipt_opens c) as (t & Ht). assert (B : bk (json (receipt_val c) ++ r) = PErr).
    { rewrite Ht. change (bstr "{""") with (bstr "{" ++ bstr """"). rewrite <- !app_assoc. apply (proj2 Hbk). }
    rewrite B. cbn [pmap]. unfold receipt_message, palt. now rewrite receipt_reads_back.
  Qed.
  (** ** C79: an event whose data cannot be read is taken for a receipt *)
  Lemma c79_misread m r :
    version_readable (em_info m) -> sap_readable (em_digest m) -> id_readable (em_prefix m) -> u64 (em_sn m) ->
    Forall rust_string (data_strings (em_data m)) ->
    json_message (read_key_event hx) (json (event_val m) ++ r) = PErr ->
    read_event_type hx bk br (json (event_val m) ++ r) = POk r (ReceiptT (mkRct (em_info m) (em_digest m) (em_prefix m) (em_sn m))).
  Proof.
    intros Hv Hd Hi Hs Hstr H. unfold read_event_type, palt at 1, key_event_message, palt at 1. rewrite H.
    destruct (event_opens m) as (t & Ht). assert (B : bk (json (event_val m) ++ r) = PErr).
    { rewrite Ht. change (bstr "{""") with (bstr "{" ++ bstr """"). rewrite <- !app_assoc. apply (proj2 Hbk). }
    rewrite B. cbn [pmap]. unfold receipt_message, palt. now rewrite event_as_receipt.
  Qed.

  (** ** C75 *)
  Definition ser_json_type (e : EventType) : out bytes := json_event_type (fun _ => Err ESerialization) e.
  Lemma sendable_fits e : sendable e -> data_fits (read_event_type hx bk br) ser_json_type (sed_of_event e).
  Proof.
    intros (H1 & H2 & _ & _ & H3 & H4 & H5). unfold data_fits, sed_of_event. rewrite H5. cbn [sed_event sed_atts].
    assert (Es : ser_json_type (KeyEventT (sem_msg e)) = Ok (json (event_val (sem_msg e)))) by (cbn [ser_json_type json_event_type]; now rewrite H2).
    split; [|split].
    - exists (json (event_val (sem_msg e))). split; [exact Es|]. intros r. now apply c76_event.
    - intros b Hb. assert (b = json (event_val (sem_msg e))) by congruence. subst b. apply event_opens.
    - apply Forall_cons; [split; assumption|apply Forall_nil].
  Qed.
  Lemma signed_cesr E e : sendable e -> e_ser_signed (with_json E) e = sed_cesr ser_json_type (sed_of_event e).
  Proof.
    intros (H1 & H2 & Hs & Hc & H3 & H4 & H5). unfold sed_of_event. rewrite H5. unfold sed_cesr. cbn [sed_event sed_atts oconcat].
    rewrite att_write by assumption. cbn [obind]. unfold ser_json_type, json_event_type. rewrite H2. cbn [obind].
    rewrite app_nil_r. cbn [e_ser_signed with_json]. rewrite att_write by assumption. cbn [obind]. f_equal.
    apply (signed_text _ (sem_sigs e)); [now apply att_write|apply flat_event; [now apply config_simple|exact Hs]|reflexivity].
  Qed.
  Lemma kerl_sendable E l : Forall sendable l -> forall t, oconcat (sed_cesr ser_json_type) (map sed_of_event l) = Ok t ->
    forall more x, kerl_bytes (with_json E) more = Ok x -> kerl_bytes (with_json E) (l ++ more) = Ok (t ++ x).
  Proof.
    induction 1 as [|e l He _ IH]; intros t Ht more x Hx.
    - cbn [map oconcat] in Ht. injection Ht as <-. exact Hx.
    - cbn [map oconcat] in Ht. apply obind_ok in Ht. destruct Ht as (a & Ha & Ht). apply obind_ok in Ht. destruct Ht as (c & Hc & Ht). injection Ht as <-.
      cbn [app kerl_bytes]. rewrite (signed_cesr E e He), Ha. rewrite (IH c Hc more x Hx). cbn [obind]. now rewrite <- app_assoc.
  Qed.
End Readers.

(** ** C75: the log that a node hands out reads back as the log *)
Theorem C75_log_text_partial :
  forall (hx : bytes -> option N) (bk : bytes -> pres EventMessage) (br : bytes -> pres ReceiptMessage),
    reads_hex hx -> refuses_text bk -> refuses_text br ->
  forall (E : Env) (d : Db) (id : IdentifierPrefix) (l : list SignedEventMessage),
    get_kel d id = Some l -> Forall sendable l ->
    exists t, get_kerl (with_json E) d id = Ok (Some t)
      /\ signed_event_stream (read_event_type hx bk br) t = POk [] (map sed_of_event l).
Proof.
  intros hx bk br Hhx Hbk Hbr E d id l Hl Hs.
  destruct (C68_stream_round_trip_partial (read_event_type hx bk br) ser_json_type (map sed_of_event l)) with (r := @nil byte) as (t & Ht & Hr).
  - apply Forall_map. eapply Forall_impl; [|exact Hs]. intros e He. now apply sendable_fits.
  - reflexivity.
  - unfold read_event_type, palt, key_event_message, receipt_message, palt. cbn [json_message skip_ws]. now rewrite (proj1 Hbk), (proj1 Hbr).
  - exists t. rewrite app_nil_r in Hr. split; [|exact Hr]. unfold get_kerl. rewrite Hl.
    pose proof (kerl_sendable E l Hs t Ht [] [] eq_refl) as Q. rewrite !app_nil_r in Q. rewrite Q. reflexivity.
Qed.
Print Assumptions C75_log_text_partial.
(** The full statement: *)
Definition C75_statement : Prop :=
  forall (hx : bytes -> option N) (bk : bytes -> pres EventMessage) (br : bytes -> pres ReceiptMessage),
    reads_hex hx -> refuses_text bk -> refuses_text br ->
  forall (E : Env) (d : Db) (id : IdentifierPrefix) (l : list SignedEventMessage),
    get_kel d id = Some l -> Forall (fun e => event_readable (sem_msg e) /\ si_kind (em_info (sem_msg e)) = JSON
      /\ att_fits (AttachedSignatures (sem_sigs e)) /\ att_small (AttachedSignatures (sem_sigs e)) /\ sem_seal e = None) l ->
    exists t, get_kerl (with_json E) d id = Ok (Some t)
      /\ signed_event_stream (read_event_type hx bk br) t = POk [] (map sed_of_event l).
(** It is false: from the first event with a seal on, the log is lost. *)
Theorem C75_sealed_log_lost :
  forall (hx : bytes -> option N) (bk : bytes -> pres EventMessage) (br : bytes -> pres ReceiptMessage),
    reads_hex hx -> refuses_text bk -> refuses_text br ->
  forall (E : Env) (d : Db) (id : IdentifierPrefix) (l1 l2 : list SignedEventMessage) (e : SignedEventMessage) (t : bytes),
    get_kel d id = Some (l1 ++ e :: l2) -> Forall sendable l1 ->
    data_seals (em_data (sem_msg e)) <> [] -> Forall simple_text (data_config (em_data (sem_msg e))) ->
    att_fits (AttachedSignatures (sem_sigs e)) -> att_small (AttachedSignatures (sem_sigs e)) ->
    get_kerl (with_json E) d id = Ok (Some t) ->
    exists rest, signed_event_stream (read_event_type hx bk br) t = POk rest (map sed_of_event l1) /\ rest <> [].
Proof.
  intros hx bk br Hhx Hbk Hbr E d id l1 l2 e t Hl Hs Hseal Hc Hf Hsm Ht. unfold get_kerl in Ht. rewrite Hl in Ht.
  apply obind_ok in Ht. destruct Ht as (b & Hb & Ht). assert (b = t) by congruence. subst b. clear Ht.
  assert (X : exists y, kerl_bytes (with_json E) (e :: l2) = Ok y).
  { clear - Hb. revert t Hb. induction l1 as [|a l1 IH]; intros t Hb; [eauto|]. cbn [app kerl_bytes] in Hb.
    destruct (e_ser_signed (with_json E) a); [|now apply (IH t)|discriminate]. apply obind_ok in Hb. destruct Hb as (z & Hz & _). exact (IH z Hz). }
  destruct X as (y & Hy). pose proof Hy as Hy'. cbn [kerl_bytes] in Hy'. cbn [e_ser_signed with_json] in Hy'. rewrite att_write in Hy' by assumption. cbn [obind] in Hy'.
  apply obind_ok in Hy'. destruct Hy' as (z & _ & Hy'). assert (Ey : y = keri_to_string (signed_val (sem_msg e) (att_text (AttachedSignatures (sem_sigs e)))) ++ z) by congruence. clear Hy'.
  assert (Hopen : exists u, y = bstr "{""" ++ u).
  { destruct (sealed_event_text (sem_msg e) Hseal (config_simple _ Hc)) as [junk Ej]. rewrite Ey. unfold signed_val. rewrite kser_struct2; [|reflexivity|].
    2:{ rewrite Ej. rewrite !app_comm_cons, !app_assoc. change (bstr "}") with [x7d]. rewrite ends_in_snoc. reflexivity. }
    rewrite Ej. destruct (member_head (sfld "v" (si_str (em_info (sem_msg e))))) as (w & Ew). rewrite Ew. cbn [app]. eexists. reflexivity. }
  assert (Hbad : forall D (read : SerializationInfo -> list (bytes * jval) -> out D), json_message read y = PErr).
  { intros D read. rewrite Ey. apply (sealed_unreadable (sem_msg e) (sem_sigs e)); [now apply att_write|reflexivity|exact Hseal|].
    eapply Forall_impl; [|exact Hc]. intros s Hsimple. split; [exact (proj1 Hsimple)|now apply undashed_simple]. }
  destruct Hopen as (u & Hu).
  assert (Hparse : read_event_type hx bk br y = PErr).
  { unfold read_event_type, palt, key_event_message, receipt_message, palt. rewrite !Hbad.
    assert (B1 : bk y = PErr) by (rewrite Hu; exact (proj2 Hbk (bstr """" ++ u))).
    assert (B2 : br y = PErr) by (rewrite Hu; exact (proj2 Hbr (bstr """" ++ u))). now rewrite B1, B2. }
  destruct (C68_stream_round_trip_partial (read_event_type hx bk br) ser_json_type (map sed_of_event l1)) with (r := y) as (t1 & Ht1 & Hr).
  - apply Forall_map. eapply Forall_impl; [|exact Hs]. intros a Ha. now apply sendable_fits.
  - apply json_ends. now exists u.
  - exact Hparse.
  - rewrite (kerl_sendable E l1 Hs t1 Ht1 _ _ Hy) in Hb. assert (t = t1 ++ y) by congruence. subst t.
    exists y. split; [exact Hr|]. rewrite Hu. discriminate.
Qed.
Print Assumptions C75_sealed_log_lost.
(** readers for the examples *)
Definition hx0 (s : bytes) : option N := match parse_radix 16 u64_max s with Ok n => Some n | _ => None end.
Lemma hx0_reads : reads_hex hx0.
Proof. intros n H. unfold hx0, fmt_hex. rewrite (fmt_parse 16 u64_max n radix16 H). reflexivity. Qed.
Definition no_key : bytes -> pres EventMessage := fun _ => PErr.
Definition no_rct : bytes -> pres ReceiptMessage := fun _ => PErr.
Lemma no_key_refuses : refuses_text no_key. Proof. now split. Qed.
Lemma no_rct_refuses : refuses_text no_rct. Proof. now split. Qed.
Ltac readable_leaf := first [reflexivity | split; [discriminate|reflexivity] | now vm_compute | (vm_compute; repeat split; discriminate) | (vm_compute; repeat split; reflexivity)].
Lemma jd_readable x : sap_readable (jd x). Proof. now split. Qed.
Lemma jk_readable x : bp_readable (jk x). Proof. now split. Qed.
Lemma jid_readable x : id_readable (IdSelfAddressing (jd x)). Proof. split; [reflexivity|]. split; [exact I|reflexivity]. Qed.
Lemma jkid_readable x : id_readable (IdBasic (jk x)). Proof. split; [reflexivity|]. split; [reflexivity|reflexivity]. Qed.
Lemma half_readable : frac_readable (FRat 1 2). Proof. unfold frac_readable, u64. repeat split; try lia; try reflexivity; vm_compute; discriminate. Qed.
Lemma one_readable : frac_readable (FRat 1 1). Proof. unfold frac_readable, u64. repeat split; try lia; try reflexivity; vm_compute; discriminate. Qed.
Lemma j_threshold : threshold_readable (Weighted (WMulti [[FRat 1 2; FRat 1 2]; [FRat 1 1]])).
Proof. split; [discriminate|]. pose proof half_readable. pose proof one_readable. all_of; all_of; assumption. Qed.
Lemma j_head : version_readable (mkSI 1 0 500 JSON). Proof. split; [split; reflexivity|]. vm_compute; discriminate. Qed.
Lemma nt_readable x : bp_readable (mkBP Ed25519NT (repeat x 32)). Proof. now split. Qed.
Lemma j_icp_readable : event_readable j_icp.
Proof.
  split; [exact j_head|]. split; [apply jd_readable|]. split; [apply jid_readable|]. split; [unfold u64; vm_compute; discriminate|].
  split; [|split; [|split; [|split; [|split]]]].
  - cbn [data_keys data_kc opt_list flat_map app em_data j_icp icp_kc kc_keys icp_wc iwc_witnesses]. all_of; first [apply jk_readable|apply nt_readable].
  - cbn [data_digests data_kc data_seals opt_list flat_map app map em_data j_icp icp_kc kc_next icp_data seal_digest ls_prior]. all_of; apply jd_readable.
  - cbn [data_ids data_seals flat_map app em_data j_icp icp_data seal_ids ls_prefix]. all_of; apply jkid_readable.
  - cbn [data_numbers data_seals flat_map app em_data j_icp icp_data icp_wc iwc_tally seal_numbers ls_sn]. all_of; unfold u64; vm_compute; discriminate.
  - cbn [data_thresholds data_kc opt_list map em_data j_icp icp_kc kc_threshold]. all_of. exact j_threshold.
  - cbn [data_strings data_seals flat_map app em_data j_icp icp_data icp_config ls_ilk]. all_of; reflexivity.
Qed.
Lemma j_plain_readable : event_readable j_plain.
Proof.
  split; [exact j_head|]. split; [apply jd_readable|]. split; [apply jid_readable|]. split; [unfold u64; vm_compute; discriminate|].
  split; [|split; [|split; [|split; [|split]]]].
  - cbn [data_keys data_kc opt_list flat_map app em_data j_plain icp_kc kc_keys icp_wc iwc_witnesses]. all_of; first [apply jk_readable|apply nt_readable].
  - cbn [data_digests data_kc data_seals opt_list flat_map app map em_data j_plain icp_kc kc_next icp_data]. all_of; apply jd_readable.
  - cbn [data_ids data_seals flat_map app em_data j_plain icp_data]. all_of.
  - cbn [data_numbers data_seals flat_map app em_data j_plain icp_data icp_wc iwc_tally]. all_of; unfold u64; vm_compute; discriminate.
  - cbn [data_thresholds data_kc opt_list map em_data j_plain icp_kc kc_threshold]. all_of. exact j_threshold.
  - cbn [data_strings data_seals flat_map app em_data j_plain icp_data icp_config]. all_of; reflexivity.
Qed.
Definition j_sig : list AttachedSignaturePrefix := [mkASP 0 (mkSSP Ed25519Sha512 (repeat x01 64)); mkASP 2 (mkSSP Ed25519Sha512 (repeat x02 64))].
Lemma j_sig_fits : att_fits (AttachedSignatures j_sig) /\ att_small (AttachedSignatures j_sig).
Proof.
  unfold att_fits, att_small, counted, small. split; (split; [cbn; lia|]); (apply Forall_cons; [|apply Forall_cons; [|apply Forall_nil]]);
    try (split; vm_compute; reflexivity); vm_compute; reflexivity.
Qed.
Lemma j_eo_simple : simple_text (bstr "EO").
Proof. split; [reflexivity|]. split; [lit_plain|]. intros t H. discriminate H. Qed.
Lemma j_sendable : sendable (mkSEM j_plain j_sig None).
Proof.
  split; [exact j_plain_readable|]. split; [reflexivity|]. split; [reflexivity|]. split; [|split; [apply j_sig_fits|split; [apply j_sig_fits|reflexivity]]].
  apply Forall_cons; [exact j_eo_simple|apply Forall_nil].
Qed.
Definition j_id : IdentifierPrefix := IdSelfAddressing (jd x01).
Example C75_example : Forall sendable [mkSEM j_plain j_sig None; mkSEM j_plain j_sig None]
  /\ get_kel (add_kel (add_kel db_empty (mkSEM j_plain j_sig None) j_id) (mkSEM j_plain j_sig None) j_id) j_id = Some [mkSEM j_plain j_sig None; mkSEM j_plain j_sig None].
Proof. split; [apply Forall_cons; [exact j_sendable|apply Forall_cons; [exact j_sendable|apply Forall_nil]]|vm_compute; reflexivity]. Qed.
Theorem C75_refuted : ~ C75_statement.
Proof.
  intros H. set (e := mkSEM j_icp j_sig None). set (d := add_kel db_empty e j_id).
  assert (Hd : get_kel d j_id = Some ([] ++ e :: [])) by (vm_compute; reflexivity).
  destruct (H hx0 no_key no_rct hx0_reads no_key_refuses no_rct_refuses toy d j_id [e] Hd) as (t & Ht & Hr).
  - apply Forall_cons; [|apply Forall_nil]. split; [exact j_icp_readable|]. split; [reflexivity|]. split; [apply j_sig_fits|]. split; [apply j_sig_fits|reflexivity].
  - destruct (C75_sealed_log_lost hx0 no_key no_rct hx0_reads no_key_refuses no_rct_refuses toy d j_id [] [] e t Hd) as (rest & Hq & Hn);
      [constructor|discriminate|apply Forall_cons; [exact j_eo_simple|apply Forall_nil]|apply j_sig_fits|apply j_sig_fits|exact Ht|].
    rewrite Hr in Hq. discriminate Hq.
Qed.
Print Assumptions C75_refuted.

(** ** C76: an event or a receipt written as JSON is read back, whatever follows *)
Theorem C76_event_round_trip_partial :
  forall (hx : bytes -> option N) (bk : bytes -> pres EventMessage) (br : bytes -> pres ReceiptMessage),
    reads_hex hx -> refuses_text bk -> refuses_text br ->
  forall (E : Env) (m : EventMessage) (t r : bytes),
    event_readable m -> si_kind (em_info m) = JSON -> e_ser_event (with_json E) m = Ok t ->
    read_event_type hx bk br (t ++ r) = POk r (KeyEventT m).
Proof. intros hx bk br Hhx Hbk Hbr E m t r Hm Hk Ht. apply ser_json in Ht; [|exact Hk]. subst t. now apply c76_event. Qed.
Theorem C76_receipt_round_trip_partial :
  forall (hx : bytes -> option N) (bk : bytes -> pres EventMessage) (br : bytes -> pres ReceiptMessage),
    reads_hex hx -> refuses_text bk -> refuses_text br ->
  forall (K : KEnv) (c : ReceiptMessage) (t r : bytes),
    receipt_readable c -> si_kind (rct_info c) = JSON -> k_ser_rct (with_json_k K) c = Ok t ->
    read_event_type hx bk br (t ++ r) = POk r (ReceiptT c).
Proof.
  intros hx bk br Hhx Hbk Hbr K c t r Hm Hk Ht. cbn [k_ser_rct with_json_k] in Ht. rewrite Hk in Ht. assert (t = json (receipt_val c)) by congruence. subst t.
  now apply c76_receipt.
Qed.
(** The full statement is false.  A message that states a size above 65535 is refused: *)
Theorem C76_large_messages_refused :
  forall (hx : bytes -> option N) (bk : bytes -> pres EventMessage) (br : bytes -> pres ReceiptMessage),
    reads_hex hx -> refuses_text bk -> refuses_text br ->
  forall (E : Env) (m : EventMessage) (t r : bytes),
    version_ok (em_info m) -> (65535 < si_size (em_info m) < 16777216)%N -> Forall rust_string (data_strings (em_data m)) ->
    si_kind (em_info m) = JSON -> e_ser_event (with_json E) m = Ok t -> read_event_type hx bk br (t ++ r) = PErr.
Proof.
  intros hx bk br Hhx Hbk Hbr E m t r [Hv1 Hv2] Hsz Hstr Hk Ht. apply ser_json in Ht; [|exact Hk]. subst t.
  assert (V : si_from (si_str (em_info m)) = Err EIntegerParse).
  { destruct (em_info m) as [a b c k]. now apply (C51_large_sizes_refused a b c k Hv1 Hv2). }
  unfold read_event_type, palt, key_event_message, receipt_message, palt. rewrite !event_result by assumption. rewrite V. cbn [custom jerr obind to_pres].
  destruct (event_opens m) as (u & Hu). rewrite Hu, <- app_assoc. change (bstr "{""" ++ u ++ r) with (bstr "{" ++ (bstr """" ++ u ++ r)).
  rewrite (proj2 Hbk), (proj2 Hbr). reflexivity.
Qed.
(** An event with an ECDSA key is read, but as a receipt of itself. *)
Definition ecdsa_event (m : EventMessage) : Prop :=
  version_readable (em_info m) /\ sap_readable (em_digest m) /\ id_readable (em_prefix m) /\ u64 (em_sn m)
  /\ Forall rust_string (data_strings (em_data m)) /\ Forall sap_readable (data_digests (em_data m))
  /\ Forall id_readable (data_ids (em_data m)) /\ Forall u64 (data_numbers (em_data m))
  /\ Forall bp_sized (flat_map kc_keys (opt_list (data_kc (em_data m))))
  /\ Exists (fun k => is_ecdsa (bp_code k) = true) (flat_map kc_keys (opt_list (data_kc (em_data m)))).
Theorem C76_ecdsa_read_as_receipt :
  forall (hx : bytes -> option N) (bk : bytes -> pres EventMessage) (br : bytes -> pres ReceiptMessage),
    reads_hex hx -> refuses_text bk -> refuses_text br ->
  forall (E : Env) (m : EventMessage) (t r : bytes),
    ecdsa_event m -> si_kind (em_info m) = JSON -> e_ser_event (with_json E) m = Ok t ->
    read_event_type hx bk br (t ++ r) = POk r (ReceiptT (mkRct (em_info m) (em_digest m) (em_prefix m) (em_sn m))).
Proof.
  intros hx bk br Hhx Hbk Hbr E m t r (H1 & H2 & H3 & H4 & H5 & H6 & H7 & H8 & H9 & H10) Hk Ht. apply ser_json in Ht; [|exact Hk]. subst t.
  apply c79_misread; try assumption. now apply ecdsa_no_key_event.
Qed.
Definition C76_statement : Prop :=
  forall (hx : bytes -> option N) (bk : bytes -> pres EventMessage) (br : bytes -> pres ReceiptMessage),
    reads_hex hx -> refuses_text bk -> refuses_text br ->
  forall (E : Env) (m : EventMessage) (t r : bytes),
    event_named m -> si_kind (em_info m) = JSON -> e_ser_event (with_json E) m = Ok t ->
    read_event_type hx bk br (t ++ r) = POk r (KeyEventT m).
Definition j_ecdsa : EventMessage :=
  mkEM (mkSI 1 0 500 JSON) (jd x01) j_id 0 (Icp (mkIcp (mkKC (Simple 1) [jk x11; mkBP ECDSAsecp256k1 (repeat x12 33)] None) (mkIWC 0 []) [] [])).
Lemma j_ecdsa_ok : ecdsa_event j_ecdsa.
Proof.
  split; [exact j_head|]. split; [apply jd_readable|]. split; [apply jid_readable|]. split; [unfold u64; vm_compute; discriminate|].
  cbn [data_strings data_digests data_ids data_numbers data_kc data_seals opt_list flat_map map app em_data j_ecdsa icp_kc icp_wc icp_config icp_data kc_keys kc_next iwc_tally].
  split; [all_of|]. split; [all_of|]. split; [all_of|]. split; [all_of; unfold u64; vm_compute; discriminate|].
  split; [all_of; reflexivity|]. apply Exists_cons_tl, Exists_cons_hd. reflexivity.
Qed.
Theorem C76_refuted : ~ C76_statement.
Proof.
  intros H. assert (N : event_named j_ecdsa).
  { split; [split; reflexivity|]. split; [split; [discriminate|reflexivity]|]. split; [split; [discriminate|reflexivity]|].
    split; [|split; [|split; [|split]]]; cbn [data_keys data_strings data_digests data_ids data_thresholds data_kc data_seals opt_list flat_map map app em_data j_ecdsa icp_kc icp_wc icp_config icp_data kc_keys kc_next iwc_witnesses].
    - all_of; discriminate. - all_of. - all_of. - all_of. - intros [Q|[]]. discriminate Q. }
  pose proof (H hx0 no_key no_rct hx0_reads no_key_refuses no_rct_refuses toy j_ecdsa _ [] N eq_refl eq_refl) as Q.
  rewrite (C76_ecdsa_read_as_receipt hx0 no_key no_rct hx0_reads no_key_refuses no_rct_refuses toy j_ecdsa _ [] j_ecdsa_ok eq_refl eq_refl) in Q. discriminate Q.
Qed.
Print Assumptions C76_event_round_trip_partial.
Print Assumptions C76_receipt_round_trip_partial.
Print Assumptions C76_large_messages_refused.
Print Assumptions C76_refuted.
Example C76_example : event_readable j_icp /\ si_kind (em_info j_icp) = JSON /\ receipt_readable (mkRct (mkSI 1 0 145 JSON) (jd x01) j_id 7).
Proof.
  split; [exact j_icp_readable|]. split; [reflexivity|]. split; [split; [split; reflexivity|vm_compute; discriminate]|].
  split; [apply jd_readable|]. split; [apply jid_readable|unfold u64; vm_compute; discriminate].
Qed.
Example C76_large_example : let m := mkEM (mkSI 1 0 65536 JSON) (jd x01) j_id 7 (Ixn (mkIxn (jd x02) [])) in
  version_ok (em_info m) /\ (65535 < si_size (em_info m) < 16777216)%N /\ Forall rust_string (data_strings (em_data m)).
Proof. split; [split; reflexivity|]. split; [split; reflexivity|apply Forall_nil]. Qed.

(** ** C79: a key event is read as a key event or not at all *)
Definition C79_statement : Prop :=
  forall (hx : bytes -> option N) (bk : bytes -> pres EventMessage) (br : bytes -> pres ReceiptMessage),
    reads_hex hx -> refuses_text bk -> refuses_text br ->
  forall (E : Env) (m : EventMessage) (t r rest : bytes) (x : EventType),
    si_kind (em_info m) = JSON -> e_ser_event (with_json E) m = Ok t ->
    read_event_type hx bk br (t ++ r) = POk rest x -> exists m', x = KeyEventT m'.
(** The code tries the readers one after the other, and the one for receipts ignores the rest
    of the fields: whenever an event with a readable head is not read as an event (and nothing
    panics) it is read as a receipt of itself. *)
Theorem C79_unreadable_events_become_receipts :
  forall (hx : bytes -> option N) (bk : bytes -> pres EventMessage) (br : bytes -> pres ReceiptMessage),
    reads_hex hx -> refuses_text bk -> refuses_text br ->
  forall (E : Env) (m : EventMessage) (t r : bytes),
    si_kind (em_info m) = JSON -> e_ser_event (with_json E) m = Ok t ->
    version_readable (em_info m) -> sap_readable (em_digest m) -> id_readable (em_prefix m) -> u64 (em_sn m) ->
    Forall rust_string (data_strings (em_data m)) ->
    read_event_type hx bk br (t ++ r) <> PPanic ->
    (forall rest m', read_event_type hx bk br (t ++ r) <> POk rest (KeyEventT m')) ->
    read_event_type hx bk br (t ++ r) = POk r (ReceiptT (mkRct (em_info m) (em_digest m) (em_prefix m) (em_sn m))).
Proof.
  intros hx bk br Hhx Hbk Hbr E m t r Hk Ht Hv Hd Hi Hs Hstr Hp Hn. apply ser_json in Ht; [|exact Hk]. subst t.
  apply c79_misread; try assumption.
  destruct (json_message (read_key_event hx) (json (event_val m) ++ r)) as [rest m'| | | |] eqn:Q; [exfalso|reflexivity|exfalso..].
  - apply (Hn rest m'). unfold read_event_type, palt at 1, key_event_message, palt at 1. now rewrite Q.
  - unfold json_message in Q. destruct (skip_ws _) as [|c s]; [discriminate Q|]. destruct (c_is c 123); [|discriminate Q]. destruct (obind _ _) as [[? ?]|?|]; discriminate Q.
  - unfold json_message in Q. destruct (skip_ws _) as [|c s]; [discriminate Q|]. destruct (c_is c 123); [|discriminate Q]. destruct (obind _ _) as [[? ?]|?|]; discriminate Q.
  - apply Hp. unfold read_event_type, palt at 1, key_event_message, palt at 1. now rewrite Q.
Qed.
Theorem C79_refuted : ~ C79_statement.
Proof.
  intros H.
  destruct (H hx0 no_key no_rct hx0_reads no_key_refuses no_rct_refuses toy j_ecdsa _ [] _ _ eq_refl eq_refl
    (C76_ecdsa_read_as_receipt hx0 no_key no_rct hx0_reads no_key_refuses no_rct_refuses toy j_ecdsa _ [] j_ecdsa_ok eq_refl eq_refl)) as (m' & Q).
  discriminate Q.
Qed.
(** Events whose parts have the sizes of their algorithms and that use no ECDSA key are read
    as what they are. *)
Theorem C79_no_confusion_partial :
  forall (hx : bytes -> option N) (bk : bytes -> pres EventMessage) (br : bytes -> pres ReceiptMessage),
    reads_hex hx -> refuses_text bk -> refuses_text br ->
  forall (E : Env) (m : EventMessage) (t r rest : bytes) (x : EventType),
    event_readable m -> si_kind (em_info m) = JSON -> e_ser_event (with_json E) m = Ok t ->
    read_event_type hx bk br (t ++ r) = POk rest x -> x = KeyEventT m /\ rest = r.
Proof.
  intros hx bk br Hhx Hbk Hbr E m t r rest x Hm Hk Ht Hx.
  rewrite (C76_event_round_trip_partial hx bk br Hhx Hbk Hbr E m t r Hm Hk Ht) in Hx.
  now assert (x = KeyEventT m /\ rest = r) by (split; congruence).
Qed.
Example C79_example :
  version_readable (em_info j_ecdsa) /\ (forall rest m', read_event_type hx0 no_key no_rct (json (event_val j_ecdsa)) <> POk rest (KeyEventT m'))
  /\ read_event_type hx0 no_key no_rct (json (event_val j_ecdsa)) <> PPanic.
Proof.
  split; [exact j_head|].
  pose proof (C76_ecdsa_read_as_receipt hx0 no_key no_rct hx0_reads no_key_refuses no_rct_refuses toy j_ecdsa _ [] j_ecdsa_ok eq_refl eq_refl) as Q.
  rewrite app_nil_r in Q. rewrite Q. split; [intros rest m'|]; discriminate.
Qed.
Print Assumptions C79_no_confusion_partial.
Print Assumptions C76_ecdsa_read_as_receipt.
Print Assumptions C79_unreadable_events_become_receipts.
Print Assumptions C79_refuted.
