(** * Event logs in the bytes of the store: C116, C117. *)
From Coq Require Import ZifyBool ZifyN ZifyNat.
From Verif Require Import Base Base64 Base64Proofs Codes NumFmt NumProofs Types SpecCodec CodecProofs CodecProofs2 KeyConf Version Cesr CesrProofs Message Keri Json JsonRead JsonQuery JsonProofs SpecJson JsonProofs2 JsonProofs3 JsonProofs4 JsonProofs5 JsonProofs8 JsonProofs9 JsonProofs10 JsonProofs11 Prop_Version Prop_Json Prop_Json2 Prop_Json3 Prop_Json4 Cbor CborProofs
  State Db Processor Spec StateProofs LogProofs SpecKeri Prop_Proc Prop_Keri Demo EventStore SpecEventStore EventStoreProofs.
Notation json := Json.json.

(** ** C116: the store gives back the events it was given *)
Theorem C116_log_reads_back :
  forall (hx : bytes -> option N) (l : list (bytes * SignedEventMessage)),
    reads_hex hx -> Forall storable_at l -> fits_64 l ->
    read_log hx (write_log l) = Ok (map (fun x => (fst x, stored (snd x))) l).
Proof. intros hx l Hhx Hs Hf. apply log_back; [exact Hhx|exact Hs|]. eapply held_le; [apply log_length|exact Hf]. Qed.
Print Assumptions C116_log_reads_back.
(** and processing events on a store of bytes is processing them on a store of values *)
Theorem C116_bytes_are_values :
  forall (E : Env) (hx : bytes -> option N) (l : list (bytes * SignedEventMessage)),
    reads_hex hx -> Forall storable_at l -> fits_64 l ->
    snd (run_b E hx bdb_empty l) = snd (run_v E db_empty (map snd l))
    /\ same_store hx (fst (run_b E hx bdb_empty l)) (fst (run_v E db_empty (map snd l)))
    /\ forall id, compute_state_b E hx (fst (run_b E hx bdb_empty l)) id = compute_state E (fst (run_v E db_empty (map snd l))) id.
Proof.
  intros E hx l Hhx Hs Hf. destruct (inv_run E hx Hhx l 0 bdb_empty db_empty inv_empty Hf Hs) as [I R].
  split; [exact R|]. split; [exact (inv_same hx Hhx _ _ _ I Hf)|]. intros id. exact (inv_compute E hx Hhx _ _ _ id I Hf).
Qed.
Print Assumptions C116_bytes_are_values.
(** an event read from text without padded values, with finite thresholds, is storable *)
Theorem C116_read_events_are_storable :
  forall (hx : bytes -> option N) (bk : bytes -> pres EventMessage) (br : bytes -> pres ReceiptMessage) (t rest : bytes) (se : SignedEventMessage),
    hex_u64 hx -> bk t = PErr -> read_event_type hx bk br t = POk rest (KeyEventT (sem_msg se)) ->
    (forall x, has_literal t x -> ~ In "="%byte x) -> Forall finite (data_thresholds (em_data (sem_msg se))) ->
    Forall (fun s => asp_sized s /\ (asp_index s < 63)%N) (sem_sigs se) -> storable se.
Proof.
  intros hx bk br t rest se Hu Bt H Hl Hf Hs. split; [|eapply Forall_impl; [|exact Hs]; intros s [A B]; now apply c45].
  set (m := sem_msg se) in *. unfold read_event_type, palt at 1, key_event_message, palt at 1 in H. rewrite Bt in H.
  assert (J : json_message (read_key_event hx) t = POk rest m).
  { destruct (json_message (read_key_event hx) t); cbn [pmap] in H; try congruence.
    unfold receipt_message, palt in H. destruct (json_message (read_receipt hx) t); cbn [pmap] in H; try discriminate H. destruct (br t); cbn [pmap] in H; discriminate H. }
  clear H. unfold json_message in J. pose proof (skip_ws_suffix t) as St. destruct (skip_ws t) as [|c b]; [discriminate|]. destruct (c_is c 123); [|discriminate].
  apply suffix_cons in St.
  pose proof (top_from t pure) as T. specialize (T ltac:(intros w x r (u & Hs') Hr; split; [exact (read_string_utf8 _ _ _ Hr)|]; apply Hl; now exists u, w, r)).
  specialize (T (fuel_for b) 127 true None b St). destruct (read_top (fuel_for b) 127 true None b) as [[[ov l] r]|e|]; cbn [obind] in J; [|discriminate|discriminate].
  destruct T as (_ & Hall & Hv). destruct ov as [v|]; [|discriminate J]. change (need (Some v)) with (Ok v) in J. cbn [obind] in J.
  destruct (read_key_event hx v l) as [m'|e|] eqn:R; cbn [obind] in J; cbv beta iota in J; try discriminate J. assert (m' = m) by congruence. subst m'.
  destruct Hv as [Hv|(x & v' & Hv & _ & Hx)]; [discriminate|]. assert (v' = v) by congruence. subst v'.
  exact (event_was_got hx Hu v l m (si_from_readable _ _ Hx) Hall R Hf).
Qed.
Print Assumptions C116_read_events_are_storable.

(** a store with one accepted inception *)
Definition x_env : Env := with_json etoy.
Definition x_time : bytes := bstr "2021-06-01T12:00:00.000000000+02:00".
Definition x_icp : SignedEventMessage := n_signed [SealDigest (jd x05)].
Definition x_id : IdentifierPrefix := em_prefix (sem_msg x_icp).
Definition x_log : list (bytes * SignedEventMessage) := [(x_time, x_icp)].
Definition x_store : BDb := fst (run_b x_env hx0 bdb_empty x_log).
Lemma x_storable : Forall storable_at x_log.
Proof.
  constructor; [|constructor]. split; [vm_compute; reflexivity|]. split.
  - unfold event_stable. cbn [snd x_log x_icp n_signed sem_msg n_ev em_info em_digest em_prefix em_sn em_data].
    apply conj; [apply conj; [apply conj; vm_compute; reflexivity|vm_compute; discriminate]|]. apply conj; [vm_compute; reflexivity|]. apply conj; [vm_compute; reflexivity|]. apply conj; [vm_compute; discriminate|].
    apply conj; [repeat (apply Forall_cons; [vm_compute; reflexivity|]); apply Forall_nil|].
    apply conj; [repeat (apply Forall_cons; [vm_compute; reflexivity|]); apply Forall_nil|].
    apply conj; [repeat (apply Forall_cons; [vm_compute; reflexivity|]); apply Forall_nil|].
    apply conj; [repeat (apply Forall_cons; [vm_compute; discriminate|]); apply Forall_nil|].
    apply conj; [repeat (apply Forall_cons; [vm_compute; discriminate|]); apply Forall_nil|].
    repeat (apply Forall_cons; [vm_compute; reflexivity|]); apply Forall_nil.
  - apply Forall_cons; [vm_compute; reflexivity|apply Forall_nil].
Qed.
Lemma x_fits : fits_64 x_log. Proof. unfold fits_64. apply N.leb_le. vm_compute. reflexivity. Qed.
Example C116_example : Forall storable_at x_log /\ fits_64 x_log
  /\ exists s, snd (run_b x_env hx0 bdb_empty x_log) = [Ok (Some s)] /\ compute_state_b x_env hx0 x_store x_id = Ok (Some s) /\ st_prefix s = x_id /\ st_last_digest s = jd x01.
Proof.
  split; [exact x_storable|]. split; [exact x_fits|]. eexists. apply conj; [vm_compute; reflexivity|]. apply conj; [vm_compute; reflexivity|]. apply conj; vm_compute; reflexivity.
Qed.

(** ** C117: a message that is not accepted leaves every key state as it was *)
Definition C117_statement : Prop :=
  forall (E : Env) (hx : bytes -> option N) (l : list (bytes * SignedEventMessage)) (ts : bytes) (se : SignedEventMessage) (b' : BDb) (e : error),
    reads_hex hx -> fits_64 (l ++ [(ts, se)]) -> rust_string ts -> (forall x, e_ser_event E (sem_msg se) <> Err x) ->
    let b := fst (run_b E hx bdb_empty l) in
    process_event_b E hx b ts se = (b', Err e) ->
    forall id s, id <> id_default -> compute_state_b E hx b id = Ok (Some s) -> compute_state_b E hx b' id = Ok (Some s).
Lemma run_v_run E l : forall d, fst (run_v E d l) = run E d (map (fun se => CProcess (MEvent se)) l).
Proof.
  induction l as [|se l IH]; intros d; [reflexivity|]. cbn [run_v map run fold_left]. unfold run in IH. specialize (IH (fst (process_event E d se))).
  change (call E d (CProcess (MEvent se))) with (fst (process_event E d se)). destruct (process_event E d se) as [d1 o]. cbn [fst] in *. destruct (run_v E d1 l) as [d2 os]. exact IH.
Qed.
(** so it is for events that read back *)
Theorem C117_partial :
  forall (E : Env) (hx : bytes -> option N) (l : list (bytes * SignedEventMessage)) (ts : bytes) (se : SignedEventMessage) (b' : BDb) (e : error),
    reads_hex hx -> fits_64 (l ++ [(ts, se)]) -> Forall storable_at (l ++ [(ts, se)]) -> (forall x, e_ser_event E (sem_msg se) <> Err x) ->
    let b := fst (run_b E hx bdb_empty l) in
    process_event_b E hx b ts se = (b', Err e) ->
    forall id s, em_prefix (sem_msg se) <> id_default -> compute_state_b E hx b id = Ok (Some s) -> compute_state_b E hx b' id = Ok (Some s).
Proof.
  intros E hx l ts se b' e Hhx Hf Hs Hser b Hp id s Hne Hc. apply Forall_app in Hs as [Hl Hx]. apply Forall_cons_iff in Hx as [Hx _].
  unfold fits_64 in Hf. change (held (9 + total_size (l ++ [(ts, se)]))) in Hf. rewrite size_app in Hf.
  assert (T : total_size [(ts, se)] = entry_size (ts, se) + 0) by reflexivity. rewrite T in Hf. clear T.
  assert (Hf0 : held (9 + 0 + total_size l)) by (eapply held_le; [|exact Hf]; clear; lia).
  assert (Hf1 : held (9 + total_size l + entry_size (ts, se))) by (eapply held_le; [|exact Hf]; clear; lia).
  destruct (inv_run E hx Hhx l 0 bdb_empty db_empty inv_empty Hf0 Hl) as [I _]. fold b in I. cbn [plus] in I, Hf0.
  destruct (inv_process E hx Hhx _ b _ ts se I Hf1 Hx) as [I' R]. rewrite Hp in I', R. cbn [fst snd] in I', R. rewrite run_v_run in *.
  set (d := run E db_empty (map (fun se => CProcess (MEvent se)) (map snd l))) in *.
  destruct (process_event E d se) as [d' o] eqn:Pd. cbn [fst snd] in I', R. subst o.
  rewrite (inv_compute E hx Hhx _ _ _ id I Hf0) in Hc. rewrite (inv_compute E hx Hhx _ _ _ id I'); [|eapply held_le; [|exact Hf1]; clear; lia].
  destruct (C20_partial E _ se d' e Hne Hser Pd) as (_ & _ & K). fold d in K.
  assert (G : id <> em_prefix (sem_msg se) \/ get_kel d (em_prefix (sem_msg se)) <> None \/ is_inception (sem_msg se) = false).
  { destruct (IdentifierPrefix_eq_dec id (em_prefix (sem_msg se))) as [Ei|Ne]; [|now left]. right. left. rewrite <- Ei. intros Q. unfold compute_state in Hc. rewrite Q in Hc. discriminate. }
  destruct (K id G) as [_ ->]. exact Hc.
Qed.
Print Assumptions C117_partial.

(** Not in general: anyone can destroy any log.  An interaction that continues the log, signed
    by nobody but carrying one signature with an index of 63 or more (which reads from the
    wire but is stored as text that does not read back), is refused or makes the node panic,
    stays in the log, and from then on every reading of the log panics, for ever. *)
Definition forged (info : SerializationInfo) (dig : SelfAddressingPrefix) (s : IdentifierState) (sig : AttachedSignaturePrefix) : SignedEventMessage :=
  mkSEM (mkEM info dig (st_prefix s) (st_sn s + 1) (Ixn (mkIxn (st_last_digest s) []))) [sig] None.
Theorem C117_anyone_can_destroy_a_log :
  forall (E : Env) (hx : bytes -> option N) (l : list (bytes * SignedEventMessage)) (id : IdentifierPrefix) (s : IdentifierState)
         (info : SerializationInfo) (dig : SelfAddressingPrefix) (sig : AttachedSignaturePrefix) (ts : bytes),
    reads_hex hx -> Forall storable_at l -> rust_string ts -> fits_64 (l ++ [(ts, forged info dig s sig)]) ->
    compute_state_b E hx (fst (run_b E hx bdb_empty l)) id = Ok (Some s) -> st_prefix s = id ->
    asp_sized sig -> (63 <= asp_index sig <= 65535)%N ->
    let b' := fst (process_event_b E hx (fst (run_b E hx bdb_empty l)) ts (forged info dig s sig)) in
    forall later : list (bytes * SignedEventMessage),
      let b := fst (run_b E hx b' later) in
      compute_state_b E hx b id = Panic /\ get_kerl_b E hx b id = Panic
      /\ Forall2 (fun x o => em_prefix (sem_msg (snd x)) = id -> (forall r, o <> Ok r) /\ (is_delegated_event (snd x) = false -> o = Panic))
           later (snd (run_b E hx b' later)).
Proof.
  intros E hx l id s info dig sig ts Hhx Hl Hts Hf Hc Hid Hz Hi b' later b.
  assert (U : unreadable hx b' id).
  { unfold fits_64 in Hf. change (held (9 + total_size (l ++ [(ts, forged info dig s sig)]))) in Hf. rewrite size_app in Hf.
    set (x := forged info dig s sig) in *.
    assert (T : total_size [(ts, x)] = entry_size (ts, x) + 0) by reflexivity. rewrite T in Hf. clear T.
    assert (Hf0 : held (9 + 0 + total_size l)) by (eapply held_le; [|exact Hf]; clear; lia).
    assert (Hf1 : held (9 + total_size l + entry_size (ts, x))) by (eapply held_le; [|exact Hf]; clear; lia).
    destruct (inv_run E hx Hhx l 0 bdb_empty db_empty inv_empty Hf0 Hl) as [I _]. cbn [plus] in I.
    assert (Ha : exists ns, apply_to_state_b E hx (fst (run_b E hx bdb_empty l)) (sem_msg x) = Ok ns).
    { unfold apply_to_state_b. unfold x, forged. cbn [sem_msg em_prefix]. rewrite Hid, Hc. cbn [obind]. unfold apply_msg, check_event_digest, check_digest. cbn [em_data em_digest].
      destruct (SelfAddressing_eq_dec (sap_code dig) (sap_code dig)); [|congruence]. destruct (SAP_eq_dec dig dig); [|congruence]. cbn [obind ok_if].
      unfold apply_event. cbn [em_data em_prefix em_sn]. rewrite Hid. destruct (IdentifierPrefix_eq_dec id id); [|congruence]. rewrite N.ltb_irrefl. cbn [obind]. unfold apply_data, apply_ixn. cbn [obind].
      unfold chain_to. cbn [ixn_prev]. destruct (SAP_eq_dec (st_last_digest s) (st_last_digest s)); [|congruence]. eexists. reflexivity. }
    destruct Ha as [ns Ha].
    assert (Ip : em_prefix (sem_msg x) = id) by exact Hid. rewrite <- Ip. unfold b'.
    refine (breaks E hx _ _ _ ts x ns I Hf1 Hhx _ _ eq_refl Ha).
    - apply entry_fits; [exact Hts|]. cbn. constructor.
    - apply (bad_sig_unreads hx _ sig); [now left|]. intros y Hy. rewrite (c45_big sig Hz Hi) in Hy. discriminate Hy. }
  destruct (run_broken E hx id later b' U) as [G F]. pose proof (unreadable_get hx _ _ _ G U) as U'.
  split; [exact (broken_compute E hx b id U')|]. split; [exact (broken_kerl E hx b id U')|]. exact F.
Qed.
Print Assumptions C117_anyone_can_destroy_a_log.

(** the text of such an event for the store above: no key was needed to write it *)
Definition x_forged_text : bytes :=
  bstr "{""v"":""KERI10JSON000000_"",""t"":""ixn"",""d"":""" ++ sap_str (jd x01) ++ bstr """,""i"":""" ++ id_str x_id
  ++ bstr """,""s"":""1"",""p"":""" ++ sap_str (jd x01) ++ bstr """,""a"":[]}-AABA_" ++ repeat x41 86.
Definition x_sig : AttachedSignaturePrefix := mkASP 63 (mkSSP Ed25519Sha512 (repeat x00 64)).
Definition x_state : IdentifierState := match compute_state_b x_env hx0 x_store x_id with Ok (Some s) => s | _ => state_default end.
Definition x_forged : SignedEventMessage := forged (mkSI 1 0 0 JSON) (jd x01) x_state x_sig.
Example C117_forged_text :
  exists d, signed_message (read_event_type hx0 no_key no_rct) x_forged_text = POk [] d /\ to_message d = Ok (MEvent x_forged).
Proof. eexists. split; vm_compute; reflexivity. Qed.
Example C117_forged_bricks :
  compute_state_b x_env hx0 x_store x_id = Ok (Some x_state)
  /\ exists b', process_event_b x_env hx0 x_store x_time x_forged = (b', Panic) /\ compute_state_b x_env hx0 b' x_id = Panic.
Proof. apply conj; [vm_compute; reflexivity|]. eexists. apply conj; [vm_compute; reflexivity|]. vm_compute. reflexivity. Qed.
Example C117_example :
  Forall storable_at x_log /\ rust_string x_time /\ fits_64 (x_log ++ [(x_time, x_forged)]) /\ st_prefix x_state = x_id /\ asp_sized x_sig /\ (63 <= asp_index x_sig <= 65535)%N.
Proof.
  split; [exact x_storable|]. split; [vm_compute; reflexivity|]. split; [unfold fits_64; apply N.leb_le; vm_compute; reflexivity|]. split; [vm_compute; reflexivity|]. split; [vm_compute; reflexivity|].
  cbn. lia.
Qed.
(** The same with a value that only reads with padding, here a seal, and a signature that is
    well formed: the message is refused with an error. *)
Definition x_padded_text : bytes :=
  bstr "{""v"":""KERI10JSON000000_"",""t"":""ixn"",""d"":""" ++ sap_str (jd x01) ++ bstr """,""i"":""" ++ id_str x_id
  ++ bstr """,""s"":""1"",""p"":""" ++ sap_str (jd x01) ++ bstr """,""a"":[{""d"":""E" ++ repeat x41 42 ++ bstr "=""}]}-AABAA" ++ repeat x41 86.
Definition x_padded : SignedEventMessage :=
  mkSEM (mkEM (mkSI 1 0 0 JSON) (jd x01) x_id 1 (Ixn (mkIxn (jd x01) [SealDigest (mkSAP Blake3_256 (repeat x00 31))]))) [mkASP 0 (mkSSP Ed25519Sha512 (repeat x00 64))] None.
Example C117_padded_text :
  exists d, signed_message (read_event_type hx0 no_key no_rct) x_padded_text = POk [] d /\ to_message d = Ok (MEvent x_padded).
Proof. eexists. apply conj; [vm_compute; reflexivity|]. vm_compute. reflexivity. Qed.
Lemma x_padded_bricks : exists b', process_event_b x_env hx0 x_store x_time x_padded = (b', Err ESignatureVerification) /\ compute_state_b x_env hx0 b' x_id = Panic.
Proof. eexists. apply conj; [vm_compute; reflexivity|]. vm_compute. reflexivity. Qed.
Theorem C117_refuted : ~ C117_statement.
Proof.
  intros H. destruct x_padded_bricks as (b' & Hp & Hb).
  pose proof (H x_env hx0 x_log x_time x_padded b' ESignatureVerification hx0_reads) as K.
  assert (F : fits_64 (x_log ++ [(x_time, x_padded)])) by (unfold fits_64; apply N.leb_le; vm_compute; reflexivity).
  assert (S : forall x, e_ser_event x_env (sem_msg x_padded) <> Err x) by (intros x; vm_compute; discriminate).
  specialize (K F eq_refl S Hp x_id x_state). assert (D : x_id <> id_default) by (vm_compute; discriminate).
  assert (Hc : compute_state_b x_env hx0 x_store x_id = Ok (Some x_state)) by (vm_compute; reflexivity).
  specialize (K D Hc). rewrite Hb in K. discriminate K.
Qed.
Print Assumptions C117_refuted.
