(** * Prop_Receipts: the digest in a receipt (C139).

    Receipts come from [ReceiptBuilder] ([receipt_with E K pk npk l]: the default, the settings [l]
    in order, [build()]; [pk], [npk] are the key pairs of the default event), from
    [Keri::make_rct] and from [Keri::make_ntr]. *)
From Verif Require Import Base Base64 Codes NumFmt Types KeyConf SpecSig State Db Processor Cesr Message Keri Builder Json
  Spec SpecProc SpecRules SpecRules2 SpecCodec SpecJson JsonProofs JsonProofs2 Receipts SpecReceipts
  StateProofs LogProofs LogTheorems LogTheorems2 RulesProofs ReceiptsProofs Prop_Rules Demo Prop_Keri.

(** ** C139: a receipt names the event it is about by the event's digest *)
(** The receipt [c] was made for the event message [m]. *)
Definition made_for (E : Env) (K : KEnv) (m : EventMessage) (c : ReceiptMessage) : Prop :=
  (exists pk npk l, set_event l = Some m /\ receipt_with E K pk npk l = Ok c)
  \/ (exists k k' r, make_rct E K k m = (k', Ok r) /\ tr_body r = c)
  \/ (exists k k' r, make_ntr E K k m = (k', Ok r) /\ nr_body r = c).
Definition C139_statement : Prop :=
  forall E K m c, made_for E K m c ->
    rct_prefix c = em_prefix m /\ rct_sn c = em_sn m /\ digest_of_event E m (rct_digest c).

(** Identifier and sequence number are those of the event; the digest is that of the event's
    serialization. *)
Theorem C139_names_position_partial :
  forall E K m c, made_for E K m c ->
    rct_prefix c = em_prefix m /\ rct_sn c = em_sn m
    /\ exists ser, e_ser_event E m = Ok ser
         /\ sap_digest (rct_digest c) = e_digest E (sap_code (rct_digest c)) ser.
Proof.
  intros E K m c [(pk & npk & l & Hl & H)|[(k & k' & r & H & <-)|(k & k' & r & H & <-)]].
  - destruct (receipt_with_ok E K pk npk l c m Hl H) as (ser & b & Hs & _ & _ & ->).
    cbn [rct_prefix rct_sn rct_digest sap_digest sap_code]. eauto.
  - destruct (make_rct_body E K k m k' r H) as (ser & Hs & Hd & Hp & Hn). rewrite Hd. cbn [derive sap_digest sap_code]. eauto.
  - destruct (make_ntr_body E K k m k' r H) as (ser & Hs & Hd & Hp & Hn). rewrite Hd. cbn [derive sap_digest sap_code]. eauto.
Qed.
Print Assumptions C139_names_position_partial.

(** For JSON events this is never a digest of the event: the event's own digest, and every other
    digest by which the library recognises an event, is taken over the text with the digest
    blanked out. An event whose digest is right is recognised by the digest in a receipt of it only
    if the hash function takes two given, different texts to one value. *)
Theorem C139_never_the_events_digest :
  forall E0 K m c, let E := with_json E0 in
    si_kind (em_info m) = JSON -> made_for E K m c ->
    (forall data, e_deriv_data E m = Ok data -> em_digest m = derive E (sap_code (em_digest m)) data) ->
    digest_of_event E m (rct_digest c) ->
    exists ser data, e_ser_event E m = Ok ser /\ e_deriv_data E m = Ok data /\ ser <> data
      /\ e_digest E (sap_code (rct_digest c)) ser = e_digest E (sap_code (rct_digest c)) data.
Proof.
  cbv zeta. intros E0 K m c Hk Hm Hown Hd.
  destruct (C139_names_position_partial _ _ _ _ Hm) as (_ & _ & ser & Hs & Hg).
  assert (Hx : exists data, e_deriv_data (with_json E0) m = Ok data).
  { cbn [e_deriv_data with_json]. rewrite Hk. eauto. }
  destruct Hx as (data & Hx). exists ser, data. split; [exact Hs|]. split; [exact Hx|].
  split; [exact (texts_differ E0 m ser data Hk Hs Hx)|]. rewrite <- Hg.
  destruct Hd as [He|(_ & _ & data' & Hx' & He)].
  - specialize (Hown data Hx). rewrite <- He, Hown. reflexivity.
  - rewrite Hx in Hx'. injection Hx' as <-. symmetry. exact He.
Qed.
Print Assumptions C139_never_the_events_digest.

(** Nobody notices: a receipt with any digest in it is accepted as the same receipt with any other. *)
Theorem C139_digest_is_not_read :
  forall E cs r g,
    let d := run E db_empty cs in
    let r' := mkTRct (mkRct (rct_info (tr_body r)) g (rct_prefix (tr_body r)) (rct_sn (tr_body r))) (tr_seal r) (tr_sigs r) in
    (exists d' s, process E d (MTransferableRct r) = (d', Ok s)) <-> (exists d' s, process E d (MTransferableRct r') = (d', Ok s)).
Proof.
  cbv zeta. intros E cs [b seal sigs] g. cbn [tr_body tr_seal tr_sigs process].
  unfold process_validator_receipt. cbn [tr_body tr_seal tr_sigs rct_prefix rct_sn].
  destruct (get_event_at_sn _ _ _) as [ev|]; [|split; intros (? & ? & H); discriminate H].
  destruct (let? kc := _ in _) as [[|]|e|]; try (split; intros (? & ? & H); discriminate H).
  assert (Q : forall x, compute_state E (add_receipt_t (run E db_empty cs) x (rct_prefix b)) (rct_prefix b)
                   = compute_state E (run E db_empty cs) (rct_prefix b)) by reflexivity.
  rewrite !Q. split; intros (d' & s & H); apply (f_equal snd) in H; cbn [snd] in H; rewrite H; eauto.
Qed.
Print Assumptions C139_digest_is_not_read.

(** *** The builder *)
(** What it builds, exactly: digest, place, format and stated size as asked. *)
Theorem C139_builder :
  forall E K pk npk l m c,
    set_event l = Some m -> receipt_with E K pk npk l = Ok c ->
    exists ser b, e_ser_event E m = Ok ser
      /\ let g := or_else (set_derivation l) Blake3_256 in let f := or_else (set_format l) JSON in
         computable g
         /\ k_ser_rct K (mkRct (si_new f 0) (mkSAP g (e_digest E g ser)) (em_prefix m) (em_sn m)) = Ok b
         /\ c = mkRct (si_new f (List.length b)) (mkSAP g (e_digest E g ser)) (em_prefix m) (em_sn m).
Proof.
  intros E K pk npk l m c Hl H. destruct (receipt_with_ok E K pk npk l c m Hl H) as (ser & b & Hs & Ha & Hb & Hc).
  exists ser, b. split; [exact Hs|]. cbv zeta. split; [|split; [exact Hb|exact Hc]].
  destruct (or_else (set_derivation l) Blake3_256); try discriminate Ha; exact I.
Qed.
Print Assumptions C139_builder.
(** Asked for one of the two broken algorithms, it aborts. *)
Theorem C139_builder_panics :
  forall E K pk npk l m ser,
    set_event l = Some m -> e_ser_event E m = Ok ser -> (exists m0, build E K (builder_new E TIcp pk npk) = Ok m0) ->
    ~ computable (or_else (set_derivation l) Blake3_256) -> receipt_with E K pk npk l = Panic.
Proof. exact receipt_with_panics. Qed.
Print Assumptions C139_builder_panics.
(** A receipt it builds for an event on record, with the signatures and the seal it needs, is accepted. *)
Theorem C139_built_receipts_are_accepted :
  forall E K cs pk npk l m c ser seal sigs,
    let d := run E db_empty cs in let logs := fun id => log_of (log d id) in
    em_prefix m <> id_default -> es_prefix seal <> id_default ->
    (forall x, In x (logs (es_prefix seal)) -> exists y, e_deriv_data E x = Ok y) ->
    (forall x kc, In x (logs (es_prefix seal)) -> est_keys x = Some kc -> rational_threshold (kc_threshold kc)) ->
    set_event l = Some m -> receipt_with E K pk npk l = Ok c ->
    In m (logs (em_prefix m)) -> e_ser_event E m = Ok ser -> signed_by_sealed_keys E logs seal ser sigs ->
    exists d' s, process E d (MTransferableRct (mkTRct c seal sigs)) = (d', Ok s).
Proof.
  cbv zeta. intros E K cs pk npk l m c ser seal sigs H1 H2 H3 H4 Hl Hc Hin Hs Hsig.
  destruct (receipt_with_ok E K pk npk l c m Hl Hc) as (ser' & b & _ & _ & _ & ->).
  apply (C90_receipt_accepted_exactly_when_allowed E cs); cbn [tr_body tr_seal rct_prefix]; auto.
  exists m, ser. cbn [tr_body tr_seal tr_sigs rct_prefix rct_sn]. auto.
Qed.
Print Assumptions C139_built_receipts_are_accepted.

(** ** Refuted, and hypotheses met *)
Definition asked_rct : list RSetting := [RFormat JSON; REvent a_icp; RDerivation SHA3_256; REvent a_rot; RDerivation Blake3_256].
Definition rct_built : ReceiptMessage := of_ok (rct_of a_icp) (receipt_with toy ktoy (repeat x01 32) (repeat x02 32) asked_rct).
Example C139_built : receipt_with toy ktoy (repeat x01 32) (repeat x02 32) asked_rct = Ok rct_built
  /\ snd (process toy demo (MTransferableRct (mkTRct rct_built (tr_seal b_rct) (tr_sigs b_rct)))) = snd (process toy demo (MTransferableRct b_rct))
  /\ (exists s, snd (process toy demo (MTransferableRct b_rct)) = Ok s)
  /\ receipt_with toy ktoy (repeat x01 32) (repeat x02 32) [REvent a_rot; RDerivation (Blake2B256 [])] = Panic.
Proof. ex_vm. Qed.
(** with a checksum for a digest function *)
Definition checksum (b : bytes) : N := fold_left (fun n x => (n + b2n x) mod 251)%N b 0%N.
Definition sums : Env :=
  mkEnv (fun g b => repeat (n2b (checksum b)) (digest_bytes g)) (e_verify_ed toy) (e_verify_ecdsa toy) (e_ser_event toy) (e_ser_signed toy)
    (e_deriv_data toy) (e_ser_reply toy) (e_deriv_reply toy) (e_ser_query toy).
Definition z_icp : EventMessage :=
  let dig := mkSAP Blake3_256 (e_digest sums Blake3_256 (toy_deriv a_icp)) in mkEM info0 dig (IdSelfAddressing dig) 0 (em_data a_icp).
Definition z_rct : ReceiptMessage := of_ok (rct_of a_icp) (receipt_with sums ktoy (repeat x01 32) (repeat x02 32) [REvent z_icp]).
Example C139_own_digest : forall data, e_deriv_data sums z_icp = Ok data -> em_digest z_icp = derive sums (sap_code (em_digest z_icp)) data.
Proof. intros data H. change (e_deriv_data sums z_icp) with (@Ok bytes (toy_deriv a_icp)) in H.
  assert (E1 : toy_deriv a_icp = data) by congruence. rewrite <- E1. reflexivity. Qed.
Theorem C139_refuted : ~ C139_statement.
Proof.
  intros H. assert (Hb : receipt_with sums ktoy (repeat x01 32) (repeat x02 32) [REvent z_icp] = Ok z_rct) by (vm_compute; reflexivity).
  assert (Hn : sap_digest (em_digest z_icp) <> sap_digest (rct_digest z_rct)) by (vm_compute; discriminate).
  assert (Hc : sap_code (em_digest z_icp) = sap_code (rct_digest z_rct)) by (vm_compute; reflexivity).
  destruct (H sums ktoy z_icp z_rct) as (_ & _ & [He|(Hn' & _)]).
  - left. exists (repeat x01 32), (repeat x02 32), [REvent z_icp]. apply conj; [reflexivity|exact Hb].
  - apply Hn. now rewrite He.
  - now apply Hn'.
Qed.
Print Assumptions C139_refuted.
(** a JSON event with the right digest, and a receipt built for it; the toy digest function, which
    reads only the end of a text, does confuse the two texts *)
Definition jtoy : Env := with_json toy.
Definition json_said (g : SelfAddressing) (m : EventMessage) : EventMessage :=
  mkEM (em_info m) (mkSAP g (toy_digest g (json_deriv m))) (em_prefix m) (em_sn m) (em_data m).
Definition j_rot : EventMessage := json_said Blake3_256 a_rot.
Example C139_json :
  si_kind (em_info j_rot) = JSON
  /\ (forall data, e_deriv_data jtoy j_rot = Ok data -> em_digest j_rot = derive jtoy (sap_code (em_digest j_rot)) data)
  /\ (exists c, receipt_with jtoy ktoy (repeat x01 32) (repeat x02 32) [REvent j_rot] = Ok c /\ rct_digest c = em_digest j_rot).
Proof.
  apply conj; [reflexivity|]. apply conj.
  - intros data H. assert (E1 : data = json_deriv j_rot).
    { change (e_deriv_data jtoy j_rot) with (@Ok bytes (json_deriv j_rot)) in H. congruence. }
    subst data. change (sap_code (em_digest j_rot)) with Blake3_256. unfold derive.
    change (json_deriv j_rot) with (json_deriv a_rot). reflexivity.
  - ex_vm.
Qed.
