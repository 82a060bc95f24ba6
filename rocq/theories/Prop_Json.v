(** * The JSON text of events: C72, C73, C74. *)
From Coq Require Import ZifyBool ZifyN ZifyNat.
From Verif Require Import Base Base64 Base64Proofs Codes NumFmt NumProofs Types SpecCodec CodecProofs KeyConf State Version Cesr CesrProofs Message Keri Json JsonRead JsonProofs SpecJson JsonProofs2 JsonProofs3 JsonProofs4 JsonProofs5 JsonProofs6 Prop_Version Demo.

(** an event with a location seal, a weighted threshold and a witness, for the examples *)
Definition jd (x : byte) : SelfAddressingPrefix := mkSAP Blake3_256 (repeat x 32).
Definition jk (x : byte) : BasicPrefix := mkBP Ed25519 (repeat x 32).
Definition j_icp : EventMessage :=
  mkEM (mkSI 1 0 500 JSON) (jd x01) (IdSelfAddressing (jd x01)) 0
    (Icp (mkIcp (mkKC (Weighted (WMulti [[FRat 1 2; FRat 1 2]; [FRat 1 1]])) [jk x11; jk x12; jk x13] (Some (jd x21)))
      (mkIWC 1 [mkBP Ed25519NT (repeat x31 32)]) [bstr "EO"]
      [SealLocation (mkLS (IdBasic (jk x14)) 17 (bstr "rot") (jd x22)); SealDigest (jd x23); SealRoot (jd x24)])).
Definition j_rot : EventMessage :=
  mkEM (mkSI 1 0 500 JSON) (jd x02) (IdSelfAddressing (jd x01)) 1
    (Rot (mkRot (jd x01) (mkKC (Simple 1) [jk x15] None) (mkWC 0 [mkBP Ed25519NT (repeat x31 32)] []) [SealEvent (mkES (IdSelfAddressing (jd x03)) 9 (jd x04))])).
(** the same without seals, as [get_kerl] can write it *)
Definition j_plain : EventMessage :=
  mkEM (mkSI 1 0 500 JSON) (jd x01) (IdSelfAddressing (jd x01)) 0
    (Icp (mkIcp (mkKC (Weighted (WMulti [[FRat 1 2; FRat 1 2]; [FRat 1 1]])) [jk x11; jk x12; jk x13] (Some (jd x21)))
      (mkIWC 1 [mkBP Ed25519NT (repeat x31 32)]) [bstr "EO"] [])).
Ltac all_of := repeat lazymatch goal with
  | |- Forall _ [] => apply Forall_nil
  | |- Forall _ (_ :: _) => apply Forall_cons
  end.
Ltac named := vm_compute; repeat split; try discriminate; try reflexivity.

(** ** C72: the bytes that are signed determine the event *)
Theorem C72_bytes_determine_event_partial :
  forall (E : Env) (m1 m2 : EventMessage) (b1 b2 r1 r2 : bytes),
    si_kind (em_info m1) = JSON -> si_kind (em_info m2) = JSON -> event_named m1 -> event_named m2 ->
    e_ser_event (with_json E) m1 = Ok b1 -> e_ser_event (with_json E) m2 = Ok b2 ->
    b1 ++ r1 = b2 ++ r2 -> m1 = m2 /\ r1 = r2.
Proof.
  intros E m1 m2 b1 b2 r1 r2 K1 K2 N1 N2 S1 S2 H. cbn [e_ser_event with_json] in S1, S2. rewrite K1 in S1. rewrite K2 in S2.
  assert (b1 = json (event_val m1)) by congruence. assert (b2 = json (event_val m2)) by congruence. subst b1 b2.
  now apply event_text_inj.
Qed.
Print Assumptions C72_bytes_determine_event_partial.
(** The full statement, for all events that the types allow. *)
Definition C72_statement : Prop :=
  forall (E : Env) (m1 m2 : EventMessage) (b : bytes),
    si_kind (em_info m1) = JSON -> si_kind (em_info m2) = JSON ->
    e_ser_event (with_json E) m1 = Ok b -> e_ser_event (with_json E) m2 = Ok b -> m1 = m2.
(** It is false for four reasons: a threshold without clauses, an empty commitment, a key of
    Blake2, and two-digit version numbers. *)
Definition j_with (kc : KeyConfig) (v : SerializationInfo) (d : SelfAddressingPrefix) : EventMessage :=
  mkEM v d (IdBasic (jk x11)) 0 (Icp (mkIcp kc (mkIWC 0 []) [] [])).
Theorem C72_same_bytes :
  forall (E : Env) (keys : list BasicPrefix) (n : option SelfAddressingPrefix) (d : SelfAddressingPrefix) (t : SignatureThreshold)
         (v : SerializationInfo) (g dig : bytes), si_kind v = JSON ->
    let ser m := e_ser_event (with_json E) m in
    ser (j_with (mkKC (Weighted (WSingle [])) keys n) v d) = ser (j_with (mkKC (Weighted (WMulti [])) keys n) v d)
    /\ ser (j_with (mkKC t keys None) v d) = ser (j_with (mkKC t keys (Some (mkSAP SHA3_256 []))) v d)
    /\ ser (j_with (mkKC t keys n) v (mkSAP (Blake2B256 g) dig)) = ser (j_with (mkKC t keys n) v (mkSAP (Blake2B256 []) dig))
    /\ ser (j_with (mkKC t keys n) (mkSI 17 0 (si_size v) JSON) d) = ser (j_with (mkKC t keys n) (mkSI 1 16 (si_size v) JSON) d).
Proof.
  intros E keys n d t v g dig Hv ser. unfold ser, with_json, j_with. cbn [e_ser_event em_info si_kind]. rewrite Hv.
  split; [reflexivity|]. split; [reflexivity|]. split; [reflexivity|]. reflexivity.
Qed.
Theorem C72_refuted : ~ C72_statement.
Proof.
  intros H. pose proof (C72_same_bytes toy [jk x11] None (jd x01) (Simple 1) (mkSI 1 0 0 JSON) [] [] eq_refl) as (A & _).
  cbv zeta in A. specialize (H toy (j_with (mkKC (Weighted (WSingle [])) [jk x11] None) (mkSI 1 0 0 JSON) (jd x01))
    (j_with (mkKC (Weighted (WMulti [])) [jk x11] None) (mkSI 1 0 0 JSON) (jd x01)) _ eq_refl eq_refl A eq_refl).
  discriminate H.
Qed.
Print Assumptions C72_refuted.
Lemma j_icp_named : event_named j_icp.
Proof.
  split; [split; reflexivity|]. split; [split; [discriminate|reflexivity]|]. split; [split; [discriminate|reflexivity]|].
  split; [|split; [|split; [|split]]].
  - cbn [data_keys data_kc opt_list flat_map app em_data j_icp icp_kc kc_keys icp_wc iwc_witnesses]. all_of; discriminate.
  - cbn [data_digests data_kc data_seals opt_list flat_map app map em_data j_icp icp_kc kc_next icp_data seal_digest ls_prior]. all_of; (split; [discriminate|reflexivity]).
  - cbn [data_ids data_seals flat_map app em_data j_icp icp_data seal_ids ls_prefix]. all_of; (split; [discriminate|reflexivity]).
  - cbn [data_strings data_seals flat_map app em_data j_icp icp_data icp_config ls_ilk]. all_of; reflexivity.
  - cbn. intros [H|[]]. discriminate H.
Qed.
Example C72_example : event_named j_icp /\ si_kind (em_info j_icp) = JSON /\ e_ser_event (with_json toy) j_icp <> Err ESerialization.
Proof. split; [exact j_icp_named|]. split; [reflexivity|discriminate]. Qed.

(** ** C73: a built event states its own length *)
(** digests have the sizes of their algorithms *)
Definition digests_sized (E : Env) : Prop := forall g b, List.length (e_digest E g b) = digest_bytes g.
Lemma ok_inj {A} (a b : A) : Ok a = Ok b -> a = b.
Proof. congruence. Qed.
Lemma obind_ok {A B} (x : out A) (f : A -> out B) y : obind x f = Ok y -> exists a, x = Ok a /\ f a = Ok y.
Proof. destruct x as [a| |]; cbn; intros H; try discriminate. eauto. Qed.
Lemma incept_ok E K data g f m : incept_self_addressing E K data g f = Ok m ->
  exists b0 b1, k_dummy_icp K (si_new f 0) g data = Ok b0 /\ k_dummy_icp K (si_new f (List.length b0)) g data = Ok b1
    /\ m = mkEM (si_new f (List.length b0)) (derive E g b1) (IdSelfAddressing (derive E g b1)) 0 data.
Proof.
  unfold incept_self_addressing. intros H. apply obind_ok in H as (b0 & H0 & H). apply obind_ok in H as (b1 & H1 & H).
  destruct (digest_aborts g); [discriminate H|]. exists b0, b1. split; [exact H0|]. split; [exact H1|]. congruence.
Qed.
Lemma said_ok E K p sn data f g m : said_to_message E K p sn data f g = Ok m ->
  exists b0 b1, k_dummy_event K (si_new f 0) g p sn data = Ok b0 /\ k_dummy_event K (si_new f (List.length b0)) g p sn data = Ok b1
    /\ m = mkEM (si_new f (List.length b0)) (derive E g b1) p sn data.
Proof.
  unfold said_to_message. intros H. apply obind_ok in H as (b0 & H0 & H). apply obind_ok in H as (b1 & H1 & H).
  destruct (digest_aborts g); [discriminate H|]. exists b0, b1. split; [exact H0|]. split; [exact H1|]. congruence.
Qed.
Lemma dummy_icp_json K n g data : k_dummy_icp (with_json_k K) (si_new JSON n) g data = Ok (json (dummy_icp_val (si_new JSON n) g data)).
Proof. reflexivity. Qed.
Lemma dummy_event_json K n g p sn data :
  k_dummy_event (with_json_k K) (si_new JSON n) g p sn data = Ok (json (dummy_event_val (si_new JSON n) g p sn data)).
Proof. reflexivity. Qed.
Lemma incept_shape E K data g m : incept_self_addressing (with_json E) (with_json_k K) data g JSON = Ok m ->
  let info := si_new JSON (List.length (json (dummy_icp_val (si_new JSON 0) g data))) in
  let dig := derive (with_json E) g (json (dummy_icp_val info g data)) in
  m = mkEM info dig (IdSelfAddressing dig) 0 data.
Proof.
  intros H. cbv zeta. apply incept_ok in H as (b0 & b1 & H0 & H1 & ->). rewrite dummy_icp_json in H0.
  apply ok_inj in H0. subst b0. rewrite dummy_icp_json in H1. apply ok_inj in H1. subst b1. reflexivity.
Qed.
Lemma said_shape E K p sn data g m : said_to_message (with_json E) (with_json_k K) p sn data JSON g = Ok m ->
  let info := si_new JSON (List.length (json (dummy_event_val (si_new JSON 0) g p sn data))) in
  m = mkEM info (derive (with_json E) g (json (dummy_event_val info g p sn data))) p sn data.
Proof.
  intros H. cbv zeta. apply said_ok in H as (b0 & b1 & H0 & H1 & ->). rewrite dummy_event_json in H0.
  apply ok_inj in H0. subst b0. rewrite dummy_event_json in H1. apply ok_inj in H1. subst b1. reflexivity.
Qed.
(** what [build] makes *)
Definition inception (d : EventData) : Prop := match d with Icp _ | Dip _ => True | _ => False end.
Lemma built_any E K b m : build E K b = Ok m -> b_format b = JSON ->
  (exists data, inception data /\ incept_self_addressing E K data (b_derivation b) JSON = Ok m)
  \/ (exists p sn data, (inception data -> exists k, p = IdBasic k) /\ said_to_message E K p sn data JSON (b_derivation b) = Ok m).
Proof.
  intros H Hf. unfold build in H. rewrite Hf in H.
  match type of H with obind ?x _ = _ => destruct x as [p|e|]; cbn [obind] in H; [|discriminate H..] end.
  destruct (b_type b); try discriminate H; unfold event_to_message in H.
  - destruct p as [k|d|s]; [|left; eexists; split; [|exact H]; exact I|discriminate H].
    right. eexists _, _, _. split; [|exact H]. intros _. now exists k.
  - right. destruct p; (eexists _, _, _; split; [|exact H]; intros []).
  - right. destruct p; (eexists _, _, _; split; [|exact H]; intros []).
  - left. eexists. split; [|exact H]. exact I.
  - right. destruct p; (eexists _, _, _; split; [|exact H]; intros []).
Qed.
Lemma built E K b m : build (with_json E) (with_json_k K) b = Ok m -> b_format b = JSON ->
  (exists data, inception data /\ incept_self_addressing (with_json E) (with_json_k K) data (b_derivation b) JSON = Ok m)
  \/ (exists p sn data, (inception data -> exists k, p = IdBasic k) /\ said_to_message (with_json E) (with_json_k K) p sn data JSON (b_derivation b) = Ok m).
Proof. apply built_any. Qed.
Lemma ser_json E m t : si_kind (em_info m) = JSON -> e_ser_event (with_json E) m = Ok t -> t = json (event_val m).
Proof. intros K H. cbn [e_ser_event with_json] in H. rewrite K in H. congruence. Qed.
Theorem C73_stated_length_partial :
  forall (E : Env) (K : KEnv) (b : Builder) (m : EventMessage) (t : bytes),
    digests_sized E -> b_format b = JSON -> build (with_json E) (with_json_k K) b = Ok m ->
    e_ser_event (with_json E) m = Ok t -> (N.of_nat (List.length t) < 16777216)%N ->
    si_size (em_info m) = N.of_nat (List.length t).
Proof.
  intros E K b m t HE Hf Hb Ht Hl. destruct (built E K b m Hb Hf) as [(data & _ & H)|(p & sn & data & _ & H)].
  - apply incept_shape in H. cbv zeta in H. set (info := si_new JSON _) in H. set (dig := derive _ _ _) in H. subst m.
    assert (t = json (VMap (head_fields info (event_type data) (sap_str dig) ++ sfld "i" (sap_str dig) :: sfld "s" (fmt_hex 0) :: data_fields data))).
    { apply ser_json in Ht; [exact Ht|reflexivity]. }
    subst t. cbn [em_info]. assert (Ld : List.length (dummy_prefix (b_derivation b)) = List.length (sap_str dig)).
    { unfold dig, derive. symmetry. apply digest_text_len. apply HE. }
    eapply (sizes info (dummy_prefix (b_derivation b)) (sap_str dig) (dummy_prefix (b_derivation b)) (sap_str dig));
      [apply dummy_plain|apply sap_plain|apply dummy_plain|apply sap_plain|exact Ld|exact Ld|reflexivity|reflexivity|exact Hl].
  - apply said_shape in H. cbv zeta in H. set (info := si_new JSON _) in H. set (dig := derive _ _ _) in H. subst m.
    assert (t = json (VMap (head_fields info (event_type data) (sap_str dig) ++ sfld "i" (id_str p) :: sfld "s" (fmt_hex sn) :: data_fields data))).
    { apply ser_json in Ht; [exact Ht|reflexivity]. }
    subst t. cbn [em_info]. assert (Ld : List.length (dummy_prefix (b_derivation b)) = List.length (sap_str dig)).
    { unfold dig, derive. symmetry. apply digest_text_len. apply HE. }
    eapply (sizes info (dummy_prefix (b_derivation b)) (sap_str dig) (id_str p) (id_str p));
      [apply dummy_plain|apply sap_plain|apply id_plain|apply id_plain|exact Ld|reflexivity|reflexivity|reflexivity|exact Hl].
Qed.
Print Assumptions C73_stated_length_partial.



(** ** C74: the digest of a built event is that of its text, with the digest (and in an
    inception the identifier) blanked out; the receiver hashes the same bytes *)
Definition blank (n : nat) : bytes := repeat "#"%byte n.
Lemma event_layout v t d i l : plain d -> plain i ->
  json (VMap (head_fields v t d ++ sfld "i" i :: l))
  = (bstr "{""v"":" ++ quote (si_str v) ++ bstr ",""t"":" ++ quote (tag_str t) ++ bstr ",""d"":""") ++ d ++ bstr """,""i"":""" ++ i
    ++ bstr """" ++ tail_text l ++ bstr "}".
Proof.
  intros Hd Hi. rewrite json_obj. unfold head_fields. cbn [app]. rewrite join_members. unfold tail_text. cbn [flat_map]. fold (tail_text l).
  unfold member, sfld, fld. cbn [fst snd json]. rewrite (quote_plain d Hd), (quote_plain i Hi).
  change (quote (bstr "v")) with (bstr """v"""). change (quote (bstr "t")) with (bstr """t"""). change (quote (bstr "d")) with (bstr """d"""). change (quote (bstr "i")) with (bstr """i""").
  generalize (quote (si_str v)) (quote (tag_str t)) (tail_text l). intros a b c. cbn [bstr list_byte_of_string]. cbn.
  repeat (rewrite <- !app_assoc; cbn [app]). reflexivity.
Qed.
Theorem C74_digest_of_the_text_partial :
  forall (E : Env) (K : KEnv) (b : Builder) (m : EventMessage) (t : bytes),
    digests_sized E -> b_format b = JSON -> build (with_json E) (with_json_k K) b = Ok m -> e_ser_event (with_json E) m = Ok t ->
    (inception (em_data m) -> forall k, em_prefix m <> IdBasic k) ->
    let said := sap_str (em_digest m) in let blanks := blank (List.length said) in
    exists data, e_deriv_data (with_json E) m = Ok data
      /\ em_digest m = mkSAP (b_derivation b) (e_digest E (b_derivation b) data)
      /\ match em_data m with
         | Icp _ | Dip _ => em_prefix m = IdSelfAddressing (em_digest m)
             /\ exists x y z, t = x ++ said ++ y ++ said ++ z /\ data = x ++ blanks ++ y ++ blanks ++ z
         | _ => exists x z, t = x ++ said ++ z /\ data = x ++ blanks ++ z
         end.
Proof.
  intros E K b m t HE Hf Hb Ht Hno said blanks.
  assert (Hd : forall g msg, dummy_prefix g = blank (List.length (sap_str (derive (with_json E) g msg)))).
  { intros g msg. unfold derive. rewrite digest_text_len by apply HE. unfold dummy_prefix, blank. now rewrite repeat_length. }
  destruct (built E K b m Hb Hf) as [(data & Hi & H)|(p & sn & data & Hi & H)].
  - apply incept_shape in H. cbv zeta in H.
    change (dummy_icp_val (si_new JSON (List.length (json (dummy_icp_val (si_new JSON 0) (b_derivation b) data)))) (b_derivation b) data)
      with (dummy_icp_sized JSON (b_derivation b) data) in H.
    assert (Kj : si_kind (em_info m) = JSON) by now rewrite H.
    assert (Hdig : em_digest m = derive (with_json E) (b_derivation b) (json (dummy_icp_sized JSON (b_derivation b) data))) by now rewrite H.
    assert (Hdata : em_data m = data) by now rewrite H.
    assert (Hp : em_prefix m = IdSelfAddressing (em_digest m)) by now rewrite H.
    assert (Hcode : sap_code (em_digest m) = b_derivation b) by now rewrite Hdig.
    assert (Hinfo : em_info m = si_new JSON (List.length (json (dummy_icp_val (si_new JSON 0) (b_derivation b) data)))) by now rewrite H.
    assert (Hsn : em_sn m = 0%N) by now rewrite H.
    exists (json (dummy_icp_sized JSON (b_derivation b) data)).
    split. { cbn [e_deriv_data with_json]. rewrite Kj. unfold json_deriv. rewrite Hdata, Hcode. destruct data; first [reflexivity|contradiction]. }
    split; [exact Hdig|]. apply (ser_json E m t Kj) in Ht. rewrite Hdata.
    assert (G : em_prefix m = IdSelfAddressing (em_digest m) /\
      exists x y z, t = x ++ said ++ y ++ said ++ z /\ json (dummy_icp_sized JSON (b_derivation b) data) = x ++ blanks ++ y ++ blanks ++ z).
    { split; [exact Hp|].
      unfold event_val, event_fields in Ht. rewrite Hp, Hsn, Hdata in Ht. cbn [id_str] in Ht. fold said in Ht.
      rewrite event_layout in Ht by apply sap_plain.
      unfold dummy_icp_sized. rewrite <- Hinfo. unfold dummy_icp_val. rewrite event_layout by apply dummy_plain.
      replace (dummy_prefix (b_derivation b)) with blanks by (unfold blanks, said; rewrite Hdig; symmetry; apply Hd).
      exact (ex_intro _ _ (ex_intro _ _ (ex_intro _ _ (conj Ht eq_refl)))). }
    destruct data; first [exact G|contradiction].
  - apply said_shape in H. cbv zeta in H. set (info := si_new JSON _) in H.
    assert (Kj : si_kind (em_info m) = JSON) by now rewrite H.
    assert (Hdig : em_digest m = derive (with_json E) (b_derivation b) (json (dummy_event_val info (b_derivation b) p sn data))) by now rewrite H.
    assert (Hdata : em_data m = data) by now rewrite H.
    assert (Hp : em_prefix m = p) by now rewrite H.
    assert (Hsn : em_sn m = sn) by now rewrite H.
    assert (Hinfo : em_info m = info) by now rewrite H.
    assert (Hcode : sap_code (em_digest m) = b_derivation b) by now rewrite Hdig.
    assert (Hnot : ~ inception data).
    { intros Q. destruct (Hi Q) as (k & Hk). rewrite <- Hdata in Q. apply (Hno Q k). congruence. }
    exists (json (dummy_event_val info (b_derivation b) p sn data)).
    split. { cbn [e_deriv_data with_json]. rewrite Kj. unfold json_deriv. rewrite Hdata, Hcode, Hinfo, Hp, Hsn. destruct data; first [reflexivity|now destruct Hnot]. }
    split; [exact Hdig|]. apply (ser_json E m t Kj) in Ht. rewrite Hdata.
    assert (G : exists x z, t = x ++ said ++ z /\ json (dummy_event_val info (b_derivation b) p sn data) = x ++ blanks ++ z).
    { unfold event_val, event_fields in Ht. rewrite Hp, Hsn, Hdata, Hinfo in Ht. fold said in Ht.
      rewrite event_layout in Ht by first [apply sap_plain|apply id_plain].
      unfold dummy_event_val, event_fields. rewrite event_layout by first [apply dummy_plain|apply id_plain].
      replace (dummy_prefix (b_derivation b)) with blanks by (unfold blanks, said; rewrite Hdig; symmetry; apply Hd).
      exact (ex_intro _ _ (ex_intro _ _ (conj Ht eq_refl))). }
    destruct data; first [exact G|now destruct Hnot].
Qed.
Print Assumptions C74_digest_of_the_text_partial.
(** an environment for the examples: digests of the right sizes, JSON *)
Definition sized_digest (g : SelfAddressing) (b : bytes) : bytes := firstn (digest_bytes g) (rev b ++ repeat x55 64).
Definition jtoy : Env := mkEnv sized_digest toy_verify toy_verify (e_ser_event toy) (e_ser_signed toy) (e_deriv_data toy) (e_ser_reply toy) (e_deriv_reply toy) (e_ser_query toy).
Definition kfail : KEnv := mkKEnv (fun _ _ _ _ _ => Err ESerialization) (fun _ _ _ => Err ESerialization) (fun _ => Err ESerialization) (fun _ => Err ESerialization)
  (fun _ => PErr) (fun _ _ => Err ESerialization).
Lemma jtoy_sized : digests_sized jtoy.
Proof. intros g b. cbn [e_digest jtoy]. unfold sized_digest. rewrite firstn_length, app_length, repeat_length. destruct g; cbn [digest_bytes]; lia. Qed.
Definition j_build (t : EventTypeTag) (p : IdentifierPrefix) (seals : list Seal) (g : SelfAddressing) : Builder :=
  mkB t p 1 (Simple 1) (Simple 1) [jk x11; jk x12] [jk x13] (jd x01) seals (IdSelfAddressing (jd x02)) 1 [mkBP Ed25519NT (repeat x31 32)] [] [] JSON g.
Definition said_id : IdentifierPrefix := IdSelfAddressing (jd x01).
Example C73_example :
  forall t, In t [TIcp; TRot; TIxn; TDip; TDrt] -> exists m b,
    build (with_json jtoy) (with_json_k kfail) (j_build t said_id [SealDigest (jd x05)] SHA3_512) = Ok m
    /\ e_ser_event (with_json jtoy) m = Ok b /\ List.length b = N.to_nat (si_size (em_info m)) /\ (exists r, r = em_prefix m /\ r <> IdBasic (jk x11)).
Proof.
  intros t [<- | [<- | [<- | [<- | [<- | []]]]]]; (eexists; eexists; split; [vm_compute; reflexivity|]; split; [vm_compute; reflexivity|];
    split; [vm_compute; reflexivity|]; eexists; split; [reflexivity|vm_compute; discriminate]).
Qed.
(** The full statement, without a bound on the length, is false: six digits. *)
Definition C73_statement : Prop :=
  forall (E : Env) (K : KEnv) (b : Builder) (m : EventMessage) (t : bytes),
    digests_sized E -> b_format b = JSON -> build (with_json E) (with_json_k K) b = Ok m -> e_ser_event (with_json E) m = Ok t ->
    si_size (em_info m) = N.of_nat (List.length t).
Lemma fmt_hex_7 n : (16777216 <= n)%N -> 7 <= List.length (fmt_hex n).
Proof.
  intros H. unfold fmt_hex, fmt_radix. rewrite rev_length. apply (rev_digits_len_ge 16 radix16 6); [|exact H].
  enough (6 <= N.size_nat n) by lia. pose proof (size_bound n) as B. destruct (Nat.le_gt_cases 6 (N.size_nat n)) as [L|L]; [exact L|exfalso].
  assert (2 ^ N.of_nat (N.size_nat n) <= 2 ^ 6)%N by (apply N.pow_le_mono_r; lia). change (2 ^ 6)%N with 64%N in *. lia.
Qed.
Lemma in_tail kv l : In kv l -> List.length (json (snd kv)) <= List.length (tail_text l).
Proof.
  induction l as [|a l IH]; [intros []|]. unfold tail_text in *. cbn [flat_map]. rewrite app_length. cbn [List.length].
  intros [-> | H]; [|specialize (IH H); lia]. pose proof (member_length kv). lia.
Qed.
Lemma seq_longer l : List.length l <= List.length (json (VSeq l)).
Proof.
  cbn [json]. rewrite !app_length. enough (List.length l <= List.length (join (bstr ",") (map json l))) by lia.
  induction l as [|a l IH]; [cbn; lia|]. cbn [map join]. destruct (map json l) as [|x r] eqn:E.
  - destruct l; [|discriminate E]. pose proof (json_length a). cbn [List.length]. lia.
  - rewrite !app_length. cbn [List.length] in *. change (List.length (bstr ",")) with 1. lia.
Qed.
(** an interaction with many seals *)
Theorem C73_long_events_misstate :
  forall (E : Env) (K : KEnv) (seals : list Seal) (m : EventMessage) (t : bytes),
    digests_sized E -> (16777216 <= N.of_nat (List.length seals))%N ->
    build (with_json E) (with_json_k K) (j_build TIxn said_id seals Blake3_256) = Ok m ->
    e_ser_event (with_json E) m = Ok t -> (si_size (em_info m) < N.of_nat (List.length t))%N.
Proof.
  intros E K seals m t HE Hn Hb Ht.
  change (said_to_message (with_json E) (with_json_k K) said_id 1 (Ixn (mkIxn (jd x01) seals)) JSON Blake3_256 = Ok m) in Hb.
  apply said_shape in Hb. cbv zeta in Hb. set (b0 := json (dummy_event_val (si_new JSON 0) Blake3_256 said_id 1 (Ixn (mkIxn (jd x01) seals)))) in Hb.
  set (info := si_new JSON (List.length b0)) in Hb. set (dig := derive (with_json E) Blake3_256 _) in Hb.
  assert (Kj : si_kind (em_info m) = JSON) by now rewrite Hb.
  apply (ser_json E m t Kj) in Ht. rewrite Hb in Ht. unfold event_val, event_fields in Ht. cbn [em_info em_data em_digest em_prefix em_sn] in Ht.
  assert (Ld : List.length (dummy_prefix Blake3_256) = List.length (sap_str dig)) by (unfold dig, derive; symmetry; apply digest_text_len, HE).
  pose proof (fields_len (si_new JSON 0) info (dummy_prefix Blake3_256) (sap_str dig) (id_str said_id) (id_str said_id) (event_type (Ixn (mkIxn (jd x01) seals))) (fmt_hex 1)
    (data_fields (Ixn (mkIxn (jd x01) seals))) (dummy_plain _) (sap_plain _) (id_plain _) (id_plain _) Ld eq_refl) as F.
  rewrite <- Ht in F. change (json (VMap (head_fields (si_new JSON 0) (event_type (Ixn (mkIxn (jd x01) seals))) (dummy_prefix Blake3_256) ++
    sfld "i" (id_str said_id) :: sfld "s" (fmt_hex 1) :: data_fields (Ixn (mkIxn (jd x01) seals))))) with b0 in F.
  rewrite (si_new_len 0) in F by reflexivity.
  assert (Lb : (16777216 <= N.of_nat (List.length b0))%N).
  { enough (List.length seals <= List.length b0) by lia. unfold b0, dummy_event_val, event_fields. rewrite event_layout by first [apply dummy_plain|apply id_plain].
    rewrite !app_length. pose proof (in_tail (seals_fld seals) (sfld "s" (fmt_hex 1) :: data_fields (Ixn (mkIxn (jd x01) seals)))) as Q0.
    assert (Q1 : In (seals_fld seals) (sfld "s" (fmt_hex 1) :: data_fields (Ixn (mkIxn (jd x01) seals)))) by (right; right; left; reflexivity).
    specialize (Q0 Q1). cbn [snd seals_fld fld] in Q0.
    pose proof (seq_longer (map seal_val seals)) as Q. rewrite map_length in Q. lia. }
  assert (Li : 18 <= List.length (si_str info)).
  { unfold si_str, info, si_new, pad0. cbn [si_major si_minor si_size si_kind]. rewrite !app_length, repeat_length.
    pose proof (fmt_hex_7 _ Lb). change (List.length (bstr "KERI")) with 4. change (List.length (fmt_hex 1)) with 1. change (List.length (fmt_hex 0)) with 1.
    change (List.length (format_str JSON)) with 4. change (List.length (bstr "_")) with 1. lia. }
  rewrite Hb. cbn [em_info]. unfold info, si_new. cbn [si_size]. lia.
Qed.
Lemma many_seals n : exists l : list Seal, (n <= N.of_nat (List.length l))%N.
Proof. exists (repeat (SealDigest (jd x05)) (N.to_nat n)). rewrite repeat_length, N2Nat.id. lia. Qed.
Theorem C73_refuted : ~ C73_statement.
Proof.
  intros H. destruct (many_seals 16777216) as (seals & L). set (b := j_build TIxn said_id seals Blake3_256).
  assert (exists m, build (with_json jtoy) (with_json_k kfail) b = Ok m) as [m Hm] by (eexists; reflexivity).
  assert (exists t, e_ser_event (with_json jtoy) m = Ok t) as [t Ht].
  { exists (json (event_val m)). change (said_to_message (with_json jtoy) (with_json_k kfail) said_id 1 (Ixn (mkIxn (jd x01) seals)) JSON Blake3_256 = Ok m) in Hm.
    apply said_shape in Hm. cbv zeta in Hm. assert (Kj : si_kind (em_info m) = JSON) by now rewrite Hm. cbn [e_ser_event with_json]. now rewrite Kj. }
  pose proof (C73_long_events_misstate jtoy kfail seals m t jtoy_sized L Hm Ht) as Q.
  rewrite (H jtoy kfail b m t jtoy_sized eq_refl Hm Ht) in Q. lia.
Qed.
Print Assumptions C73_refuted.

(** C74 for every inception: false when the identifier is a key.  The builder hashes the text
    with the key in place, the receiver blanks it. *)
Definition C74_statement : Prop :=
  forall (E : Env) (K : KEnv) (b : Builder) (m : EventMessage),
    digests_sized E -> b_format b = JSON -> build (with_json E) (with_json_k K) b = Ok m ->
    exists data, e_deriv_data (with_json E) m = Ok data /\ em_digest m = mkSAP (b_derivation b) (e_digest E (b_derivation b) data).
(** a "digest" that counts the blanks *)
Definition count_digest (g : SelfAddressing) (b : bytes) : bytes :=
  repeat (n2b (N.of_nat (List.length (filter (fun c => c_is c 35) b)))) (digest_bytes g).
Definition ctoy : Env := mkEnv count_digest toy_verify toy_verify (e_ser_event toy) (e_ser_signed toy) (e_deriv_data toy) (e_ser_reply toy) (e_deriv_reply toy) (e_ser_query toy).
Theorem C74_refuted : ~ C74_statement.
Proof.
  intros H. set (b := j_build TIcp (IdBasic (jk x11)) [] Blake3_256).
  assert (exists m, build (with_json ctoy) (with_json_k kfail) b = Ok m) as [m Hm] by (eexists; vm_compute; reflexivity).
  destruct (H ctoy kfail b m) as (data & H1 & H2); [intros g x; apply repeat_length|reflexivity|exact Hm|].
  revert m Hm H1 H2. assert (forall m, build (with_json ctoy) (with_json_k kfail) b = Ok m ->
    match e_deriv_data (with_json ctoy) m with Ok x => em_digest m <> mkSAP Blake3_256 (e_digest ctoy Blake3_256 x) | _ => True end) as X.
  { intros m Hm. assert (build (with_json ctoy) (with_json_k kfail) b = Ok m) as Hm' by exact Hm. vm_compute in Hm'. injection Hm' as <-. vm_compute. discriminate. }
  intros m Hm H1 H2. specialize (X m Hm). rewrite H1 in X. exact (X H2).
Qed.
Print Assumptions C73_long_events_misstate.
Print Assumptions C72_same_bytes.
Print Assumptions C74_refuted.
