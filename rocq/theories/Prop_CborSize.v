(** * C144: events made in CBOR state their own length and carry the digest of their own bytes. *)
From Coq Require Import ZifyBool ZifyN ZifyNat.
From Verif Require Import Base Base64 Base64Proofs Codes NumFmt NumProofs Types SpecCodec CodecProofs KeyConf State Version Cesr Message Keri
  Json JsonRead SpecJson JsonProofs JsonProofs2 JsonProofs3 JsonProofs4 JsonProofs5 JsonProofs6 Prop_Version Cbor CborWire SpecCborSize Demo Prop_Json.

(** The full statement, for every event that can be made in CBOR. *)
Definition C144_statement : Prop :=
  forall E K g m t, digests_sized E -> made_in_cbor E K g m -> e_ser_event (with_formats E) m = Ok t ->
    si_size (em_info m) = N.of_nat (List.length t)
    /\ exists data, e_deriv_data (with_formats E) m = Ok data /\ em_digest m = mkSAP g (e_digest E g data).

(** ** The bytes of an event, around its digest and its identifier *)
Definition members (l : list (bytes * sval)) : bytes := flat_map (fun kv => cbor_text (fst kv) ++ cbor (snd kv)) l.
Definition before (v : SerializationInfo) (t : EventTypeTag) (n : nat) : bytes :=
  n2b 191 :: members [sfld "v" (si_str v); sfld "t" (tag_str t)] ++ cbor_text (bstr "d") ++ cbor_head 3 (N.of_nat n).
Definition between (n : nat) : bytes := cbor_text (bstr "i") ++ cbor_head 3 (N.of_nat n).
Lemma cbor_layout v t d i l :
  cbor (VMap (head_fields v t d ++ sfld "i" i :: l)) = before v t (List.length d) ++ d ++ between (List.length i) ++ i ++ members l ++ [n2b 255].
Proof.
  cbn [cbor]. fold (members (head_fields v t d ++ sfld "i" i :: l)). unfold head_fields, before, between.
  unfold members. cbn [flat_map app fst snd sfld fld cbor]. unfold cbor_text.
  generalize (flat_map (fun kv => (cbor_head 3 (N.of_nat (List.length (fst kv))) ++ fst kv) ++ cbor (snd kv)) l). intros r.
  rewrite <- !app_assoc. cbn [app]. rewrite ?app_nil_r. reflexivity.
Qed.
Lemma cbor_len_split v t d i l : exists r,
  (forall w d' i', List.length d' = List.length d -> List.length i' = List.length i -> List.length (si_str w) = List.length (si_str v) ->
    List.length (cbor (VMap (head_fields w t d' ++ sfld "i" i' :: l))) = r)
  /\ r = List.length (cbor (VMap (head_fields v t d ++ sfld "i" i :: l))).
Proof.
  eexists. split; [|reflexivity]. intros w d' i' Hd Hi Hv. rewrite !cbor_layout, !app_length, Hd, Hi. f_equal.
  unfold before, members. cbn [List.length flat_map sfld fld fst snd cbor app]. rewrite !app_length. unfold cbor_text. rewrite !app_length, Hv. reflexivity.
Qed.
Lemma cbor_new_len n : (N.of_nat n < 16777216)%N -> List.length (si_str (si_new CBOR n)) = 17.
Proof. intros H. unfold si_str, si_new. cbn [si_major si_minor si_size si_kind]. rewrite !app_length, size_text by exact H. reflexivity. Qed.
(** a longer version text makes a longer event *)
Lemma before_len v w t n : List.length (si_str v) <= List.length (si_str w) -> List.length (before v t n) <= List.length (before w t n).
Proof.
  intros H. unfold before, members. cbn [List.length flat_map sfld fld fst snd cbor app]. rewrite !app_length. unfold cbor_text. rewrite !app_length.
  enough (List.length (cbor_head 3 (N.of_nat (List.length (si_str v)))) <= List.length (cbor_head 3 (N.of_nat (List.length (si_str w))))) by lia.
  assert (Hn : (N.of_nat (List.length (si_str v)) <= N.of_nat (List.length (si_str w)))%N) by lia. revert Hn.
  generalize (N.of_nat (List.length (si_str v))) (N.of_nat (List.length (si_str w))). intros a b Hn. unfold cbor_head.
  destruct (N.ltb_spec a 24), (N.ltb_spec b 24); cbn [List.length]; try lia;
  destruct (N.leb_spec a 255), (N.leb_spec b 255); cbn [be_bytes app List.length]; try lia;
  destruct (N.leb_spec a 65535), (N.leb_spec b 65535); cbn [be_bytes app List.length]; try lia;
  destruct (N.leb_spec a 4294967295), (N.leb_spec b 4294967295); cbn [be_bytes app List.length]; lia.
Qed.
Lemma si_cbor_ge n : 17 <= List.length (si_str (si_new CBOR n)).
Proof. unfold si_str, si_new, pad0. cbn [si_major si_minor si_size si_kind]. rewrite !app_length, repeat_length. change (List.length (bstr "KERI")) with 4. change (List.length (fmt_hex 1)) with 1. change (List.length (fmt_hex 0)) with 1. change (List.length (format_str CBOR)) with 4. change (List.length (bstr "_")) with 1. lia. Qed.
(** the size of the blanked event, stated with size zero, is that of the event *)
Lemma cbor_sizes d1 d2 i1 i2 t l :
  List.length d1 = List.length d2 -> List.length i1 = List.length i2 ->
  let b0 := cbor (VMap (head_fields (si_new CBOR 0) t d1 ++ sfld "i" i1 :: l)) in
  let text := cbor (VMap (head_fields (si_new CBOR (List.length b0)) t d2 ++ sfld "i" i2 :: l)) in
  (N.of_nat (List.length text) < 16777216)%N -> List.length b0 = List.length text.
Proof.
  intros Hd Hi b0 text Ht.
  assert (Hle : List.length b0 <= List.length text).
  { unfold b0, text. rewrite !cbor_layout, !app_length, Hd, Hi. enough (List.length (before (si_new CBOR 0) t (List.length d2)) <= List.length (before (si_new CBOR (List.length b0)) t (List.length d2))) by (fold b0; lia).
    apply before_len. rewrite cbor_new_len by reflexivity. apply si_cbor_ge. }
  destruct (cbor_len_split (si_new CBOR 0) t d1 i1 l) as (r & H & Hr). fold b0 in Hr. rewrite <- Hr. symmetry.
  apply H; [congruence..|]. rewrite (cbor_new_len 0) by reflexivity. apply cbor_new_len. lia.
Qed.

(** ** What is made *)
Lemma dummy_icp_cbor K n g data : k_dummy_icp (with_formats_k K) (si_new CBOR n) g data = Ok (cbor (dummy_icp_val (si_new CBOR n) g data)).
Proof. reflexivity. Qed.
Lemma dummy_event_cbor K n g p sn data :
  k_dummy_event (with_formats_k K) (si_new CBOR n) g p sn data = Ok (cbor (dummy_event_val (si_new CBOR n) g p sn data)).
Proof. reflexivity. Qed.
Lemma incept_cbor E K data g m : incept_self_addressing (with_formats E) (with_formats_k K) data g CBOR = Ok m ->
  let dig := derive (with_formats E) g (cbor (dummy_icp_sized_cbor g data)) in
  m = mkEM (si_new CBOR (List.length (cbor (dummy_icp_val (si_new CBOR 0) g data)))) dig (IdSelfAddressing dig) 0 data.
Proof.
  intros H. cbv zeta. apply incept_ok in H as (b0 & b1 & H0 & H1 & ->). rewrite dummy_icp_cbor in H0.
  apply ok_inj in H0. subst b0. rewrite dummy_icp_cbor in H1. apply ok_inj in H1. subst b1. reflexivity.
Qed.
Lemma said_cbor E K p sn data g m : said_to_message (with_formats E) (with_formats_k K) p sn data CBOR g = Ok m ->
  let info := si_new CBOR (List.length (cbor (dummy_event_val (si_new CBOR 0) g p sn data))) in
  m = mkEM info (derive (with_formats E) g (cbor (dummy_event_val info g p sn data))) p sn data.
Proof.
  intros H. cbv zeta. apply said_ok in H as (b0 & b1 & H0 & H1 & ->). rewrite dummy_event_cbor in H0.
  apply ok_inj in H0. subst b0. rewrite dummy_event_cbor in H1. apply ok_inj in H1. subst b1. reflexivity.
Qed.
Lemma made_cases E K g m : made_in_cbor E K g m ->
  (exists data, inception data /\ incept_self_addressing (with_formats E) (with_formats_k K) data g CBOR = Ok m)
  \/ (exists p sn data, (inception data -> forall d, p <> IdSelfAddressing d) /\ said_to_message (with_formats E) (with_formats_k K) p sn data CBOR g = Ok m).
Proof.
  intros [e H|e H|p sn data H]; [left; exists (Icp e); now split|left; exists (Dip e); now split|].
  unfold event_to_message in H. destruct p as [k|d|s]; [right|..].
  - exists (IdBasic k), sn, data. split; [intros _ d; discriminate|]. destruct data; exact H.
  - destruct data as [e|e|e|e|e]; cbn [inception] in *.
    + left. exists (Icp e). split; [exact I|exact H].
    + right. exists (IdSelfAddressing d), sn, (Rot e). split; [intros []|exact H].
    + right. exists (IdSelfAddressing d), sn, (Ixn e). split; [intros []|exact H].
    + left. exists (Dip e). split; [exact I|exact H].
    + right. exists (IdSelfAddressing d), sn, (Drt e). split; [intros []|exact H].
  - right. exists (IdSelfSigning s), sn, data. split; [intros _ d; discriminate|]. destruct data; exact H.
Qed.
Lemma ser_cbor E m t : si_kind (em_info m) = CBOR -> e_ser_event (with_formats E) m = Ok t -> t = cbor (event_val m).
Proof. intros K H. cbn [e_ser_event with_formats with_json with_cbor] in H. rewrite K in H. congruence. Qed.
Lemma said_len E g msg : digests_sized E -> List.length (dummy_prefix g) = List.length (sap_str (derive (with_formats E) g msg)).
Proof. intros HE. unfold derive. symmetry. apply digest_text_len. apply HE. Qed.

(** ** Length *)
Theorem C144_stated_length_partial :
  forall E K g m t, digests_sized E -> made_in_cbor E K g m -> e_ser_event (with_formats E) m = Ok t ->
    (N.of_nat (List.length t) < 16777216)%N -> si_size (em_info m) = N.of_nat (List.length t).
Proof.
  intros E K g m t HE Hm Ht Hl. destruct (made_cases E K g m Hm) as [(data & _ & H)|(p & sn & data & _ & H)].
  - apply incept_cbor in H. cbv zeta in H. set (dig := derive _ _ _) in H.
    assert (Kj : si_kind (em_info m) = CBOR) by now rewrite H. apply (ser_cbor E m t Kj) in Ht. rewrite H in *. clear H. cbn [em_info].
    unfold event_val, event_fields in Ht. cbn [em_info em_data em_digest em_prefix em_sn id_str] in Ht.
    pose proof (said_len E g (cbor (dummy_icp_sized_cbor g data)) HE) as Ld. fold dig in Ld.
    unfold si_new at 1. cbn [si_size]. rewrite Ht in *. f_equal.
    exact (cbor_sizes (dummy_prefix g) (sap_str dig) (dummy_prefix g) (sap_str dig) (event_type data) _ Ld Ld Hl).
  - apply said_cbor in H. cbv zeta in H. set (info := si_new CBOR _) in H. set (dig := derive _ _ _) in H.
    assert (Kj : si_kind (em_info m) = CBOR) by now rewrite H. apply (ser_cbor E m t Kj) in Ht. rewrite H in *. clear H. cbn [em_info].
    unfold event_val, event_fields in Ht. cbn [em_info em_data em_digest em_prefix em_sn] in Ht.
    pose proof (said_len E g (cbor (dummy_event_val info g p sn data)) HE) as Ld. fold dig in Ld.
    unfold info at 1. unfold si_new at 1. cbn [si_size]. rewrite Ht in *. f_equal.
    exact (cbor_sizes (dummy_prefix g) (sap_str dig) (id_str p) (id_str p) (event_type data) _ Ld eq_refl Hl).
Qed.
Print Assumptions C144_stated_length_partial.

(** ** Digest: that of the event's own bytes with the digest (in an inception also the
    identifier) blanked out, which is what the receiver hashes; unless an inception is made for
    another kind of identifier *)
Theorem C144_digest_of_the_bytes_partial :
  forall E K g m t, digests_sized E -> made_in_cbor E K g m -> e_ser_event (with_formats E) m = Ok t ->
    (inception (em_data m) -> exists d, em_prefix m = IdSelfAddressing d) ->
    let said := sap_str (em_digest m) in let blanks := blank (List.length said) in
    exists data, e_deriv_data (with_formats E) m = Ok data /\ em_digest m = mkSAP g (e_digest E g data)
      /\ (inception (em_data m) -> em_prefix m = IdSelfAddressing (em_digest m)
            /\ exists x y z, t = x ++ said ++ y ++ said ++ z /\ data = x ++ blanks ++ y ++ blanks ++ z)
      /\ (~ inception (em_data m) -> exists x z, t = x ++ said ++ z /\ data = x ++ blanks ++ z).
Proof.
  intros E K g m t HE Hm Ht Hno said blanks.
  assert (Hb : forall msg, em_digest m = derive (with_formats E) g msg -> dummy_prefix g = blanks /\ List.length said = List.length (dummy_prefix g)).
  { intros msg Hd. unfold blanks, said. rewrite Hd. pose proof (said_len E g msg HE) as L. rewrite <- L. split; [|reflexivity].
    unfold dummy_prefix, blank. now rewrite repeat_length. }
  destruct (made_cases E K g m Hm) as [(data & Hi & H)|(p & sn & data & Hi & H)].
  - apply incept_cbor in H. cbv zeta in H.
    assert (Kj : si_kind (em_info m) = CBOR) by now rewrite H.
    assert (Hdig : em_digest m = derive (with_formats E) g (cbor (dummy_icp_sized_cbor g data))) by now rewrite H.
    assert (Hdata : em_data m = data) by now rewrite H.
    assert (Hp : em_prefix m = IdSelfAddressing (em_digest m)) by now rewrite H.
    assert (Hinfo : em_info m = si_new CBOR (List.length (cbor (dummy_icp_val (si_new CBOR 0) g data)))) by now rewrite H.
    assert (Hsn : em_sn m = 0%N) by now rewrite H.
    assert (Hcode : sap_code (em_digest m) = g) by now rewrite Hdig.
    destruct (Hb _ Hdig) as [Hbl Hlen]. exists (cbor (dummy_icp_sized_cbor g data)).
    split. { cbn [e_deriv_data with_formats with_json with_cbor]. rewrite Kj. unfold cbor_deriv. rewrite Hdata, Hcode. destruct data; first [reflexivity|contradiction]. }
    split; [exact Hdig|]. split; [|intros Q; exfalso; apply Q; now rewrite Hdata]. intros _. split; [exact Hp|].
    apply (ser_cbor E m t Kj) in Ht. unfold event_val, event_fields in Ht. rewrite Hp, Hsn, Hdata in Ht. cbn [id_str] in Ht. fold said in Ht.
    rewrite cbor_layout in Ht. rewrite Hlen in Ht.
    unfold dummy_icp_sized_cbor. rewrite <- Hinfo. unfold dummy_icp_val. rewrite cbor_layout. rewrite <- Hbl.
    exact (ex_intro _ _ (ex_intro _ _ (ex_intro _ _ (conj Ht eq_refl)))).
  - apply said_cbor in H. cbv zeta in H. set (info := si_new CBOR _) in H.
    assert (Kj : si_kind (em_info m) = CBOR) by now rewrite H.
    assert (Hdig : em_digest m = derive (with_formats E) g (cbor (dummy_event_val info g p sn data))) by now rewrite H.
    assert (Hdata : em_data m = data) by now rewrite H.
    assert (Hp : em_prefix m = p) by now rewrite H.
    assert (Hsn : em_sn m = sn) by now rewrite H.
    assert (Hinfo : em_info m = info) by now rewrite H.
    assert (Hcode : sap_code (em_digest m) = g) by now rewrite Hdig.
    assert (Hnot : ~ inception data).
    { intros Q. assert (Q' := Q). rewrite <- Hdata in Q'. destruct (Hno Q') as (d & Hd). apply (Hi Q d). congruence. }
    destruct (Hb _ Hdig) as [Hbl Hlen]. exists (cbor (dummy_event_val info g p sn data)).
    split. { cbn [e_deriv_data with_formats with_json with_cbor]. rewrite Kj. unfold cbor_deriv. rewrite Hdata, Hcode, Hinfo, Hp, Hsn. destruct data; first [reflexivity|now destruct Hnot]. }
    split; [exact Hdig|]. split; [intros Q; exfalso; apply Hnot; now rewrite <- Hdata|]. intros _.
    apply (ser_cbor E m t Kj) in Ht. unfold event_val, event_fields in Ht. rewrite Hp, Hsn, Hdata, Hinfo in Ht. fold said in Ht.
    rewrite cbor_layout in Ht. rewrite Hlen in Ht.
    unfold dummy_event_val, event_fields. rewrite cbor_layout. rewrite <- Hbl.
    exact (ex_intro _ _ (ex_intro _ _ (conj Ht eq_refl))).
Qed.
Print Assumptions C144_digest_of_the_bytes_partial.

(** ** What fails *)
(** An inception for a key as identifier carries the digest of its bytes with the key in place;
    the receiver hashes them with the key blanked out. *)
Definition cbor_icp : EventData :=
  Icp (mkIcp (mkKC (Simple 1) [jk x11] (Some (jd x21))) (mkIWC 0 []) [] []).
Theorem C144_refuted : ~ C144_statement.
Proof.
  intros H.
  assert (exists m, event_to_message (with_formats ctoy) (with_formats_k kfail) (IdBasic (jk x11)) 0 cbor_icp CBOR Blake3_256 = Ok m) as [m Hm]
    by (eexists; vm_compute; reflexivity).
  assert (X : match e_deriv_data (with_formats ctoy) m with Ok x => em_digest m <> mkSAP Blake3_256 (e_digest ctoy Blake3_256 x) | _ => True end).
  { assert (Hm' := Hm). vm_compute in Hm'. injection Hm' as <-. vm_compute. discriminate. }
  assert (Kj : si_kind (em_info m) = CBOR) by (assert (Hm' := Hm); vm_compute in Hm'; injection Hm' as <-; exact eq_refl).
  destruct (H ctoy kfail Blake3_256 m (cbor (event_val m))) as (_ & data & H1 & H2).
  - intros g x. apply repeat_length.
  - eapply by_event. exact Hm.
  - cbn [e_ser_event with_formats with_json with_cbor]. now rewrite Kj.
  - rewrite H1 in X. exact (X H2).
Qed.
Print Assumptions C144_refuted.
(** From sixteen million bytes on the version text grows with the stated size. *)
Theorem C144_long_events_misstate :
  forall E K g p sn prev seals m t, digests_sized E -> (16777216 <= N.of_nat (List.length seals))%N ->
    event_to_message (with_formats E) (with_formats_k K) p sn (Ixn (mkIxn prev seals)) CBOR g = Ok m ->
    e_ser_event (with_formats E) m = Ok t -> (si_size (em_info m) < N.of_nat (List.length t))%N.
Proof.
  intros E K g p sn prev seals m t HE Hn H Ht.
  assert (H' : said_to_message (with_formats E) (with_formats_k K) p sn (Ixn (mkIxn prev seals)) CBOR g = Ok m) by (destruct p; exact H). clear H.
  apply said_cbor in H'. cbv zeta in H'. set (b0 := cbor (dummy_event_val (si_new CBOR 0) g p sn (Ixn (mkIxn prev seals)))) in H'.
  set (info := si_new CBOR (List.length b0)) in H'. set (dig := derive (with_formats E) g _) in H'.
  assert (Kj : si_kind (em_info m) = CBOR) by now rewrite H'. apply (ser_cbor E m t Kj) in Ht. rewrite H' in *. clear H'. cbn [em_info].
  unfold event_val, event_fields in Ht. cbn [em_info em_data em_digest em_prefix em_sn] in Ht.
  pose proof (said_len E g (cbor (dummy_event_val info g p sn (Ixn (mkIxn prev seals)))) HE) as Ld. fold dig in Ld.
  assert (Lb : List.length seals <= List.length b0).
  { unfold b0, dummy_event_val, event_fields. rewrite cbor_layout, !app_length.
    enough (List.length seals <= List.length (members (sfld "s" (fmt_hex sn) :: data_fields (Ixn (mkIxn prev seals))))) by lia.
    unfold members. cbn [flat_map data_fields ixn_data ixn_prev seals_fld sfld fld fst snd cbor app]. rewrite !app_length.
    enough (List.length seals <= List.length (flat_map cbor (map seal_val seals))) by lia. clear.
    induction seals as [|s l IH]; [cbn; lia|]. cbn [map flat_map List.length]. rewrite app_length.
    enough (1 <= List.length (cbor (seal_val s))) by lia. destruct s; cbn [seal_val cbor]; rewrite app_length; cbn; lia. }
  assert (Li : List.length (si_str (si_new CBOR 0)) < List.length (si_str info)).
  { rewrite (cbor_new_len 0) by reflexivity. unfold si_str, info, si_new, pad0. cbn [si_major si_minor si_size si_kind]. rewrite !app_length, repeat_length.
    assert (Q : (16777216 <= N.of_nat (List.length b0))%N) by lia. pose proof (fmt_hex_7 _ Q).
    change (List.length (bstr "KERI")) with 4. change (List.length (fmt_hex 1)) with 1. change (List.length (fmt_hex 0)) with 1.
    change (List.length (format_str CBOR)) with 4. change (List.length (bstr "_")) with 1. lia. }
  enough (List.length b0 < List.length t) by (unfold info, si_new; cbn [si_size]; lia).
  rewrite Ht. unfold b0, dummy_event_val, event_fields. rewrite !cbor_layout, !app_length, Ld.
  enough (List.length (before (si_new CBOR 0) (event_type (Ixn (mkIxn prev seals))) (List.length (sap_str dig)))
    < List.length (before info (event_type (Ixn (mkIxn prev seals))) (List.length (sap_str dig)))) by lia.
  pose proof (before_len (si_new CBOR 0) info (event_type (Ixn (mkIxn prev seals))) (List.length (sap_str dig)) (Nat.lt_le_incl _ _ Li)) as B.
  revert B. unfold before, members. cbn [List.length flat_map sfld fld fst snd cbor app]. rewrite !app_length. unfold cbor_text. rewrite !app_length.
  assert (Hh : List.length (cbor_head 3 (N.of_nat (List.length (si_str (si_new CBOR 0))))) <= List.length (cbor_head 3 (N.of_nat (List.length (si_str info))))).
  { rewrite (cbor_new_len 0) by reflexivity. change (List.length (cbor_head 3 (N.of_nat 17))) with 1. unfold cbor_head.
    destruct (_ <? 24)%N; [cbn; lia|]. destruct (_ <=? 255)%N; [cbn; lia|]. destruct (_ <=? 65535)%N; [cbn; lia|]. destruct (_ <=? 4294967295)%N; cbn; lia. }
  lia.
Qed.
Print Assumptions C144_long_events_misstate.

(** Hypotheses met: inceptions, a delegated inception, a rotation and an interaction in CBOR. *)
Example C144_example :
  Forall (fun data => exists m t, em_data m = data /\ made_in_cbor jtoy kfail SHA3_512 m /\ e_ser_event (with_formats jtoy) m = Ok t
      /\ (N.of_nat (List.length t) < 16777216)%N /\ (inception (em_data m) -> exists d, em_prefix m = IdSelfAddressing d))
    [em_data j_icp; em_data j_rot; Ixn (mkIxn (jd x01) [SealDigest (jd x05)]); em_data b_dip].
Proof.
  assert (G : forall data, (exists m, event_to_message (with_formats jtoy) (with_formats_k kfail) said_id 0 data CBOR SHA3_512 = Ok m /\ em_data m = data
      /\ (N.of_nat (List.length (cbor (event_val m))) <? 16777216)%N = true /\ si_kind (em_info m) = CBOR /\ exists d, em_prefix m = IdSelfAddressing d) ->
    exists m t, em_data m = data /\ made_in_cbor jtoy kfail SHA3_512 m /\ e_ser_event (with_formats jtoy) m = Ok t
      /\ (N.of_nat (List.length t) < 16777216)%N /\ (inception (em_data m) -> exists d, em_prefix m = IdSelfAddressing d)).
  { intros data (m & H1 & H0 & H2 & H3 & H4). exists m, (cbor (event_val m)). split; [exact H0|]. split; [eapply by_event; exact H1|].
    split; [cbn [e_ser_event with_formats with_json with_cbor]; now rewrite H3|]. split; [now apply N.ltb_lt|]. intros _. exact H4. }
  apply Forall_cons; [|apply Forall_cons; [|apply Forall_cons; [|apply Forall_cons; [|apply Forall_nil]]]]; apply G;
    (eexists; apply conj; [vm_compute; reflexivity|]; apply conj; [vm_compute; reflexivity|]; apply conj; [vm_compute; reflexivity|]; apply conj; [reflexivity|]; eexists; reflexivity).
Qed.
