(** * JsonProofs7: the other outcomes of reading the text of an event. *)
From Coq Require Import ZifyBool ZifyN ZifyNat.
From Verif Require Import Base Base64 Base64Proofs Codes NumFmt NumProofs Types SpecCodec CodecProofs KeyConf Version Cesr CesrProofs Message Keri Json JsonRead JsonProofs SpecJson JsonProofs2 JsonProofs3 JsonProofs4 JsonProofs5 Prop_Version.

Definition to_pres {A} (r : bytes) (x : out A) : pres A := match x with Ok a => POk r a | Err _ => PErr | Panic => PPanic end.
Lemma json_message_result {D} (read : SerializationInfo -> list (bytes * jval) -> out D) x l r :
  Forall (fits_kv 2) ((bstr "v", VStr x) :: l) -> Forall (fun kv => is (fst kv) "v" = false) l ->
  json_message read (json (VMap ((bstr "v", VStr x) :: l)) ++ r) = to_pres r (let? v := custom (si_from x) in read v (map erase_kv l)).
Proof.
  intros Hf Hv. apply Forall_cons_iff in Hf as [Hx Hf].
  assert (Up : forall kv, fits_kv 2 kv -> fits_kv 126 kv).
  { intros kv [H1 H2]. split; [assumption|]. apply (fits_le 2 126); [lia|assumption]. }
  unfold json_message. rewrite skip_json. rewrite json_obj. cbn [app]. change (c_is x7b 123) with true. cbv iota.
  rewrite <- app_assoc. change (bstr "}" ++ r) with (x7d :: r).
  rewrite (read_top_obj x l 126); [| apply Up; exact Hx| eapply Forall_impl; [exact Up|exact Hf] | exact Hv |].
  - destruct (custom (si_from x)) as [v|e|]; cbn [obind]; [|reflexivity|reflexivity]. unfold need, ok_or. cbn [obind].
    destruct (read v (map erase_kv l)); reflexivity.
  - unfold fuel_for. rewrite json_obj. cbn [List.length]. rewrite !app_length. cbn. lia.
Qed.
Lemma event_result {D} (read : SerializationInfo -> list (bytes * jval) -> out D) m r :
  Forall rust_string (data_strings (em_data m)) ->
  json_message read (json (event_val m) ++ r)
  = to_pres r (let? v := custom (si_from (si_str (em_info m))) in
               read v ((bstr "t", JStr (tag_str (event_type (em_data m)))) :: (bstr "d", JStr (sap_str (em_digest m)))
                       :: (bstr "i", JStr (id_str (em_prefix m))) :: (bstr "s", JStr (fmt_hex (em_sn m))) :: map erase_kv (data_fields (em_data m)))).
Proof.
  intros Hs. unfold event_val, head_fields, event_fields. cbn [app]. (etransitivity; [apply json_message_result|reflexivity]).
  - pose proof (fits_event m Hs) as F. unfold event_val in F. rewrite fits_map in F. exact F.
  - do 4 (constructor; [reflexivity|]). eapply Forall_impl; [|apply plain_keys]. now intros kv [H _].
Qed.
Lemma receipt_result {D} (read : SerializationInfo -> list (bytes * jval) -> out D) m r :
  json_message read (json (receipt_val m) ++ r)
  = to_pres r (let? v := custom (si_from (si_str (rct_info m))) in
               read v [(bstr "t", JStr (bstr "rct")); (bstr "d", JStr (sap_str (rct_digest m)));
                       (bstr "i", JStr (id_str (rct_prefix m))); (bstr "s", JStr (fmt_hex (rct_sn m)))]).
Proof.
  unfold receipt_val, head_fields. cbn [app]. (etransitivity; [apply json_message_result|reflexivity]).
  - pose proof (fits_receipt m) as F. unfold receipt_val in F. rewrite fits_map in F. exact F.
  - repeat constructor.
Qed.
Section Hex.
  Context (hx : bytes -> option N) (Hhx : reads_hex hx).
  Lemma take_rct_other l od oi os : Forall (fun kv : bytes * jval => plain_key (fst kv)) l -> take_rct hx l od oi os = Ok (od, oi, os).
  Proof.
    induction 1 as [|[k v] l (_ & H1 & H2 & H3) _ IH]; [reflexivity|]. cbn [take_rct fst] in *. now rewrite H1, H2, H3.
  Qed.
  Lemma receipt_fields_more info tv dv iv sv l d i s : Forall (fun kv : bytes * jval => plain_key (fst kv)) l ->
    as_sap dv = Ok d -> as_id iv = Ok i -> as_hex hx sv = Ok s ->
    read_receipt hx info ((bstr "t", tv) :: (bstr "d", dv) :: (bstr "i", iv) :: (bstr "s", sv) :: l) = Ok (mkRct info d i s).
  Proof.
    intros Hl Hd Hi Hs. unfold read_receipt. cbn [take_rct].
    change (is (bstr "t") "d") with false. change (is (bstr "t") "i") with false. change (is (bstr "t") "s") with false.
    change (is (bstr "d") "d") with true. change (is (bstr "i") "d") with false. change (is (bstr "i") "i") with true.
    change (is (bstr "s") "d") with false. change (is (bstr "s") "i") with false. change (is (bstr "s") "s") with true. cbv iota.
    rewrite Hd. cbn [obind]. rewrite Hi. cbn [obind]. rewrite Hs. cbn [obind]. rewrite take_rct_other by assumption. reflexivity.
  Qed.
  Lemma key_event_bad info tv dv iv sv l d i s e :
    Forall (fun kv : bytes * jval => plain_key (fst kv)) l ->
    as_sap dv = Ok d -> as_id iv = Ok i -> as_hex hx sv = Ok s -> read_data hx ((bstr "t", tv) :: l) = Err e ->
    read_key_event hx info ((bstr "t", tv) :: (bstr "d", dv) :: (bstr "i", iv) :: (bstr "s", sv) :: l) = Err e.
  Proof.
    intros Hl Hd Hi Hs Hdata. unfold read_key_event. cbn [take1].
    change (is (bstr "t") "d") with false. change (is (bstr "d") "d") with true. change (is (bstr "i") "d") with false. change (is (bstr "s") "d") with false. cbv iota.
    rewrite Hd. cbn [obind]. rewrite take1_other by (eapply Forall_impl; [|exact Hl]; intros kv H; exact (proj1 (proj2 H))).
    cbn [obind]. unfold need at 1, ok_or at 1. cbn [obind take2].
    change (is (bstr "t") "i") with false. change (is (bstr "t") "s") with false. change (is (bstr "i") "i") with true. change (is (bstr "s") "i") with false. change (is (bstr "s") "s") with true. cbv iota.
    rewrite Hi. cbn [obind]. rewrite Hs. cbn [obind].
    rewrite take2_other by (eapply Forall_impl; [|exact Hl]; intros kv H; exact (proj2 (proj2 H))).
    cbn [obind]. unfold need, ok_or. cbn [obind]. rewrite Hdata. reflexivity.
  Qed.
  Lemma erased_plain d : Forall (fun kv : bytes * jval => plain_key (fst kv)) (map erase_kv (data_fields d)).
  Proof. apply Forall_map. eapply Forall_impl; [|apply plain_keys]. intros kv H. exact H. Qed.

  (** every event with a readable head reads as a receipt *)
  Theorem event_as_receipt m r :
    version_readable (em_info m) -> sap_readable (em_digest m) -> id_readable (em_prefix m) -> u64 (em_sn m) ->
    Forall rust_string (data_strings (em_data m)) ->
    json_message (read_receipt hx) (json (event_val m) ++ r) = POk r (mkRct (em_info m) (em_digest m) (em_prefix m) (em_sn m)).
  Proof.
    intros Hv Hd Hi Hs Hstr. rewrite event_result by assumption. rewrite version_back by assumption. cbn [custom obind].
    erewrite receipt_fields_more; [reflexivity|apply erased_plain|now apply as_sap_ok|now apply as_id_ok|now apply as_hex_ok].
  Qed.
  (** a receipt is not a key event *)
  Lemma receipt_no_key_event m r : receipt_readable m -> json_message (read_key_event hx) (json (receipt_val m) ++ r) = PErr.
  Proof.
    intros (Hv & Hd & Hi & Hs). rewrite receipt_result. rewrite version_back by assumption. cbn [custom obind].
    erewrite (key_event_bad _ _ _ _ _ [] _ _ _ ESerialization); [reflexivity|constructor|now apply as_sap_ok|now apply as_id_ok|now apply as_hex_ok|].
    reflexivity.
  Qed.
  (** a key of the wrong kind spoils the event *)
  Lemma bad_keys l : Forall bp_sized l -> Exists (fun k => is_ecdsa (bp_code k) = true) l ->
    as_vec as_bp (to_value (erase (keys_val l))) = jerr.
  Proof.
    intros Hs He. unfold keys_val. cbn [erase to_value as_vec]. rewrite !map_map. cbn [erase to_value].
    induction l as [|k l IH]; [inversion He|]. apply Forall_cons_iff in Hs as [Hk Hs]. cbn [map omapm].
    destruct (is_ecdsa (bp_code k)) eqn:E.
    - unfold as_bp at 1, as_str. cbn [obind]. rewrite c41_ecdsa by assumption. reflexivity.
    - inversion He as [? ? H|? ? H]; subst; [congruence|]. rewrite as_bp_ok by now split. cbn [obind]. rewrite IH by assumption. reflexivity.
  Qed.
  Lemma kc_bad l kv : jget l "k" = Some kv -> as_vec as_bp kv = jerr -> read_kc hx l = jerr.
  Proof. intros E1 H1. unfold read_kc. rewrite E1. unfold field. rewrite H1. reflexivity. Qed.
  Lemma icp_bad l c a cv av : jget l "a" = Some av -> jget l "c" = Some cv ->
    as_vec (as_seal hx) av = Ok a -> as_vec as_str cv = Ok c -> read_kc hx l = jerr -> read_icp hx l = jerr.
  Proof. intros E1 E2 H1 H2 H3. unfold read_icp. rewrite E1, E2. unfold field. rewrite H1, H2. cbn [obind need ok_or]. rewrite H3. reflexivity. Qed.
  Lemma rot_bad l p a pv av : jget l "a" = Some av -> jget l "p" = Some pv ->
    as_vec (as_seal hx) av = Ok a -> as_sap pv = Ok p -> read_kc hx l = jerr -> read_rot hx l = jerr.
  Proof. intros E1 E2 H1 H2 H3. unfold read_rot. rewrite E1, E2. unfold field. rewrite H1, H2. cbn [obind need ok_or]. rewrite H3. reflexivity. Qed.
  Lemma dip_bad l di dv : jget l "di" = Some dv -> as_id dv = Ok di -> read_icp hx l = jerr -> read_dip hx l = jerr.
  Proof. intros E1 H1 H2. unfold read_dip. rewrite E1. unfold field. rewrite H1. cbn [obind need ok_or]. rewrite H2. reflexivity. Qed.
  Lemma data_bad d : Forall sap_readable (data_digests d) -> Forall id_readable (data_ids d) -> Forall u64 (data_numbers d) ->
    Forall bp_sized (flat_map kc_keys (opt_list (data_kc d))) ->
    Exists (fun k => is_ecdsa (bp_code k) = true) (flat_map kc_keys (opt_list (data_kc d))) ->
    read_data hx ((bstr "t", JStr (tag_str (event_type d))) :: map erase_kv (data_fields d)) = jerr.
  Proof.
    intros Hd Hi Hn Hk Hb. unfold data_digests, data_ids, data_numbers in *.
    destruct d as [e|e|e|e|e]; cbn [data_kc data_seals opt_list flat_map map app] in *;
      try (rewrite app_nil_r in Hk, Hb; pose proof (bad_keys _ Hk Hb) as B);
      repeat match goal with H : Forall _ (_ ++ _) |- _ => apply Forall_app in H; destruct H end;
      repeat match goal with H : Forall _ (_ :: _) |- _ => apply Forall_cons_iff in H; destruct H end.
    - destruct e as [[kt k n] [bt b] c a]. cbn [icp_kc icp_wc icp_config icp_data kc_threshold kc_keys kc_next iwc_tally iwc_witnesses] in *.
      unfold read_data. cbn [data_fields icp_fields kc_fields icp_kc icp_wc icp_config icp_data kc_threshold kc_keys kc_next iwc_tally iwc_witnesses app map fst snd].
      set (l := sort_map _). change (jget l "t") with (Some (JStr (bstr "icp"))). unfold field.
      change (as_tag (JStr (bstr "icp"))) with (Ok TIcp). unfold need, ok_or. cbn [obind].
      rewrite (icp_bad l c a (to_value (erase (VSeq (map VStr c)))) (to_value (erase (VSeq (map seal_val a))))); try reflexivity;
        [now apply seals_ok|apply strings_ok|]. apply (kc_bad l (to_value (erase (keys_val k)))); [reflexivity|exact B].
    - destruct e as [p [kt k n] [bt br ba] a]. cbn [rot_prev rot_kc rot_wc rot_data kc_threshold kc_keys kc_next wc_tally wc_prune wc_graft] in *.
      unfold read_data. cbn [data_fields rot_fields kc_fields rot_prev rot_kc rot_wc rot_data kc_threshold kc_keys kc_next wc_tally wc_prune wc_graft app map fst snd].
      set (l := sort_map _). change (jget l "t") with (Some (JStr (bstr "rot"))). unfold field.
      change (as_tag (JStr (bstr "rot"))) with (Ok TRot). unfold need, ok_or. cbn [obind].
      rewrite (rot_bad l p a (JStr (sap_str p)) (to_value (erase (VSeq (map seal_val a))))); try reflexivity;
        [now apply seals_ok|now apply as_sap_ok|]. apply (kc_bad l (to_value (erase (keys_val k)))); [reflexivity|exact B].
    - inversion Hb.
    - destruct e as [[[kt k n] [bt b] c a] di]. cbn [dip_icp dip_delegator icp_kc icp_wc icp_config icp_data kc_threshold kc_keys kc_next iwc_tally iwc_witnesses] in *.
      unfold read_data. cbn [data_fields icp_fields kc_fields dip_icp dip_delegator icp_kc icp_wc icp_config icp_data kc_threshold kc_keys kc_next iwc_tally iwc_witnesses app map fst snd].
      set (l := sort_map _). change (jget l "t") with (Some (JStr (bstr "dip"))). unfold field.
      change (as_tag (JStr (bstr "dip"))) with (Ok TDip). unfold need, ok_or. cbn [obind].
      rewrite (dip_bad l di (JStr (id_str di))); try reflexivity; [now apply as_id_ok|].
      apply (icp_bad l c a (to_value (erase (VSeq (map VStr c)))) (to_value (erase (VSeq (map seal_val a))))); try reflexivity;
        [now apply seals_ok|apply strings_ok|]. apply (kc_bad l (to_value (erase (keys_val k)))); [reflexivity|exact B].
    - destruct e as [p [kt k n] [bt br ba] a]. cbn [rot_prev rot_kc rot_wc rot_data kc_threshold kc_keys kc_next wc_tally wc_prune wc_graft] in *.
      unfold read_data. cbn [data_fields rot_fields kc_fields rot_prev rot_kc rot_wc rot_data kc_threshold kc_keys kc_next wc_tally wc_prune wc_graft app map fst snd].
      set (l := sort_map _). change (jget l "t") with (Some (JStr (bstr "drt"))). unfold field.
      change (as_tag (JStr (bstr "drt"))) with (Ok TDrt). unfold need, ok_or. cbn [obind].
      rewrite (rot_bad l p a (JStr (sap_str p)) (to_value (erase (VSeq (map seal_val a))))); try reflexivity;
        [now apply seals_ok|now apply as_sap_ok|]. apply (kc_bad l (to_value (erase (keys_val k)))); [reflexivity|exact B].
  Qed.
  Theorem ecdsa_no_key_event m r :
    version_readable (em_info m) -> sap_readable (em_digest m) -> id_readable (em_prefix m) -> u64 (em_sn m) ->
    Forall rust_string (data_strings (em_data m)) ->
    Forall sap_readable (data_digests (em_data m)) -> Forall id_readable (data_ids (em_data m)) -> Forall u64 (data_numbers (em_data m)) ->
    Forall bp_sized (flat_map kc_keys (opt_list (data_kc (em_data m)))) ->
    Exists (fun k => is_ecdsa (bp_code k) = true) (flat_map kc_keys (opt_list (data_kc (em_data m)))) ->
    json_message (read_key_event hx) (json (event_val m) ++ r) = PErr.
  Proof.
    intros Hv Hd Hi Hs Hstr H1 H2 H3 H4 H5. rewrite event_result by assumption. rewrite version_back by assumption. cbn [custom obind].
    erewrite key_event_bad; [reflexivity|apply erased_plain|now apply as_sap_ok|now apply as_id_ok|now apply as_hex_ok|now apply data_bad].
  Qed.
End Hex.
