(** * JsonProofs3: decoding the fields of events. *)
From Coq Require Import ZifyBool ZifyN ZifyNat.
From Verif Require Import Base Base64 Base64Proofs Codes NumFmt NumProofs Types SpecCodec CodecProofs KeyConf Version Cesr CesrProofs Message Keri Json JsonRead JsonProofs SpecJson JsonProofs2 Prop_Version.

(** ** The top level object *)
Definition tail_text (l : list (bytes * sval)) : bytes := flat_map (fun kv => x2c :: member kv) l.
Lemma join_members kv l : join (bstr ",") (map member (kv :: l)) = member kv ++ tail_text l.
Proof.
  revert kv; induction l as [|w l IH]; intros kv.
  - cbn [map join tail_text flat_map]. now rewrite app_nil_r.
  - change (join (bstr ",") (map member (kv :: w :: l))) with (member kv ++ bstr "," ++ join (bstr ",") (map member (w :: l))).
    rewrite IH. reflexivity.
Qed.
Lemma read_top_tail l : forall n f ov r, Forall (fits_kv n) l -> Forall (fun kv => is (fst kv) "v" = false) l ->
  List.length (tail_text l) + 1 <= f ->
  read_top f (S n) false ov (tail_text l ++ x7d :: r) = Ok (ov, map erase_kv l, r).
Proof.
  induction l as [|kv l IH]; intros n f ov r Hf Hv Hl.
  - cbn [tail_text flat_map app map]. destruct f; [cbn in Hl; lia|]. reflexivity.
  - apply Forall_cons_iff in Hf as [[Hk Hfv] Hf]. apply Forall_cons_iff in Hv as [Hn Hv].
    unfold tail_text in *. cbn [flat_map] in *. fold (tail_text l) in *. cbn [app List.length] in *.
    rewrite app_length in Hl. pose proof (member_length kv) as Hml.
    destruct f as [|f]; [lia|]. rewrite <- app_assoc, member_eq.
    cbn [read_top]. change (skip_ws (x2c :: ?a)) with (x2c :: a). cbv iota beta.
    change (c_is x2c 125) with false. change (c_is x2c 44) with true. cbv iota.
    change (skip_ws (x22 :: ?a)) with (x22 :: a). cbv iota beta.
    change (c_is x22 34) with true. cbv iota.
    rewrite read_string_esc by assumption. rewrite Hn. cbn [andb].
    change (skip_ws (x3a :: ?a)) with (x3a :: a). cbv iota beta.
    change (c_is x3a 58) with true. cbv iota.
    rewrite (read_json (snd kv) n f) by (assumption || lia).
    rewrite (IH n f ov r Hf Hv) by lia. reflexivity.
Qed.
Lemma read_top_obj x l n f r : fits_kv n (bstr "v", VStr x) -> Forall (fits_kv n) l -> Forall (fun kv => is (fst kv) "v" = false) l ->
  List.length (json (VMap ((bstr "v", VStr x) :: l))) <= f ->
  read_top f (S n) true None (join (bstr ",") (map member ((bstr "v", VStr x) :: l)) ++ x7d :: r)
  = (let? v := custom (si_from x) in Ok (Some v, map erase_kv l, r)).
Proof.
  intros [_ Hx] Hf Hv Hl. cbn [snd fits] in Hx. rewrite json_obj in Hl. rewrite join_members in *. cbn [List.length] in Hl. rewrite !app_length in Hl.
  change (List.length (bstr "}")) with 1 in Hl. pose proof (member_length (bstr "v", VStr x)) as Hml.
  destruct f as [|f]; [lia|]. rewrite <- app_assoc, member_eq. cbn [fst snd json].
  cbn [read_top]. change (skip_ws (x22 :: ?a)) with (x22 :: a). cbv iota beta.
  change (c_is x22 125) with false. change (c_is x22 34) with true. cbv iota.
  rewrite read_string_esc by reflexivity.
  change (is (bstr "v") "v") with true. cbn [andb].
  change (skip_ws (x3a :: ?a)) with (x3a :: a). cbv iota beta.
  change (c_is x3a 58) with true. cbv iota. rewrite quote_eq.
  change (skip_ws (x22 :: ?a)) with (x22 :: a). cbv iota beta.
  change (c_is x22 34) with true. cbv iota.
  rewrite read_string_esc by assumption.
  destruct (custom (si_from x)) as [v| |]; [|reflexivity|reflexivity]. cbn [obind].
  rewrite (read_top_tail l n f (Some v) r Hf Hv) by lia. reflexivity.
Qed.
Lemma json_message_obj {D} (read : SerializationInfo -> list (bytes * jval) -> out D) x l r v e :
  Forall (fits_kv 2) ((bstr "v", VStr x) :: l) -> Forall (fun kv => is (fst kv) "v" = false) l ->
  si_from x = Ok v -> read v (map erase_kv l) = Ok e ->
  json_message read (json (VMap ((bstr "v", VStr x) :: l)) ++ r) = POk r e.
Proof.
  intros Hf Hv Hs He. apply Forall_cons_iff in Hf as [Hx Hf].
  assert (Up : forall kv, fits_kv 2 kv -> fits_kv 126 kv).
  { intros kv [H1 H2]. split; [assumption|]. apply (fits_le 2 126); [lia|assumption]. }
  unfold json_message. rewrite skip_json. rewrite json_obj. cbn [app]. change (c_is x7b 123) with true. cbv iota.
  rewrite <- app_assoc. change (bstr "}" ++ r) with (x7d :: r).
  rewrite (read_top_obj x l 126); [| apply Up; exact Hx| eapply Forall_impl; [exact Up|exact Hf] | exact Hv |].
  - rewrite Hs. cbn [custom obind]. unfold need, ok_or. cbn [obind]. rewrite He. reflexivity.
  - unfold fuel_for. rewrite json_obj. cbn [List.length]. rewrite !app_length. cbn. lia.
Qed.

(** ** Values of the fields *)
Lemma omapm_map {A B C} (f : B -> out C) (g : A -> B) (h : A -> C) l :
  Forall (fun a => f (g a) = Ok (h a)) l -> omapm f (map g l) = Ok (map h l).
Proof. induction 1 as [|a l H _ IH]; [reflexivity|]. cbn [map omapm]. rewrite H. cbn [obind]. rewrite IH. reflexivity. Qed.
Lemma omapm_id {A B} (f : B -> out A) (g : A -> B) l : Forall (fun a => f (g a) = Ok a) l -> omapm f (map g l) = Ok l.
Proof. intros H. rewrite (omapm_map f g (fun a => a) l H). now rewrite map_id. Qed.
Lemma as_sap_ok d : sap_readable d -> as_sap (JStr (sap_str d)) = Ok d.
Proof. intros [H1 H2]. unfold as_sap, as_str. cbn [obind]. rewrite c42 by assumption. rewrite H2. destruct d; reflexivity. Qed.
Lemma as_id_ok i : id_readable i -> as_id (JStr (id_str i)) = Ok i.
Proof. intros (H1 & H2 & H3). unfold as_id, as_str. cbn [obind]. rewrite c44 by assumption. now rewrite H3. Qed.
Lemma as_bp_ok p : bp_readable p -> as_bp (JStr (bp_str p)) = Ok p.
Proof. intros [H1 H2]. unfold as_bp, as_str. cbn [obind]. now rewrite c41. Qed.
Lemma keys_ok l : Forall bp_readable l -> as_vec as_bp (to_value (erase (keys_val l))) = Ok l.
Proof.
  intros H. unfold keys_val. cbn [erase to_value as_vec]. rewrite !map_map. cbn [erase to_value].
  apply omapm_id. eapply Forall_impl; [|exact H]. intros p Hp. now apply as_bp_ok.
Qed.
Lemma strings_ok l : as_vec as_str (to_value (erase (VSeq (map VStr l)))) = Ok l.
Proof.
  cbn [erase to_value as_vec]. rewrite !map_map. cbn [erase to_value]. apply omapm_id. apply Forall_forall. reflexivity.
Qed.
Lemma digit_no_slash d : (d < 10)%N -> c_is (digit_char d) 47 = false.
Proof.
  intros H. assert (D : (d = 0 \/ d = 1 \/ d = 2 \/ d = 3 \/ d = 4 \/ d = 5 \/ d = 6 \/ d = 7 \/ d = 8 \/ d = 9)%N) by lia.
  repeat (destruct D as [D|D]); subst d; reflexivity.
Qed.
Lemma dec_no_slash n : Forall (fun c => c_is c 47 = false) (fmt_dec n).
Proof. apply Forall_forall. intros c Hc. destruct (fmt_chars 10 n c radix10 Hc) as (d & Hd & ->). now apply digit_no_slash. Qed.
Lemma split_none s : Forall (fun c => c_is c 47 = false) s -> split_slash s = [s].
Proof. induction 1 as [|c s Hc _ IH]; [reflexivity|]. cbn [split_slash]. rewrite Hc, IH. reflexivity. Qed.
Lemma split_one a b : Forall (fun c => c_is c 47 = false) a -> Forall (fun c => c_is c 47 = false) b -> split_slash (a ++ bstr "/" ++ b) = [a; b].
Proof.
  intros Ha Hb. induction Ha as [|c s Hc _ IH].
  - change ([] ++ bstr "/" ++ b) with (x2f :: b). cbn [split_slash]. change (c_is x2f 47) with true. cbv iota. now rewrite split_none.
  - cbn [app split_slash]. rewrite Hc. rewrite IH. reflexivity.
Qed.
Lemma frac_ok f : frac_readable f -> frac_from (frac_str f) = Ok f.
Proof.
  destruct f as [| |n d]; try contradiction. intros (Hn & Hd & Hp & Hg). cbn [frac_str].
  assert (Enew : frac_new n d = FRat n d).
  { unfold frac_new. rewrite Hg. replace (d =? 0)%N with false by lia. now rewrite !N.div_1_r. }
  unfold u64 in *. unfold frac_from. destruct (d =? 1)%N eqn:E1.
  - rewrite split_none by apply dec_no_slash. unfold fmt_dec. rewrite fmt_parse by (exact radix10 || assumption). cbn [obind].
    assert (d = 1%N) by lia. subst d. now rewrite Enew.
  - rewrite split_one by apply dec_no_slash. unfold fmt_dec. rewrite !fmt_parse by (exact radix10 || assumption). cbn [obind]. now rewrite Enew.
Qed.
Lemma as_frac_ok f : frac_readable f -> as_frac (JStr (frac_str f)) = Ok f.
Proof. intros H. unfold as_frac, as_str. cbn [obind]. now rewrite frac_ok. Qed.

Section Hex.
  Context (hx : bytes -> option N) (Hhx : forall n, u64 n -> hx (fmt_hex n) = Some n).
  Lemma as_hex_ok n : u64 n -> as_hex hx (JStr (fmt_hex n)) = Ok n.
  Proof. intros H. unfold as_hex, as_str. cbn [obind]. now rewrite Hhx. Qed.
  Lemma clause_ok c : Forall frac_readable c -> as_clause (to_value (erase (clause_val c))) = Ok c.
  Proof.
    intros H. unfold clause_val, as_clause. cbn [erase to_value as_vec]. rewrite !map_map. cbn [erase to_value].
    apply omapm_id. eapply Forall_impl; [|exact H]. intros p Hp. now apply as_frac_ok.
  Qed.
  Lemma threshold_ok t : threshold_readable t -> as_threshold hx (to_value (erase (threshold_val t))) = Ok t.
  Proof.
    destruct t as [n|[c|cs]]; cbn [threshold_readable threshold_val].
    - intros H. unfold as_threshold. cbn [erase to_value]. rewrite as_hex_ok by assumption. reflexivity.
    - intros H. unfold as_threshold. rewrite clause_ok by assumption. reflexivity.
    - intros [Hne H]. unfold as_threshold. cbn [erase to_value]. rewrite !map_map.
      assert (E : as_vec as_clause (JArr (map (fun x => to_value (erase (clause_val x))) cs)) = Ok cs).
      { cbn [as_vec]. apply omapm_id. eapply Forall_impl; [|exact H]. intros c Hc. now apply clause_ok. }
      rewrite E. destruct cs as [|c cs]; [congruence|]. reflexivity.
  Qed.
  Lemma next_ok (o : option SelfAddressingPrefix) : Forall sap_readable (opt_list o) ->
    as_next (JStr (match o with Some d => sap_str d | None => [] end)) = Ok o.
  Proof.
    destruct o as [d|]; [|reflexivity]. intros H. apply Forall_cons_iff in H as [H _]. pose proof H as [H1 H2].
    unfold as_next. pose proof (as_sap_ok d H) as E. unfold as_sap, as_str in E. cbn [obind] in E.
    destruct (sap_str d) as [|c s] eqn:Es.
    - exfalso. unfold sap_str in Es. rewrite prefix_str_ne in Es by now apply sap_ne. pose proof (sa_code_length (sap_code d)) as L.
      destruct (sa_code (sap_code d)); [|discriminate Es]. destruct (sap_code d); discriminate L.
    - rewrite E. reflexivity.
  Qed.
  (** the fields after sorting *)
  Lemma seal_location a b c d i n p : as_id (JStr a) = Ok i -> as_hex hx (JStr b) = Ok n -> as_sap (JStr d) = Ok p ->
    as_seal hx (to_value (JObj [(bstr "i", JStr a); (bstr "s", JStr b); (bstr "t", JStr c); (bstr "p", JStr d)])) = Ok (SealLocation (mkLS i n c p)).
  Proof.
    intros H1 H2 H3.
    change (to_value _) with (JObj [(bstr "i", JStr a); (bstr "p", JStr d); (bstr "s", JStr b); (bstr "t", JStr c)]).
    unfold as_seal, as_location. set (l := [(bstr "i", JStr a); (bstr "p", JStr d); (bstr "s", JStr b); (bstr "t", JStr c)]).
    change (jget l "i") with (Some (JStr a)). change (jget l "p") with (Some (JStr d)). change (jget l "s") with (Some (JStr b)). change (jget l "t") with (Some (JStr c)).
    unfold field. rewrite H1, H2, H3. reflexivity.
  Qed.
  Lemma seal_event a b d i n p : as_id (JStr a) = Ok i -> as_hex hx (JStr b) = Ok n -> as_sap (JStr d) = Ok p ->
    as_seal hx (to_value (JObj [(bstr "i", JStr a); (bstr "s", JStr b); (bstr "d", JStr d)])) = Ok (SealEvent (mkES i n p)).
  Proof.
    intros H1 H2 H3.
    change (to_value _) with (JObj [(bstr "d", JStr d); (bstr "i", JStr a); (bstr "s", JStr b)]).
    unfold as_seal, as_location, as_event_seal. set (l := [(bstr "d", JStr d); (bstr "i", JStr a); (bstr "s", JStr b)]).
    change (jget l "i") with (Some (JStr a)). change (jget l "p") with (@None jval). change (jget l "s") with (Some (JStr b)). change (jget l "t") with (@None jval).
    change (jget l "d") with (Some (JStr d)).
    unfold field. rewrite H1, H2, H3. reflexivity.
  Qed.
  Lemma seal_digest_ok d p : as_sap (JStr d) = Ok p ->
    as_seal hx (to_value (JObj [(bstr "d", JStr d)])) = Ok (SealDigest p).
  Proof.
    intros H3. change (to_value _) with (JObj [(bstr "d", JStr d)]).
    unfold as_seal, as_location, as_event_seal, as_one. set (l := [(bstr "d", JStr d)]).
    change (jget l "i") with (@None jval). change (jget l "p") with (@None jval). change (jget l "s") with (@None jval). change (jget l "t") with (@None jval).
    change (jget l "d") with (Some (JStr d)).
    unfold field. rewrite H3. reflexivity.
  Qed.
  Lemma seal_root_ok d p : as_sap (JStr d) = Ok p ->
    as_seal hx (to_value (JObj [(bstr "rd", JStr d)])) = Ok (SealRoot p).
  Proof.
    intros H3. change (to_value _) with (JObj [(bstr "rd", JStr d)]).
    unfold as_seal, as_location, as_event_seal, as_one. set (l := [(bstr "rd", JStr d)]).
    change (jget l "i") with (@None jval). change (jget l "p") with (@None jval). change (jget l "s") with (@None jval). change (jget l "t") with (@None jval).
    change (jget l "d") with (@None jval). change (jget l "rd") with (Some (JStr d)).
    unfold field. rewrite H3. reflexivity.
  Qed.
  Lemma seal_ok s : sap_readable (seal_digest s) -> Forall id_readable (seal_ids s) -> Forall u64 (seal_numbers s) ->
    as_seal hx (to_value (erase (seal_val s))) = Ok s.
  Proof.
    destruct s as [l|e|d|d]; cbn [seal_digest seal_ids seal_numbers seal_val]; intros H1 H2 H3;
      unfold sfld, fld; cbn [erase map fst snd];
      try (apply Forall_cons_iff in H2 as [H2 _]); try (apply Forall_cons_iff in H3 as [H3 _]).
    - erewrite seal_location; [|now apply as_id_ok|now apply as_hex_ok|now apply as_sap_ok]. now destruct l.
    - erewrite seal_event; [|now apply as_id_ok|now apply as_hex_ok|now apply as_sap_ok]. now destruct e.
    - erewrite seal_digest_ok; [|now apply as_sap_ok]. reflexivity.
    - erewrite seal_root_ok; [|now apply as_sap_ok]. reflexivity.
  Qed.
  Lemma seals_ok l : Forall sap_readable (map seal_digest l) -> Forall id_readable (flat_map seal_ids l) -> Forall u64 (flat_map seal_numbers l) ->
    as_vec (as_seal hx) (to_value (erase (VSeq (map seal_val l)))) = Ok l.
  Proof.
    intros H1 H2 H3. cbn [erase to_value as_vec]. rewrite !map_map. apply omapm_id.
    rewrite Forall_forall in *. intros s Hs. apply seal_ok.
    - apply H1, in_map, Hs.
    - apply Forall_forall. intros x Hx. apply H2, in_flat_map. now exists s.
    - apply Forall_forall. intros x Hx. apply H3, in_flat_map. now exists s.
  Qed.

  (** ** Whole events.  First with variables for the texts of the fields. *)
  Lemma kc_ok l kt k n tv kv nv : jget l "k" = Some kv -> jget l "kt" = Some tv -> jget l "n" = Some nv ->
    as_vec as_bp kv = Ok k -> as_threshold hx tv = Ok kt -> as_next nv = Ok n -> read_kc hx l = Ok (mkKC kt k n).
  Proof. intros E1 E2 E3 H1 H2 H3. unfold read_kc. rewrite E1, E2, E3. unfold field. rewrite H1, H2, H3. reflexivity. Qed.
  Lemma iwc_ok l bt b btv bv : jget l "b" = Some bv -> jget l "bt" = Some btv ->
    as_vec as_bp bv = Ok b -> as_hex hx btv = Ok bt -> read_iwc hx l = Ok (mkIWC bt b).
  Proof. intros E1 E2 H1 H2. unfold read_iwc. rewrite E1, E2. unfold field. rewrite H1, H2. reflexivity. Qed.
  Lemma wc_ok l bt br ba btv brv bav : jget l "ba" = Some bav -> jget l "br" = Some brv -> jget l "bt" = Some btv ->
    as_vec as_bp bav = Ok ba -> as_vec as_bp brv = Ok br -> as_hex hx btv = Ok bt -> read_wc hx l = Ok (mkWC bt br ba).
  Proof. intros E1 E2 E3 H1 H2 H3. unfold read_wc. rewrite E1, E2, E3. unfold field. rewrite H1, H2, H3. reflexivity. Qed.
  Lemma icp_ok l kc wc c a cv av : jget l "a" = Some av -> jget l "c" = Some cv ->
    as_vec (as_seal hx) av = Ok a -> as_vec as_str cv = Ok c -> read_kc hx l = Ok kc -> read_iwc hx l = Ok wc ->
    read_icp hx l = Ok (mkIcp kc wc c a).
  Proof. intros E1 E2 H1 H2 H3 H4. unfold read_icp. rewrite E1, E2. unfold field. rewrite H1, H2. cbn [obind need ok_or]. rewrite H3, H4. reflexivity. Qed.
  Lemma rot_ok l kc wc p a pv av : jget l "a" = Some av -> jget l "p" = Some pv ->
    as_vec (as_seal hx) av = Ok a -> as_sap pv = Ok p -> read_kc hx l = Ok kc -> read_wc hx l = Ok wc ->
    read_rot hx l = Ok (mkRot p kc wc a).
  Proof. intros E1 E2 H1 H2 H3 H4. unfold read_rot. rewrite E1, E2. unfold field. rewrite H1, H2. cbn [obind need ok_or]. rewrite H3, H4. reflexivity. Qed.
  Lemma ixn_ok l p a pv av : jget l "a" = Some av -> jget l "p" = Some pv ->
    as_vec (as_seal hx) av = Ok a -> as_sap pv = Ok p -> read_ixn hx l = Ok (mkIxn p a).
  Proof. intros E1 E2 H1 H2. unfold read_ixn. rewrite E1, E2. unfold field. rewrite H1, H2. reflexivity. Qed.
  Lemma dip_ok l icp di dv : jget l "di" = Some dv -> as_id dv = Ok di -> read_icp hx l = Ok icp -> read_dip hx l = Ok (mkDip icp di).
  Proof. intros E1 H1 H2. unfold read_dip. rewrite E1. unfold field. rewrite H1. cbn [obind need ok_or]. rewrite H2. reflexivity. Qed.

  Lemma data_icp v1 v2 v3 v4 v5 v6 v7 kt k n bt b c a :
    as_threshold hx (to_value v1) = Ok kt -> as_vec as_bp (to_value v2) = Ok k -> as_next (to_value v3) = Ok n ->
    as_hex hx (to_value v4) = Ok bt -> as_vec as_bp (to_value v5) = Ok b ->
    as_vec as_str (to_value v6) = Ok c -> as_vec (as_seal hx) (to_value v7) = Ok a ->
    read_data hx [(bstr "t", JStr (bstr "icp")); (bstr "kt", v1); (bstr "k", v2); (bstr "n", v3); (bstr "bt", v4); (bstr "b", v5); (bstr "c", v6); (bstr "a", v7)]
    = Ok (Icp (mkIcp (mkKC kt k n) (mkIWC bt b) c a)).
  Proof.
    intros. unfold read_data. cbn [map fst snd].
    change (sort_map _) with [(bstr "a", to_value v7); (bstr "b", to_value v5); (bstr "bt", to_value v4); (bstr "c", to_value v6); (bstr "k", to_value v2); (bstr "kt", to_value v1); (bstr "n", to_value v3); (bstr "t", to_value (JStr (bstr "icp")))].
    set (l := [(bstr "a", _); _; _; _; _; _; _; _]). change (jget l "t") with (Some (JStr (bstr "icp"))). unfold field.
    change (as_tag (JStr (bstr "icp"))) with (Ok TIcp). unfold need, ok_or. cbn [obind].
    rewrite (icp_ok l (mkKC kt k n) (mkIWC bt b) c a (to_value v6) (to_value v7)); try reflexivity; try assumption.
    - apply (kc_ok l kt k n (to_value v1) (to_value v2) (to_value v3)); try reflexivity; assumption.
    - apply (iwc_ok l bt b (to_value v4) (to_value v5)); try reflexivity; assumption.
  Qed.
  Lemma data_dip v1 v2 v3 v4 v5 v6 v7 v8 kt k n bt b c a di :
    as_threshold hx (to_value v1) = Ok kt -> as_vec as_bp (to_value v2) = Ok k -> as_next (to_value v3) = Ok n ->
    as_hex hx (to_value v4) = Ok bt -> as_vec as_bp (to_value v5) = Ok b ->
    as_vec as_str (to_value v6) = Ok c -> as_vec (as_seal hx) (to_value v7) = Ok a -> as_id (to_value v8) = Ok di ->
    read_data hx [(bstr "t", JStr (bstr "dip")); (bstr "kt", v1); (bstr "k", v2); (bstr "n", v3); (bstr "bt", v4); (bstr "b", v5); (bstr "c", v6); (bstr "a", v7); (bstr "di", v8)]
    = Ok (Dip (mkDip (mkIcp (mkKC kt k n) (mkIWC bt b) c a) di)).
  Proof.
    intros. unfold read_data. cbn [map fst snd].
    change (sort_map _) with [(bstr "a", to_value v7); (bstr "b", to_value v5); (bstr "bt", to_value v4); (bstr "c", to_value v6); (bstr "di", to_value v8); (bstr "k", to_value v2); (bstr "kt", to_value v1); (bstr "n", to_value v3); (bstr "t", to_value (JStr (bstr "dip")))].
    set (l := [(bstr "a", _); _; _; _; _; _; _; _; _]). change (jget l "t") with (Some (JStr (bstr "dip"))). unfold field.
    change (as_tag (JStr (bstr "dip"))) with (Ok TDip). unfold need, ok_or. cbn [obind].
    rewrite (dip_ok l (mkIcp (mkKC kt k n) (mkIWC bt b) c a) di (to_value v8)); try reflexivity; try assumption.
    apply (icp_ok l (mkKC kt k n) (mkIWC bt b) c a (to_value v6) (to_value v7)); try reflexivity; try assumption.
    - apply (kc_ok l kt k n (to_value v1) (to_value v2) (to_value v3)); try reflexivity; assumption.
    - apply (iwc_ok l bt b (to_value v4) (to_value v5)); try reflexivity; assumption.
  Qed.
  Lemma data_rot (drt : bool) v0 v1 v2 v3 v4 v5 v6 v7 p kt k n bt br ba a :
    as_sap (to_value v0) = Ok p -> as_threshold hx (to_value v1) = Ok kt -> as_vec as_bp (to_value v2) = Ok k -> as_next (to_value v3) = Ok n ->
    as_hex hx (to_value v4) = Ok bt -> as_vec as_bp (to_value v5) = Ok br -> as_vec as_bp (to_value v6) = Ok ba ->
    as_vec (as_seal hx) (to_value v7) = Ok a ->
    read_data hx [(bstr "t", JStr (bstr (if drt then "drt" else "rot"))); (bstr "p", v0); (bstr "kt", v1); (bstr "k", v2); (bstr "n", v3); (bstr "bt", v4); (bstr "br", v5); (bstr "ba", v6); (bstr "a", v7)]
    = Ok ((if drt then Drt else Rot) (mkRot p (mkKC kt k n) (mkWC bt br ba) a)).
  Proof.
    intros. unfold read_data. cbn [map fst snd].
    change (sort_map _) with [(bstr "a", to_value v7); (bstr "ba", to_value v6); (bstr "br", to_value v5); (bstr "bt", to_value v4); (bstr "k", to_value v2); (bstr "kt", to_value v1); (bstr "n", to_value v3); (bstr "p", to_value v0); (bstr "t", to_value (JStr (bstr (if drt then "drt" else "rot"))))].
    set (l := [(bstr "a", _); _; _; _; _; _; _; _; _]). change (jget l "t") with (Some (JStr (bstr (if drt then "drt" else "rot")))). unfold field.
    assert (E : read_rot hx l = Ok (mkRot p (mkKC kt k n) (mkWC bt br ba) a)).
    { apply (rot_ok l (mkKC kt k n) (mkWC bt br ba) p a (to_value v0) (to_value v7)); try reflexivity; try assumption.
      - apply (kc_ok l kt k n (to_value v1) (to_value v2) (to_value v3)); try reflexivity; assumption.
      - apply (wc_ok l bt br ba (to_value v4) (to_value v5) (to_value v6)); try reflexivity; assumption. }
    destruct drt.
    - change (as_tag (JStr (bstr "drt"))) with (Ok TDrt). unfold need, ok_or. cbn [obind]. rewrite E. reflexivity.
    - change (as_tag (JStr (bstr "rot"))) with (Ok TRot). unfold need, ok_or. cbn [obind]. rewrite E. reflexivity.
  Qed.
  Lemma data_ixn v0 v7 p a :
    as_sap (to_value v0) = Ok p -> as_vec (as_seal hx) (to_value v7) = Ok a ->
    read_data hx [(bstr "t", JStr (bstr "ixn")); (bstr "p", v0); (bstr "a", v7)] = Ok (Ixn (mkIxn p a)).
  Proof.
    intros. unfold read_data. cbn [map fst snd].
    change (sort_map _) with [(bstr "a", to_value v7); (bstr "p", to_value v0); (bstr "t", to_value (JStr (bstr "ixn")))].
    set (l := [(bstr "a", _); _; _]). change (jget l "t") with (Some (JStr (bstr "ixn"))). unfold field.
    change (as_tag (JStr (bstr "ixn"))) with (Ok TIxn). unfold need, ok_or. cbn [obind].
    rewrite (ixn_ok l p a (to_value v0) (to_value v7)); try reflexivity; assumption.
  Qed.
  (** the flattened parts take their own fields and pass the rest on *)
  Lemma take1_other {A} ka (fa : jval -> out A) l o : Forall (fun kv : bytes * jval => is (fst kv) ka = false) l -> take1 ka fa l o = Ok (o, l).
  Proof. induction 1 as [|[k v] l H _ IH]; [reflexivity|]. cbn [take1 fst] in *. rewrite H, IH. reflexivity. Qed.
  Lemma take2_other {A B} ka kb (fa : jval -> out A) (fb : jval -> out B) l oa ob :
    Forall (fun kv : bytes * jval => is (fst kv) ka = false /\ is (fst kv) kb = false) l -> take2 ka kb fa fb l oa ob = Ok (oa, ob, l).
  Proof. induction 1 as [|[k v] l [H1 H2] _ IH]; [reflexivity|]. cbn [take2 fst] in *. rewrite H1, H2, IH. reflexivity. Qed.
  Definition plain_key (k : bytes) : Prop := is k "v" = false /\ is k "d" = false /\ is k "i" = false /\ is k "s" = false.
  Lemma key_event_ok info tv dv iv sv l d i s data :
    Forall (fun kv : bytes * jval => plain_key (fst kv)) l ->
    as_sap dv = Ok d -> as_id iv = Ok i -> as_hex hx sv = Ok s -> read_data hx ((bstr "t", tv) :: l) = Ok data ->
    read_key_event hx info ((bstr "t", tv) :: (bstr "d", dv) :: (bstr "i", iv) :: (bstr "s", sv) :: l) = Ok (mkEM info d i s data).
  Proof.
    intros Hl Hd Hi Hs Hdata. unfold read_key_event. cbn [take1].
    change (is (bstr "t") "d") with false. change (is (bstr "d") "d") with true. change (is (bstr "i") "d") with false. change (is (bstr "s") "d") with false. cbv iota.
    rewrite Hd. cbn [obind]. rewrite take1_other by (eapply Forall_impl; [|exact Hl]; intros kv H; exact (proj1 (proj2 H))).
    cbn [obind]. unfold need at 1, ok_or at 1. cbn [obind take2].
    change (is (bstr "t") "i") with false. change (is (bstr "t") "s") with false. change (is (bstr "i") "i") with true. change (is (bstr "s") "i") with false. change (is (bstr "s") "s") with true. cbv iota.
    rewrite Hi. cbn [obind]. rewrite Hs. cbn [obind].
    rewrite take2_other by (eapply Forall_impl; [|exact Hl]; intros kv H; exact (proj2 (proj2 H))).
    cbn [obind]. unfold need, ok_or. cbn [obind]. rewrite Hdata. reflexivity.
  Qed.
  Lemma plain_keys d : Forall (fun kv => plain_key (fst kv)) (data_fields d).
  Proof. unfold plain_key. destruct d; cbn [data_fields]; repeat constructor. Qed.
  Lemma data_ok d : data_readable d -> read_data hx ((bstr "t", JStr (tag_str (event_type d))) :: map erase_kv (data_fields d)) = Ok d.
  Proof.
    intros (Hk & Hd & Hi & Hn & Ht & _). unfold data_keys, data_digests, data_ids, data_numbers, data_thresholds in *.
    destruct d as [e|e|e|e|e]; cbn [data_kc data_seals opt_list flat_map map app] in *;
      repeat match goal with H : Forall _ (_ ++ _) |- _ => apply Forall_app in H; destruct H end;
      repeat match goal with H : Forall _ (_ :: _) |- _ => apply Forall_cons_iff in H; destruct H end.
    - destruct e as [[kt k n] [bt b] c a]. apply data_icp; cbn [icp_kc icp_wc icp_config icp_data kc_threshold kc_keys kc_next iwc_tally iwc_witnesses] in *;
        [now apply threshold_ok|now apply keys_ok|now apply next_ok|now apply as_hex_ok|now apply keys_ok|apply strings_ok|now apply seals_ok].
    - destruct e as [p [kt k n] [bt br ba] a]. apply (data_rot false); cbn [rot_prev rot_kc rot_wc rot_data kc_threshold kc_keys kc_next wc_tally wc_prune wc_graft] in *;
        [now apply as_sap_ok|now apply threshold_ok|now apply keys_ok|now apply next_ok|now apply as_hex_ok|now apply keys_ok|now apply keys_ok|now apply seals_ok].
    - destruct e as [p a]. apply data_ixn; [now apply as_sap_ok|now apply seals_ok].
    - destruct e as [[[kt k n] [bt b] c a] di]. apply data_dip; cbn [dip_icp dip_delegator icp_kc icp_wc icp_config icp_data kc_threshold kc_keys kc_next iwc_tally iwc_witnesses] in *;
        [now apply threshold_ok|now apply keys_ok|now apply next_ok|now apply as_hex_ok|now apply keys_ok|apply strings_ok|now apply seals_ok|now apply as_id_ok].
    - destruct e as [p [kt k n] [bt br ba] a]. apply (data_rot true); cbn [rot_prev rot_kc rot_wc rot_data kc_threshold kc_keys kc_next wc_tally wc_prune wc_graft] in *;
        [now apply as_sap_ok|now apply threshold_ok|now apply keys_ok|now apply next_ok|now apply as_hex_ok|now apply keys_ok|now apply keys_ok|now apply seals_ok].
  Qed.
  Lemma version_back v : version_readable v -> si_from (si_str v) = Ok v.
  Proof. intros [[H1 H2] H3]. destruct v. apply C51_version_round_trip_partial; assumption. Qed.
  Theorem event_reads_back m r : event_readable m -> json_message (read_key_event hx) (json (event_val m) ++ r) = POk r m.
  Proof.
    intros (Hv & Hd & Hi & Hs & Hdata). unfold event_val, head_fields, event_fields. cbn [app].
    apply json_message_obj with (v := em_info m).
    - pose proof (fits_event m) as F. unfold event_val in F. rewrite fits_map in F. apply F. now destruct Hdata as (_ & _ & _ & _ & _ & ?).
    - do 4 (constructor; [reflexivity|]). eapply Forall_impl; [|apply plain_keys]. now intros kv [H _].
    - now apply version_back.
    - cbn [map]. change (erase_kv (sfld "t" ?x)) with (bstr "t", JStr x). change (erase_kv (sfld "d" ?x)) with (bstr "d", JStr x).
      change (erase_kv (sfld "i" ?x)) with (bstr "i", JStr x). change (erase_kv (sfld "s" ?x)) with (bstr "s", JStr x).
      destruct m as [info d i s data]. cbn [em_info em_digest em_prefix em_sn em_data] in *.
      apply key_event_ok; [|now apply as_sap_ok|now apply as_id_ok|now apply as_hex_ok|now apply data_ok].
      apply Forall_map. eapply Forall_impl; [|apply plain_keys]. intros kv H. exact H.
  Qed.
  Lemma receipt_fields info tv dv iv sv d i s :
    as_sap dv = Ok d -> as_id iv = Ok i -> as_hex hx sv = Ok s ->
    read_receipt hx info [(bstr "t", tv); (bstr "d", dv); (bstr "i", iv); (bstr "s", sv)] = Ok (mkRct info d i s).
  Proof.
    intros Hd Hi Hs. unfold read_receipt. cbn [take_rct].
    change (is (bstr "t") "d") with false. change (is (bstr "t") "i") with false. change (is (bstr "t") "s") with false.
    change (is (bstr "d") "d") with true. change (is (bstr "i") "d") with false. change (is (bstr "i") "i") with true.
    change (is (bstr "s") "d") with false. change (is (bstr "s") "i") with false. change (is (bstr "s") "s") with true. cbv iota.
    rewrite Hd. cbn [obind]. rewrite Hi. cbn [obind]. rewrite Hs. reflexivity.
  Qed.
  Theorem receipt_reads_back m r : receipt_readable m -> json_message (read_receipt hx) (json (receipt_val m) ++ r) = POk r m.
  Proof.
    intros (Hv & Hd & Hi & Hs). unfold receipt_val, head_fields. cbn [app].
    apply json_message_obj with (v := rct_info m).
    - pose proof (fits_receipt m) as F. unfold receipt_val in F. rewrite fits_map in F. exact F.
    - repeat constructor.
    - now apply version_back.
    - cbn [map]. change (erase_kv (sfld "t" ?x)) with (bstr "t", JStr x). change (erase_kv (sfld "d" ?x)) with (bstr "d", JStr x).
      change (erase_kv (sfld "i" ?x)) with (bstr "i", JStr x). change (erase_kv (sfld "s" ?x)) with (bstr "s", JStr x).
      destruct m as [info d i s]. cbn [rct_info rct_digest rct_prefix rct_sn] in *.
      apply receipt_fields; [now apply as_sap_ok|now apply as_id_ok|now apply as_hex_ok].
  Qed.
End Hex.
