(** * JsonProofs6: the text of signed events. *)
From Coq Require Import ZifyBool ZifyN ZifyNat.
From Verif Require Import Base Base64 Base64Proofs Codes NumFmt NumProofs Types SpecCodec CodecProofs KeyConf Version Cesr CesrProofs Message Keri Json JsonRead JsonProofs SpecJson JsonProofs2 JsonProofs3 JsonProofs4 JsonProofs5 Prop_Version.

(** ** Nothing that an event contains begins with a dash, except free text *)
Lemma prefix_undashed code d : code <> [] -> undashed code -> undashed (prefix_str code d).
Proof. intros Hne H. unfold prefix_str. destruct d; [reflexivity|]. destruct code; [congruence|]. exact H. Qed.
Lemma bp_undashed p : undashed (bp_str p).
Proof. apply prefix_undashed; destruct (bp_code p); (discriminate || reflexivity). Qed.
Lemma sap_undashed p : undashed (sap_str p).
Proof. apply prefix_undashed; destruct (sap_code p); (discriminate || reflexivity). Qed.
Lemma ssp_undashed p : undashed (ssp_str p).
Proof. apply prefix_undashed; destruct (ssp_code p); (discriminate || reflexivity). Qed.
Lemma id_undashed p : undashed (id_str p).
Proof. destruct p; [apply bp_undashed|apply sap_undashed|apply ssp_undashed]. Qed.
Lemma digit_undashed d t : (d < 16)%N -> undashed (digit_char d :: t).
Proof.
  intros H. assert (D : (d = 0 \/ d = 1 \/ d = 2 \/ d = 3 \/ d = 4 \/ d = 5 \/ d = 6 \/ d = 7 \/ d = 8 \/ d = 9 \/ d = 10 \/ d = 11 \/ d = 12 \/ d = 13 \/ d = 14 \/ d = 15)%N) by lia.
  repeat (destruct D as [D|D]); subst d; reflexivity.
Qed.
Lemma fmt_undashed r n t : radix r -> undashed (fmt_radix r n ++ t).
Proof.
  intros Hr. pose proof (fmt_ne r n) as Hne. pose proof (fmt_chars r n) as H. destruct (fmt_radix r n) as [|c l]; [congruence|].
  destruct (H c Hr (or_introl eq_refl)) as (d & Hd & ->). cbn [app]. apply digit_undashed. destruct Hr; lia.
Qed.
Lemma hex_undashed n : undashed (fmt_hex n).
Proof. rewrite <- (app_nil_r (fmt_hex n)). apply fmt_undashed, radix16. Qed.
Lemma frac_undashed f : undashed (frac_str f).
Proof.
  destruct f as [| |n d]; [reflexivity|reflexivity|]. cbn [frac_str]. destruct (d =? 1)%N.
  - rewrite <- (app_nil_r (fmt_dec n)). apply fmt_undashed, radix10.
  - apply fmt_undashed, radix10.
Qed.
Lemma flat_str s : plain s -> undashed s -> flat (VStr s). Proof. now split. Qed.
Lemma flat_keys l : flat (keys_val l).
Proof. apply flat_seq. apply Forall_forall. intros v Hv. apply in_map_iff in Hv as (p & <- & _). split; [apply bp_plain|apply bp_undashed]. Qed.
Lemma flat_clause c : flat (clause_val c).
Proof. apply flat_seq. apply Forall_forall. intros v Hv. apply in_map_iff in Hv as (p & <- & _). split; [apply frac_plain|apply frac_undashed]. Qed.
Lemma flat_threshold t : flat (threshold_val t).
Proof.
  destruct t as [n|[c|cs]]; cbn [threshold_val]; [split; [apply hex_plain|apply hex_undashed]|apply flat_clause|].
  apply flat_seq. apply Forall_forall. intros v Hv. apply in_map_iff in Hv as (c & <- & _). apply flat_clause.
Qed.
Lemma flat_strings l : Forall (fun s => plain s /\ undashed s) l -> flat (VSeq (map VStr l)).
Proof. intros H. apply flat_seq. apply Forall_forall. intros v Hv. apply in_map_iff in Hv as (s & <- & Hs). rewrite Forall_forall in H. now apply H. Qed.
Ltac key_plain := split; [lit_plain|split; [reflexivity|]].
Lemma flat_fld k v : plain (bstr k) -> undashed (bstr k) -> flat v -> flat_kv (fld k v).
Proof. intros; split; [assumption|now split]. Qed.
Ltac one_flat := lazymatch goal with
  | |- flat_kv (sfld _ _) => apply flat_fld; [lit_plain|reflexivity|split; [first [apply id_plain|apply hex_plain|apply sap_plain|apply si_plain|apply tag_plain]|first [apply id_undashed|apply hex_undashed|apply sap_undashed|reflexivity]]]
  | |- flat_kv (fld _ (keys_val _)) => apply flat_fld; [lit_plain|reflexivity|apply flat_keys]
  | |- flat_kv (fld _ (threshold_val _)) => apply flat_fld; [lit_plain|reflexivity|apply flat_threshold]
  | |- flat_kv (fld "c" _) => apply flat_fld; [lit_plain|reflexivity|now apply flat_strings]
  end.
Ltac parts_flat := repeat lazymatch goal with
  | |- Forall flat_kv (_ ++ _) => apply Forall_app; split
  | |- Forall flat_kv (_ :: _) => apply Forall_cons
  | |- Forall flat_kv [] => apply Forall_nil
  end.
Lemma flat_kc kc : Forall flat_kv (kc_fields kc).
Proof.
  unfold kc_fields. parts_flat; try one_flat. apply flat_fld; [lit_plain|reflexivity|].
  split; [destruct (kc_next kc); [apply sap_plain|constructor]|destruct (kc_next kc); [apply sap_undashed|reflexivity]].
Qed.
(** the fields before the seals, and after them *)
Definition before_seals (d : EventData) : list (bytes * sval) :=
  let icp e := kc_fields (icp_kc e)
    ++ [sfld "bt" (fmt_hex (iwc_tally (icp_wc e))); fld "b" (keys_val (iwc_witnesses (icp_wc e))); fld "c" (VSeq (map VStr (icp_config e)))] in
  let rot e := sfld "p" (sap_str (rot_prev e)) :: kc_fields (rot_kc e)
    ++ [sfld "bt" (fmt_hex (wc_tally (rot_wc e))); fld "br" (keys_val (wc_prune (rot_wc e))); fld "ba" (keys_val (wc_graft (rot_wc e)))] in
  match d with
  | Icp e => icp e | Dip e => icp (dip_icp e) | Rot e | Drt e => rot e | Ixn e => [sfld "p" (sap_str (ixn_prev e))]
  end.
Definition after_seals (d : EventData) : list (bytes * sval) :=
  match d with Dip e => [sfld "di" (id_str (dip_delegator e))] | _ => [] end.
Lemma fields_split d : data_fields d = before_seals d ++ seals_fld (data_seals d) :: after_seals d.
Proof. destruct d; reflexivity. Qed.
Definition config_of (d : EventData) : list bytes := match d with Icp e => icp_config e | Dip e => icp_config (dip_icp e) | _ => [] end.
Lemma flat_before d : Forall (fun s => plain s /\ undashed s) (config_of d) -> Forall flat_kv (before_seals d).
Proof.
  intros H. destruct d as [e|e|e|e|e]; cbn [config_of before_seals] in *; parts_flat; try apply flat_kc; try one_flat.
Qed.
Lemma flat_after d : Forall flat_kv (after_seals d).
Proof. destruct d; cbn [after_seals]; parts_flat; one_flat. Qed.
Lemma flat_event m : Forall (fun s => plain s /\ undashed s) (config_of (em_data m)) -> data_seals (em_data m) = [] -> flat (event_val m).
Proof.
  intros H Hs. apply flat_map_iff. unfold head_fields, event_fields. rewrite fields_split, Hs.
  cbn [app]. do 5 (apply Forall_cons; [first [one_flat|apply flat_fld; [lit_plain|reflexivity|split; [apply tag_plain|destruct (em_data m); reflexivity]]]|]).
  apply Forall_app; split; [now apply flat_before|]. apply Forall_cons; [|apply flat_after].
  apply flat_fld; [lit_plain|reflexivity|exact I].
Qed.
(** ** The text of a signed event *)
Lemma kser_struct2 v t : starts_dash t = true -> ends_in (kser v []) x7d = true ->
  keri_to_string (VStruct [(bstr "", v); (bstr "-", VStr t)]) = kser v [] ++ t.
Proof.
  intros Ht He. unfold keri_to_string. cbn [kser fold_left fst snd]. change (starts_dash (bstr "")) with false. change (starts_dash (bstr "-")) with true. cbv iota.
  change (ends_in [] "{"%byte || (List.length (@nil byte) =? 0)) with true. cbv iota. change (bstr "") with (@nil byte). cbv iota zeta.
  change "}"%byte with x7d. rewrite He. unfold kstr. now rewrite Ht.
Qed.
Theorem signed_text m sigs t : to_cesr (AttachedSignatures sigs) = Ok t -> flat (event_val m) -> starts_dash t = true ->
  keri_to_string (signed_val m t) = json (event_val m) ++ t.
Proof.
  intros Et Hf Ht. unfold signed_val. rewrite kser_struct2; [now rewrite (kser_flat _ Hf)|exact Ht|].
  rewrite (kser_flat _ Hf). cbn [app]. unfold event_val. rewrite json_obj.
  change (x7b :: ?a ++ bstr "}") with ((x7b :: a) ++ [x7d]). rewrite ends_in_snoc. destruct (Byte.byte_eq_dec x7d x7d); congruence.
Qed.

(** ** Events with seals *)
Definition open_struct (o : bytes) : bytes := if ends_in o "{"%byte || (List.length o =? 0) then o else o ++ bstr ",{".
Definition struct_step (o : bytes) (kv : bytes * sval) : bytes :=
  if starts_dash (fst kv) then kser (snd kv) o
  else
    let o2 := match fst kv with [] => open_struct o | k => open_struct o ++ kstr k end in
    let o3 := kser (snd kv) o2 in
    if ends_in o3 "}"%byte then o3 else o3 ++ bstr "}".
Lemma kser_struct l o : kser (VStruct l) o = fold_left struct_step l o.
Proof. reflexivity. Qed.
Definition grows (f : bytes -> bytes) : Prop := forall o, exists t, f o = o ++ t.
Lemma open_grows : grows open_struct.
Proof. intros o. unfold open_struct. destruct (_ || _); [exists []; now rewrite app_nil_r|eexists; reflexivity]. Qed.
Lemma struct_rest kv o0 : grows (kser (snd kv)) -> starts_dash (fst kv) = false -> exists t, struct_step o0 kv = open_struct o0 ++ t.
Proof.
  intros Hg Hd. unfold struct_step. rewrite Hd. set (o2 := match fst kv with [] => _ | _ => _ end).
  assert (G2 : exists u, o2 = open_struct o0 ++ u) by (unfold o2; destruct (fst kv); [exists []; now rewrite app_nil_r|eexists; reflexivity]).
  destruct G2 as [u2 E2], (Hg o2) as [u3 E3]. cbv zeta. rewrite E3, E2. destruct (ends_in _ _); rewrite <- !app_assoc; eexists; reflexivity.
Qed.
Lemma struct_step_grows kv : grows (kser (snd kv)) -> grows (fun o => struct_step o kv).
Proof.
  intros Hg o. destruct (starts_dash (fst kv)) eqn:Hd; [unfold struct_step; rewrite Hd; apply Hg|].
  destruct (struct_rest kv o Hg Hd) as [t ->]. destruct (open_grows o) as [u ->]. rewrite <- app_assoc. eexists. reflexivity.
Qed.
Lemma struct_grows l : Forall (fun kv => grows (kser (snd kv))) l -> grows (fold_left struct_step l).
Proof.
  induction 1 as [|kv l Hv _ IH]; intros o; [exists []; now rewrite app_nil_r|]. cbn [fold_left].
  destruct (IH (struct_step o kv)) as [t ->]. destruct (struct_step_grows kv Hv o) as [u E]. cbn beta in E. rewrite E, <- app_assoc. eexists. reflexivity.
Qed.
Lemma kser_grows v : forall o, exists t, kser v o = o ++ t.
Proof.
  induction v as [s|l IH|l IH|l IH|] using sval_ind'; intros o; [| | | |eexists; reflexivity].
  - eexists. reflexivity.
  - rewrite kser_seq. assert (G : forall o, exists t, fold_left seq_step l o = o ++ t).
    { clear o. induction IH as [|v l Hv _ IHl]; intros o; [exists []; now rewrite app_nil_r|]. cbn [fold_left].
      destruct (IHl (seq_step o v)) as [t ->]. unfold seq_step. destruct (Hv (if ends_in o "["%byte then o else o ++ bstr ",")) as [u ->].
      destruct (ends_in o "["%byte); rewrite <- !app_assoc; eexists; reflexivity. }
    destruct (G (o ++ bstr "[")) as [t ->]. rewrite <- !app_assoc. eexists. reflexivity.
  - rewrite kser_map. assert (G : forall o, exists t, fold_left map_step l o = o ++ t).
    { clear o. induction IH as [|v l Hv _ IHl]; intros o; [exists []; now rewrite app_nil_r|]. cbn [fold_left].
      destruct (IHl (map_step o v)) as [t ->]. unfold map_step. destruct (Hv ((if ends_in o "{"%byte then o else o ++ bstr ",") ++ kstr (fst v) ++ bstr ":")) as [u ->].
      destruct (ends_in o "{"%byte); rewrite <- !app_assoc; eexists; reflexivity. }
    destruct (G (o ++ bstr "{")) as [t ->]. rewrite <- !app_assoc. eexists. reflexivity.
  - rewrite kser_struct. now apply struct_grows.
Qed.
Lemma seal_starts s o : ends_in o x7b = false -> o <> [] -> exists t, kser (seal_val s) o = o ++ bstr ",{" ++ t.
Proof.
  intros H Hne.
  assert (G : forall k s l, starts_dash (bstr k) = false -> exists t, kser (VStruct (sfld k s :: l)) o = o ++ bstr ",{" ++ t).
  { intros k x l Hk. rewrite kser_struct. cbn [fold_left].
    destruct (struct_grows l) with (o := struct_step o (sfld k x)) as [t ->]; [apply Forall_forall; intros kv _; exact (kser_grows (snd kv))|].
    destruct (struct_rest (sfld k x) o) as [u ->]; [exact (kser_grows (VStr x))|exact Hk|].
    unfold open_struct. change "{"%byte with x7b. rewrite H. destruct o; [congruence|]. cbn [orb Nat.eqb List.length]. rewrite <- !app_assoc. eexists. reflexivity. }
  destruct s; cbn [seal_val]; apply G; reflexivity.
Qed.
Lemma sealed_event_text m : data_seals (em_data m) <> [] -> Forall (fun s => plain s /\ undashed s) (config_of (em_data m)) ->
  exists junk, kser (event_val m) [] =
    x7b :: member (sfld "v" (si_str (em_info m)))
    ++ tail_text ([sfld "t" (tag_str (event_type (em_data m))); sfld "d" (sap_str (em_digest m)); sfld "i" (id_str (em_prefix m)); sfld "s" (fmt_hex (em_sn m))] ++ before_seals (em_data m))
    ++ bstr ",""a"":[,{" ++ junk ++ bstr "}".
Proof.
  intros Hs Hc. unfold event_val, head_fields, event_fields. rewrite kser_map, fields_split.
  cbn [app]. set (pre := sfld "t" _ :: _ :: _ :: _ :: before_seals (em_data m)).
  change (sfld "v" ?a :: ?b :: ?c :: ?d :: ?e :: before_seals (em_data m) ++ ?z) with ((sfld "v" a :: pre) ++ z).
  rewrite fold_left_app. rewrite (map_body (sfld "v" (si_str (em_info m))) pre (bstr "{")); [|apply Forall_forall; intros; apply kser_flat| |reflexivity].
  2:{ apply Forall_cons; [one_flat|]. unfold pre. do 4 (apply Forall_cons; [first [one_flat|apply flat_fld; [lit_plain|reflexivity|split; [apply tag_plain|destruct (em_data m); reflexivity]]]|]). now apply flat_before. }
  change (bstr "{") with [x7b]. cbn [app]. set (head := x7b :: member (sfld "v" (si_str (em_info m))) ++ tail_text pre).
  assert (He : ends_in head x7b = false).
  { assert (Q : forall l kv x, exists o v, x :: member kv ++ tail_text l = o ++ json v).
    { clear. induction l as [|w l IH] using rev_ind; intros kv x.
      - exists (x :: quote (fst kv) ++ bstr ":"), (snd kv). unfold member. cbn [tail_text flat_map app]. rewrite !app_nil_r, <- app_assoc. reflexivity.
      - exists (x :: member kv ++ tail_text l ++ x2c :: quote (fst w) ++ bstr ":"), (snd w).
        unfold tail_text. rewrite flat_map_app. cbn [flat_map]. rewrite app_nil_r. unfold member at 3. cbn [app]. rewrite <- !app_assoc. cbn [app]. rewrite <- !app_assoc. reflexivity. }
    destruct (Q pre (sfld "v" (si_str (em_info m))) x7b) as (o & v & E). unfold head. rewrite E. apply ends_json. now right. }
  cbn [fold_left]. unfold map_step at 2. change "{"%byte with x7b. rewrite He. unfold seals_fld, fld. cbn [fst snd].
  change (kstr (bstr "a")) with (bstr """a"""). set (o := _ ++ bstr """a""" ++ _). rewrite kser_seq.
  destruct (data_seals (em_data m)) as [|s l]; [congruence|]. cbn [map fold_left]. unfold seq_step at 2.
  change (bstr "[") with [x5b]. rewrite ends_in_snoc. change "["%byte with x5b. destruct (Byte.byte_eq_dec x5b x5b); [|congruence].
  destruct (seal_starts s (o ++ [x5b])) as [t ->]; [rewrite ends_in_snoc; reflexivity|destruct o; discriminate|].
  assert (G : grows (fold_left seq_step (map seal_val l))).
  { clear. generalize (map seal_val l). intros q; induction q as [|v q IH]; intros o; [exists []; now rewrite app_nil_r|]. cbn [fold_left].
    destruct (IH (seq_step o v)) as [t ->]. unfold seq_step. destruct (kser_grows v (if ends_in o "["%byte then o else o ++ bstr ",")) as [u ->].
    destruct (ends_in o "["%byte); rewrite <- !app_assoc; eexists; reflexivity. }
  destruct (G ((o ++ [x5b]) ++ bstr ",{" ++ t)) as [u ->].
  assert (G2 : grows (fold_left map_step (after_seals (em_data m)))).
  { clear. generalize (after_seals (em_data m)). intros q; induction q as [|v q IH]; intros o; [exists []; now rewrite app_nil_r|]. cbn [fold_left].
    destruct (IH (map_step o v)) as [t ->]. unfold map_step. destruct (kser_grows (snd v) ((if ends_in o "{"%byte then o else o ++ bstr ",") ++ kstr (fst v) ++ bstr ":")) as [u ->].
    destruct (ends_in o "{"%byte); rewrite <- !app_assoc; eexists; reflexivity. }
  destruct (G2 ((((o ++ [x5b]) ++ bstr ",{" ++ t) ++ u) ++ bstr "]")) as [w ->].
  exists (t ++ u ++ bstr "]" ++ w). unfold o, head. cbn [app]. rewrite <- !app_assoc. reflexivity.
Qed.
(** ** No reader accepts it *)
Lemma read_bad_seals f n ov junk : read_top f (S n) false ov (bstr ",""a"":[,{" ++ junk) = jerr.
Proof.
  destruct f as [|f]; [reflexivity|].
  change (bstr ",""a"":[,{" ++ junk) with (x2c :: x22 :: flat_map esc (bstr "a") ++ x22 :: x3a :: x5b :: x2c :: x7b :: junk).
  cbn [read_top]. change (skip_ws (x2c :: ?a)) with (x2c :: a). cbv iota beta.
  change (c_is x2c 125) with false. change (c_is x2c 44) with true. cbv iota.
  change (skip_ws (x22 :: ?a)) with (x22 :: a). cbv iota beta.
  change (c_is x22 34) with true. cbv iota.
  rewrite read_string_esc by reflexivity. change (is (bstr "a") "v") with false. cbn [andb].
  change (skip_ws (x3a :: ?a)) with (x3a :: a). cbv iota beta.
  change (c_is x3a 58) with true. cbv iota.
  assert (R : read_value f (S n) (x5b :: x2c :: x7b :: junk) = None).
  { destruct f as [|f]; [reflexivity|]. cbn [read_value]. change (skip_ws (x5b :: ?a)) with (x5b :: a). cbv iota beta.
    change (c_is x5b 34) with false. change (c_is x5b 91) with true. cbv iota. destruct n as [|n]; [reflexivity|].
    assert (R2 : read_elems f (S n) true (x2c :: x7b :: junk) = None).
    { destruct f as [|f]; [reflexivity|]. cbn [read_elems]. change (skip_ws (x2c :: ?a)) with (x2c :: a). cbv iota beta.
      change (c_is x2c 93) with false. cbn [negb andb].
      destruct f as [|f]; [reflexivity|]. reflexivity. }
    now rewrite R2. }
  now rewrite R.
Qed.
Lemma read_top_then l bad : forall n f ov, Forall (fits_kv n) l -> Forall (fun kv => is (fst kv) "v" = false) l ->
  List.length (tail_text l) <= f ->
  (forall g ov, read_top g (S n) false ov bad = jerr) ->
  read_top f (S n) false ov (tail_text l ++ bad) = jerr.
Proof.
  induction l as [|kv l IH]; intros n f ov Hf Hv Hl Hb; [apply Hb|].
  apply Forall_cons_iff in Hf as [[Hk Hfv] Hf]. apply Forall_cons_iff in Hv as [Hn Hv].
  unfold tail_text in *. cbn [flat_map] in *. fold (tail_text l) in *. cbn [app List.length] in *.
  rewrite app_length in Hl. pose proof (member_length kv) as Hml.
  destruct f as [|f]; [lia|]. rewrite <- app_assoc, member_eq.
  cbn [read_top]. change (skip_ws (x2c :: ?a)) with (x2c :: a). cbv iota beta.
  change (c_is x2c 125) with false. change (c_is x2c 44) with true. cbv iota.
  change (skip_ws (x22 :: ?a)) with (x22 :: a). cbv iota beta.
  change (c_is x22 34) with true. cbv iota.
  rewrite read_string_esc by assumption. rewrite Hn. cbn [andb].
  change (skip_ws (x3a :: ?a)) with (x3a :: a). cbv iota beta.
  change (c_is x3a 58) with true. cbv iota.
  rewrite (read_json (snd kv) n f) by (assumption || lia).
  rewrite (IH n f ov Hf Hv) by (lia || assumption). reflexivity.
Qed.
Lemma json_message_bad {D} (read : SerializationInfo -> list (bytes * jval) -> out D) x l bad :
  Forall (fits_kv 2) ((bstr "v", VStr x) :: l) -> Forall (fun kv => is (fst kv) "v" = false) l ->
  si_from x <> Panic -> (forall g ov, read_top g 127 false ov bad = jerr) ->
  json_message read (x7b :: member (bstr "v", VStr x) ++ tail_text l ++ bad) = PErr.
Proof.
  intros Hf Hv Hs Hb. apply Forall_cons_iff in Hf as [[_ Hx] Hf]. cbn [snd fits] in Hx.
  assert (Up : forall kv, fits_kv 2 kv -> fits_kv 126 kv).
  { intros kv [H1 H2]. split; [assumption|]. apply (fits_le 2 126); [lia|assumption]. }
  unfold json_message. change (skip_ws (x7b :: ?a)) with (x7b :: a). cbv iota beta. change (c_is x7b 123) with true. cbv iota.
  set (f := fuel_for _). assert (Hl : List.length (tail_text l) < f) by (unfold f, fuel_for; rewrite !app_length; lia).
  assert (R : exists e, read_top f 127 true None (member (bstr "v", VStr x) ++ tail_text l ++ bad) = Err e).
  { destruct f as [|f']; [lia|]. rewrite member_eq. cbn [fst snd json].
    cbn [read_top]. change (skip_ws (x22 :: ?a)) with (x22 :: a). cbv iota beta.
    change (c_is x22 125) with false. change (c_is x22 34) with true. cbv iota.
    rewrite read_string_esc by reflexivity.
    change (is (bstr "v") "v") with true. cbn [andb].
    change (skip_ws (x3a :: ?a)) with (x3a :: a). cbv iota beta.
    change (c_is x3a 58) with true. cbv iota. rewrite quote_eq.
    change (skip_ws (x22 :: ?a)) with (x22 :: a). cbv iota beta.
    change (c_is x22 34) with true. cbv iota.
    rewrite read_string_esc by assumption.
    destruct (si_from x) as [v|e|]; [|eexists; reflexivity|congruence]. cbn [custom obind].
    exists ESerialization. apply (read_top_then l bad 126); [|assumption|lia|exact Hb].
    eapply Forall_impl; [exact Up|exact Hf]. }
  destruct R as [e ->]. reflexivity.
Qed.
Lemma si_no_panic v : si_from (si_str v) <> Panic.
Proof.
  apply C65_version_no_panic_partial; [apply si_ascii|]. unfold si_str, pad0. rewrite !app_length, repeat_length.
  change (List.length (bstr "KERI")) with 4. change (List.length (bstr "_")) with 1.
  pose proof (fmt_ne 16 (si_major v)) as A. pose proof (fmt_ne 16 (si_minor v)) as B. fold fmt_hex in *. unfold fmt_hex in *.
  destruct (fmt_radix 16 (si_major v)); [congruence|]. destruct (fmt_radix 16 (si_minor v)); [congruence|]. cbn [List.length].
  assert (List.length (format_str (si_kind v)) = 4) by (destruct (si_kind v); reflexivity). lia.
Qed.
Theorem sealed_unreadable m sigs t {D} (read : SerializationInfo -> list (bytes * jval) -> out D) r :
  to_cesr (AttachedSignatures sigs) = Ok t -> starts_dash t = true ->
  data_seals (em_data m) <> [] -> Forall (fun s => rust_string s /\ plain s /\ undashed s) (config_of (em_data m)) ->
  json_message read (keri_to_string (signed_val m t) ++ r) = PErr.
Proof.
  intros _ Ht Hs Hc.
  assert (Hc2 : Forall (fun s => plain s /\ undashed s) (config_of (em_data m))) by (eapply Forall_impl; [|exact Hc]; intros a Ha; exact (proj2 Ha)).
  assert (Hc1 : Forall rust_string (config_of (em_data m))) by (eapply Forall_impl; [|exact Hc]; intros a Ha; exact (proj1 Ha)).
  destruct (sealed_event_text m Hs Hc2) as [junk E].
  unfold signed_val. rewrite kser_struct2; [|exact Ht|].
  2:{ rewrite E. rewrite !app_comm_cons, !app_assoc. change (bstr "}") with [x7d]. rewrite ends_in_snoc. reflexivity. }
  rewrite E, <- app_assoc. cbn [app]. rewrite <- !app_assoc.
  apply json_message_bad; [| |apply si_no_panic|intros g ov; apply read_bad_seals].
  - apply Forall_cons; [apply (kv_ascii 2 "v"); [apply si_ascii|reflexivity]|]. cbn [app]. do 4 (apply Forall_cons; [one|]).
    clear - Hc1. destruct (em_data m) as [e|e|e|e|e]; cbn [before_seals config_of] in *; parts; try apply fits_kc; try one; assumption.
  - cbn [app]. do 4 (apply Forall_cons; [reflexivity|]).
    destruct (em_data m); cbn [before_seals kc_fields app]; repeat (apply Forall_cons; [reflexivity|]); apply Forall_nil.
Qed.
