(** The events that a controller makes itself. *)
From Coq Require Import ZifyBool ZifyN ZifyNat.
From Verif Require Import Base Base64 Base64Proofs Codes NumFmt NumProofs Types KeyConf SpecCodec CodecProofs Version Cesr SpecCesr CesrProofs CesrProofs2 Message
  Keri Json JsonRead JsonProofs SpecJson JsonProofs2 JsonProofs3 JsonProofs4 JsonProofs5 Prop_Version Prop_Message Prop_Json Prop_Json2 Prop_Json3
  State Db Processor Spec SpecProc SpecHistory StateProofs LogProofs LogTheorems ProcProofs ProcProofs2 ProcProofs3 SpecKeri KeriProofs KeriProofs2 Prop_Keri HandshakeProofs
  Prop_Codec Version Cbor EventStore SpecEventStore SpecOwn.

(** ** Lengths of text *)
Fixpoint total (l : list bytes) : nat := match l with [] => 0 | x :: r => S (List.length x + total r) end.
Lemma join_le l : List.length (join (bstr ",") l) <= total l.
Proof.
  induction l as [|x l IH]; [cbn; lia|]. destruct l as [|y l]; [cbn [join total]; lia|].
  change (join (bstr ",") (x :: y :: l)) with (x ++ bstr "," ++ join (bstr ",") (y :: l)). rewrite !app_length. change (List.length (bstr ",")) with 1. cbn [total] in *. lia.
Qed.
Lemma total_le l n : Forall (fun x => List.length x <= n) l -> total l <= List.length l * S n.
Proof. induction 1 as [|x l H _ IH]; [cbn; lia|]. cbn [total List.length]. lia. Qed.
Lemma seq_le l n : Forall (fun v => List.length (Json.json v) <= n) l -> List.length (Json.json (VSeq l)) <= 2 + List.length l * S n.
Proof.
  intros H. cbn [Json.json]. rewrite !app_length. change (List.length (bstr "[")) with 1. change (List.length (bstr "]")) with 1.
  pose proof (join_le (map Json.json l)) as J. pose proof (total_le (map Json.json l) n) as T. rewrite map_length in T.
  rewrite Forall_map in T. specialize (T H). lia.
Qed.
Lemma str_le s n : plain s -> List.length s <= n -> List.length (Json.json (VStr s)) <= n + 2.
Proof. intros H1 H2. cbn [Json.json]. rewrite quote_plain by assumption. rewrite !app_length. change (List.length (bstr """")) with 1. lia. Qed.
Lemma keys_le l : Forall bp_sized l -> List.length (Json.json (keys_val l)) <= 2 + List.length l * 203.
Proof.
  intros H. unfold keys_val. etransitivity; [apply (seq_le _ 202)|rewrite map_length; lia]. rewrite Forall_map. eapply Forall_impl; [|exact H].
  intros p Hp. apply (str_le _ 200); [apply bp_plain|now apply bp_len].
Qed.
Lemma member_le k v n : plain (bstr k) -> List.length (bstr k) <= 4 -> List.length (Json.json v) <= n -> List.length (member (fld k v)) <= n + 7.
Proof.
  intros H1 H2 H3. unfold member, fld. cbn [fst snd]. rewrite !app_length, quote_plain by assumption. rewrite !app_length.
  change (List.length (bstr """")) with 1. change (List.length (bstr ":")) with 1. lia.
Qed.
Lemma smember_le k s n : plain (bstr k) -> List.length (bstr k) <= 4 -> plain s -> List.length s <= n -> List.length (member (sfld k s)) <= n + 9.
Proof. intros H1 H2 H3 H4. unfold sfld. pose proof (member_le k (VStr s) (n + 2) H1 H2 (str_le s n H3 H4)). lia. Qed.
Lemma tail_cons a l : List.length (tail_text (a :: l)) = 1 + List.length (member a) + List.length (tail_text l).
Proof. unfold tail_text. cbn [flat_map]. rewrite app_length. cbn [List.length app]. lia. Qed.
Lemma tail_app a l : List.length (tail_text (a ++ l)) = List.length (tail_text a) + List.length (tail_text l).
Proof. unfold tail_text. rewrite flat_map_app. apply app_length. Qed.
Lemma tail_nil : List.length (tail_text []) = 0.
Proof. reflexivity. Qed.
Lemma dummy_len : List.length (dummy_prefix Blake3_256) = 44.
Proof. reflexivity. Qed.
Ltac lits := lit_plain || (vm_compute; lia).

Lemma text_le v t d i s l : version_ok v -> (si_size v < 16777216)%N -> plain d -> plain i -> plain s ->
  List.length d <= 200 -> List.length i <= 200 -> List.length s <= 16 ->
  List.length (Json.json (VMap (head_fields v t d ++ sfld "i" i :: sfld "s" s :: l))) <= 500 + List.length (tail_text l).
Proof.
  intros Hv Hz Pd Pi Ps Ld Li Ls. unfold head_fields. cbn [app]. rewrite json_v_len by apply si_plain.
  assert (L : List.length (si_str v) = 17).
  { rewrite (si_len _ (si_new JSON 0)) by (assumption || (split; reflexivity) || reflexivity). apply si_new_len. reflexivity. }
  rewrite L, !tail_cons.
  assert (M1 : List.length (member (sfld "t" (tag_str t))) <= 12) by (apply (smember_le "t" _ 3); [lits|lits|apply tag_plain|destruct t; vm_compute; lia]).
  assert (M2 : List.length (member (sfld "d" d)) <= 209) by (apply (smember_le "d" _ 200); [lits|lits|exact Pd|exact Ld]).
  assert (M3 : List.length (member (sfld "i" i)) <= 209) by (apply (smember_le "i" _ 200); [lits|lits|exact Pi|exact Li]).
  assert (M4 : List.length (member (sfld "s" s)) <= 25) by (apply (smember_le "s" _ 16); [lits|lits|exact Ps|exact Ls]).
  lia.
Qed.
Lemma sized_derive E x : (forall x, List.length (e_digest E Blake3_256 x) = 32) -> sap_readable (derive E Blake3_256 x).
Proof. intros H. split; [|reflexivity]. apply H. Qed.
Lemma key_readable pk : List.length pk = 32 -> bp_readable (ed_key pk).
Proof. intros H. split; [exact H|reflexivity]. Qed.
Lemma kc_le kc n : kc_threshold kc = Simple 1 -> Forall bp_sized (kc_keys kc) -> List.length (kc_keys kc) <= n -> Forall sap_sized (opt_list (kc_next kc)) ->
  List.length (tail_text (kc_fields kc)) <= 300 + n * 203.
Proof.
  intros Ht Hk Hl Hn. unfold kc_fields. rewrite !tail_cons, tail_nil, Ht.
  assert (M1 : List.length (member (fld "kt" (threshold_val (Simple 1)))) <= 12) by (vm_compute; lia).
  assert (M2 : List.length (member (fld "k" (keys_val (kc_keys kc)))) <= 2 + List.length (kc_keys kc) * 203 + 7) by (apply member_le; [lits|lits|now apply keys_le]).
  assert (M3 : List.length (member (sfld "n" match kc_next kc with Some d => sap_str d | None => [] end)) <= 209).
  { apply (smember_le "n" _ 200); [lits|lits| |].
    - destruct (kc_next kc); [apply sap_plain|constructor].
    - destruct (kc_next kc) as [d|]; [|cbn; lia]. apply sap_len. now apply Forall_cons_iff in Hn as [? _]. }
  assert (List.length (kc_keys kc) * 203 <= n * 203) by (apply Nat.mul_le_mono_r; exact Hl). lia.
Qed.
Lemma no_seals_le : List.length (member (seals_fld [])) = 6. Proof. reflexivity. Qed.
Lemma seals_le l : Forall (fun s => exists d, s = SealDigest d /\ sap_sized d) l -> List.length (member (seals_fld l)) <= 9 + List.length l * 220.
Proof.
  intros H. unfold seals_fld. etransitivity; [apply (member_le "a" _ (2 + List.length l * 220)); [lits|lits|]|lia].
  etransitivity; [apply (seq_le _ 219)|rewrite map_length; lia]. rewrite Forall_map. eapply Forall_impl; [|exact H].
  intros s (d & -> & Hd). cbn [seal_val Json.json map join]. fold (member (sfld "d" (sap_str d))). rewrite !app_length.
  change (List.length (bstr "{")) with 1. change (List.length (bstr "}")) with 1.
  pose proof (smember_le "d" (sap_str d) 200 ltac:(lits) ltac:(lits) (sap_plain d) (sap_len d Hd)). unfold member in *. lia.
Qed.

(** ** What the builder makes *)
Lemma ok_inj {A} (a b : A) : Ok a = Ok b -> a = b.
Proof. intros H. now injection H. Qed.
Section Own.
  Context (E0 : Env) (K0 : KEnv).
  Let E := with_json E0.
  Let K := with_json_k K0.
  Context (Hdig : forall x, List.length (e_digest E Blake3_256 x) = 32) (Hsig : forall priv m s, k_sign_ed K priv m = Ok s -> List.length s = 64).

  (** the size that the event states is that of its text with placeholders *)
  Definition stated (m : EventMessage) : Prop :=
    (exists x, em_digest m = derive E Blake3_256 x)
    /\ (em_info m = si_new JSON (List.length (Json.json (dummy_event_val (si_new JSON 0) Blake3_256 (em_prefix m) (em_sn m) (em_data m))))
        \/ em_info m = si_new JSON (List.length (Json.json (dummy_icp_val (si_new JSON 0) Blake3_256 (em_data m)))) /\ em_prefix m = IdSelfAddressing (em_digest m)).
  Lemma said_stated p sn data m : said_to_message E K p sn data JSON Blake3_256 = Ok m -> stated m /\ em_prefix m = p /\ em_sn m = sn /\ em_data m = data.
  Proof.
    unfold said_to_message, K. cbn [k_dummy_event with_json_k si_new si_kind obind]. intros H. apply ok_inj in H. subst m. split; [|auto]. split; [now eexists|left; reflexivity].
  Qed.
  Lemma sa_stated data m : incept_self_addressing E K data Blake3_256 JSON = Ok m -> stated m /\ em_sn m = 0%N /\ em_data m = data.
  Proof.
    unfold incept_self_addressing, K. cbn [k_dummy_icp with_json_k si_new si_kind obind]. intros H. apply ok_inj in H. subst m. split; [|auto].
    split; [now eexists|right; split; reflexivity].
  Qed.
  Lemma to_message_stated p sn data m : event_to_message E K p sn data JSON Blake3_256 = Ok m -> stated m.
  Proof.
    assert (S : said_to_message E K p sn data JSON Blake3_256 = Ok m -> stated m) by (intros H; exact (proj1 (said_stated p sn data m H))).
    assert (A : incept_self_addressing E K data Blake3_256 JSON = Ok m -> stated m) by (intros H; exact (proj1 (sa_stated data m H))).
    clear -S A. unfold event_to_message. destruct p, data; first [exact S|exact A].
  Qed.
  Lemma build_stated b m : b_derivation b = Blake3_256 -> b_format b = JSON -> build E K b = Ok m -> stated m.
  Proof.
    intros Hg Hf. unfold build. rewrite Hg, Hf.
    destruct (if IdentifierPrefix_eq_dec (b_prefix b) id_default then _ else _) as [p|e|]; cbn [obind]; [|discriminate|discriminate].
    destruct (b_type b); intros H; try discriminate H; try exact (to_message_stated _ _ _ _ H); try exact (proj1 (sa_stated _ _ H)).
    destruct p; [exact (to_message_stated _ _ _ _ H)|exact (proj1 (sa_stated _ _ H))|discriminate H].
  Qed.
  (** an event with readable parts and little data is readable *)
  Lemma stated_readable m : stated m -> id_readable (em_prefix m) -> u64 (em_sn m) -> data_readable (em_data m) ->
    (N.of_nat (List.length (tail_text (data_fields (em_data m)))) <= 65000)%N -> event_readable m /\ si_kind (em_info m) = JSON.
  Proof.
    intros [(x & Hx) Hi] Hp Hs Hd Hl.
    assert (A : exists n, em_info m = si_new JSON n /\ (N.of_nat n <= 65500)%N).
    { pose proof (id_len _ (proj1 Hp)) as Li. pose proof (hex_len _ Hs) as Lh.
      assert (V : version_ok (si_new JSON 0)) by (split; reflexivity). assert (Z : (si_size (si_new JSON 0) < 16777216)%N) by reflexivity.
      assert (D : List.length (dummy_prefix Blake3_256) <= 200) by (rewrite dummy_len; lia).
      destruct Hi as [Hi|[Hi _]]; rewrite Hi; eexists; (split; [reflexivity|]).
      - unfold dummy_event_val, event_fields.
        pose proof (text_le (si_new JSON 0) (event_type (em_data m)) (dummy_prefix Blake3_256) (id_str (em_prefix m)) (fmt_hex (em_sn m)) (data_fields (em_data m))
                      V Z (dummy_plain _) (id_plain _) (hex_plain _) D Li Lh). lia.
      - unfold dummy_icp_val.
        pose proof (text_le (si_new JSON 0) (event_type (em_data m)) (dummy_prefix Blake3_256) (dummy_prefix Blake3_256) (fmt_hex 0) (data_fields (em_data m))
                      V Z (dummy_plain _) (dummy_plain _) (hex_plain _) D D ltac:(vm_compute; lia)). lia. }
    destruct A as (n & A & Hn). split; [|rewrite A; reflexivity]. unfold event_readable. rewrite A. split; [|rewrite Hx; auto using sized_derive].
    split; [split; reflexivity|]. unfold si_new. cbn [si_size]. unfold u16_max. lia.
  Qed.

  Lemma sign_shape b m se : sign_own E K b m = Ok se ->
    sem_msg se = m /\ sem_seal se = None /\ exists sig, sem_sigs se = [mkASP 0 (mkSSP Ed25519Sha512 sig)] /\ List.length sig = 64.
  Proof.
    unfold sign_own. destruct (e_ser_event E m) as [ser|e|]; cbn [obind]; [|discriminate|discriminate]. unfold box_sign.
    destruct (k_sign_ed K (kp_priv (cb_cur b)) ser) as [sig|e|] eqn:S; cbn [obind]; [|discriminate|discriminate].
    intros H. apply ok_inj in H. subst se. split; [reflexivity|]. split; [reflexivity|]. exists sig. split; [reflexivity|]. exact (Hsig _ _ _ S).
  Qed.
  Lemma submit_shape k se k' x : Keri.submit E k se = (k', Ok x) -> x = se.
  Proof. unfold Keri.submit. destruct (process E (k_db k) (MEvent se)) as [d [o|e|]]; cbn [omap obind]; intros H; [|discriminate|discriminate]. congruence. Qed.
  Lemma commit_readable t keys : sap_readable (nxt_commitment E t keys Blake3_256).
  Proof.
    assert (X : forall a b, List.length a = 32 -> List.length b = 32 -> List.length (xor_bytes a b) = 32).
    { intros a. generalize 32. induction a as [|x a IH]; intros n b Ha Hb; [exact Ha|]. destruct b as [|y b]; [exact Hb|]. cbn [xor_bytes List.length] in *.
      destruct n; [discriminate|]. f_equal. apply IH; congruence. }
    unfold nxt_commitment. assert (G : sap_readable (derive E Blake3_256 (threshold_str t))) by (apply sized_derive; exact Hdig).
    assert (C : sap_code (derive E Blake3_256 (threshold_str t)) = Blake3_256) by reflexivity. revert G C. generalize (derive E Blake3_256 (threshold_str t)).
    induction keys as [|k keys IH]; intros acc G C; [exact G|]. cbn [fold_left]. apply IH; [|reflexivity]. split; [|reflexivity].
    unfold sap_sized. cbn [sap_code sap_digest]. apply X; [|apply Hdig]. destruct G as [G _]. unfold sap_sized in G. rewrite C in G. exact G.
  Qed.
  Lemma own_kc_readable cur more next : List.length cur = 32 -> Forall bp_readable more ->
    Forall bp_readable (kc_keys (own_kc E cur more next)) /\ Forall sap_readable (opt_list (kc_next (own_kc E cur more next))).
  Proof. intros H1 H2. split; [constructor; [now apply key_readable|exact H2]|]. constructor; [apply commit_readable|constructor]. Qed.
  Lemma bp_sizes l : Forall bp_readable l -> Forall bp_sized l.
  Proof. intros H. eapply Forall_impl; [|exact H]. intros p [A _]. exact A. Qed.
  Lemma sap_sizes l : Forall sap_readable l -> Forall sap_sized l.
  Proof. intros H. eapply Forall_impl; [|exact H]. intros p [A _]. exact A. Qed.
  Lemma own_kc_le cur more next n : List.length cur = 32 -> Forall bp_readable more -> List.length more < n ->
    List.length (tail_text (kc_fields (own_kc E cur more next))) <= 300 + n * 203.
  Proof.
    intros H1 H2 H3. destruct (own_kc_readable cur more next H1 H2) as [A B]. apply kc_le; [reflexivity|now apply bp_sizes| |now apply sap_sizes].
    cbn [own_kc kc_keys List.length]. lia.
  Qed.
  Lemma rot_sound p sn prev cur next m : id_readable p -> u64 sn -> sap_readable prev -> List.length cur = 32 -> stated m ->
    em_prefix m = p -> em_sn m = sn -> em_data m = Rot (mkRot prev (own_kc E cur [] next) (mkWC 0 [] []) []) -> event_readable m /\ si_kind (em_info m) = JSON.
  Proof.
    intros Hp Hs Hv Hc Hm E1 E2 E3. apply stated_readable; rewrite ?E1, ?E2, ?E3; try assumption.
    - destruct (own_kc_readable cur [] next Hc (Forall_nil _)) as [A B]. unfold data_readable. cbn [data_keys data_kc opt_list flat_map app data_digests data_seals rot_kc rot_wc rot_prev rot_data wc_prune wc_graft wc_tally map data_ids data_numbers data_thresholds data_strings].
      rewrite !app_nil_r. split; [exact A|]. split; [rewrite Forall_app; split; [exact B|]; constructor; [exact Hv|constructor]|].
      split; [constructor|]. split; [constructor; [vm_compute; discriminate|constructor]|]. split; [constructor; [vm_compute; discriminate|constructor]|constructor].
    - cbn [data_fields]. unfold rot_fields. cbn [rot_prev rot_kc rot_wc rot_data wc_tally wc_prune wc_graft].
      rewrite tail_cons, tail_app, !tail_cons, tail_nil.
      pose proof (own_kc_le cur [] next 1 Hc (Forall_nil _) ltac:(cbn; lia)) as A.
      pose proof (smember_le "p" (sap_str prev) 200 ltac:(lits) ltac:(lits) (sap_plain _) (sap_len _ (proj1 Hv))) as B.
      assert (C : List.length (member (sfld "bt" (fmt_hex 0))) = 8) by reflexivity.
      assert (D : List.length (member (fld "br" (keys_val []))) = 7) by reflexivity.
      assert (F : List.length (member (fld "ba" (keys_val []))) = 7) by reflexivity.
      rewrite C, D, F, no_seals_le. lia.
  Qed.
  Lemma ixn_sound p sn prev seals m : id_readable p -> u64 sn -> sap_readable prev -> List.length seals <= 1 ->
    Forall (fun s => exists d, s = SealDigest d /\ sap_readable d) seals -> stated m ->
    em_prefix m = p -> em_sn m = sn -> em_data m = Ixn (mkIxn prev seals) -> event_readable m /\ si_kind (em_info m) = JSON.
  Proof.
    intros Hp Hs Hv Hl Hd Hm E1 E2 E3. apply stated_readable; rewrite ?E1, ?E2, ?E3; try assumption.
    - unfold data_readable. cbn [data_keys data_kc opt_list flat_map app data_digests data_seals ixn_prev ixn_data map data_ids data_numbers data_thresholds data_strings].
      assert (G : Forall sap_readable (map seal_digest seals)) by (rewrite Forall_map; eapply Forall_impl; [|exact Hd]; intros s (d & -> & H); exact H).
      assert (I : flat_map seal_ids seals = [] /\ flat_map seal_numbers seals = [] /\ flat_map (fun s => match s with SealLocation l => [ls_ilk l] | _ => [] end) seals = []).
      { clear -Hd. induction Hd as [|s l (d & -> & _) _ (A & B & C)]; [auto|]. cbn [flat_map seal_ids seal_numbers app]. auto. }
      destruct I as (-> & -> & ->). split; [constructor|]. split; [constructor; assumption|]. repeat split; constructor.
    - cbn [data_fields ixn_prev ixn_data]. rewrite !tail_cons, tail_nil.
      pose proof (smember_le "p" (sap_str prev) 200 ltac:(lits) ltac:(lits) (sap_plain _) (sap_len _ (proj1 Hv))) as B.
      assert (S : Forall (fun s => exists d, s = SealDigest d /\ sap_sized d) seals) by (eapply Forall_impl; [|exact Hd]; intros s (d & -> & H & _); eauto).
      pose proof (seals_le seals S) as C. lia.
  Qed.
  Lemma icp_sound p cur extra next ws m : id_readable p -> List.length cur = 32 -> Forall bp_readable extra -> Forall bp_readable ws ->
    List.length extra + List.length ws <= 300 -> stated m -> em_prefix m = p -> em_sn m = 0%N ->
    em_data m = Icp (mkIcp (own_kc E cur extra next) (mkIWC 0 ws) [] []) -> event_readable m /\ si_kind (em_info m) = JSON.
  Proof.
    intros Hp Hc He Hw Hl Hm E1 E2 E3. apply stated_readable; rewrite ?E1, ?E2, ?E3; try assumption; [vm_compute; discriminate|..].
    - destruct (own_kc_readable cur extra next Hc He) as [A B]. unfold data_readable.
      cbn [data_keys data_kc opt_list flat_map app data_digests data_seals icp_kc icp_wc icp_config icp_data iwc_tally iwc_witnesses map data_ids data_numbers data_thresholds data_strings].
      rewrite !app_nil_r. split; [rewrite Forall_app; auto|]. split; [exact B|].
      split; [constructor|]. split; [constructor; [vm_compute; discriminate|constructor]|]. split; [constructor; [vm_compute; discriminate|constructor]|constructor].
    - cbn [data_fields icp_fields icp_kc icp_wc icp_config icp_data iwc_tally iwc_witnesses]. unfold icp_fields. cbn [icp_kc icp_wc icp_config icp_data iwc_tally iwc_witnesses].
      rewrite tail_app, !tail_cons, tail_nil.
      pose proof (own_kc_le cur extra next (S (List.length extra)) Hc He (le_n _)) as A.
      assert (C : List.length (member (sfld "bt" (fmt_hex 0))) = 8) by reflexivity.
      assert (D : List.length (member (fld "c" (VSeq (map VStr [])))) = 6) by reflexivity.
      pose proof (member_le "b" (keys_val ws) _ ltac:(lits) ltac:(lits) (keys_le ws (bp_sizes _ Hw))) as F.
      rewrite C, D, no_seals_le. lia.
  Qed.

  (** ** Steps of a controller *)
  Record Own (k : Keri) (l : list SignedEventMessage) : Prop := mkOwn {
    ow_work : Working E K k l; ow_dig : Forall (fun e => sap_readable (em_digest (sem_msg e))) l;
    ow_id : id_readable (k_prefix k); ow_box : box_sized (k_box k) }.
  Lemma own_state k l : Own k l -> exists s, compute_state E (k_db k) (k_prefix k) = Ok (Some s) /\ (st_sn s + 1)%N = N.of_nat (List.length l) /\ sap_readable (st_last_digest s).
  Proof.
    intros [[Hid Hl Hne (s & more & Hg & _ & _) _ _] Hd _ _]. exists s. split; [exact (compute_state_good E (k_db k) _ _ _ Hid Hl Hg)|]. split.
    - destruct (good_log_shape E _ _ _ Hid Hg) as (_ & Hsh & _). destruct (rev l) as [|e r] eqn:R; [|apply Hsh].
      apply (f_equal (@List.length _)) in R. rewrite rev_length in R. destruct l; [congruence|discriminate R].
    - destruct (exists_last Hne) as (l0 & e & ->). rewrite (good_last_digest E _ _ _ _ Hid Hg). apply Forall_app in Hd as [_ Hd]. now apply Forall_cons_iff in Hd as [? _].
  Qed.
  Let HS : events_serialize E K := json_events_serialize E0 K0.
  Lemma sounded b m se : event_readable m /\ si_kind (em_info m) = JSON -> data_config (em_data m) = [] -> sign_own E K b m = Ok se -> sound se.
  Proof.
    intros [A B] C H. destruct (sign_shape b m se H) as (E1 & E2 & E3). unfold sound. rewrite E1. auto.
  Qed.
  Lemma own_digest_of se : sound se -> sap_readable (em_digest (sem_msg se)).
  Proof. intros ((_ & H & _) & _). exact H. Qed.
  Lemma rotate_own k l fresh : Own k l -> works E K fresh -> pair_sized fresh -> u64 (N.of_nat (List.length l)) ->
    exists se k', rotate E K k fresh = (k', Ok se) /\ sound se /\ data_seals (em_data (sem_msg se)) = [] /\ Own k' (l ++ [stored se])
      /\ k_prefix k' = k_prefix k /\ em_prefix (sem_msg se) = k_prefix k /\ exists s, process_event E (k_db k) se = (k_db k', Ok s).
  Proof.
    intros Ho Hw Hz Hu. pose proof Ho as [W D I [Bc Bn]]. destruct (rotate_step E K HS k l fresh W Hw) as (se & Hr & _ & W').
    destruct (own_state k l Ho) as (s & Hs & Hn & Hl). exists se. eexists. split; [exact Hr|].
    rewrite Hr in W'. cbn [fst] in W'.
    assert (P : exists m, (exists info dig, m = mkEM info dig (k_prefix k) (st_sn s + 1) (Rot (mkRot (st_last_digest s) (own_kc E (kp_pub (cb_next (k_box k))) [] (kp_pub fresh)) (mkWC 0 [] []) [])))
       /\ stated m /\ sign_own E K (box_rotate (k_box k) fresh) m = Ok se /\ exists s', process_event E (k_db k) se = (add_kel (k_db k) se (k_prefix k), Ok s')).
    { unfold rotate, make_rotation in Hr. cbn [k_prefix k_db k_box box_rotate cb_cur cb_next] in Hr. rewrite Hs in Hr. cbn [obind ok_or] in Hr.
      destruct (build_rot E K HS (k_prefix k) (st_sn s + 1) (st_last_digest s) (kp_pub (cb_next (k_box k))) (kp_pub fresh) (wk_id _ _ _ _ W)) as (info & dig & Hb & _).
      rewrite Hb in Hr. cbn [obind] in Hr. eexists. split; [do 2 eexists; reflexivity|]. split; [eapply build_stated; [| |exact Hb]; reflexivity|].
      change (mkBox (cb_next (k_box k)) fresh) with (box_rotate (k_box k) fresh) in Hr.
      destruct (sign_own E K (box_rotate (k_box k) fresh) _) as [se'|e|]; [|discriminate Hr|discriminate Hr].
      pose proof (submit_shape _ _ _ _ Hr) as Ex. subst se'. split; [reflexivity|]. unfold Keri.submit in Hr. cbn [k_db process] in Hr.
      destruct (process_event E (k_db k) se) as [d o]. unfold set_db in Hr. cbn [k_prefix k_box] in Hr. destruct o as [s'|e|]; cbn [omap obind] in Hr; try discriminate Hr.
      exists s'. congruence. }
    destruct P as (m & (info & dig & Em) & St & Sg & (s' & Hp)).
    assert (Sd : sound se).
    { refine (sounded _ _ _ _ _ Sg); [|subst m; reflexivity]. eapply (rot_sound (k_prefix k) (st_sn s + 1) (st_last_digest s) (kp_pub (cb_next (k_box k))) (kp_pub fresh)); try (subst m; reflexivity); auto.
      rewrite Hn. exact Hu. }
    split; [exact Sd|]. destruct (sign_shape _ _ _ Sg) as (Es & _). split; [rewrite Es; subst m; reflexivity|]. split; [|split; [reflexivity|]; split; [rewrite Es; subst m; reflexivity|exists s'; exact Hp]].
    constructor; [exact W'| |exact I|split; [exact Bn|exact Hz]].
    apply Forall_app. split; [exact D|]. constructor; [|constructor]. exact (own_digest_of se Sd).
  Qed.
  Lemma ixn_own k l payload pk npk : Own k l -> u64 (N.of_nat (List.length l)) ->
    exists se k', make_ixn E K k payload pk npk = (k', Ok se) /\ sound se /\ (payload = None -> data_seals (em_data (sem_msg se)) = []) /\ Own k' (l ++ [stored se])
      /\ k_prefix k' = k_prefix k /\ em_prefix (sem_msg se) = k_prefix k /\ exists s, process_event E (k_db k) se = (k_db k', Ok s).
  Proof.
    intros Ho Hu. pose proof Ho as [W D I B]. destruct (ixn_step E K HS k l payload pk npk W) as (se & Hr & _ & W').
    destruct (own_state k l Ho) as (s & Hs & Hn & Hl). exists se. eexists. split; [exact Hr|].
    rewrite Hr in W'. cbn [fst] in W'. set (seals := match payload with Some p => [SealDigest (derive E Blake3_256 p)] | None => [] end).
    assert (P : exists m, (exists info dig, m = mkEM info dig (k_prefix k) (st_sn s + 1) (Ixn (mkIxn (st_last_digest s) seals)))
       /\ stated m /\ sign_own E K (k_box k) m = Ok se /\ exists s', process_event E (k_db k) se = (add_kel (k_db k) se (k_prefix k), Ok s')).
    { unfold make_ixn in Hr. rewrite Hs in Hr. cbn [obind ok_or] in Hr. fold seals in Hr.
      destruct (build_ixn E K HS (k_prefix k) (st_sn s + 1) (st_last_digest s) seals pk npk (wk_id _ _ _ _ W)) as (info & dig & Hb & _).
      rewrite Hb in Hr. cbn [obind] in Hr. eexists. split; [do 2 eexists; reflexivity|]. split; [eapply build_stated; [| |exact Hb]; reflexivity|].
      destruct (sign_own E K (k_box k) _) as [se'|e|]; [|discriminate Hr|discriminate Hr].
      pose proof (submit_shape _ _ _ _ Hr) as Ex. subst se'. split; [reflexivity|]. unfold Keri.submit in Hr. cbn [k_db process] in Hr.
      destruct (process_event E (k_db k) se) as [d o]. unfold set_db in Hr. cbn [k_prefix k_box] in Hr. destruct o as [s'|e|]; cbn [omap obind] in Hr; try discriminate Hr.
      exists s'. congruence. }
    destruct P as (m & (info & dig & Em) & St & Sg & (s' & Hp)).
    assert (Sd : sound se).
    { refine (sounded _ _ _ _ _ Sg); [|subst m; reflexivity]. eapply (ixn_sound (k_prefix k) (st_sn s + 1) (st_last_digest s) seals); try (subst m; reflexivity); auto.
      - rewrite Hn. exact Hu.
      - unfold seals. destruct payload; cbn; lia.
      - unfold seals. destruct payload; constructor; [|constructor]. eexists. split; [reflexivity|]. apply sized_derive. exact Hdig. }
    split; [exact Sd|]. destruct (sign_shape _ _ _ Sg) as (Es & _). split; [intros ->; rewrite Es; subst m; reflexivity|]. split; [|split; [reflexivity|]; split; [rewrite Es; subst m; reflexivity|exists s'; exact Hp]].
    constructor; [exact W'| |exact I|exact B].
    apply Forall_app. split; [exact D|]. constructor; [|constructor]. exact (own_digest_of se Sd).
  Qed.
  Lemma incept_own cs b extra ws k0 se0 :
    works E K (cb_cur b) -> works E K (cb_next b) -> box_sized b -> Forall bp_readable extra -> Forall bp_readable ws -> List.length extra + List.length ws <= 300 ->
    incept_with E K (keri_new b (run E db_empty cs)) extra ws = (k0, Ok se0) -> olist (get_kel (run E db_empty cs) (em_prefix (sem_msg se0))) = [] ->
    sound se0 /\ data_seals (em_data (sem_msg se0)) = [] /\ Own k0 [stored se0] /\ exists s, process_event E (run E db_empty cs) se0 = (k_db k0, Ok s).
  Proof.
    intros Hc Hn [Bc Bn] He Hws Hl Hi Hno.
    assert (Hd : extra <> [] -> forall msg, e_digest E Blake3_256 msg <> []) by (intros _ msg H; specialize (Hdig msg); rewrite H in Hdig; discriminate).
    destruct (careful_start E K cs b extra ws k0 se0 HS Hc Hn Hd Hi Hno) as (W & Hp & Hb & _).
    destruct (build_icp E K HS (kp_pub (cb_cur b)) extra (kp_pub (cb_next b)) ws) as (info & dig & p & Hbd & _ & Hpre).
    assert (P : sign_own E K b (mkEM info dig p 0 (Icp (mkIcp (own_kc E (kp_pub (cb_cur b)) extra (kp_pub (cb_next b))) (mkIWC 0 ws) [] []))) = Ok se0
                /\ exists s, process_event E (run E db_empty cs) se0 = (k_db k0, Ok s)).
    { unfold incept_with in Hi. cbn [keri_new k_box k_prefix] in Hi. rewrite Hbd in Hi. cbn [obind] in Hi.
      destruct (sign_own E K b _) as [se'|e|]; [|discriminate Hi|discriminate Hi].
      destruct (Keri.submit E (keri_new b (run E db_empty cs)) se') as [k1 [x|e|]] eqn:Sb; [|discriminate Hi|discriminate Hi].
      pose proof (submit_shape _ _ _ _ Sb) as Ex. subst x. assert (se' = se0) by congruence. subst se'. split; [reflexivity|].
      unfold Keri.submit in Sb. cbn [k_db keri_new process] in Sb. destruct (process_event E (run E db_empty cs) se0) as [d o].
      destruct o as [s'|e|]; cbn [omap obind] in Sb; try discriminate Sb. exists s'. assert (Ek : k1 = set_db (keri_new b (run E db_empty cs)) d) by congruence.
      assert (E2 : k0 = mkKeri (em_prefix (sem_msg se0)) (k_box k1) (k_db k1)) by congruence. assert (D : k_db k0 = d) by (rewrite E2, Ek; reflexivity). rewrite D. reflexivity. }
    destruct P as [Sg Hproc]. destruct (sign_shape _ _ _ Sg) as (Es & _).
    assert (St : stated _) by (eapply build_stated; [| |exact Hbd]; reflexivity).
    assert (Ip : id_readable p).
    { destruct extra as [|x extra]; [subst p; split; [exact Bc|split; reflexivity]|]. destruct Hpre as (-> & x0 & ->). split; [apply Hdig|split; [exact I|reflexivity]]. }
    assert (Sd : sound se0) by (refine (sounded _ _ _ _ _ Sg); [|reflexivity]; eapply (icp_sound p (kp_pub (cb_cur b)) extra (kp_pub (cb_next b)) ws); auto).
    split; [exact Sd|]. split; [rewrite Es; reflexivity|]. split; [|exact Hproc].
    constructor; [exact W|constructor; [exact (own_digest_of se0 Sd)|constructor]|rewrite Hp, Es; exact Ip|rewrite Hb; split; assumption].
  Qed.
  Lemma operate_own ops : forall k l, Own k l -> Forall (op_ok E K (k_prefix k)) ops -> Forall op_sized ops -> u64 (N.of_nat (List.length l + List.length ops) - 1) ->
    exists evs, snd (operate E K k ops) = map Ok evs /\ Forall sound evs
      /\ (Forall no_payload ops -> Forall (fun e => data_seals (em_data (sem_msg e)) = []) evs)
      /\ Own (fst (operate E K k ops)) (l ++ map stored evs) /\ k_prefix (fst (operate E K k ops)) = k_prefix k
      /\ Forall (fun e => em_prefix (sem_msg e) = k_prefix k) evs
      /\ (Forall own_op ops -> exists oks, run_v E (k_db k) evs = (k_db (fst (operate E K k ops)), map Ok oks)).
  Proof.
    induction ops as [|o ops IH]; intros k l Ho Hok Hz Hu.
    - exists []. cbn [operate snd fst map]. rewrite app_nil_r. split; [reflexivity|]. split; [constructor|]. split; [constructor|]. split; [exact Ho|]. split; [reflexivity|]. split; [constructor|]. intros _. exists []. reflexivity.
    - inversion Hok as [|? ? Ho1 Hok']; subst. inversion Hz as [|? ? Hz1 Hz']; subst.
      assert (Ul : u64 (N.of_nat (List.length l))) by (unfold u64 in *; cbn [List.length] in Hu; lia).
      assert (Un : forall x, u64 (N.of_nat (List.length (l ++ [stored x]) + List.length ops) - 1)).
      { intros x. rewrite app_length. cbn [List.length] in *. replace (List.length l + 1 + List.length ops) with (List.length l + S (List.length ops)) by lia. exact Hu. }
      destruct o as [fresh|payload pk npk|peer|c]; cbn [operate].
      + destruct (rotate_own k l fresh Ho Ho1 Hz1 Ul) as (se & k' & Hr & Sd & Sl & Ho' & Hp & He & s' & Hs'). rewrite Hr.
        rewrite <- Hp in Hok'. destruct (IH k' _ Ho' Hok' Hz' (Un se)) as (evs & H1 & H2 & H3 & H4 & H5 & H7 & H6).
        destruct (operate E K k' ops) as [k2 xs]. cbn [fst snd] in *. subst xs.
        exists (se :: evs). split; [reflexivity|]. split; [constructor; assumption|]. split; [intros HF; constructor; [exact Sl|apply H3; now inversion HF]|].
        split; [cbn [map]; now rewrite <- app_assoc in H4|]. split; [congruence|]. split; [constructor; [exact He|]; eapply Forall_impl; [|exact H7]; intros e; cbn beta; congruence|].
        intros HF. apply Forall_cons_iff in HF as [_ HF]. destruct (H6 HF) as (oks & Hv). exists (s' :: oks). cbn [run_v]. rewrite Hs', Hv. reflexivity.
      + destruct (ixn_own k l payload pk npk Ho Ul) as (se & k' & Hr & Sd & Sl & Ho' & Hp & He & s' & Hs'). rewrite Hr.
        rewrite <- Hp in Hok'. destruct (IH k' _ Ho' Hok' Hz' (Un se)) as (evs & H1 & H2 & H3 & H4 & H5 & H7 & H6).
        destruct (operate E K k' ops) as [k2 xs]. cbn [fst snd] in *. subst xs.
        exists (se :: evs). split; [reflexivity|]. split; [constructor; assumption|].
        split; [intros HF; inversion HF as [|? ? Hf HF']; subst; constructor; [apply Sl; destruct payload; [destruct Hf|reflexivity]|now apply H3]|].
        split; [cbn [map]; now rewrite <- app_assoc in H4|]. split; [congruence|]. split; [constructor; [exact He|]; eapply Forall_impl; [|exact H7]; intros e; cbn beta; congruence|].
        intros HF. apply Forall_cons_iff in HF as [_ HF]. destruct (H6 HF) as (oks & Hv). exists (s' :: oks). cbn [run_v]. rewrite Hs', Hv. reflexivity.
      + destruct Ho1.
      + destruct Ho as [W D I B]. destruct (IH (set_db k (call E (k_db k) c)) l) as (evs & H1 & H2 & H3 & H4 & H5 & H7 & H6); auto.
        * constructor; [exact (Working_call E K k l c W Ho1)|exact D|exact I|exact B].
        * unfold u64 in *. cbn [List.length] in Hu. lia.
        * exists evs. split; [exact H1|]. split; [exact H2|]. split; [intros HF; apply H3; now inversion HF|]. split; [exact H4|]. split; [exact H5|]. split; [exact H7|].
          intros HF. apply Forall_cons_iff in HF as [[] _].
  Qed.
End Own.
