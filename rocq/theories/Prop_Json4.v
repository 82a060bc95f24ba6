(** * What reading does to arbitrary text: C77, C78. *)
From Coq Require Import ZifyBool ZifyN ZifyNat.
From Verif Require Import Base Base64 Base64Proofs Codes NumFmt NumProofs Types SpecCodec CodecProofs CodecProofs2 KeyConf Version Cesr CesrProofs SpecCesr CesrProofs3 Message Keri Json JsonRead JsonProofs SpecJson JsonProofs2 JsonProofs3 JsonProofs4 JsonProofs5 JsonProofs8 JsonProofs9 JsonProofs10 Prop_Version Prop_Message Prop_Json Prop_Json2
  State Db Processor Spec StateProofs SpecKeri Prop_Keri Demo.
Notation json := Json.json.

(** ** C78: no text makes the reader panic *)
(** the text [t] contains a JSON string that denotes [x] *)
Definition has_literal (t x : bytes) : Prop := exists u w r, t = u ++ bstr """" ++ w /\ read_string w = Some (x, r).
(** the text contains the name "v", a colon and a JSON string that denotes [x] *)
Definition has_version (t x : bytes) : Prop :=
  exists u w r1 r2 r3 r, t = u ++ bstr """" ++ w /\ read_string w = Some (bstr "v", r1)
    /\ skip_ws r1 = bstr ":" ++ r2 /\ skip_ws r2 = bstr """" ++ r3 /\ read_string r3 = Some (x, r).
(** a prefix that promises a longer code than it has, or whose code ends inside a character *)
Definition bad_prefix (s : bytes) : Prop :=
  (starts_with (bstr "0") s /\ ~ can_cut s 2) \/ (starts_with (bstr "1") s /\ ~ can_cut s 4).
Definition C78_statement : Prop :=
  forall (hx : bytes -> option N) (bk : bytes -> pres EventMessage) (br : bytes -> pres ReceiptMessage) (t : bytes),
    bk t <> PPanic -> br t <> PPanic -> read_event_type hx bk br t <> PPanic.
Theorem C78_panics_partial :
  forall (hx : bytes -> option N) (bk : bytes -> pres EventMessage) (br : bytes -> pres ReceiptMessage) (t : bytes),
    bk t <> PPanic -> br t <> PPanic -> read_event_type hx bk br t = PPanic ->
    (exists x, has_version t x /\ (~ ascii x \/ List.length x < 16))
    \/ (exists x, has_literal t x /\ bad_prefix x).
Proof.
  intros hx bk br t Hbk Hbr H.
  assert (G : (exists x, version_at t x /\ si_from x = Panic) \/ blame (literal_of t)).
  { unfold read_event_type, palt at 1, key_event_message, palt at 1 in H.
    assert (K : json_message (read_key_event hx) t = PPanic -> (exists x, version_at t x /\ si_from x = Panic) \/ blame (literal_of t)).
    { apply json_message_calm. intros info l. apply read_key_event_calm. }
    assert (R : json_message (read_receipt hx) t = PPanic -> (exists x, version_at t x /\ si_from x = Panic) \/ blame (literal_of t)).
    { apply json_message_calm. intros info l. apply read_receipt_calm. }
    assert (R' : receipt_message hx br t = PPanic -> json_message (read_receipt hx) t = PPanic).
    { unfold receipt_message, palt. destruct (json_message (read_receipt hx) t); cbn [pmap]; try congruence. destruct (br t); cbn [pmap]; congruence. }
    destruct (json_message (read_key_event hx) t); cbn [pmap] in H; try discriminate H; [|exact (K eq_refl)].
    destruct (bk t); cbn [pmap] in H; try congruence; try discriminate H; now apply R, R'. }
  destruct G as [(x & (w & r1 & r2 & r3 & r & (u & Hu) & A & B & C & D) & Hx)|(s & (w & r & (u & Hu) & A) & Hs)].
  - left. exists x. split; [exists u, w, r1, r2, r3, r; auto|].
    destruct (Nat.le_gt_cases 16 (List.length x)) as [L|L]; [|now right]. left. intros Ha. now apply (C65_version_no_panic_partial x Ha L).
  - right. exists s. split; [now exists u, w, r|]. apply read_string_utf8, valid_shape in A. unfold bad_prefix.
    destruct Hs as [Hs|[Hs|Hs]]; [apply bp_panic in Hs|apply sap_panic in Hs|apply id_panic in Hs]; auto.
Qed.
Print Assumptions C78_panics_partial.
(** The full statement is false.  A version string of fewer than four characters is enough,
    whatever the rest of the text is. *)
Theorem C78_short_version_panics :
  forall (hx : bytes -> option N) (bk : bytes -> pres EventMessage) (br : bytes -> pres ReceiptMessage) (s r : bytes),
    rust_string s -> plain s -> List.length s < 4 ->
    read_event_type hx bk br (bstr "{""v"":""" ++ s ++ bstr """" ++ r) = PPanic.
Proof.
  intros hx bk br s r Hu Hp Hl.
  assert (G : forall D (read : SerializationInfo -> list (bytes * jval) -> out D), json_message read (bstr "{""v"":""" ++ s ++ bstr """" ++ r) = PPanic).
  { intros D read. change (bstr "{""v"":""" ++ s ++ bstr """" ++ r) with (x7b :: (x22 :: x76 :: x22 :: x3a :: x22 :: s ++ x22 :: r)).
    set (b := x22 :: x76 :: x22 :: x3a :: x22 :: s ++ x22 :: r). unfold json_message. change (skip_ws (x7b :: b)) with (x7b :: b). change (c_is x7b 123) with true. cbv iota.
    assert (R : read_top (fuel_for b) 127 true None b = Panic).
    { assert (Hf : exists n, fuel_for b = S n) by (unfold fuel_for; eexists; rewrite Nat.add_comm; reflexivity). destruct Hf as [n ->].
      cbn [read_top]. unfold b at 1. change (skip_ws (x22 :: ?a)) with (x22 :: a). change (c_is x22 125) with false. cbv iota. change (c_is x22 34) with true. cbv iota.
      assert (E1 : read_string (x76 :: x22 :: x3a :: x22 :: s ++ x22 :: r) = Some (bstr "v", x3a :: x22 :: s ++ x22 :: r)) by exact (read_string_esc (bstr "v") (x3a :: x22 :: s ++ x22 :: r) eq_refl).
      rewrite E1. cbv iota. change (is (bstr "v") "v" && false) with false. cbv iota. change (skip_ws (x3a :: ?a)) with (x3a :: a). cbv iota.
      change (c_is x3a 58) with true. change (is (bstr "v") "v") with true. cbv iota. change (skip_ws (x22 :: ?a)) with (x22 :: a). cbv iota. change (c_is x22 34) with true. cbv iota.
      assert (E2 : read_string (s ++ x22 :: r) = Some (s, r)) by (rewrite <- (escs_plain s Hp) at 1; now apply read_string_esc).
      rewrite E2. cbv iota. rewrite (C65_short_strings_panic s Hl). reflexivity. }
    rewrite R. reflexivity. }
  unfold read_event_type, palt at 1, key_event_message, palt at 1. now rewrite G.
Qed.
Theorem C78_refuted : ~ C78_statement.
Proof.
  intros H. apply (H hx0 no_key no_rct (bstr "{""v"":""""")); try discriminate.
  exact (C78_short_version_panics hx0 no_key no_rct [] [] eq_refl (Forall_nil _) (le_n_S 0 3 (Nat.le_0_l 3))).
Qed.
(** A node that answers such a text panics and does not look at what follows. *)
Theorem C78_node_panics :
  forall (hx : bytes -> option N) (bk : bytes -> pres EventMessage) (br : bytes -> pres ReceiptMessage) (E : Env) (K : KEnv) (k : Keri) (s r : bytes),
    k_parse K = read_event_type hx bk br -> rust_string s -> plain s -> List.length s < 4 ->
    respond E K k (bstr "{""v"":""" ++ s ++ bstr """" ++ r) = (k, Panic)
    /\ respond_single E K k (bstr "{""v"":""" ++ s ++ bstr """" ++ r) = (k, Panic).
Proof.
  intros hx bk br E K k s r HK Hu Hp Hl. pose proof (C78_short_version_panics hx bk br s r Hu Hp Hl) as H. set (t := bstr "{""v"":""" ++ s ++ bstr """" ++ r) in *.
  assert (M : signed_message (k_parse K) t = PPanic) by (unfold signed_message; rewrite HK, H; reflexivity).
  split.
  - unfold respond, signed_event_stream, many0. clearbody t.
    assert (N : forall n, many0_f (signed_message (k_parse K)) (S n) t = PPanic) by (intros n; cbn [many0_f]; now rewrite M).
    rewrite N. reflexivity.
  - unfold respond_single. now rewrite M.
Qed.
(** an identifier that consists of the digit 1 *)
Example C78_bad_identifier : read_event_type hx0 no_key no_rct (bstr "{""v"":""KERI10JSON000000_"",""i"":""1""}") = PPanic
  /\ bad_prefix (bstr "1").
Proof. split; [vm_compute; reflexivity|]. right. split; [now exists []|]. intros H. unfold can_cut in H. vm_compute in H. intuition lia. Qed.
Print Assumptions C78_node_panics.
Print Assumptions C78_refuted.

(** ** C77: an event that a node reads it can pass on *)
Definition C77_statement : Prop :=
  forall (hx : bytes -> option N) (bk : bytes -> pres EventMessage) (br : bytes -> pres ReceiptMessage),
    reads_hex hx -> hex_u64 hx -> refuses_text bk -> refuses_text br ->
  forall (E : Env) (t rest : bytes) (m : EventMessage),
    bk t = PErr -> si_kind (em_info m) = JSON -> read_event_type hx bk br t = POk rest (KeyEventT m) ->
    exists t', e_ser_event (with_json E) m = Ok t' /\ forall r, read_event_type hx bk br (t' ++ r) = POk r (KeyEventT m).
Lemma one_digit s a n : str_slice a (S a) s = Ok n -> forall k, parse_radix 16 u8_max n = Ok k -> (k < 16)%N.
Proof.
  unfold str_slice. destruct (_ && _)%bool; [|discriminate]. intros H. assert (n = firstn (S a - a) (skipn a s)) by congruence. subst n. clear H.
  replace (S a - a) with 1 by lia. destruct (skipn a s) as [|c r]; cbn [firstn]; intros k; [discriminate|].
  destruct c; intros H; vm_compute in H; try discriminate H; injection H as <-; reflexivity.
Qed.
Lemma si_from_readable x v : si_from x = Ok v -> version_readable v.
Proof.
  unfold si_from. intros H. apply obind_ok in H as (h & _ & H). destruct (is h "KERI"); [|discriminate].
  apply obind_ok in H as (a & Ha & H). apply obind_ok in H as (ma & Hma & H). apply obind_ok in H as (b & Hb & H). apply obind_ok in H as (mi & Hmi & H).
  apply obind_ok in H as (c & _ & H). apply obind_ok in H as (k & _ & H). apply obind_ok in H as (d & _ & H). apply obind_ok in H as (sz & Hsz & H).
  assert (v = mkSI ma mi sz k) by congruence. subst v. split; [split|]; cbn [si_major si_minor si_size].
  - exact (one_digit _ _ _ Ha _ Hma). - exact (one_digit _ _ _ Hb _ Hmi). - exact (parse_radix_bound _ _ _ _ Hsz).
Qed.
Theorem C77_relay_partial :
  forall (hx : bytes -> option N) (bk : bytes -> pres EventMessage) (br : bytes -> pres ReceiptMessage),
    reads_hex hx -> hex_u64 hx -> refuses_text bk -> refuses_text br ->
  forall (E : Env) (t rest : bytes) (m : EventMessage),
    bk t = PErr -> si_kind (em_info m) = JSON -> read_event_type hx bk br t = POk rest (KeyEventT m) ->
    (forall x, has_literal t x -> ~ In "="%byte x) -> Forall finite (data_thresholds (em_data m)) ->
    exists t', e_ser_event (with_json E) m = Ok t' /\ forall r, read_event_type hx bk br (t' ++ r) = POk r (KeyEventT m).
Proof.
  intros hx bk br Hhx Hu Hbk Hbr E t rest m Bt Hk H Hl Hf.
  assert (S : event_stable m).
  { unfold read_event_type, palt at 1, key_event_message, palt at 1 in H. rewrite Bt in H.
    assert (J : json_message (read_key_event hx) t = POk rest m).
    { destruct (json_message (read_key_event hx) t); cbn [pmap] in H; try congruence.
      unfold receipt_message, palt in H. destruct (json_message (read_receipt hx) t); cbn [pmap] in H; try discriminate H. destruct (br t); cbn [pmap] in H; discriminate H. }
    clear H. unfold json_message in J. pose proof (skip_ws_suffix t) as St. destruct (skip_ws t) as [|c b]; [discriminate|]. destruct (c_is c 123); [|discriminate].
    apply suffix_cons in St.
    pose proof (top_from t pure) as T. specialize (T ltac:(intros w x r (u & Hs) Hr; split; [exact (read_string_utf8 _ _ _ Hr)|]; apply Hl; now exists u, w, r)).
    specialize (T (fuel_for b) 127 true None b St). destruct (read_top (fuel_for b) 127 true None b) as [[[ov l] r]|e|]; cbn [obind] in J; [|discriminate|discriminate].
    destruct T as (_ & Hall & Hv). destruct ov as [v|]; [|discriminate J]. change (need (Some v)) with (Ok v) in J. cbn [obind] in J.
    destruct (read_key_event hx v l) as [m'|e|] eqn:R; cbn [obind] in J; cbv beta iota in J; try discriminate J. injection J as _ J. subst m'.
    destruct Hv as [Hv|(x & v' & Hv & _ & Hx)]; [discriminate|]. assert (v' = v) by congruence. subst v'.
    exact (event_was_got hx Hu v l m (si_from_readable _ _ Hx) Hall R Hf). }
  exists (json (event_val m)). split.
  - cbn [e_ser_event with_json]. now rewrite Hk.
  - intros r. unfold read_event_type, palt at 1, key_event_message, palt at 1. now rewrite (event_stable_back hx Hhx m r S).
Qed.
Print Assumptions C77_relay_partial.
(** a text without the character = and without escapes has no literal with = *)
Lemma chars_incl f : forall s x r, read_chars f s = Some (x, r) -> ~ In x5c s -> incl x s.
Proof.
  induction f as [|f IH]; intros s x r; [discriminate|]. destruct s as [|c s]; [discriminate|]. cbn [read_chars]. intros H Hn.
  destruct (c_is c 34). { injection H as <- _. intros y []. }
  destruct (c_is c 92) eqn:B. { apply char_eq in B; [|reflexivity]. subst c. exfalso. apply Hn. now left. }
  destruct (b2n c <? 32)%N; [discriminate|]. destruct (read_chars f s) as [[y r']|] eqn:E; [|discriminate]. injection H as <- _.
  apply IH in E; [|intros Q; apply Hn; now right]. intros z [->|Hz]; [now left|right; auto].
Qed.
Lemma no_padding t : ~ In x5c t -> ~ In "="%byte t -> forall x, has_literal t x -> ~ In "="%byte x.
Proof.
  intros H1 H2 x (u & w & r & -> & Hr) Hx. unfold read_string in Hr. destruct (read_chars (List.length w) w) as [[y q]|] eqn:E; [|discriminate].
  destruct (valid_utf8 y); [|discriminate]. injection Hr as -> _. apply chars_incl in E; [|intros Q; apply H1; rewrite !in_app_iff; auto].
  apply H2. rewrite !in_app_iff. right. right. now apply E.
Qed.
Lemma not_in_vm c t : existsb (Byte.eqb c) t = false -> ~ In c t.
Proof. intros H Q. assert (X : existsb (Byte.eqb c) t = true) by (apply existsb_exists; exists c; split; [exact Q|apply Byte.byte_dec_lb; reflexivity]). congruence. Qed.
Lemma hx0_u64 : hex_u64 hx0.
Proof. intros s n. unfold hx0. destruct (parse_radix 16 u64_max s) eqn:E; try discriminate. intros H. injection H as <-. exact (parse_radix_bound _ _ _ _ E). Qed.
(** The hypotheses are met, and the text passed on is not the text received. *)
Example C77_example :
  let t := bstr " { ""i"" :""" ++ sap_str (jd x01) ++ bstr """,""v"":""KERI10JSON000000_"",""t"":""ixn"",""d"":""" ++ sap_str (jd x01) ++ bstr """,""s"":""1"",""p"":""" ++ sap_str (jd x02) ++ bstr """,""a"":[],""x"":7}" in
  let m := mkEM (mkSI 1 0 0 JSON) (jd x01) j_id 1 (Ixn (mkIxn (jd x02) [])) in
  no_key t = PErr /\ read_event_type hx0 no_key no_rct t = POk [] (KeyEventT m)
  /\ (forall x, has_literal t x -> ~ In "="%byte x) /\ Forall finite (data_thresholds (em_data m))
  /\ e_ser_event (with_json toy) m <> Ok t.
Proof.
  cbv zeta. apply conj; [reflexivity|]. apply conj; [vm_compute; reflexivity|]. apply conj; [apply no_padding; apply not_in_vm; vm_compute; reflexivity|].
  apply conj; [constructor|]. vm_compute. discriminate.
Qed.
(** The full statement is false.  A padded digest is read but not read back. *)
Definition padded_text : bytes :=
  bstr "{""v"":""KERI10JSON000000_"",""t"":""ixn"",""d"":""" ++ sap_str (jd x01) ++ bstr """,""i"":""" ++ sap_str (jd x01) ++ bstr """,""s"":""1"",""p"":""E" ++ repeat x41 42 ++ bstr "="",""a"":[]}".
Definition padded_event : EventMessage :=
  mkEM (mkSI 1 0 0 JSON) (jd x01) j_id 1 (Ixn (mkIxn (mkSAP Blake3_256 (repeat x00 31)) [])).
Theorem C77_refuted : ~ C77_statement.
Proof.
  intros H.
  assert (R : read_event_type hx0 no_key no_rct padded_text = POk [] (KeyEventT padded_event)) by (vm_compute; reflexivity).
  destruct (H hx0 no_key no_rct hx0_reads hx0_u64 no_key_refuses no_rct_refuses toy padded_text [] padded_event eq_refl eq_refl R) as (t' & Ht & Hr).
  assert (T : e_ser_event (with_json toy) padded_event = Ok (json (event_val padded_event))) by (cbn [e_ser_event with_json]; reflexivity).
  assert (t' = json (event_val padded_event)) by congruence. subst t'. specialize (Hr []). rewrite app_nil_r in Hr.
  assert (Q : read_event_type hx0 no_key no_rct (json (event_val padded_event)) <> POk [] (KeyEventT padded_event)) by (vm_compute; discriminate).
  exact (Q Hr).
Qed.
(** So is a threshold over zero: it is read, and printed as text that is not read. *)
Example C77_threshold_over_zero :
  let t := bstr "{""v"":""KERI10JSON000000_"",""t"":""icp"",""d"":""" ++ sap_str (jd x01) ++ bstr """,""i"":""" ++ sap_str (jd x01)
           ++ bstr """,""s"":""0"",""kt"":[""1/0""],""k"":[],""n"":"""",""bt"":""0"",""b"":[],""c"":[],""a"":[]}" in
  exists m, read_event_type hx0 no_key no_rct t = POk [] (KeyEventT m)
  /\ forall m', read_event_type hx0 no_key no_rct (json (event_val m)) <> POk [] (KeyEventT m').
Proof.
  exists (mkEM (mkSI 1 0 0 JSON) (jd x01) j_id 0 (Icp (mkIcp (mkKC (Weighted (WSingle [FInf])) [] None) (mkIWC 0 []) [] []))).
  apply conj; [vm_compute; reflexivity|]. intros m'. vm_compute. discriminate.
Qed.
Print Assumptions C78_short_version_panics.
Print Assumptions C77_refuted.
