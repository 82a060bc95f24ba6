(** * JsonProofs4: the text of an event determines the event. *)
From Coq Require Import ZifyBool ZifyN ZifyNat.
From Verif Require Import Base Base64 Base64Proofs Codes NumFmt NumProofs Types SpecCodec CodecProofs KeyConf Version Cesr CesrProofs Message Keri Json JsonRead JsonProofs SpecJson JsonProofs2 Prop_Version.

Lemma fmt_inj r a b : radix r -> fmt_radix r a = fmt_radix r b -> a = b.
Proof. intros Hr H. pose proof (fmt_value r a Hr) as A. rewrite H, fmt_value in A by exact Hr. congruence. Qed.
Lemma hex_inj a b : fmt_hex a = fmt_hex b -> a = b.
Proof. apply fmt_inj, radix16. Qed.
Lemma dec_inj a b : fmt_dec a = fmt_dec b -> a = b.
Proof. apply fmt_inj, radix10. Qed.
Lemma dec_digits n : Forall (fun c => is_digit c = true) (fmt_dec n).
Proof.
  apply Forall_forall. intros c Hc. destruct (fmt_chars 10 n c radix10 Hc) as (d & Hd & ->).
  assert (D : (d = 0 \/ d = 1 \/ d = 2 \/ d = 3 \/ d = 4 \/ d = 5 \/ d = 6 \/ d = 7 \/ d = 8 \/ d = 9)%N) by lia.
  repeat (destruct D as [D|D]); subst d; reflexivity.
Qed.
Lemma split_digits a b c d : Forall (fun c => is_digit c = true) a -> Forall (fun c => is_digit c = true) c ->
  a ++ x2f :: b = c ++ x2f :: d -> a = c /\ b = d.
Proof.
  intros Ha; revert c; induction Ha as [|x a Hx _ IH]; intros c Hc E; destruct Hc as [|y c Hy Hc]; cbn [app] in E.
  - now injection E as ->.
  - injection E as <- _. discriminate Hy.
  - injection E as -> _. discriminate Hx.
  - injection E as -> E. destruct (IH c Hc E) as [-> ->]. now split.
Qed.
Lemma no_slash_digits a b c : Forall (fun c => is_digit c = true) c -> c <> a ++ x2f :: b.
Proof. intros H ->. apply Forall_app in H as [_ H]. inversion H as [|? ? H1 _]. discriminate H1. Qed.
Lemma frac_str_inj f g : frac_str f = frac_str g -> f = g.
Proof.
  assert (D : forall n d x, ~ is_digit x = true -> forall y, frac_str (FRat n d) <> x :: y).
  { intros n d x Hx y E. cbn [frac_str] in E. pose proof (dec_digits n) as Hn. pose proof (fmt_ne 10 n) as Hne. fold (fmt_dec n) in Hne.
    destruct (d =? 1)%N; [rewrite E in Hn; inversion Hn; contradiction|].
    destruct (fmt_dec n) as [|c t]; [congruence|]. cbn [app] in E. assert (c = x) by congruence. subst c. inversion Hn; contradiction. }
  destruct f as [| |n d], g as [| |n' d']; intros E; try reflexivity; try discriminate E.
  - exfalso. symmetry in E. revert E. now apply D.
  - exfalso. symmetry in E. revert E. now apply D.
  - exfalso. revert E. now apply D.
  - exfalso. revert E. now apply D.
  - cbn [frac_str] in E. change (bstr "/") with [x2f] in E. destruct (d =? 1)%N eqn:E1, (d' =? 1)%N eqn:E2.
    + apply dec_inj in E. subst n'. f_equal. lia.
    + exfalso. exact (no_slash_digits _ _ _ (dec_digits n) E).
    + exfalso. symmetry in E. exact (no_slash_digits _ _ _ (dec_digits n') E).
    + apply split_digits in E; [|apply dec_digits|apply dec_digits]. destruct E as [A B]. apply dec_inj in A, B. now subst.
Qed.
Lemma map_inj {A B} (f : A -> B) (P : A -> Prop) l1 l2 :
  (forall a b, P a -> P b -> f a = f b -> a = b) -> Forall P l1 -> Forall P l2 -> map f l1 = map f l2 -> l1 = l2.
Proof.
  intros Hf H1; revert l2; induction H1 as [|a l1 Ha _ IH]; intros l2 H2 E; destruct H2 as [|b l2 Hb H2]; try discriminate E; [reflexivity|].
  cbn [map] in E. injection E as E1 E2. f_equal; [now apply Hf|now apply IH].
Qed.
Lemma Forall_all {A} (l : list A) : Forall (fun _ => True) l.
Proof. now apply Forall_forall. Qed.
Lemma bp_inj a b : bp_named a -> bp_named b -> bp_str a = bp_str b -> a = b.
Proof. apply bp_str_inj. Qed.
Lemma sap_inj a b : sap_named a -> sap_named b -> sap_str a = sap_str b -> a = b.
Proof. intros [H1 H2] [H3 H4] E. destruct (sap_str_inj a b H1 H3 E) as [A B]. destruct a as [c x], b as [c' x']; cbn [sap_code sap_digest] in *. congruence. Qed.
Lemma id_inj a b : id_ok a -> id_ok b -> id_str a = id_str b -> a = b.
Proof. intros [H1 H2] [H3 H4] E. pose proof (id_str_inj a b H1 H3 E). congruence. Qed.
Lemma sap_str_nonempty d : sap_named d -> sap_str d <> [].
Proof.
  intros [H _] E. unfold sap_str in E. rewrite prefix_str_ne in E by assumption. apply app_eq_nil in E as [_ E].
  exact (H (proj1 (b64_encode_nil_iff _) E)).
Qed.
Lemma app_inv_length {A} (a b c d : list A) : a ++ b = c ++ d -> List.length a = List.length c -> a = c /\ b = d.
Proof.
  revert c; induction a as [|x a IH]; intros [|y c] E L; try discriminate L; [now split|].
  cbn [app] in E. injection E as -> E. destruct (IH c E) as [-> ->]; [now injection L|now split].
Qed.
(** version strings *)
Lemma si_inj v w : version_ok v -> version_ok w -> si_str v = si_str w -> v = w.
Proof.
  intros [H1 H2] [H3 H4]. destruct v as [a b s k], w as [a' b' s' k']. unfold si_str. cbn [si_major si_minor si_size si_kind] in *.
  rewrite (digit1 a), (digit1 b), (digit1 a'), (digit1 b') by assumption. intros E. apply app_inv_head in E. cbn [app] in E.
  assert (X : forall (A : Type) (x y : A) l m, x :: l = y :: m -> x = y /\ l = m) by (intros A x y l m Z; injection Z; auto).
  apply X in E as [Ea E]. apply X in E as [Eb E].
  assert (Lk : forall k, List.length (format_str k) = 4) by (intros []; reflexivity).
  assert (K : format_str k = format_str k' /\ pad0 6 (fmt_hex s) ++ bstr "_" = pad0 6 (fmt_hex s') ++ bstr "_").
  { apply app_inv_length in E; [exact E|]. now rewrite !Lk. }
  destruct K as [K S]. assert (k = k') by (destruct k, k'; try reflexivity; discriminate K). subst k'.
  apply app_inv_tail in S. pose proof (fmt_value 16 s radix16) as V. pose proof (fmt_value 16 s' radix16) as V'.
  rewrite <- (pad_value 16 (6 - List.length (fmt_hex s)) _ radix16) in V. rewrite <- (pad_value 16 (6 - List.length (fmt_hex s')) _ radix16) in V'.
  unfold pad0, fmt_hex in *. rewrite S in V. rewrite V in V'. assert (s = s') by congruence. subst s'.
  assert (D : forall x y, (x < 16)%N -> (y < 16)%N -> digit_char x = digit_char y -> x = y).
  { intros x y Hx Hy Exy. pose proof (char_of_digit 16 x radix16 Hx) as A. rewrite Exy, (char_of_digit 16 y radix16 Hy) in A. congruence. }
  f_equal; now apply D.
Qed.
(** fields *)
Lemma erase_str s t : erase (VStr s) = erase (VStr t) -> s = t.
Proof. cbn [erase]. congruence. Qed.
Lemma erase_seq {A} (f : A -> sval) l1 l2 : erase (VSeq (map f l1)) = erase (VSeq (map f l2)) -> map (fun a => erase (f a)) l1 = map (fun a => erase (f a)) l2.
Proof. cbn [erase]. rewrite !map_map. congruence. Qed.
Lemma keys_inj l1 l2 : Forall bp_named l1 -> Forall bp_named l2 -> erase (keys_val l1) = erase (keys_val l2) -> l1 = l2.
Proof.
  intros H1 H2 E. apply erase_seq in E. eapply map_inj; [|exact H1|exact H2|exact E].
  intros a b Ha Hb Eab. cbn [erase] in Eab. apply bp_inj; congruence.
Qed.
Lemma clause_inj c1 c2 : erase (clause_val c1) = erase (clause_val c2) -> c1 = c2.
Proof.
  intros E. apply erase_seq in E. eapply (map_inj _ (fun _ => True)); [|apply Forall_all|apply Forall_all|exact E].
  intros a b _ _ Eab. cbn [erase] in Eab. apply frac_str_inj. congruence.
Qed.
Lemma threshold_inj t1 t2 : t1 <> Weighted (WMulti []) -> t2 <> Weighted (WMulti []) ->
  erase (threshold_val t1) = erase (threshold_val t2) -> t1 = t2.
Proof.
  intros N1 N2. destruct t1 as [n|[c|cs]], t2 as [m|[d|ds]]; cbn [threshold_val]; try (cbn [erase clause_val]; discriminate); intros E.
  - apply erase_str, hex_inj in E. now subst.
  - apply clause_inj in E. now subst.
  - exfalso. destruct c as [|f c], ds as [|x ds]; try congruence; discriminate E.
  - exfalso. destruct d as [|f d], cs as [|x cs]; try congruence; discriminate E.
  - apply erase_seq in E. do 2 f_equal. eapply (map_inj _ (fun _ => True)); [|apply Forall_all|apply Forall_all|exact E].
    intros a b _ _. apply clause_inj.
Qed.
Definition seal_named (s : Seal) : Prop := sap_named (seal_digest s) /\ Forall id_ok (seal_ids s).
Lemma seal_inj s t : seal_named s -> seal_named t -> erase (seal_val s) = erase (seal_val t) -> s = t.
Proof.
  intros [H1 H2] [H3 H4]. destruct s as [[i n k p]|[i n p]|d|d], t as [[i' n' k' p']|[i' n' p']|d'|d']; cbn [seal_digest seal_ids seal_val ls_prefix ls_sn ls_ilk ls_prior es_prefix es_sn es_digest] in *;
    unfold sfld, fld; cbn [erase map fst snd]; try discriminate; intros E;
    try (apply Forall_cons_iff in H2 as [H2 _]; apply Forall_cons_iff in H4 as [H4 _]).
  - injection E as E1 E2 E3 E4. apply id_inj in E1; try assumption. apply hex_inj in E2. apply sap_inj in E4; try assumption. now subst.
  - injection E as E1 E2 E3. apply id_inj in E1; try assumption. apply hex_inj in E2. apply sap_inj in E3; try assumption. now subst.
  - injection E as E1. apply sap_inj in E1; try assumption. now subst.
  - injection E as E1. apply sap_inj in E1; try assumption. now subst.
Qed.
Lemma seals_named l : Forall sap_named (map seal_digest l) -> Forall id_ok (flat_map seal_ids l) -> Forall seal_named l.
Proof.
  intros H1 H2. rewrite Forall_forall in *. intros s Hs. split; [apply H1, in_map, Hs|].
  apply Forall_forall. intros x Hx. apply H2, in_flat_map. now exists s.
Qed.
Lemma seals_inj l1 l2 : Forall seal_named l1 -> Forall seal_named l2 ->
  erase (VSeq (map seal_val l1)) = erase (VSeq (map seal_val l2)) -> l1 = l2.
Proof. intros H1 H2 E. apply erase_seq in E. exact (map_inj _ _ _ _ seal_inj H1 H2 E). Qed.
Lemma strings_inj l1 l2 : erase (VSeq (map VStr l1)) = erase (VSeq (map VStr l2)) -> l1 = l2.
Proof.
  intros E. apply erase_seq in E. eapply (map_inj _ (fun _ => True)); [|apply Forall_all|apply Forall_all|exact E].
  intros a b _ _. apply erase_str.
Qed.
Lemma next_inj (a b : option SelfAddressingPrefix) : Forall sap_named (opt_list a) -> Forall sap_named (opt_list b) ->
  match a with Some d => sap_str d | None => [] end = match b with Some d => sap_str d | None => [] end -> a = b.
Proof.
  destruct a as [a|], b as [b|]; cbn [opt_list]; intros H1 H2 E; try reflexivity;
    try (apply Forall_cons_iff in H1 as [H1 _]); try (apply Forall_cons_iff in H2 as [H2 _]).
  - f_equal. now apply sap_inj.
  - exfalso. exact (sap_str_nonempty a H1 E).
  - exfalso. symmetry in E. exact (sap_str_nonempty b H2 E).
Qed.
Lemma tag_inj d1 d2 : tag_str (event_type d1) = tag_str (event_type d2) -> event_type d1 = event_type d2.
Proof. destruct d1, d2; cbn [event_type]; intros E; try reflexivity; discriminate E. Qed.
Lemma erase_kv_fld k v : erase_kv (fld k v) = (bstr k, erase v).
Proof. reflexivity. Qed.
Lemma data_inj d1 d2 : data_named d1 -> data_named d2 -> event_type d1 = event_type d2 ->
  map erase_kv (data_fields d1) = map erase_kv (data_fields d2) -> d1 = d2.
Proof.
  intros (K1 & D1 & I1 & _ & T1) (K2 & D2 & I2 & _ & T2).
  unfold data_keys, data_digests, data_ids, data_thresholds in *.
  destruct d1 as [e|e|e|e|e], d2 as [f|f|f|f|f]; cbn [event_type]; try discriminate; intros _;
    cbn [data_kc data_seals opt_list flat_map map app] in *;
    repeat match goal with H : Forall _ (_ ++ _) |- _ => apply Forall_app in H; destruct H end;
    repeat match goal with H : Forall _ (_ :: _) |- _ => apply Forall_cons_iff in H; destruct H end;
    repeat match goal with H : ~ In _ _ |- _ => apply not_in_cons in H; destruct H as [H _]; apply not_eq_sym in H end.
  - destruct e as [[kt k n] [bt b] c a], f as [[kt' k' n'] [bt' b'] c' a']. cbn [data_fields icp_fields kc_fields app map icp_kc icp_wc icp_config icp_data kc_threshold kc_keys kc_next iwc_tally iwc_witnesses] in *.
    unfold sfld, seals_fld. rewrite !erase_kv_fld. intros E.
    apply (f_equal (map snd)) in E. cbn [map snd] in E.
    assert (X : forall (A : Type) (x y : A) l m, x :: l = y :: m -> x = y /\ l = m) by (intros A x y l m Q; injection Q; auto).
    apply X in E as [E1 E]. apply X in E as [E2 E]. apply X in E as [E3 E]. apply X in E as [E4 E]. apply X in E as [E5 E]. apply X in E as [E6 E]. apply X in E as [E7 _].
    apply threshold_inj in E1; try assumption. apply keys_inj in E2; try assumption. apply erase_str, next_inj in E3; try assumption.
    apply erase_str, hex_inj in E4. apply keys_inj in E5; try assumption. apply strings_inj in E6. apply seals_inj in E7; [|now apply seals_named..]. now subst.
  - destruct e as [p [kt k n] [bt br ba] a], f as [p' [kt' k' n'] [bt' br' ba'] a']. cbn [data_fields rot_fields kc_fields app map rot_prev rot_kc rot_wc rot_data kc_threshold kc_keys kc_next wc_tally wc_prune wc_graft] in *.
    unfold sfld, seals_fld. rewrite !erase_kv_fld. intros E.
    apply (f_equal (map snd)) in E. cbn [map snd] in E.
    assert (X : forall (A : Type) (x y : A) l m, x :: l = y :: m -> x = y /\ l = m) by (intros A x y l m Q; injection Q; auto).
    apply X in E as [E0 E]. apply X in E as [E1 E]. apply X in E as [E2 E]. apply X in E as [E3 E]. apply X in E as [E4 E]. apply X in E as [E5 E]. apply X in E as [E6 E]. apply X in E as [E7 _].
    apply erase_str, sap_inj in E0; try assumption.
    apply threshold_inj in E1; try assumption. apply keys_inj in E2; try assumption. apply erase_str, next_inj in E3; try assumption.
    apply erase_str, hex_inj in E4. apply keys_inj in E5; try assumption. apply keys_inj in E6; try assumption. apply seals_inj in E7; [|now apply seals_named..]. now subst.
  - destruct e as [p a], f as [p' a']. cbn [data_fields map ixn_prev ixn_data] in *. unfold sfld, seals_fld. rewrite !erase_kv_fld. intros E.
    apply (f_equal (map snd)) in E. cbn [map snd] in E.
    assert (X : forall (A : Type) (x y : A) l m, x :: l = y :: m -> x = y /\ l = m) by (intros A x y l m Q; injection Q; auto).
    apply X in E as [E0 E]. apply X in E as [E7 _].
    apply erase_str, sap_inj in E0; try assumption. apply seals_inj in E7; [|now apply seals_named..]. now subst.
  - destruct e as [[[kt k n] [bt b] c a] di], f as [[[kt' k' n'] [bt' b'] c' a'] di']. cbn [data_fields icp_fields kc_fields app map dip_icp dip_delegator icp_kc icp_wc icp_config icp_data kc_threshold kc_keys kc_next iwc_tally iwc_witnesses] in *.
    unfold sfld, seals_fld. rewrite !erase_kv_fld. intros E.
    apply (f_equal (map snd)) in E. cbn [map snd] in E.
    assert (X : forall (A : Type) (x y : A) l m, x :: l = y :: m -> x = y /\ l = m) by (intros A x y l m Q; injection Q; auto).
    apply X in E as [E1 E]. apply X in E as [E2 E]. apply X in E as [E3 E]. apply X in E as [E4 E]. apply X in E as [E5 E]. apply X in E as [E6 E]. apply X in E as [E7 E]. apply X in E as [E8 _].
    apply threshold_inj in E1; try assumption. apply keys_inj in E2; try assumption. apply erase_str, next_inj in E3; try assumption.
    apply erase_str, hex_inj in E4. apply keys_inj in E5; try assumption. apply strings_inj in E6. apply seals_inj in E7; [|now apply seals_named..].
    apply erase_str, id_inj in E8; try assumption. now subst.
  - destruct e as [p [kt k n] [bt br ba] a], f as [p' [kt' k' n'] [bt' br' ba'] a']. cbn [data_fields rot_fields kc_fields app map rot_prev rot_kc rot_wc rot_data kc_threshold kc_keys kc_next wc_tally wc_prune wc_graft] in *.
    unfold sfld, seals_fld. rewrite !erase_kv_fld. intros E.
    apply (f_equal (map snd)) in E. cbn [map snd] in E.
    assert (X : forall (A : Type) (x y : A) l m, x :: l = y :: m -> x = y /\ l = m) by (intros A x y l m Q; injection Q; auto).
    apply X in E as [E0 E]. apply X in E as [E1 E]. apply X in E as [E2 E]. apply X in E as [E3 E]. apply X in E as [E4 E]. apply X in E as [E5 E]. apply X in E as [E6 E]. apply X in E as [E7 _].
    apply erase_str, sap_inj in E0; try assumption.
    apply threshold_inj in E1; try assumption. apply keys_inj in E2; try assumption. apply erase_str, next_inj in E3; try assumption.
    apply erase_str, hex_inj in E4. apply keys_inj in E5; try assumption. apply keys_inj in E6; try assumption. apply seals_inj in E7; [|now apply seals_named..]. now subst.
Qed.
Theorem event_text_inj m1 m2 r1 r2 : event_named m1 -> event_named m2 ->
  json (event_val m1) ++ r1 = json (event_val m2) ++ r2 -> m1 = m2 /\ r1 = r2.
Proof.
  intros (V1 & D1 & I1 & A1) (V2 & D2 & I2 & A2) E.
  apply (json_prefix_free 3) in E as [E ->]; [|apply fits_event; now destruct A1 as (_ & _ & _ & ? & _)|apply fits_event; now destruct A2 as (_ & _ & _ & ? & _)].
  split; [|reflexivity]. destruct m1 as [v d i s a], m2 as [v' d' i' s' a']. cbn [em_info em_digest em_prefix em_sn em_data] in *.
  unfold event_val, head_fields, event_fields in E. cbn [em_info em_digest em_prefix em_sn em_data app] in E.
  change (erase (VMap ?l)) with (JObj (map erase_kv l)) in E. cbn [map] in E. unfold sfld in E. rewrite !erase_kv_fld in E.
  assert (Q : forall l m, JObj l = JObj m -> l = m) by congruence. apply Q in E.
  assert (X : forall (A : Type) (x y : A) l m, x :: l = y :: m -> x = y /\ l = m) by (intros A x y l m Z; injection Z; auto).
  apply X in E as [E1 E]. apply X in E as [E2 E]. apply X in E as [E3 E]. apply X in E as [E4 E]. apply X in E as [E5 E].
  apply (f_equal snd) in E1, E2, E3, E4, E5. cbn [snd] in *. apply erase_str in E1, E2, E3, E4, E5.
  apply si_inj in E1; try assumption. apply sap_inj in E3; try assumption. apply id_inj in E4; try assumption. apply hex_inj in E5.
  apply tag_inj in E2. apply data_inj in E; try assumption. now subst.
Qed.
