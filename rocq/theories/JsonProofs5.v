(** * JsonProofs5: sizes of texts; the serializer of signed events. *)
From Coq Require Import ZifyBool ZifyN ZifyNat.
From Verif Require Import Base Base64 Base64Proofs Codes NumFmt NumProofs Types SpecCodec CodecProofs KeyConf Version Cesr CesrProofs Message Keri Json JsonRead JsonProofs SpecJson JsonProofs2 JsonProofs3 JsonProofs4 Prop_Version.

(** ** Plain text is written as it is *)
Lemma esc_plain c : plain_char c -> esc c = [c].
Proof. intros (H1 & H2 & H3). revert H1 H2 H3. destruct c; vm_compute; intros; try reflexivity; try congruence; exfalso; now apply H1. Qed.
Lemma escs_plain s : plain s -> flat_map esc s = s.
Proof. induction 1 as [|c s H _ IH]; [reflexivity|]. cbn [flat_map]. rewrite esc_plain by assumption. now rewrite IH. Qed.
Lemma b64_plain c : is_b64_char c = true -> plain_char c.
Proof. unfold plain_char. destruct c; vm_compute; intros H; try discriminate H; repeat split; try discriminate. Qed.
Ltac lit_plain := repeat (apply Forall_cons; [vm_compute; repeat split; discriminate|]); apply Forall_nil.
Lemma encode_plain l : plain (b64_encode l).
Proof. eapply Forall_impl; [exact b64_plain|apply encode_chars]. Qed.
Lemma prefix_plain code d : plain code -> plain (prefix_str code d).
Proof. intros H. unfold prefix_str. destruct d; [constructor|]. apply Forall_app; split; [assumption|apply encode_plain]. Qed.
Lemma bp_plain p : plain (bp_str p).
Proof. apply prefix_plain. destruct (bp_code p); lit_plain. Qed.
Lemma sap_plain p : plain (sap_str p).
Proof. apply prefix_plain. destruct (sap_code p); lit_plain. Qed.
Lemma ssp_plain p : plain (ssp_str p).
Proof. apply prefix_plain. destruct (ssp_code p); lit_plain. Qed.
Lemma id_plain p : plain (id_str p).
Proof. destruct p; [apply bp_plain|apply sap_plain|apply ssp_plain]. Qed.
Lemma digit_plain d : (d < 16)%N -> plain_char (digit_char d).
Proof.
  intros H. assert (D : (d = 0 \/ d = 1 \/ d = 2 \/ d = 3 \/ d = 4 \/ d = 5 \/ d = 6 \/ d = 7 \/ d = 8 \/ d = 9 \/ d = 10 \/ d = 11 \/ d = 12 \/ d = 13 \/ d = 14 \/ d = 15)%N) by lia.
  repeat (destruct D as [D|D]); subst d; vm_compute; repeat split; discriminate.
Qed.
Lemma fmt_plain r n : radix r -> plain (fmt_radix r n).
Proof. intros Hr. apply Forall_forall. intros c Hc. destruct (fmt_chars r n c Hr Hc) as (d & Hd & ->). apply digit_plain. destruct Hr; lia. Qed.
Lemma hex_plain n : plain (fmt_hex n). Proof. apply fmt_plain, radix16. Qed.
Lemma dec_plain n : plain (fmt_dec n). Proof. apply fmt_plain, radix10. Qed.
Lemma frac_plain f : plain (frac_str f).
Proof.
  destruct f as [| |n d]; [lit_plain|lit_plain|]. cbn [frac_str]. destruct (d =? 1)%N; [apply dec_plain|].
  apply Forall_app; split; [apply dec_plain|]. apply Forall_app; split; [lit_plain|apply dec_plain].
Qed.
Lemma tag_plain t : plain (tag_str t). Proof. destruct t; lit_plain. Qed.
Lemma pad_plain w s : plain s -> plain (pad0 w s).
Proof. intros H. apply Forall_app; split; [|assumption]. apply Forall_forall. intros c Hc. apply repeat_spec in Hc. subst. vm_compute; repeat split; discriminate. Qed.
Lemma si_plain v : plain (si_str v).
Proof.
  unfold si_str. apply Forall_app; split; [lit_plain|]. apply Forall_app; split; [apply hex_plain|].
  apply Forall_app; split; [apply hex_plain|]. apply Forall_app; split; [destruct (si_kind v); lit_plain|].
  apply Forall_app; split; [apply pad_plain, hex_plain|lit_plain].
Qed.
Lemma dummy_plain g : plain (dummy_prefix g).
Proof. apply Forall_forall. intros c Hc. apply repeat_spec in Hc. subst. vm_compute; repeat split; discriminate. Qed.
Lemma quote_plain s : plain s -> quote s = bstr """" ++ s ++ bstr """".
Proof. intros H. unfold quote. now rewrite escs_plain. Qed.

(** ** Sizes *)
Lemma quote_len s t : plain s -> plain t -> List.length s = List.length t -> List.length (quote s) = List.length (quote t).
Proof. intros H1 H2 E. rewrite !quote_plain by assumption. rewrite !app_length. lia. Qed.
Lemma member_len k s t : plain s -> plain t -> List.length s = List.length t -> List.length (member (sfld k s)) = List.length (member (sfld k t)).
Proof. intros H1 H2 E. unfold member, sfld, fld. cbn [fst snd json]. rewrite !app_length. now rewrite (quote_len s t). Qed.
Lemma si_len v w : version_ok v -> version_ok w -> (si_size v < 16777216)%N -> (si_size w < 16777216)%N -> List.length (si_str v) = List.length (si_str w).
Proof.
  intros [H1 H2] [H3 H4] H5 H6. unfold si_str. rewrite (digit1 (si_major v)), (digit1 (si_minor v)), (digit1 (si_major w)), (digit1 (si_minor w)) by assumption.
  rewrite !app_length, !size_text by assumption. destruct (si_kind v), (si_kind w); reflexivity.
Qed.
Lemma digest_text_len g d : List.length d = digest_bytes g -> List.length (sap_str (mkSAP g d)) = List.length (dummy_prefix g).
Proof.
  intros H. unfold sap_str, dummy_prefix. cbn [sap_code sap_digest]. rewrite prefix_str_ne by (intros ->; destruct g; discriminate H).
  rewrite app_length, repeat_length, sa_code_length, encode_length, H. destruct g; reflexivity.
Qed.
(** members with the same texts except the version, the digest and the identifier *)
Lemma json_v_len x l : plain x -> List.length (json (VMap (sfld "v" x :: l))) = List.length x + List.length (tail_text l) + 8.
Proof.
  intros H. rewrite json_obj, join_members. unfold member, sfld, fld. cbn [fst snd json]. rewrite (quote_plain x) by assumption.
  change (quote (bstr "v")) with (bstr """v"""). cbn [List.length]. rewrite !app_length.
  change (List.length (bstr """v""")) with 3. change (List.length (bstr """")) with 1. change (List.length (bstr ":")) with 1. change (List.length (bstr "}")) with 1. lia.
Qed.
Lemma fields_len v w d1 d2 i1 i2 t sn l :
  plain d1 -> plain d2 -> plain i1 -> plain i2 -> List.length d1 = List.length d2 -> List.length i1 = List.length i2 ->
  List.length (json (VMap (head_fields v t d1 ++ sfld "i" i1 :: sfld "s" sn :: l))) + List.length (si_str w)
  = List.length (json (VMap (head_fields w t d2 ++ sfld "i" i2 :: sfld "s" sn :: l))) + List.length (si_str v).
Proof.
  intros P1 P2 Q1 Q2 E1 E2. unfold head_fields. cbn [app]. rewrite !json_v_len by apply si_plain.
  unfold tail_text. cbn [flat_map]. rewrite !app_length. cbn [List.length].
  rewrite (member_len "d" d1 d2), (member_len "i" i1 i2) by assumption. lia.
Qed.
Lemma si_new_len n : (N.of_nat n < 16777216)%N -> List.length (si_str (si_new JSON n)) = 17.
Proof. intros H. unfold si_str, si_new. cbn [si_major si_minor si_size si_kind]. rewrite !app_length, size_text by exact H. reflexivity. Qed.
Lemma si_new_ge n : 17 <= List.length (si_str (si_new JSON n)).
Proof. unfold si_str, si_new, pad0. cbn [si_major si_minor si_size si_kind]. rewrite !app_length, repeat_length. change (List.length (bstr "KERI")) with 4. change (List.length (fmt_hex 1)) with 1. change (List.length (fmt_hex 0)) with 1. change (List.length (format_str JSON)) with 4. change (List.length (bstr "_")) with 1. lia. Qed.
(** the stated size of a built event is that of the dummy with size zero; both texts agree *)
Lemma sizes v d1 d2 i1 i2 t sn l n :
  plain d1 -> plain d2 -> plain i1 -> plain i2 -> List.length d1 = List.length d2 -> List.length i1 = List.length i2 ->
  n = List.length (json (VMap (head_fields (si_new JSON 0) t d1 ++ sfld "i" i1 :: sfld "s" sn :: l))) ->
  v = si_new JSON n ->
  let text := json (VMap (head_fields v t d2 ++ sfld "i" i2 :: sfld "s" sn :: l)) in
  (N.of_nat (List.length text) < 16777216)%N -> si_size v = N.of_nat (List.length text).
Proof.
  intros P1 P2 Q1 Q2 E1 E2 -> -> text Ht.
  set (b0 := json (VMap (head_fields (si_new JSON 0) t d1 ++ sfld "i" i1 :: sfld "s" sn :: l))) in *.
  set (v := si_new JSON (List.length b0)) in *.
  pose proof (fields_len (si_new JSON 0) v d1 d2 i1 i2 t sn l P1 P2 Q1 Q2 E1 E2) as F. fold b0 text in F.
  rewrite (si_new_len 0) in F by reflexivity. pose proof (si_new_ge (List.length b0)) as G. fold v in G.
  assert (Hb : (N.of_nat (List.length b0) < 16777216)%N) by lia.
  rewrite (si_new_len _ Hb : List.length (si_str v) = 17) in F. unfold v, si_new. cbn [si_size]. f_equal. lia.
Qed.

(** ** The serializer of signed events *)
(** values that it writes like [serde_json]: no structs, plain strings without a leading dash *)
Definition undashed (s : bytes) : Prop := starts_dash s = false.
Fixpoint flat (v : sval) : Prop :=
  match v with
  | VStr s => plain s /\ undashed s
  | VSeq l => (fix all l := match l with [] => True | a :: l => flat a /\ all l end) l
  | VMap l => (fix all l := match l with [] => True | (k, a) :: l => (plain k /\ undashed k /\ flat a) /\ all l end) l
  | VStruct _ => False
  | VNull => True
  end.
Definition flat_kv (kv : bytes * sval) : Prop := plain (fst kv) /\ undashed (fst kv) /\ flat (snd kv).
Lemma flat_seq l : flat (VSeq l) <-> Forall flat l.
Proof. cbn [flat]. induction l as [|a l IH]; [split; constructor|]. rewrite IH. split; [intros [? ?]; now constructor|inversion 1; now split]. Qed.
Lemma flat_map_iff l : flat (VMap l) <-> Forall flat_kv l.
Proof. cbn [flat]. induction l as [|[k a] l IH]; [split; constructor|]. rewrite IH. split; [intros [? ?]; now constructor|inversion 1; now split]. Qed.
Lemma kstr_plain s : plain s -> undashed s -> kstr s = quote s.
Proof. intros H1 H2. unfold kstr. rewrite H2. now rewrite quote_plain. Qed.
Lemma ends_in_snoc o x c : ends_in (o ++ [x]) c = if Byte.byte_eq_dec x c then true else false.
Proof. unfold ends_in. now rewrite rev_app_distr. Qed.
Lemma json_last v : exists t x, json v = t ++ [x] /\ x <> x5b /\ x <> x7b.
Proof.
  destruct v as [s|l|l|l|]; cbn [json]; [| | | |exists (bstr "nul"), x6c; split; [reflexivity|split; discriminate]].
  - exists (bstr """" ++ flat_map esc s), x22. split; [unfold quote; change (bstr """") with [x22]; now rewrite app_assoc|split; discriminate].
  - exists (bstr "[" ++ join (bstr ",") (map json l)), x5d. split; [now rewrite <- app_assoc|split; discriminate].
  - eexists (bstr "{" ++ join (bstr ",") _), x7d. split; [rewrite <- app_assoc; reflexivity|split; discriminate].
  - eexists (bstr "{" ++ join (bstr ",") _), x7d. split; [rewrite <- app_assoc; reflexivity|split; discriminate].
Qed.
Lemma ends_json o v c : c = x5b \/ c = x7b -> ends_in (o ++ json v) c = false.
Proof.
  intros H. destruct (json_last v) as (t & x & -> & H1 & H2). rewrite app_assoc, ends_in_snoc.
  destruct (Byte.byte_eq_dec x c); [|reflexivity]. subst. destruct H; congruence.
Qed.
Definition written (v : sval) : Prop := flat v -> forall o, kser v o = o ++ json v.
Definition seq_step (o : bytes) (v : sval) : bytes := kser v (if ends_in o "["%byte then o else o ++ bstr ",").
Definition map_step (o : bytes) (kv : bytes * sval) : bytes :=
  kser (snd kv) ((if ends_in o "{"%byte then o else o ++ bstr ",") ++ kstr (fst kv) ++ bstr ":").
Lemma kser_seq l o : kser (VSeq l) o = fold_left seq_step l (o ++ bstr "[") ++ bstr "]".
Proof. reflexivity. Qed.
Lemma kser_map l o : kser (VMap l) o = fold_left map_step l (o ++ bstr "{") ++ bstr "}".
Proof. reflexivity. Qed.
Lemma seq_tail l : Forall written l -> Forall flat l -> forall o, ends_in o x5b = false ->
  fold_left seq_step l o = o ++ flat_map (fun v => x2c :: json v) l.
Proof.
  induction 1 as [|v l Hw _ IH]; intros Hf o Ho; [cbn [fold_left flat_map]; now rewrite app_nil_r|].
  apply Forall_cons_iff in Hf as [Hv Hf]. cbn [fold_left flat_map]. unfold seq_step at 2. change "["%byte with x5b. rewrite Ho, Hw by assumption.
  rewrite IH; [|assumption|apply ends_json; now left]. rewrite <- !app_assoc. reflexivity.
Qed.
Lemma join_tail l v : join (bstr ",") (map json (v :: l)) = json v ++ flat_map (fun v => x2c :: json v) l.
Proof.
  revert v; induction l as [|w l IH]; intros v; [cbn [map join flat_map]; now rewrite app_nil_r|].
  change (join (bstr ",") (map json (v :: w :: l))) with (json v ++ bstr "," ++ join (bstr ",") (map json (w :: l))). rewrite IH. reflexivity.
Qed.
Lemma map_tail l : Forall (fun kv => written (snd kv)) l -> Forall flat_kv l -> forall o, ends_in o x7b = false ->
  fold_left map_step l o = o ++ tail_text l.
Proof.
  induction 1 as [|kv l Hw _ IH]; intros Hf o Ho; [cbn [fold_left tail_text flat_map]; now rewrite app_nil_r|].
  apply Forall_cons_iff in Hf as [(Hk & Hu & Hv) Hf]. cbn [fold_left]. unfold map_step at 2. change "{"%byte with x7b.
  rewrite Ho, Hw, kstr_plain by assumption. rewrite IH; [|assumption|apply ends_json; now right].
  unfold tail_text. cbn [flat_map]. unfold member at 2. rewrite <- app_comm_cons, <- !app_assoc. reflexivity.
Qed.
Lemma map_body kv l o : Forall (fun kv => written (snd kv)) (kv :: l) -> Forall flat_kv (kv :: l) -> ends_in o x7b = true ->
  fold_left map_step (kv :: l) o = o ++ member kv ++ tail_text l.
Proof.
  intros Hw Hf Ho. apply Forall_cons_iff in Hw as [Hw1 Hw]. apply Forall_cons_iff in Hf as [(Hk & Hu & Hv) Hf].
  cbn [fold_left]. unfold map_step at 2. change "{"%byte with x7b. rewrite Ho, Hw1, kstr_plain by assumption.
  rewrite map_tail; [|assumption|assumption|apply ends_json; now right]. unfold member. rewrite <- !app_assoc. reflexivity.
Qed.
Theorem kser_flat v : written v.
Proof.
  induction v as [s|l IH|l IH|l IH|] using sval_ind'; intros Hf o; [| | | |reflexivity].
  - destruct Hf as [H1 H2]. cbn [kser json]. now rewrite kstr_plain.
  - apply flat_seq in Hf. rewrite kser_seq, json_seq. destruct l as [|v l].
    + cbn [fold_left map join app]. rewrite <- app_assoc. reflexivity.
    + apply Forall_cons_iff in Hf as [Hv Hf]. apply Forall_cons_iff in IH as [Hw IH]. rewrite join_tail.
      cbn [fold_left]. unfold seq_step at 2. change (bstr "[") with [x5b] at 1 2 3. rewrite ends_in_snoc. change "["%byte with x5b.
      destruct (Byte.byte_eq_dec x5b x5b); [|congruence]. rewrite Hw by assumption.
      rewrite seq_tail; [|assumption|assumption|apply ends_json; now left]. rewrite <- !app_assoc. reflexivity.
  - apply flat_map_iff in Hf. rewrite kser_map, json_obj. destruct l as [|kv l].
    + cbn [fold_left map join app]. rewrite <- app_assoc. reflexivity.
    + rewrite join_members, map_body; [|assumption|assumption|change (bstr "{") with [x7b]; rewrite ends_in_snoc; destruct (Byte.byte_eq_dec x7b x7b); congruence].
      rewrite <- !app_assoc. reflexivity.
  - contradiction.
Qed.
