(** * Version strings: C51, C65. *)
From Coq Require Import ZifyBool ZifyN ZifyNat.
From Verif Require Import Base Codes NumFmt Types NumProofs Version SpecCodec CodecProofs CodecProofs2.
Ltac Zify.zify_post_hook ::= Z.div_mod_to_equations.

(** ** C51 version string round trip *)
Definition hex_ok : radix 16. Proof. unfold radix. lia. Qed.
Lemma digit1 n : (n < 16)%N -> fmt_hex n = [digit_char n].
Proof. intros H. unfold fmt_hex, fmt_radix. cbn [rev_digits]. replace (n <? 16)%N with true by lia. reflexivity. Qed.
Lemma digit_ascii d : (d < 16)%N -> (b2n (digit_char d) < 128)%N.
Proof.
  intros H. pose proof (char_of_digit 16 d hex_ok H) as E. revert E. generalize (digit_char d).
  intros c. destruct c; vm_compute; congruence.
Qed.
Lemma size_text n : (n < 16777216)%N -> List.length (pad0 6 (fmt_hex n)) = 6.
Proof.
  intros H. assert (L : List.length (fmt_hex n) <= 6) by (apply fmt_len; [exact hex_ok|exact H|lia]).
  unfold pad0. rewrite app_length, repeat_length. lia.
Qed.
Lemma ascii_slice p m q : ascii (p ++ m ++ q) ->
  str_slice (List.length p) (List.length p + List.length m) (p ++ m ++ q) = Ok m.
Proof.
  intros H. assert (B : forall i, i <= List.length (p ++ m ++ q) -> is_boundary (p ++ m ++ q) i = true).
  { intros i Hi. unfold is_boundary. destruct i; [reflexivity|]. destruct (S i =? _) eqn:E; [reflexivity|].
    destruct (nth_error (p ++ m ++ q) (S i)) as [b|] eqn:En.
    - apply nth_error_In in En. unfold ascii in H. rewrite Forall_forall in H. apply H in En. lia.
    - apply nth_error_None in En. apply Nat.eqb_neq in E. lia. }
  unfold str_slice. rewrite !B by (rewrite !app_length; lia).
  replace (List.length p <=? List.length p + List.length m) with true by lia.
  replace (List.length p + List.length m <=? List.length (p ++ m ++ q)) with true by (rewrite !app_length; lia).
  cbn [andb]. f_equal. rewrite skipn_app, skipn_all, Nat.sub_diag. cbn [skipn app].
  replace (List.length p + List.length m - List.length p) with (List.length m) by lia.
  now rewrite firstn_app, Nat.sub_diag, firstn_all, app_nil_r.
Qed.
Lemma hex_ascii n : ascii (fmt_hex n).
Proof. apply Forall_forall. intros c Hc. apply fmt_chars in Hc as (d & Hd & ->); [now apply digit_ascii|exact hex_ok]. Qed.
(** reading the text of a version whose fields have their standard widths *)
Lemma read_version major minor size kind : (major < 16)%N -> (minor < 16)%N -> (size < 16777216)%N ->
  si_from (si_str (mkSI major minor size kind)) =
  if (size <=? 65535)%N then Ok (mkSI major minor size kind) else Err EIntegerParse.
Proof.
  intros H1 H2 H3. unfold si_str. cbn [si_major si_minor si_size si_kind].
  rewrite (digit1 major), (digit1 minor) by assumption.
  set (S6 := pad0 6 (fmt_hex size)). pose proof (size_text size H3) as L6. fold S6 in L6.
  set (s := bstr "KERI" ++ _).
  assert (Ha : ascii s).
  { unfold s, ascii. repeat (rewrite Forall_app; split); try (destruct kind; code_ascii); try code_ascii;
      try (apply Forall_cons; [now apply digit_ascii|apply Forall_nil]).
    unfold S6, pad0. apply Forall_app. split; [|apply hex_ascii].
    apply Forall_forall. intros c Hc. apply repeat_spec in Hc. subst c. now vm_compute. }
  assert (Lk : List.length (format_str kind) = 4) by (destruct kind; reflexivity).
  assert (E0 : str_slice 0 4 s = Ok (bstr "KERI")) by exact (ascii_slice [] (bstr "KERI") _ Ha).
  assert (E1 : str_slice 4 5 s = Ok [digit_char major]) by exact (ascii_slice (bstr "KERI") [digit_char major] _ Ha).
  assert (E2 : str_slice 5 6 s = Ok [digit_char minor]).
  { exact (ascii_slice (bstr "KERI" ++ [digit_char major]) [digit_char minor] _ Ha). }
  assert (E3 : str_slice 6 10 s = Ok (format_str kind)).
  { pose proof (ascii_slice (bstr "KERI" ++ [digit_char major] ++ [digit_char minor]) (format_str kind) _ Ha) as E.
    rewrite Lk in E. exact E. }
  assert (E4 : str_slice 10 16 s = Ok S6).
  { assert (Es : s = (bstr "KERI" ++ [digit_char major] ++ [digit_char minor] ++ format_str kind) ++ S6 ++ bstr "_")
      by (unfold s; now rewrite <- !app_assoc).
    rewrite Es in Ha |- *. pose proof (ascii_slice _ S6 _ Ha) as E. rewrite L6 in E.
    rewrite !app_length, Lk in E. exact E. }
  unfold si_from. rewrite E0. cbn [obind]. change (is (bstr "KERI") "KERI") with true. cbv iota.
  rewrite E1, E2, E3, E4. cbn [obind].
  rewrite <- (digit1 major), <- (digit1 minor) by assumption. unfold fmt_hex.
  rewrite !fmt_parse by (exact hex_ok || (unfold u8_max; lia)). cbn [obind].
  assert (Ef : format_from (format_str kind) = Ok kind) by (destruct kind; reflexivity). rewrite Ef. cbn [obind].
  assert (V : parse_digits 16 0 S6 = Some size) by (unfold S6, pad0, fmt_hex; rewrite pad_value by exact hex_ok; now apply fmt_value, hex_ok).
  destruct (size <=? 65535)%N eqn:Es.
  - rewrite (parse_radix_value 16 u16_max S6 size hex_ok); [reflexivity| |exact V|unfold u16_max; lia].
    intros ->. discriminate L6.
  - unfold parse_radix. destruct S6 as [|c S6]; [discriminate L6|].
    assert (W : (if (size <=? u16_max)%N then Ok size else Err EIntegerParse) = Err EIntegerParse) by (unfold u16_max; rewrite Es; reflexivity).
    destruct c; cbv zeta iota; try (rewrite V, W; reflexivity). cbn in V. discriminate V.
Qed.
(** A version string written with one-digit version numbers and a size up to 65535 is read back. *)
Theorem C51_version_round_trip_partial major minor size kind :
  (major < 16)%N -> (minor < 16)%N -> (size <= 65535)%N ->
  si_from (si_str (mkSI major minor size kind)) = Ok (mkSI major minor size kind).
Proof.
  intros H1 H2 H3. rewrite read_version by lia. replace (size <=? 65535)%N with true by lia. reflexivity.
Qed.
(** The full statement is false: the six digits of the format express sizes up to 16777215
    but no string with a size above 65535 is read. *)
Theorem C51_large_sizes_refused major minor size kind :
  (major < 16)%N -> (minor < 16)%N -> (65535 < size < 16777216)%N ->
  List.length (si_str (mkSI major minor size kind)) = 17
  /\ si_from (si_str (mkSI major minor size kind)) = Err EIntegerParse.
Proof.
  intros H1 H2 H3. split.
  - unfold si_str. cbn [si_major si_minor si_size si_kind]. rewrite (digit1 major), (digit1 minor) by assumption.
    rewrite !app_length, size_text by lia. destruct kind; reflexivity.
  - rewrite read_version by lia. replace (size <=? 65535)%N with false by lia. reflexivity.
Qed.
Example C51_case : si_str (mkSI 1 0 100 JSON) = bstr "KERI10JSON000064_"
  /\ si_from (bstr "KERI10JSON000064_") = Ok (mkSI 1 0 100 JSON)
  /\ si_from (bstr "KERI10JSON010000_") = Err EIntegerParse.
Proof. vm_compute. repeat split. Qed.

(** ** C65 reading a version string never panics *)
(** any text of at least sixteen ASCII characters is read or refused *)
Lemma slice_ascii_ok s a b : ascii s -> a <= b -> b <= List.length s -> exists t, str_slice a b s = Ok t.
Proof.
  intros H Hab Hb.
  assert (B : forall i, i <= List.length s -> is_boundary s i = true).
  { intros i Hi. unfold is_boundary. destruct i; [reflexivity|]. destruct (S i =? _) eqn:E; [reflexivity|].
    destruct (nth_error s (S i)) as [c|] eqn:En.
    - apply nth_error_In in En. unfold ascii in H. rewrite Forall_forall in H. apply H in En. lia.
    - apply nth_error_None in En. apply Nat.eqb_neq in E. lia. }
  unfold str_slice. rewrite !B by lia. replace (a <=? b) with true by lia. replace (b <=? List.length s) with true by lia.
  cbn [andb]. eexists. reflexivity.
Qed.
Lemma parse_radix_no_panic r m s : parse_radix r m s <> Panic.
Proof.
  unfold parse_radix. cbv zeta. match goal with |- match ?b with _ => _ end <> _ => generalize b end.
  intros [|c l]; [discriminate|]. destruct (parse_digits _ _ _); [|discriminate]. destruct (_ <=? _)%N; discriminate.
Qed.
Lemma format_no_panic s : format_from s <> Panic.
Proof. unfold format_from. destruct (is s "JSON"), (is s "MGPK"), (is s "CBOR"); discriminate. Qed.
Theorem C65_version_no_panic_partial s : ascii s -> 16 <= List.length s -> si_from s <> Panic.
Proof.
  intros Ha Hl. unfold si_from.
  destruct (slice_ascii_ok s 0 4 Ha) as [h ->]; [lia|lia|]. cbn [obind]. destruct (is h "KERI"); [|discriminate].
  destruct (slice_ascii_ok s 4 5 Ha) as [a ->]; [lia|lia|]. cbn [obind].
  destruct (parse_radix 16 u8_max a) eqn:E1; cbn [obind]; [|discriminate|now apply parse_radix_no_panic in E1].
  destruct (slice_ascii_ok s 5 6 Ha) as [b ->]; [lia|lia|]. cbn [obind].
  destruct (parse_radix 16 u8_max b) eqn:E2; cbn [obind]; [|discriminate|now apply parse_radix_no_panic in E2].
  destruct (slice_ascii_ok s 6 10 Ha) as [c ->]; [lia|lia|]. cbn [obind].
  destruct (format_from c) eqn:E3; cbn [obind]; [|discriminate|now apply format_no_panic in E3].
  destruct (slice_ascii_ok s 10 16 Ha) as [d ->]; [lia|lia|]. cbn [obind].
  destruct (parse_radix 16 u16_max d) eqn:E4; cbn [obind]; [discriminate|discriminate|now apply parse_radix_no_panic in E4].
Qed.
(** The full statement is false: every text shorter than four bytes panics, and so does every
    prefix of a well-formed string that stops before the end of the size. *)
Theorem C65_short_strings_panic s : List.length s < 4 -> si_from s = Panic.
Proof.
  intros H. unfold si_from, str_slice. replace (4 <=? List.length s) with false by lia. reflexivity.
Qed.
Theorem C65_truncated_strings_panic kind n : 4 <= n < 16 ->
  si_from (firstn n (si_str (mkSI 1 0 100 kind))) = Panic.
Proof.
  intros H. assert (E : n = 4 \/ n = 5 \/ n = 6 \/ n = 7 \/ n = 8 \/ n = 9 \/ n = 10 \/ n = 11 \/ n = 12 \/ n = 13 \/ n = 14 \/ n = 15) by lia.
  repeat (destruct E as [E|E]); subst n; destruct kind; reflexivity.
Qed.
(** and so does a text with a multi-byte character across a cut *)
Example C65_multibyte_panics : si_from (bstr "KER" ++ [xc3; xa9] ++ bstr "10JSON000064_") = Panic.
Proof. reflexivity. Qed.
Example C65_case : ascii (bstr "KERI10JSON00zz64_") /\ si_from (bstr "KERI10JSON00zz64_") = Err EIntegerParse.
Proof. split; [code_ascii|reflexivity]. Qed.
Print Assumptions C65_truncated_strings_panic.
Print Assumptions C65_short_strings_panic.
Print Assumptions C65_version_no_panic_partial.
Print Assumptions C51_large_sizes_refused.
Print Assumptions C51_version_round_trip_partial.
