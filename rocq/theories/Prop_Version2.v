(** * C93: which texts are version strings. *)
From Coq Require Import ZifyBool ZifyN ZifyNat.
From Verif Require Import Base Codes NumFmt Types NumProofs Version SpecCodec SpecVersion CodecProofs2.

Lemma char_digit_hex c : char_digit 16 c = hex_digit c.
Proof. destruct c; vm_compute; reflexivity. Qed.
Lemma hex_ascii1 c v : hex_digit c = Some v -> (b2n c < 128)%N /\ c <> "+"%byte.
Proof. destruct c; vm_compute; intros H; try discriminate H; split; try reflexivity; discriminate. Qed.
Lemma parse_digits_spec s : forall acc n, parse_digits 16 acc s = Some n <->
  exists ds, map hex_digit s = map Some ds /\ n = fold_left (fun a d => 16 * a + d)%N ds acc.
Proof.
  induction s as [|c s IH]; intros acc n; cbn [parse_digits map].
  - split; [intros H; injection H as <-; exists []; auto|]. intros (ds & H & ->). destruct ds; [reflexivity|discriminate H].
  - rewrite char_digit_hex. destruct (hex_digit c) as [d|] eqn:Hd.
    + rewrite IH. split.
      * intros (ds & H1 & H2). exists (d :: ds). split; [cbn; now rewrite H1|]. cbn [fold_left]. now rewrite (N.mul_comm 16 acc).
      * intros (ds & H1 & H2). destruct ds as [|d' ds]; [discriminate H1|]. cbn [map] in H1. injection H1 as <- H1.
        exists ds. split; [exact H1|]. cbn [fold_left] in H2. now rewrite (N.mul_comm acc 16).
    + split; [discriminate|]. intros (ds & H & _). destruct ds; discriminate H.
Qed.
Lemma number_ok s m n : s <> [] -> (forall t, s <> "+"%byte :: t) -> (parse_radix 16 m s = Ok n <-> hex_number s n /\ (n <= m)%N).
Proof.
  intros Hne Hp.
  assert (E : parse_radix 16 m s = match parse_digits 16 0 s with Some n => if (n <=? m)%N then Ok n else Err EIntegerParse | None => Err EIntegerParse end).
  { unfold parse_radix. destruct s as [|c s]; [congruence|]. destruct (Byte.byte_eq_dec c "+"%byte) as [->|]; [exfalso; now apply (Hp s)|].
    destruct c; try reflexivity. congruence. }
  rewrite E. unfold hex_number. destruct (parse_digits 16 0 s) as [k|] eqn:Hk.
  - destruct (k <=? m)%N eqn:Hm; split.
    + intros H; injection H as <-. split; [now apply parse_digits_spec|lia].
    + intros (H & _). apply parse_digits_spec in H. f_equal. congruence.
    + discriminate.
    + intros (H & Hl). apply parse_digits_spec in H. assert (k = n) by congruence. lia.
  - split; [discriminate|]. intros (H & _). apply parse_digits_spec in H. congruence.
Qed.
Lemma plus_ok s m n : s <> [] -> (parse_radix 16 m ("+"%byte :: s) = Ok n <-> hex_number s n /\ (n <= m)%N).
Proof.
  intros Hne.
  assert (E : parse_radix 16 m ("+"%byte :: s) = match parse_digits 16 0 s with Some n => if (n <=? m)%N then Ok n else Err EIntegerParse | None => Err EIntegerParse end).
  { unfold parse_radix. destruct s; [congruence|reflexivity]. }
  rewrite E. unfold hex_number. destruct (parse_digits 16 0 s) as [k|] eqn:Hk.
  - destruct (k <=? m)%N eqn:Hm; split.
    + intros H; injection H as <-. split; [now apply parse_digits_spec|lia].
    + intros (H & _). apply parse_digits_spec in H. f_equal. congruence.
    + discriminate.
    + intros (H & Hl). apply parse_digits_spec in H. assert (k = n) by congruence. lia.
  - split; [discriminate|]. intros (H & _). apply parse_digits_spec in H. congruence.
Qed.
Lemma no_plus_number t n : ~ hex_number ("+"%byte :: t) n.
Proof. intros (ds & H & _). destruct ds; discriminate H. Qed.
Lemma size_ok z n : List.length z = 6 -> (parse_radix 16 u16_max z = Ok n <-> size_field z n /\ (n <= 65535)%N).
Proof.
  intros Hl. unfold size_field. change u16_max with 65535%N. destruct z as [|c z]; [discriminate Hl|].
  destruct (Byte.byte_eq_dec c "+"%byte) as [->|Hne].
  - rewrite plus_ok by (intros ->; discriminate Hl). split.
    + intros (H & Hn). split; [|exact Hn]. split; [exact Hl|]. right. now exists z.
    + intros ((_ & [H|(d & He & H)]) & Hn); [now apply no_plus_number in H|]. injection He as <-. auto.
  - rewrite number_ok by (discriminate || (intros t; congruence)). split.
    + intros (H & Hn). auto.
    + intros ((_ & [H|(d & He & H)]) & Hn); [auto|]. exfalso. apply Hne. cbn in He. congruence.
Qed.
Lemma digit_ok c n : parse_radix 16 u8_max [c] = Ok n <-> hex_digit c = Some n.
Proof.
  destruct (Byte.byte_eq_dec c "+"%byte) as [->|Hne].
  - vm_compute. split; discriminate.
  - rewrite number_ok by (discriminate || (intros t; congruence)). unfold hex_number. split.
    + intros ((ds & H1 & H2) & _). destruct ds as [|d [|? ?]]; try discriminate H1. cbn in H1, H2. injection H1 as H1. rewrite H1. f_equal. lia.
    + intros H. split.
      * exists [n]. cbn. rewrite H. split; [reflexivity|lia].
      * destruct c; vm_compute in H; try discriminate H; injection H as <-; unfold u8_max; lia.
Qed.
Lemma format_ok s k : format_from s = Ok k <-> s = format_name k.
Proof.
  unfold format_from, is. split.
  - destruct (bytes_eqb s (bstr "JSON")) eqn:E1; [intros H; injection H as <-; now apply bytes_eqb_eq|].
    destruct (bytes_eqb s (bstr "MGPK")) eqn:E2; [intros H; injection H as <-; now apply bytes_eqb_eq|].
    destruct (bytes_eqb s (bstr "CBOR")) eqn:E3; [intros H; injection H as <-; now apply bytes_eqb_eq|discriminate].
  - intros ->. destruct k; reflexivity.
Qed.
Lemma slice_inv a b s t : str_slice a b s = Ok t -> t = firstn (b - a) (skipn a s) /\ b <= List.length s /\ is_boundary s b = true.
Proof.
  unfold str_slice. destruct (_ && _ && _ && _) eqn:E; [|discriminate]. intros H; injection H as <-. split; [reflexivity|].
  apply andb_prop in E as (E & E4). apply andb_prop in E as (E & _). apply andb_prop in E as (_ & E). split; [lia|exact E4].
Qed.
Lemma boundary_at p q : begins_character q -> is_boundary (p ++ q) (List.length p) = true.
Proof.
  intros H. unfold is_boundary. destruct p as [|x p]; [reflexivity|]. cbn [List.length].
  destruct (S (List.length p) =? _) eqn:E; [reflexivity|]. apply Nat.eqb_neq in E. rewrite app_length in E. cbn [List.length] in E.
  rewrite nth_error_app2 by (cbn; lia). cbn [List.length]. rewrite Nat.sub_diag. destruct q as [|c q]; [cbn in E; lia|]. cbn [nth_error]. unfold begins_character in H. lia.
Qed.
Lemma boundary_begins p q : p <> [] -> is_boundary (p ++ q) (List.length p) = true -> begins_character q.
Proof.
  intros Hp. unfold is_boundary. destruct p as [|x p]; [congruence|]. cbn [List.length].
  rewrite nth_error_app2 by (cbn; lia). cbn [List.length]. rewrite Nat.sub_diag. destruct q as [|c q]; [intros; exact I|]. cbn [nth_error begins_character].
  destruct (S (List.length p) =? _) eqn:E; [|lia]. apply Nat.eqb_eq in E. rewrite app_length in E. cbn in E. lia.
Qed.
Lemma slice_at p m q a b : List.length p = a -> a + List.length m = b -> begins_character (m ++ q) -> begins_character q -> str_slice a b (p ++ m ++ q) = Ok m.
Proof.
  intros Ha Hb H1 H2. subst a b. unfold str_slice. rewrite boundary_at by exact H1.
  assert (B : is_boundary (p ++ m ++ q) (List.length p + List.length m) = true).
  { rewrite app_assoc. rewrite <- app_length. now apply boundary_at. }
  rewrite B. replace (List.length p <=? List.length p + List.length m) with true by lia.
  replace (List.length p + List.length m <=? List.length (p ++ m ++ q)) with true by (rewrite !app_length; lia). cbn [andb]. f_equal.
  rewrite skipn_app, skipn_all, Nat.sub_diag. cbn [skipn app].
  replace (List.length p + List.length m - List.length p) with (List.length m) by lia.
  now rewrite firstn_app, Nat.sub_diag, firstn_all, app_nil_r.
Qed.
Lemma number_begins z n q : hex_number z n -> z <> [] -> begins_character (z ++ q).
Proof.
  intros (ds & H & _) Hz. destruct z as [|c z]; [congruence|]. destruct ds as [|d ds]; [discriminate H|]. cbn [map] in H. injection H as H _.
  cbn. left. now apply hex_ascii1 in H.
Qed.

(** ** C93: a text is read as a version exactly when it is the word KERI, two hex digits of either
    case, the name of a format, a size field of value at most 65535, and then any text. *)
Theorem C93_version_texts :
  forall (s : bytes) (v : SerializationInfo),
    si_from s = Ok v <->
    exists a b size rest,
      s = bstr "KERI" ++ [a] ++ [b] ++ format_name (si_kind v) ++ size ++ rest
      /\ hex_digit a = Some (si_major v) /\ hex_digit b = Some (si_minor v)
      /\ size_field size (si_size v) /\ (si_size v <= 65535)%N
      /\ begins_character rest.
Proof.
  intros s v. split.
  - unfold si_from. intros H.
    destruct (str_slice 0 4 s) as [h| |] eqn:S0; cbn [obind] in H; try discriminate H.
    destruct (is h "KERI") eqn:Hh; [|discriminate H].
    destruct (str_slice 4 5 s) as [a| |] eqn:S1; cbn [obind] in H; try discriminate H.
    destruct (parse_radix 16 u8_max a) as [ma| |] eqn:P1; cbn [obind] in H; try discriminate H.
    destruct (str_slice 5 6 s) as [b| |] eqn:S2; cbn [obind] in H; try discriminate H.
    destruct (parse_radix 16 u8_max b) as [mi| |] eqn:P2; cbn [obind] in H; try discriminate H.
    destruct (str_slice 6 10 s) as [c| |] eqn:S3; cbn [obind] in H; try discriminate H.
    destruct (format_from c) as [k| |] eqn:P3; cbn [obind] in H; try discriminate H.
    destruct (str_slice 10 16 s) as [d| |] eqn:S4; cbn [obind] in H; try discriminate H.
    destruct (parse_radix 16 u16_max d) as [z| |] eqn:P4; cbn [obind] in H; try discriminate H.
    injection H as <-. cbn [si_kind si_major si_minor si_size].
    apply slice_inv in S0 as (S0 & _ & _). apply slice_inv in S1 as (S1 & _ & _). apply slice_inv in S2 as (S2 & _ & _).
    apply slice_inv in S3 as (S3 & _ & _). apply slice_inv in S4 as (S4 & L & B).
    apply bytes_eqb_eq in Hh. apply format_ok in P3.
    assert (Ha : List.length a = 1) by (rewrite S1, firstn_length, skipn_length; lia).
    assert (Hb : List.length b = 1) by (rewrite S2, firstn_length, skipn_length; lia).
    assert (Hd : List.length d = 6) by (rewrite S4, firstn_length, skipn_length; lia).
    destruct a as [|a [|]]; try discriminate Ha. destruct b as [|b [|]]; try discriminate Hb.
    exists a, b, d, (skipn 16 s).
    assert (Es : s = (h ++ [a] ++ [b] ++ c ++ d) ++ skipn 16 s).
    { rewrite S0, S1, S2, S3, S4. clear. do 16 (destruct s as [|? s]; [reflexivity|]). reflexivity. }
    split; [rewrite Hh, P3 in Es; rewrite Es at 1; rewrite <- !app_assoc; reflexivity|].
    split; [now apply digit_ok|]. split; [now apply digit_ok|].
    apply (size_ok d z Hd) in P4 as (P4 & P5). split; [exact P4|]. split; [exact P5|].
    apply (boundary_begins (h ++ [a] ++ [b] ++ c ++ d)); [destruct h; discriminate|].
    rewrite <- Es. replace (List.length (h ++ [a] ++ [b] ++ c ++ d)) with 16; [exact B|].
    rewrite !app_length, Hd, Hh, P3. destruct k; reflexivity.
  - intros (a & b & z & rest & -> & Ha & Hb & Hz & Hn & Hr). pose proof (proj1 Hz) as Lz.
    pose proof (proj2 (size_ok z (si_size v) Lz) (conj Hz Hn)) as Pz.
    assert (Lk : List.length (format_name (si_kind v)) = 4) by (destruct (si_kind v); reflexivity).
    assert (Bz : begins_character (z ++ rest)).
    { destruct Hz as (_ & [Hz|(d & -> & _)]); [eapply number_begins; [exact Hz|intros ->; discriminate Lz]|left; reflexivity]. }
    assert (Bf : forall q, begins_character (format_name (si_kind v) ++ q)) by (intros q; destruct (si_kind v); left; reflexivity).
    pose proof (proj1 (hex_ascii1 _ _ Ha)) as Aa. pose proof (proj1 (hex_ascii1 _ _ Hb)) as Ab.
    unfold si_from.
    rewrite (slice_at [] (bstr "KERI") ([a] ++ [b] ++ format_name (si_kind v) ++ z ++ rest)) by (reflexivity || (left; assumption || reflexivity)).
    cbn [obind]. change (is (bstr "KERI") "KERI") with true. cbv iota.
    rewrite (slice_at (bstr "KERI") [a] ([b] ++ format_name (si_kind v) ++ z ++ rest)) by (reflexivity || (left; assumption)).
    cbn [obind]. rewrite (proj2 (digit_ok a _) Ha). cbn [obind].
    change (bstr "KERI" ++ [a] ++ [b] ++ format_name (si_kind v) ++ z ++ rest) with ((bstr "KERI" ++ [a]) ++ [b] ++ format_name (si_kind v) ++ z ++ rest).
    rewrite (slice_at (bstr "KERI" ++ [a]) [b] (format_name (si_kind v) ++ z ++ rest)) by (reflexivity || apply Bf || (left; assumption)).
    cbn [obind]. rewrite (proj2 (digit_ok b _) Hb). cbn [obind].
    change ((bstr "KERI" ++ [a]) ++ [b] ++ format_name (si_kind v) ++ z ++ rest) with ((bstr "KERI" ++ [a] ++ [b]) ++ format_name (si_kind v) ++ z ++ rest).
    rewrite (slice_at (bstr "KERI" ++ [a] ++ [b]) (format_name (si_kind v)) (z ++ rest)) by (reflexivity || apply Bf || assumption || (rewrite Lk; reflexivity)).
    cbn [obind]. rewrite (proj2 (format_ok _ _) eq_refl). cbn [obind].
    rewrite app_assoc. rewrite (slice_at ((bstr "KERI" ++ [a] ++ [b]) ++ format_name (si_kind v)) z rest).
    + cbn [obind]. rewrite Pz. cbn [obind]. destruct v; reflexivity.
    + rewrite app_length, Lk. reflexivity.
    + rewrite Lz. reflexivity.
    + exact Bz.
    + exact Hr.
Qed.
Print Assumptions C93_version_texts.
(** So an accepted version text need not be the text that is written for it, although signatures
    and digests are over what is written: *)
Theorem C93_refuted : ~ (forall s v, si_from s = Ok v -> si_str v = s).
Proof.
  intros H. specialize (H (bstr "KERI10JSON0000AB!") (mkSI 1 0 171 JSON) ltac:(vm_compute; reflexivity)). vm_compute in H. discriminate H.
Qed.
Print Assumptions C93_refuted.
(** It is the written text exactly when its digits are small letters, its size has no plus sign,
    and it ends in one underscore. *)
Definition lower_digits (z : bytes) : Prop := Forall (fun c => In c (bstr "0123456789abcdef")) z.
Lemma lower_digit c v : hex_digit c = Some v -> In c (bstr "0123456789abcdef") -> c = digit_char v.
Proof. destruct c; vm_compute; intros H Hin; try discriminate H; injection H as <-; try reflexivity; exfalso; repeat (destruct Hin as [Hin|Hin]; [discriminate Hin|]); exact Hin. Qed.
Lemma digit_lower v : (v < 16)%N -> In (digit_char v) (bstr "0123456789abcdef").
Proof.
  intros H. unfold digit_char. apply nth_In. change (List.length (bstr "0123456789abcdef")) with 16. lia.
Qed.
Lemma lower_inj : forall s t n, List.length s = List.length t -> lower_digits s -> lower_digits t ->
  parse_digits 16 0 s = Some n -> parse_digits 16 0 t = Some n -> s = t.
Proof.
  induction s as [|c s IH] using rev_ind; intros t n Hl Hs Ht Ps Pt; [destruct t; [reflexivity|discriminate Hl]|].
  destruct t as [|d t _] using rev_ind; [rewrite app_length in Hl; cbn in Hl; lia|].
  rewrite !app_length in Hl. cbn [List.length] in Hl. apply Forall_app in Hs as (Hs & Hc). apply Forall_app in Ht as (Ht & Hd).
  inversion_clear Hc as [|? ? Hc' _]. inversion_clear Hd as [|? ? Hd' _].
  rewrite parse_digits_app in Ps, Pt. destruct (parse_digits 16 0 s) as [x|] eqn:Ex; [|discriminate Ps]. destruct (parse_digits 16 0 t) as [y|] eqn:Ey; [|discriminate Pt].
  cbn [parse_digits] in Ps, Pt. rewrite char_digit_hex in Ps, Pt. destruct (hex_digit c) as [u|] eqn:Eu; [|discriminate Ps]. destruct (hex_digit d) as [w|] eqn:Ew; [|discriminate Pt].
  assert (Hu : (u < 16)%N) by (destruct c; vm_compute in Eu; try discriminate Eu; injection Eu as <-; lia).
  assert (Hw : (w < 16)%N) by (destruct d; vm_compute in Ew; try discriminate Ew; injection Ew as <-; lia).
  injection Ps as Ps. injection Pt as Pt. assert (x = y /\ u = w) as (-> & ->) by lia.
  f_equal; [apply (IH t y); auto; lia|]. f_equal. rewrite (lower_digit c w Eu Hc'), (lower_digit d w Ew Hd'). reflexivity.
Qed.
Definition hex16 : radix 16. Proof. unfold radix. lia. Qed.
Lemma fmt_lower n : lower_digits (fmt_hex n).
Proof. apply Forall_forall. intros c Hc. apply fmt_chars in Hc as (d & Hd & ->); [now apply digit_lower|exact hex16]. Qed.
Lemma pad_lower n : lower_digits (pad0 6 (fmt_hex n)).
Proof. apply Forall_app. split; [|apply fmt_lower]. apply Forall_forall. intros c Hc. apply repeat_spec in Hc. subst c. vm_compute. now left. Qed.
Lemma pad_len n : (n <= 65535)%N -> List.length (pad0 6 (fmt_hex n)) = 6.
Proof.
  intros H. assert (L : List.length (fmt_hex n) <= 6) by (apply fmt_len; [exact hex16|cbn; lia|lia]).
  unfold pad0. rewrite app_length, repeat_length. lia.
Qed.
Lemma digit_fmt c v : hex_digit c = Some v -> fmt_hex v = [digit_char v].
Proof. intros H. destruct c; vm_compute in H; try discriminate H; injection H as <-; reflexivity. Qed.
Theorem C93_canonical_partial :
  forall (s : bytes) (v : SerializationInfo), si_from s = Ok v ->
    (si_str v = s <->
     exists a b size, s = bstr "KERI" ++ [a] ++ [b] ++ format_name (si_kind v) ++ size ++ bstr "_"
       /\ List.length size = 6 /\ lower_digits ([a] ++ [b] ++ size)).
Proof.
  intros s v H. apply C93_version_texts in H as (a & b & z & rest & -> & Ha & Hb & Hz & Hn & Hr).
  assert (Ef : format_str (si_kind v) = format_name (si_kind v)) by (destruct (si_kind v); reflexivity).
  assert (Es : si_str v = bstr "KERI" ++ [digit_char (si_major v)] ++ [digit_char (si_minor v)] ++ format_name (si_kind v) ++ pad0 6 (fmt_hex (si_size v)) ++ bstr "_").
  { unfold si_str. now rewrite Ef, (digit_fmt a _ Ha), (digit_fmt b _ Hb). }
  pose proof (pad_len (si_size v) Hn) as Lp. split.
  - intros He. exists (digit_char (si_major v)), (digit_char (si_minor v)), (pad0 6 (fmt_hex (si_size v))).
    split; [now rewrite <- He, Es|]. split; [exact Lp|].
    assert (D : forall c x, hex_digit c = Some x -> In (digit_char x) (bstr "0123456789abcdef")).
    { intros c x Hc. apply digit_lower. destruct c; vm_compute in Hc; try discriminate Hc; injection Hc as <-; reflexivity. }
    constructor; [now apply (D a)|]. constructor; [now apply (D b)|]. apply pad_lower.
  - intros (a' & b' & z' & He & Lz & Hlow). rewrite Es. apply app_inv_head in He. cbn [app] in He. injection He as <- <- He. apply app_inv_head in He.
    inversion_clear Hlow as [|? ? La Hlow']. inversion_clear Hlow' as [|? ? Lb Lzz].
    destruct Hz as (Lz0 & Hz). assert (z = z' /\ rest = bstr "_") as (-> & ->).
    { apply (f_equal (firstn 6)) in He as H1. rewrite !firstn_app in H1. rewrite (firstn_all2 z), (firstn_all2 z') in H1 by lia.
      rewrite Lz0, Lz in H1. change (6 - 6) with 0 in H1. cbn [firstn] in H1. rewrite !app_nil_r in H1. split; [exact H1|]. rewrite H1 in He. now apply app_inv_head in He. }
    rewrite <- (lower_digit a _ Ha La), <- (lower_digit b _ Hb Lb). do 6 f_equal.
    destruct Hz as [Hz|(d & -> & _)].
    + apply (lower_inj _ _ (si_size v)); [congruence|apply pad_lower|exact Lzz| |].
      * unfold pad0. rewrite pad_value by exact hex16. now apply fmt_value, hex16.
      * now apply parse_digits_spec.
    + exfalso. inversion_clear Lzz as [|? ? Hp _]. vm_compute in Hp. repeat (destruct Hp as [Hp|Hp]; [discriminate Hp|]). exact Hp.
Qed.
Print Assumptions C93_canonical_partial.
Example C93_example :
  si_from (bstr "KERI1aCBOR+00fF9 and so on") = Ok (mkSI 1 10 4089 CBOR)
  /\ si_from (bstr "KERI10JSON0000ab_") = Ok (mkSI 1 0 171 JSON) /\ si_str (mkSI 1 0 171 JSON) = bstr "KERI10JSON0000ab_".
Proof. vm_compute. auto. Qed.
