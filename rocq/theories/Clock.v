(** * Clock: how instants are written and read.

    query/mod.rs:33-38 and query/key_state_notice.rs:41-43 write [to_rfc3339_opts(SecondsFormat::Micros,
    false)] of a [chrono::DateTime<FixedOffset>]; the derived readers use [chrono]'s own
    [Deserialize].  The crate chrono is not in /repo: this is the published format
    [YYYY-MM-DDTHH:MM:SS.ffffff+00:00] over the proleptic Gregorian calendar.  An instant is the
    number of nanoseconds since 1970.  Simplified: only instants of the years 0 to 9999 and the
    offset 0, which [Utc::now()] has (query/mod.rs:42, key_state_notice.rs:29-31), are written as
    chrono does; read are texts of the length that is written, with any offset; leap seconds are
    refused; the offset itself is not kept. *)
From Coq Require Import ZifyBool ZifyN ZifyNat.
From Verif Require Import Base Base64 Codes NumFmt Types.
Local Open Scope Z_scope.

(** ** Days since 1970 and dates (crate chrono) *)
Definition civil (day : Z) : Z * Z * Z :=
  let z := day + 719468 in
  let era := z / 146097 in
  let doe := z mod 146097 in
  let yoe := (doe - doe / 1460 + doe / 36524 - doe / 146096) / 365 in
  let doy := doe - (365 * yoe + yoe / 4 - yoe / 100) in
  let mp := (5 * doy + 2) / 153 in
  let d := doy - (153 * mp + 2) / 5 + 1 in
  let m := if mp <? 10 then mp + 3 else mp - 9 in
  (yoe + era * 400 + (if m <=? 2 then 1 else 0), m, d).
Definition days (y m d : Z) : Z :=
  let y := if m <=? 2 then y - 1 else y in
  let doy := (153 * (if 2 <? m then m - 3 else m + 9) + 2) / 5 + d - 1 in
  let yoe := y mod 400 in
  (y / 400) * 146097 + (yoe * 365 + yoe / 4 - yoe / 100 + doy) - 719468.

(** ** Decimal digits, a fixed number of them *)
Definition digit (n : Z) : byte := match Byte.of_N (48 + Z.to_N (n mod 10)) with Some b => b | None => x00 end.
Fixpoint digits (k : nat) (n : Z) : bytes :=
  match k with O => [] | S k => digits k (n / 10) ++ [digit n] end.
Definition undigit (c : byte) : option Z :=
  let n := Z.of_N (b2n c) in if ((48 <=? n) && (n <=? 57)) then Some (n - 48) else None.
Fixpoint undigits (s : bytes) (acc : Z) : option Z :=
  match s with
  | [] => Some acc
  | c :: s => match undigit c with Some d => undigits s (acc * 10 + d) | None => None end
  end.

(** ** Texts *)
(** query/mod.rs:33-38, key_state_notice.rs:41-43: [to_rfc3339_opts(SecondsFormat::Micros, false)] *)
Definition rfc_write (t : Z) : bytes :=
  let us := t / 1000 in
  let sec := us / 1000000 in
  let '(y, m, d) := civil (sec / 86400) in
  let s := sec mod 86400 in
  digits 4 y ++ bstr "-" ++ digits 2 m ++ bstr "-" ++ digits 2 d ++ bstr "T"
  ++ digits 2 (s / 3600) ++ bstr ":" ++ digits 2 (s / 60 mod 60) ++ bstr ":" ++ digits 2 (s mod 60)
  ++ bstr "." ++ digits 6 (us mod 1000000) ++ bstr "+00:00".
(** the number written in the [k] characters from position [i] *)
Definition number_at (i k : nat) (s : bytes) : option Z := undigits (firstn k (skipn i s)) 0.
Definition char_at (i : nat) (c : byte) (s : bytes) : bool :=
  match nth_error s i with Some x => Byte.eqb x c | None => false end.
Notation "'let!' x := e 'in' k" := (match e with Some x => k | None => None end) (at level 200, x pattern, e at level 100, k at level 200).
(** [DateTime<FixedOffset>::deserialize] *)
Definition rfc_read (s : bytes) : option Z :=
  if negb (List.length s =? 32)%nat then None
  else if negb (char_at 4 x2d s && char_at 7 x2d s && char_at 10 x54 s && char_at 13 x3a s && char_at 16 x3a s
                && char_at 19 x2e s && (char_at 26 x2b s || char_at 26 x2d s) && char_at 29 x3a s) then None
  else
    let! y := number_at 0 4 s in let! m := number_at 5 2 s in let! d := number_at 8 2 s in
    let! hh := number_at 11 2 s in let! mm := number_at 14 2 s in let! ss := number_at 17 2 s in
    let! us := number_at 20 6 s in let! oh := number_at 27 2 s in let! om := number_at 30 2 s in
    let day := days y m d in
    let off := (if char_at 26 x2d s then -1 else 1) * (oh * 3600 + om * 60) in
    let '(y', m', d') := civil day in
    if (y' =? y) && (m' =? m) && (d' =? d) && (hh <? 24) && (mm <? 60) && (ss <? 60) && (oh <? 24) && (om <? 60) then
      Some (((day * 86400 + hh * 3600 + mm * 60 + ss - off) * 1000000 + us) * 1000)
    else None.

(** ** Every date is read back *)
(** one era of 400 years *)
Definition era_ok (doe : Z) : bool :=
  let '(y, m, d) := civil (doe - 719468) in
  (days y m d =? doe - 719468) && (1 <=? m) && (m <=? 12) && (1 <=? d) && (d <=? 31)
  && (0 <=? y) && (y <=? 400) && (if doe <=? 305 then y =? 0 else true) && (if doe <? 146097 - 60 then y <=? 399 else true).
Lemma era_year k : 0 <= k < 146097 -> let q := (k - k / 1460 + k / 36524 - k / 146096) / 365 in
  0 <= q <= 399 /\ 0 <= k - (365 * q + q / 4 - q / 100) <= 365 /\ (k < 146037 -> q = 399 -> k - (365 * q + q / 4 - q / 100) <= 305).
Proof. intros H. cbv zeta. repeat apply conj; Z.div_mod_to_equations; lia. Qed.
Lemma era_month y : 0 <= y <= 365 -> let mp := (5 * y + 2) / 153 in let m := if mp <? 10 then mp + 3 else mp - 9 in
  1 <= m <= 12 /\ (m <=? 2) = (306 <=? y) /\ 1 <= y - (153 * mp + 2) / 5 + 1 <= 31
  /\ (if 2 <? m then m - 3 else m + 9) = mp.
Proof.
  intros H. cbv zeta. destruct ((5 * y + 2) / 153 <? 10) eqn:Q;
    (repeat apply conj; [Z.div_mod_to_equations; lia..| | | |]; try (Z.div_mod_to_equations; lia)).
  all: match goal with |- (if ?b then _ else _) = _ => destruct b eqn:R; Z.div_mod_to_equations; lia | _ => idtac end.
Qed.
Lemma era_day k : 0 <= k < 146097 -> era_ok k = true.
Proof.
  intros H. unfold era_ok, civil. replace (k - 719468 + 719468) with k by lia.
  rewrite (Z.div_small k 146097), (Z.mod_small k 146097) by lia. cbv zeta. change (0 * 400) with 0. rewrite !Z.add_0_r.
  pose proof (era_year k H) as Y. cbv zeta in Y.
  set (q := (k - k / 1460 + k / 36524 - k / 146096) / 365) in *. clearbody q. destruct Y as (Y1 & Y2 & Y3).
  pose proof (era_month (k - (365 * q + q / 4 - q / 100)) Y2) as M. cbv zeta in M.
  set (w := k - (365 * q + q / 4 - q / 100)) in *. set (mp := (5 * w + 2) / 153) in *.
  set (m := if mp <? 10 then mp + 3 else mp - 9) in *. destruct M as (M1 & M2 & M3 & M4).
  unfold days. rewrite M4.
  assert (A : (if m <=? 2 then q + (if m <=? 2 then 1 else 0) - 1 else q + (if m <=? 2 then 1 else 0)) = q) by (destruct (m <=? 2); lia).
  rewrite A. rewrite (Z.div_small q 400), (Z.mod_small q 400) by lia.
  assert (D : 0 * 146097 + (q * 365 + q / 4 - q / 100 + ((153 * mp + 2) / 5 + (w - (153 * mp + 2) / 5 + 1) - 1)) - 719468 = k - 719468) by (unfold w; lia).
  rewrite D, Z.eqb_refl. rewrite M2. clear D A M4. clearbody m mp.
  assert (E : w <= 365) by lia.
  assert (F0 : k <= 305 -> q = 0 /\ w = k) by (unfold w in *; clear - H Y1 Y2; intros; split; Z.div_mod_to_equations; lia).
  repeat (apply andb_true_intro; split); try lia.
  all: destruct (306 <=? w) eqn:Q1; try (destruct (k <=? 305) eqn:Q2; try reflexivity); try (destruct (k <? 146097 - 60) eqn:Q3; try reflexivity); lia.
Qed.
Lemma civil_era day : civil day =
  let '(y, m, d) := civil ((day + 719468) mod 146097 - 719468) in (y + (day + 719468) / 146097 * 400, m, d).
Proof.
  unfold civil. replace ((day + 719468) mod 146097 - 719468 + 719468) with ((day + 719468) mod 146097) by lia.
  pose proof (Z.mod_pos_bound (day + 719468) 146097 ltac:(lia)) as B.
  rewrite (Z.div_small ((day + 719468) mod 146097) 146097) by lia. rewrite (Z.mod_small ((day + 719468) mod 146097) 146097) by lia.
  cbv zeta. f_equal. f_equal. lia.
Qed.
Lemma days_era y m d e : days (y + e * 400) m d = days y m d + e * 146097.
Proof.
  unfold days. cbv zeta.
  assert (A : forall a, (a + e * 400) / 400 = a / 400 + e) by (intros; apply Z.div_add; lia).
  assert (B : forall a, (a + e * 400) mod 400 = a mod 400) by (intros; apply Z.mod_add; lia).
  destruct (m <=? 2); [replace (y + e * 400 - 1) with (y - 1 + e * 400) by lia|]; rewrite A, B; lia.
Qed.
Theorem civil_days day : let '(y, m, d) := civil day in days y m d = day /\ 1 <= m <= 12 /\ 1 <= d <= 31
  /\ (-719468 <= day < 2932897 -> 0 <= y <= 9999).
Proof.
  rewrite civil_era. set (k := (day + 719468) mod 146097). set (e := (day + 719468) / 146097).
  assert (Hk : 0 <= k < 146097) by (apply Z.mod_pos_bound; lia).
  assert (He : day + 719468 = 146097 * e + k) by (apply Z.div_mod; lia).
  pose proof (era_day k Hk) as H. unfold era_ok in H. destruct (civil (k - 719468)) as ((y, m), d).
  rewrite days_era. repeat rewrite andb_true_iff in H. destruct H as ((((((((A & B1) & B2) & C1) & C2) & D1) & D2) & F) & G).
  split; [lia|]. split; [lia|]. split; [lia|]. intros R. split; [nia|].
  destruct (k <? 146097 - 60) eqn:Q; lia.
Qed.

(** ** Every text is read back *)
Lemma digit_val n : undigit (digit n) = Some (n mod 10).
Proof.
  pose proof (Z.mod_pos_bound n 10 ltac:(lia)) as B. unfold digit, undigit.
  assert (Q : n mod 10 = 0 \/ n mod 10 = 1 \/ n mod 10 = 2 \/ n mod 10 = 3 \/ n mod 10 = 4 \/ n mod 10 = 5 \/ n mod 10 = 6 \/ n mod 10 = 7 \/ n mod 10 = 8 \/ n mod 10 = 9) by lia.
  destruct Q as [Q|[Q|[Q|[Q|[Q|[Q|[Q|[Q|[Q|Q]]]]]]]]]; rewrite Q; vm_compute; reflexivity.
Qed.
Lemma undigits_app a b acc : undigits (a ++ b) acc = match undigits a acc with Some x => undigits b x | None => None end.
Proof. revert acc. induction a as [|c a IH]; intros acc; [reflexivity|]. cbn [app undigits]. destruct (undigit c); [apply IH|reflexivity]. Qed.
Lemma digits_val k : forall n acc, 0 <= n < 10 ^ Z.of_nat k -> undigits (digits k n) acc = Some (acc * 10 ^ Z.of_nat k + n).
Proof.
  induction k as [|k IH]; intros n acc H; [cbn in *; f_equal; lia|].
  cbn [digits]. rewrite undigits_app. rewrite Nat2Z.inj_succ, Z.pow_succ_r in * by lia.
  rewrite IH by (split; [apply Z.div_pos; lia|apply Z.div_lt_upper_bound; lia]).
  cbn [undigits]. rewrite digit_val. f_equal. rewrite (Z.div_mod n 10) at 3 by lia. lia.
Qed.
Lemma digits_len k n : List.length (digits k n) = k.
Proof. revert n. induction k as [|k IH]; intros n; [reflexivity|]. cbn [digits]. rewrite app_length, IH. cbn. lia. Qed.
Lemma digit_ascii n : (48 <= b2n (digit n) <= 57)%N.
Proof.
  pose proof (digit_val n) as H. unfold undigit in H. destruct ((48 <=? Z.of_N (b2n (digit n))) && (Z.of_N (b2n (digit n)) <=? 57)) eqn:Q; [lia|discriminate].
Qed.
Lemma digits_ascii k n : Forall (fun c => (b2n c < 128)%N) (digits k n).
Proof.
  revert n. induction k as [|k IH]; intros n; [constructor|]. cbn [digits]. apply Forall_app. split; [apply IH|].
  constructor; [pose proof (digit_ascii n); lia|constructor].
Qed.
(** The instants of the years 0 (from March) to 9999. *)
Definition written_year (t : Z) : Prop := -719468 * 86400 * 1000000000 <= t < 2932897 * 86400 * 1000000000.
Lemma read_text (a b c d e f g : Z) :
  0 <= a < 10 ^ 4 -> 0 <= b < 10 ^ 2 -> 0 <= c < 10 ^ 2 -> 0 <= d < 10 ^ 2 -> 0 <= e < 10 ^ 2 -> 0 <= f < 10 ^ 2 -> 0 <= g < 10 ^ 6 ->
  rfc_read (digits 4 a ++ bstr "-" ++ digits 2 b ++ bstr "-" ++ digits 2 c ++ bstr "T"
    ++ digits 2 d ++ bstr ":" ++ digits 2 e ++ bstr ":" ++ digits 2 f ++ bstr "." ++ digits 6 g ++ bstr "+00:00")
  = let day := days a b c in
    let '(y', m', d') := civil day in
    if (y' =? a) && (m' =? b) && (d' =? c) && (d <? 24) && (e <? 60) && (f <? 60) then
      Some (((day * 86400 + d * 3600 + e * 60 + f) * 1000000 + g) * 1000)
    else None.
Proof.
  intros Ha Hb Hc Hd He Hf Hg.
  pose proof (digits_val 4 a 0 Ha) as Va. pose proof (digits_val 2 b 0 Hb) as Vb. pose proof (digits_val 2 c 0 Hc) as Vc.
  pose proof (digits_val 2 d 0 Hd) as Vd. pose proof (digits_val 2 e 0 He) as Ve. pose proof (digits_val 2 f 0 Hf) as Vf. pose proof (digits_val 6 g 0 Hg) as Vg.
  cbn [Z.mul Z.add] in Va, Vb, Vc, Vd, Ve, Vf, Vg.
  cbn [digits app] in *.
  set (u1 := digit a) in *. set (u2 := digit (a / 10)) in *. set (u3 := digit (a / 10 / 10)) in *. set (u4 := digit (a / 10 / 10 / 10)) in *.
  set (b1 := digit b) in *. set (b2 := digit (b / 10)) in *. set (c1 := digit c) in *. set (c2 := digit (c / 10)) in *.
  set (d1 := digit d) in *. set (d2 := digit (d / 10)) in *. set (e1 := digit e) in *. set (e2 := digit (e / 10)) in *.
  set (f1 := digit f) in *. set (f2 := digit (f / 10)) in *.
  set (g1 := digit g) in *. set (g2 := digit (g / 10)) in *. set (g3 := digit (g / 10 / 10)) in *. set (g4 := digit (g / 10 / 10 / 10)) in *.
  set (g5 := digit (g / 10 / 10 / 10 / 10)) in *. set (g6 := digit (g / 10 / 10 / 10 / 10 / 10)) in *.
  clearbody u1 u2 u3 u4 b1 b2 c1 c2 d1 d2 e1 e2 f1 f2 g1 g2 g3 g4 g5 g6.
  change (bstr "-") with [x2d]. change (bstr "T") with [x54]. change (bstr ":") with [x3a]. change (bstr ".") with [x2e].
  change (bstr "+00:00") with [x2b; x30; x30; x3a; x30; x30]. cbn [app].
  unfold rfc_read. cbn [List.length Nat.eqb negb char_at nth_error number_at firstn skipn].
  change (Byte.eqb x2d x2d) with true. change (Byte.eqb x54 x54) with true. change (Byte.eqb x3a x3a) with true. change (Byte.eqb x2e x2e) with true.
  change (Byte.eqb x2b x2b) with true. change (Byte.eqb x2b x2d) with false. cbn [andb orb negb].
  unfold number_at. cbn [firstn skipn]. rewrite Va, Vb, Vc, Vd, Ve, Vf, Vg.
  change (undigits [x30; x30] 0) with (Some 0). cbv zeta. destruct (civil (days a b c)) as ((y', m'), d').
  change (0 <? 24) with true. change (0 <? 60) with true. rewrite !andb_true_r.
  destruct ((y' =? a) && (m' =? b) && (d' =? c) && (d <? 24) && (e <? 60) && (f <? 60)); [|reflexivity]. f_equal. lia.
Qed.
Theorem rfc_round_trip t : written_year t -> rfc_read (rfc_write t) = Some (t / 1000 * 1000).
Proof.
  intros H. unfold rfc_write. cbv zeta. set (us := t / 1000). set (sec := us / 1000000).
  assert (U : t = 1000 * us + t mod 1000 /\ 0 <= t mod 1000 < 1000) by (split; [apply Z.div_mod; lia|apply Z.mod_pos_bound; lia]).
  assert (S : us = 1000000 * sec + us mod 1000000 /\ 0 <= us mod 1000000 < 1000000) by (split; [apply Z.div_mod; lia|apply Z.mod_pos_bound; lia]).
  assert (D : sec = 86400 * (sec / 86400) + sec mod 86400 /\ 0 <= sec mod 86400 < 86400) by (split; [apply Z.div_mod; lia|apply Z.mod_pos_bound; lia]).
  set (day := sec / 86400) in *. set (s := sec mod 86400) in *. set (u := us mod 1000000) in *. set (r := t mod 1000) in *. clearbody r u s day. unfold written_year in H.
  pose proof (civil_days day) as C. destruct (civil day) as ((y, m), d) eqn:Ec. destruct C as (Cd & Cm & Cdd & Cy).
  assert (Rd : -719468 <= day < 2932897) by lia. specialize (Cy Rd).
  assert (Hh : s = 60 * (s / 60) + s mod 60 /\ 0 <= s mod 60 < 60) by (split; [apply Z.div_mod; lia|apply Z.mod_pos_bound; lia]).
  assert (Hm : s / 60 = 60 * (s / 60 / 60) + s / 60 mod 60 /\ 0 <= s / 60 mod 60 < 60) by (split; [apply Z.div_mod; lia|apply Z.mod_pos_bound; lia]).
  assert (H3 : s / 3600 = s / 60 / 60) by (rewrite Z.div_div by lia; reflexivity).
  assert (Hr : 0 <= s / 3600 < 24) by (split; [apply Z.div_pos; lia|apply Z.div_lt_upper_bound; lia]).
  rewrite read_text by (try (change (10 ^ 4) with 10000); try (change (10 ^ 2) with 100); try (change (10 ^ 6) with 1000000); lia).
  cbv zeta. rewrite Cd, Ec. rewrite !Z.eqb_refl.
  replace (s / 3600 <? 24) with true by lia. replace (s / 60 mod 60 <? 60) with true by lia. replace (s mod 60 <? 60) with true by lia.
  cbn [andb]. f_equal. lia.
Qed.
Theorem rfc_ascii t : Forall (fun c => (b2n c < 128)%N) (rfc_write t).
Proof.
  unfold rfc_write. cbv zeta. destruct (civil _) as ((y, m), d).
  assert (Q : forall c, (b2n c < 128)%N -> Forall (fun c => (b2n c < 128)%N) [c]) by (intros; now repeat constructor).
  rewrite !Forall_app. repeat split; try apply digits_ascii; vm_compute; repeat constructor.
Qed.
