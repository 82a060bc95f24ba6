(** Integer formatting and parsing are inverse. *)
From Coq Require Import ZifyBool ZifyN ZifyNat.
From Verif Require Import Base NumFmt.
Ltac Zify.zify_post_hook ::= Z.div_mod_to_equations.
Local Open Scope N_scope.

Definition radix (r : N) : Prop := 2 <= r <= 16.
Lemma char_digit_any r c : char_digit r c = match char_digit 16 c with Some v => if v <? r then Some v else None | None => None end.
Proof. destruct c; reflexivity. Qed.
Lemma char_of_digit r d : radix r -> d < r -> char_digit r (digit_char d) = Some d.
Proof.
  intros Hr Hd. assert (H : d < 16) by (unfold radix in Hr; lia). rewrite char_digit_any.
  assert (E : d = 0 \/ d = 1 \/ d = 2 \/ d = 3 \/ d = 4 \/ d = 5 \/ d = 6 \/ d = 7 \/ d = 8 \/ d = 9
              \/ d = 10 \/ d = 11 \/ d = 12 \/ d = 13 \/ d = 14 \/ d = 15) by lia.
  assert (E' : char_digit 16 (digit_char d) = Some d) by (repeat (destruct E as [E|E]); subst d; reflexivity).
  rewrite E'. replace (d <? r) with true by lia. reflexivity.
Qed.
Lemma parse_digits_app r a s t : parse_digits r a (s ++ t) =
  match parse_digits r a s with Some b => parse_digits r b t | None => None end.
Proof. revert a. induction s as [|c s IH]; intros a; cbn [parse_digits app]; [reflexivity|]. destruct (char_digit r c); [apply IH|reflexivity]. Qed.
(** the value of a list of digits, least significant first *)
Fixpoint rvalue (r : N) (s : bytes) : option N :=
  match s with
  | [] => Some 0
  | c :: s => match char_digit r c, rvalue r s with Some d, Some v => Some (d + r * v) | _, _ => None end
  end.
Lemma parse_rev r s v : rvalue r s = Some v -> parse_digits r 0 (rev s) = Some v.
Proof.
  revert v. induction s as [|c s IH]; intros v; cbn [rvalue rev]; [cbn; congruence|].
  destruct (char_digit r c) as [d|] eqn:Ed; [|discriminate]. destruct (rvalue r s) as [w|]; [|discriminate].
  intros H. rewrite parse_digits_app, (IH w eq_refl). cbn [parse_digits]. rewrite Ed. rewrite <- H. f_equal. lia.
Qed.
Lemma rev_digits_value r : radix r -> forall fuel n, n < 2 ^ N.of_nat fuel -> rvalue r (rev_digits (S fuel) r n) = Some n.
Proof.
  intros Hr. induction fuel as [|f IH]; intros n Hn.
  - replace n with 0 by (cbn in Hn; lia). cbn [rev_digits]. replace (0 <? r) with true by (unfold radix in Hr; lia).
    cbn [rvalue]. rewrite char_of_digit by (unfold radix in *; lia). f_equal. lia.
  - cbn [rev_digits]. destruct (n <? r) eqn:E.
    + cbn [rvalue]. rewrite char_of_digit by (exact Hr || lia). f_equal. lia.
    + change (rvalue r (digit_char (n mod r) :: rev_digits (S f) r (n / r)) = Some n). cbn [rvalue].
      rewrite char_of_digit by (exact Hr || (apply N.mod_lt; unfold radix in Hr; lia)).
      rewrite IH.
      * f_equal. pose proof (N.div_mod n r ltac:(unfold radix in Hr; lia)). lia.
      * apply N.div_lt_upper_bound; [unfold radix in Hr; lia|].
        assert (E2 : 2 ^ N.of_nat (S f) = 2 * 2 ^ N.of_nat f) by (rewrite Nat2N.inj_succ, N.pow_succ_r'; lia).
        rewrite E2 in Hn. unfold radix in Hr. nia.
Qed.
Lemma size_bound n : n < 2 ^ N.of_nat (N.size_nat n).
Proof.
  destruct n as [|p]; [cbn; lia|]. cbn [N.size_nat].
  induction p as [p IH|p IH|]; cbn [Pos.size_nat]; rewrite ?Nat2N.inj_succ, ?N.pow_succ_r'; try lia. 
Qed.
Lemma fmt_value r n : radix r -> parse_digits r 0 (fmt_radix r n) = Some n.
Proof. intros Hr. unfold fmt_radix. apply parse_rev, rev_digits_value; [exact Hr|apply size_bound]. Qed.
Lemma pad_value r k s : radix r -> parse_digits r 0 (repeat x30 k ++ s) = parse_digits r 0 s.
Proof.
  intros Hr. induction k as [|k IH]; [reflexivity|]. cbn [repeat app parse_digits].
  change x30 with (digit_char 0). rewrite char_of_digit by (unfold radix in *; lia).
  replace (0 * r + 0) with 0 by lia. exact IH.
Qed.
Lemma fmt_ne r n : fmt_radix r n <> [].
Proof.
  unfold fmt_radix. cbn [rev_digits]. destruct (n <? r); cbn [rev]; intros H; [discriminate|]. symmetry in H. now apply app_cons_not_nil in H.
Qed.
Lemma parse_no_plus r v a s : parse_digits r a s = Some v -> radix r -> forall t, s <> "+"%byte :: t.
Proof. intros H Hr t ->. cbn in H. discriminate H. Qed.
Lemma parse_radix_value r max s v : radix r -> s <> [] -> parse_digits r 0 s = Some v -> v <= max -> parse_radix r max s = Ok v.
Proof.
  intros Hr Hs H Hm. unfold parse_radix. destruct s as [|c s]; [congruence|].
  assert (E : (if v <=? max then Ok v else Err EIntegerParse) = Ok v) by (replace (v <=? max) with true by lia; reflexivity).
  destruct c; cbv zeta iota; try (rewrite H; exact E). cbn in H. discriminate H.
Qed.
Theorem fmt_parse r max n : radix r -> n <= max -> parse_radix r max (fmt_radix r n) = Ok n.
Proof. intros Hr Hm. apply parse_radix_value; auto using fmt_ne, fmt_value. Qed.
Lemma rev_digits_len r : radix r -> forall k fuel n, n < r ^ N.of_nat k -> (0 < k)%nat -> (List.length (rev_digits fuel r n) <= k)%nat.
Proof.
  intros Hr. induction k as [|k IH]; intros fuel n Hn Hk; [lia|].
  destruct fuel as [|f]; cbn [rev_digits]; [cbn; lia|]. destruct (n <? r) eqn:E; [cbn; lia|].
  cbn [List.length]. destruct k as [|k].
  - change (N.of_nat 1) with 1 in Hn. rewrite N.pow_1_r in Hn. lia.
  - assert (H : (List.length (rev_digits f r (n / r)) <= S k)%nat); [|lia]. apply IH; [|lia].
    apply N.div_lt_upper_bound; [unfold radix in Hr; lia|]. rewrite Nat2N.inj_succ, N.pow_succ_r' in Hn. lia.
Qed.
Lemma fmt_len r k n : radix r -> n < r ^ N.of_nat k -> (0 < k)%nat -> (List.length (fmt_radix r n) <= k)%nat.
Proof. intros Hr Hn Hk. unfold fmt_radix. rewrite rev_length. now apply rev_digits_len. Qed.
Lemma rev_digits_len_ge r : radix r -> forall k fuel n, (S k <= fuel)%nat -> r ^ N.of_nat k <= n -> (S k <= List.length (rev_digits fuel r n))%nat.
Proof.
  intros Hr. induction k as [|k IH]; intros fuel n Hf Hn; (destruct fuel as [|f]; [lia|]); cbn [rev_digits]; destruct (n <? r) eqn:E; cbn [List.length]; try lia.
  - rewrite Nat2N.inj_succ, N.pow_succ_r' in Hn. pose proof (N.pow_nonzero r (N.of_nat k) ltac:(unfold radix in Hr; lia)). nia.
  - apply le_n_S, IH; [lia|]. apply N.div_le_lower_bound; [unfold radix in Hr; lia|].
    rewrite Nat2N.inj_succ, N.pow_succ_r' in Hn. lia.
Qed.
Lemma rev_digits_chars r : radix r -> forall fuel n c, In c (rev_digits fuel r n) -> exists d, d < r /\ c = digit_char d.
Proof.
  intros Hr. induction fuel as [|f IH]; intros n c; cbn [rev_digits]; [intros []|].
  destruct (n <? r) eqn:E.
  - intros [<-|[]]. exists n. split; [lia|reflexivity].
  - intros [<-|H]; [|now apply IH in H]. exists (n mod r). split; [apply N.mod_lt; unfold radix in Hr; lia|reflexivity].
Qed.
Lemma fmt_chars r n c : radix r -> In c (fmt_radix r n) -> exists d, d < r /\ c = digit_char d.
Proof. intros Hr H. unfold fmt_radix in H. apply in_rev in H. now apply rev_digits_chars in H. Qed.
