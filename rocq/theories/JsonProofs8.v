(** * JsonProofs8: where the strings that a reader gets come from. *)
From Coq Require Import ZifyBool ZifyN ZifyNat.
From Verif Require Import Base Base64 Codes NumFmt Types KeyConf Version Cesr Message Json JsonRead SpecJson StateProofs.

Definition suffix (r s : bytes) : Prop := exists u, s = u ++ r.
Lemma suffix_refl s : suffix s s. Proof. now exists []. Qed.
Lemma suffix_cons c r s : suffix (c :: r) s -> suffix r s.
Proof. intros (u & ->). exists (u ++ [c]). now rewrite <- app_assoc. Qed.
Lemma suffix_tail c (r : bytes) : suffix r (c :: r). Proof. now exists [c]. Qed.
Lemma suffix_trans a b c : suffix a b -> suffix b c -> suffix a c.
Proof. intros (u & ->) (v & ->). exists (v ++ u). now rewrite app_assoc. Qed.
Lemma skip_ws_suffix s : suffix (skip_ws s) s.
Proof. induction s as [|c s IH]; [apply suffix_refl|]. cbn [skip_ws]. destruct (is_ws c); [|apply suffix_refl]. eapply suffix_trans; [exact IH|apply suffix_tail]. Qed.
Lemma skip_digits_suffix s : suffix (skip_digits s) s.
Proof. induction s as [|c s IH]; [apply suffix_refl|]. cbn [skip_digits]. destruct (is_digit c); [|apply suffix_refl]. eapply suffix_trans; [exact IH|apply suffix_tail]. Qed.
Lemma eat_suffix w : forall s r, eat w s = Some r -> suffix r s.
Proof.
  induction w as [|a w IH]; intros s r H; [cbn in H; injection H as <-; apply suffix_refl|]. destruct s as [|b s]; [discriminate|]. cbn [eat] in H.
  destruct (Byte.byte_eq_dec a b); [|discriminate]. eapply suffix_trans; [exact (IH s r H)|apply suffix_tail].
Qed.
Lemma hex_escape_suffix s n r : hex_escape s = Some (n, r) -> suffix r s.
Proof.
  unfold hex_escape. destruct s as [|a [|b [|c [|d s]]]]; try discriminate. destruct (char_digit 16 a), (char_digit 16 b), (char_digit 16 c), (char_digit 16 d); try discriminate.
  intros H. assert (r = s) by congruence. subst. now exists [a; b; c; d].
Qed.
Lemma read_escape_suffix s x r : read_escape s = Some (x, r) -> suffix r s.
Proof.
  unfold read_escape. destruct s as [|c s]; [discriminate|].
  repeat match goal with |- (if ?b then _ else _) = _ -> _ => destruct b; [intros H; assert (r = s) by congruence; subst; apply suffix_tail|] end.
  destruct (c_is c 117); [|discriminate]. destruct (hex_escape s) as [[n r1]|] eqn:E1; [|discriminate]. apply hex_escape_suffix in E1.
  destruct (_ && _)%bool; [discriminate|]. destruct (_ && _)%bool.
  - destruct (eat _ r1) as [r2|] eqn:E2; [|discriminate]. apply eat_suffix in E2. destruct (hex_escape r2) as [[m r3]|] eqn:E3; [|discriminate].
    apply hex_escape_suffix in E3. destruct (_ && _)%bool; [|discriminate]. intros H. assert (r = r3) by congruence. subst.
    eapply suffix_trans; [exact E3|]. eapply suffix_trans; [exact E2|]. eapply suffix_trans; [exact E1|apply suffix_tail].
  - intros H. assert (r = r1) by congruence. subst. eapply suffix_trans; [exact E1|apply suffix_tail].
Qed.
Lemma read_chars_suffix f : forall s x r, read_chars f s = Some (x, r) -> suffix r s.
Proof.
  induction f as [|f IH]; intros s x r; [discriminate|]. destruct s as [|c s]; [discriminate|]. cbn [read_chars].
  destruct (c_is c 34); [intros H; assert (r = s) by congruence; subst; apply suffix_tail|]. destruct (c_is c 92).
  - destruct (read_escape s) as [[y r1]|] eqn:E; [|discriminate]. apply read_escape_suffix in E. destruct (read_chars f r1) as [[z r2]|] eqn:E2; [|discriminate].
    intros H. assert (r = r2) by congruence. subst. eapply suffix_trans; [exact (IH _ _ _ E2)|]. eapply suffix_trans; [exact E|apply suffix_tail].
  - destruct (b2n c <? 32)%N; [discriminate|]. destruct (read_chars f s) as [[z r2]|] eqn:E2; [|discriminate].
    intros H. assert (r = r2) by congruence. subst. eapply suffix_trans; [exact (IH _ _ _ E2)|apply suffix_tail].
Qed.
Lemma read_string_suffix s x r : read_string s = Some (x, r) -> suffix r s.
Proof.
  unfold read_string. destruct (read_chars _ s) as [[y r1]|] eqn:E; [|discriminate]. destruct (valid_utf8 y); [|discriminate].
  intros H. assert (r = r1) by congruence. subst. now apply read_chars_suffix in E.
Qed.
Lemma read_string_utf8 s x r : read_string s = Some (x, r) -> valid_utf8 x = true.
Proof.
  unfold read_string. destruct (read_chars _ s) as [[y r1]|]; [|discriminate]. destruct (valid_utf8 y) eqn:V; [|discriminate].
  intros H. assert (x = y) by congruence. now subst.
Qed.
Lemma some_digits_suffix s r : some_digits s = Some r -> suffix r s.
Proof.
  unfold some_digits. destruct s as [|c s]; [discriminate|]. destruct (is_digit c); [|discriminate]. intros H. injection H as <-.
  eapply suffix_trans; [apply skip_digits_suffix|apply suffix_tail].
Qed.
Lemma read_number_suffix s r : read_number s = Some r -> suffix r s.
Proof.
  unfold read_number. set (s1 := match s with [] => s | c :: r0 => if c_is c 45 then r0 else s end).
  assert (S1 : suffix s1 s). { unfold s1. destruct s as [|c s']; [apply suffix_refl|]. destruct (c_is c 45); [apply suffix_tail|apply suffix_refl]. }
  set (i := match s1 with [] => None | c :: r0 => _ end). assert (S2 : forall x, i = Some x -> suffix x s1).
  { unfold i. destruct s1 as [|c s']; [discriminate|]. destruct (c_is c 48).
    - destruct s' as [|d s'']; [intros x H; injection H as <-; apply suffix_tail|]. destruct (is_digit d); [discriminate|]. intros x H; injection H as <-; apply suffix_tail.
    - intros x H. now apply some_digits_suffix. }
  clearbody i. set (g := match i with Some (c :: r0) => if c_is c 46 then some_digits r0 else Some (c :: r0) | x => x end).
  assert (S3 : forall x, g = Some x -> suffix x s1).
  { unfold g. destruct i as [[|c i']|]; [exact S2| |discriminate]. specialize (S2 _ eq_refl). destruct (c_is c 46).
    - intros x H. apply some_digits_suffix in H. eapply suffix_trans; [exact H|]. eapply suffix_trans; [apply suffix_tail|exact S2].
    - intros x H. injection H as <-. exact S2. }
  clearbody g. destruct g as [[|c g']|]; [| |discriminate].
  - intros H. injection H as <-. eapply suffix_trans; [apply S3; reflexivity|exact S1].
  - specialize (S3 _ eq_refl). destruct (c_is c 101 || c_is c 69).
    + destruct g' as [|d g'']; [discriminate|]. destruct (c_is d 43 || c_is d 45); intros H; apply some_digits_suffix in H.
      * eapply suffix_trans; [exact H|]. eapply suffix_trans; [|exact S1]. eapply suffix_trans; [|exact S3]. now exists [c; d].
      * eapply suffix_trans; [exact H|]. eapply suffix_trans; [|exact S1]. eapply suffix_trans; [|exact S3]. now exists [c].
    + intros H. injection H as <-. eapply suffix_trans; [exact S3|exact S1].
Qed.

(** [P] of every string in a value (names of members aside) *)
Fixpoint jall (P : bytes -> Prop) (v : jval) : Prop :=
  match v with
  | JStr s => P s
  | JArr l => (fix go l := match l with [] => True | v :: l => jall P v /\ go l end) l
  | JObj l => (fix go (l : list (bytes * jval)) := match l with [] => True | kv :: l => jall P (snd kv) /\ go l end) l
  | _ => True
  end.
Lemma jall_arr P l : jall P (JArr l) <-> Forall (jall P) l.
Proof. cbn [jall]. induction l as [|v l IH]; [split; auto|]. rewrite IH. split; [intros [H1 H2]; now constructor|intros H; inversion_clear H; now split]. Qed.
Lemma jall_obj P l : jall P (JObj l) <-> Forall (fun kv => jall P (snd kv)) l.
Proof. cbn [jall]. induction l as [|v l IH]; [split; auto|]. rewrite IH. split; [intros [H1 H2]; now constructor|intros H; inversion_clear H; now split]. Qed.

Section Reads.
  Context (t : bytes) (P : bytes -> Prop).
  (** every literal of the text [t] satisfies [P] *)
  Context (HP : forall w x r, suffix (n2b 34 :: w) t -> read_string w = Some (x, r) -> P x).
  Lemma quote_eq c : c_is c 34 = true -> c = n2b 34.
  Proof. unfold c_is. intros H. apply N.eqb_eq in H. rewrite <- (n2b_b2n c). now rewrite H. Qed.
  Ltac solve_suffix := eauto using suffix_trans, suffix_cons, suffix_tail, skip_ws_suffix.
  Lemma reads_from f :
    (forall d s v r, suffix s t -> read_value f d s = Some (v, r) -> suffix r t /\ jall P v)
    /\ (forall d b s l r, suffix s t -> read_elems f d b s = Some (l, r) -> suffix r t /\ Forall (jall P) l)
    /\ (forall d b s l r, suffix s t -> read_members f d b s = Some (l, r) -> suffix r t /\ Forall (fun kv => jall P (snd kv)) l).
  Proof.
    induction f as [|f (IV & IE & IM)]; [split; [|split]; discriminate|]. split; [|split].
    - intros d s v r Hs. cbn [read_value]. pose proof (suffix_trans _ _ _ (skip_ws_suffix s) Hs) as Hw. destruct (skip_ws s) as [|c s1]; [discriminate|].
      pose proof (suffix_cons _ _ _ Hw) as Hw1.
      destruct (c_is c 34) eqn:Q.
      { apply quote_eq in Q. subst c. destruct (read_string s1) as [[x r1]|] eqn:E; [|discriminate]. intros H. assert (v = JStr x /\ r = r1) as [-> ->] by (split; congruence).
        split; [|exact (HP _ _ _ Hw E)]. apply read_string_suffix in E. eapply suffix_trans; [exact E|exact Hw1]. }
      destruct (c_is c 91).
      { destruct d as [|[|d]]; try discriminate. destruct (read_elems f (S d) true s1) as [[l r1]|] eqn:E; [|discriminate].
        intros H. assert (v = JArr l /\ r = r1) as [-> ->] by (split; congruence). destruct (IE _ _ _ _ _ Hw1 E). split; [assumption|now apply jall_arr]. }
      destruct (c_is c 123).
      { destruct d as [|[|d]]; try discriminate. destruct (read_members f (S d) true s1) as [[l r1]|] eqn:E; [|discriminate].
        intros H. assert (v = JObj l /\ r = r1) as [-> ->] by (split; congruence). destruct (IM _ _ _ _ _ Hw1 E). split; [assumption|now apply jall_obj]. }
      destruct (c_is c 110); [destruct (eat _ s1) as [r1|] eqn:E; [|discriminate]; intros H; assert (v = JNull /\ r = r1) as [-> ->] by (split; congruence);
        split; [eapply suffix_trans; [exact (eat_suffix _ _ _ E)|exact Hw1]|exact I]|].
      destruct (c_is c 116); [destruct (eat _ s1) as [r1|] eqn:E; [|discriminate]; intros H; assert (v = JBool true /\ r = r1) as [-> ->] by (split; congruence);
        split; [eapply suffix_trans; [exact (eat_suffix _ _ _ E)|exact Hw1]|exact I]|].
      destruct (c_is c 102); [destruct (eat _ s1) as [r1|] eqn:E; [|discriminate]; intros H; assert (v = JBool false /\ r = r1) as [-> ->] by (split; congruence);
        split; [eapply suffix_trans; [exact (eat_suffix _ _ _ E)|exact Hw1]|exact I]|].
      destruct (is_digit c || c_is c 45); [|discriminate]. destruct (read_number (c :: s1)) as [r1|] eqn:E; [|discriminate].
      intros H; assert (v = JNum /\ r = r1) as [-> ->] by (split; congruence). split; [|exact I]. eapply suffix_trans; [exact (read_number_suffix _ _ E)|exact Hw].
    - intros d b s l r Hs. cbn [read_elems]. pose proof (suffix_trans _ _ _ (skip_ws_suffix s) Hs) as Hw. destruct (skip_ws s) as [|c s1]; [discriminate|].
      pose proof (suffix_cons _ _ _ Hw) as Hw1.
      destruct (c_is c 93); [intros H; assert (l = [] /\ r = s1) as [-> ->] by (split; congruence); now split|].
      set (next := if b then Some (c :: s1) else if c_is c 44 then Some (skip_ws s1) else None).
      assert (Hn : forall x, next = Some x -> suffix x t).
      { unfold next. destruct b; [intros x H; injection H as <-; exact Hw|]. destruct (c_is c 44); [|discriminate]. intros x H. injection H as <-.
        eapply suffix_trans; [apply skip_ws_suffix|exact Hw1]. }
      clearbody next. destruct next as [[|d0 t0]|]; try discriminate. specialize (Hn _ eq_refl). destruct (negb b && c_is d0 93)%bool; [discriminate|].
      destruct (read_value f d (d0 :: t0)) as [[v r1]|] eqn:E1; [|discriminate]. destruct (IV _ _ _ _ Hn E1) as [S1 V1].
      destruct (read_elems f d false r1) as [[l1 r2]|] eqn:E2; [|discriminate]. destruct (IE _ _ _ _ _ S1 E2) as [S2 V2].
      intros H. assert (l = v :: l1 /\ r = r2) as [-> ->] by (split; congruence). split; [assumption|now constructor].
    - intros d b s l r Hs. cbn [read_members]. pose proof (suffix_trans _ _ _ (skip_ws_suffix s) Hs) as Hw. destruct (skip_ws s) as [|c s1]; [discriminate|].
      pose proof (suffix_cons _ _ _ Hw) as Hw1.
      destruct (c_is c 125); [intros H; assert (l = [] /\ r = s1) as [-> ->] by (split; congruence); now split|].
      set (next := if b then Some (c :: s1) else if c_is c 44 then Some (skip_ws s1) else None).
      assert (Hn : forall x, next = Some x -> suffix x t).
      { unfold next. destruct b; [intros x H; injection H as <-; exact Hw|]. destruct (c_is c 44); [|discriminate]. intros x H. injection H as <-.
        eapply suffix_trans; [apply skip_ws_suffix|exact Hw1]. }
      clearbody next. destruct next as [[|q t0]|]; try discriminate. specialize (Hn _ eq_refl). destruct (c_is q 34); [|discriminate].
      destruct (read_string t0) as [[k r1]|] eqn:Ek; [|discriminate]. apply read_string_suffix in Ek.
      assert (S1 : suffix r1 t) by (eapply suffix_trans; [exact Ek|]; exact (suffix_cons _ _ _ Hn)).
      pose proof (suffix_trans _ _ _ (skip_ws_suffix r1) S1) as S2. destruct (skip_ws r1) as [|e r2]; [discriminate|]. apply suffix_cons in S2.
      destruct (c_is e 58); [|discriminate]. destruct (read_value f d r2) as [[v r3]|] eqn:E3; [|discriminate]. destruct (IV _ _ _ _ S2 E3) as [S3 V3].
      destruct (read_members f d false r3) as [[l1 r4]|] eqn:E4; [|discriminate]. destruct (IM _ _ _ _ _ S3 E4) as [S4 V4].
      intros H. assert (l = (k, v) :: l1 /\ r = r4) as [-> ->] by (split; congruence). split; [assumption|now constructor].
  Qed.

  (** the top level: kept members, and where a version string was read *)
  Definition version_at (x : bytes) : Prop :=
    exists w r1 r2 r3 r, suffix (n2b 34 :: w) t /\ read_string w = Some (bstr "v", r1) /\ skip_ws r1 = n2b 58 :: r2
      /\ skip_ws r2 = n2b 34 :: r3 /\ read_string r3 = Some (x, r).
  Lemma char_eq c n : (n < 256)%N -> c_is c n = true -> c = n2b n.
  Proof. unfold c_is. intros Hn H. apply N.eqb_eq in H. rewrite <- (n2b_b2n c). now rewrite H. Qed.
  Lemma is_eq s k : is s k = true -> s = bstr k.
  Proof. unfold is. intros H. now apply bytes_eqb_eq in H. Qed.
  Lemma top_from f : forall d b ov s, suffix s t ->
    match read_top f d b ov s with
    | Ok (ov', l, r) => suffix r t /\ Forall (fun kv => jall P (snd kv)) l
        /\ (ov' = ov \/ exists x v, ov' = Some v /\ version_at x /\ si_from x = Ok v)
    | Err _ => True
    | Panic => exists x, version_at x /\ si_from x = Panic
    end.
  Proof.
    induction f as [|f IH]; intros d b ov s Hs; [exact I|]. cbn [read_top].
    pose proof (suffix_trans _ _ _ (skip_ws_suffix s) Hs) as Hw. destruct (skip_ws s) as [|c s1]; [exact I|].
    pose proof (suffix_cons _ _ _ Hw) as Hw1. destruct (c_is c 125); [split; [assumption|]; split; [constructor|now left]|].
    set (next := if b then Some (c :: s1) else if c_is c 44 then Some (skip_ws s1) else None).
    assert (Hn : forall x, next = Some x -> suffix x t).
    { unfold next. destruct b; [intros x H; injection H as <-; exact Hw|]. destruct (c_is c 44); [|discriminate]. intros x H. injection H as <-.
      eapply suffix_trans; [apply skip_ws_suffix|exact Hw1]. }
    clearbody next. destruct next as [[|q t0]|]; try exact I. specialize (Hn _ eq_refl). destruct (c_is q 34) eqn:Eq; [|exact I]. apply quote_eq in Eq. subst q.
    destruct (read_string t0) as [[k r1]|] eqn:Ek; [|exact I]. pose proof (read_string_suffix _ _ _ Ek) as Ek'.
    assert (S1 : suffix r1 t) by (eapply suffix_trans; [exact Ek'|]; exact (suffix_cons _ _ _ Hn)).
    destruct (is k "v" && _)%bool; [exact I|].
    pose proof (suffix_trans _ _ _ (skip_ws_suffix r1) S1) as S2. destruct (skip_ws r1) as [|e r2] eqn:E2; [exact I|]. apply suffix_cons in S2.
    destruct (c_is e 58) eqn:Ee; [|exact I]. apply char_eq in Ee; [|reflexivity]. subst e.
    destruct (is k "v") eqn:Kv.
    - apply is_eq in Kv. subst k. pose proof (suffix_trans _ _ _ (skip_ws_suffix r2) S2) as S3. destruct (skip_ws r2) as [|q r3] eqn:E3; [exact I|].
      destruct (c_is q 34) eqn:Eq; [|exact I]. apply quote_eq in Eq. subst q. destruct (read_string r3) as [[x r4]|] eqn:E4; [|exact I].
      assert (V : version_at x) by (exists t0, r1, r2, r3, r4; now repeat split).
      apply suffix_cons in S3. pose proof (suffix_trans _ _ _ (read_string_suffix _ _ _ E4) S3) as S4.
      destruct (si_from x) as [v|er|] eqn:Ev; cbn [custom obind]; [|exact I|now exists x].
      specialize (IH d false (Some v) r4 S4). destruct (read_top f d false (Some v) r4) as [[[ov' l] r]|er|]; [|exact I|exact IH].
      destruct IH as (A & B & C). split; [assumption|]. split; [assumption|]. right. destruct C as [->|C]; [exists x, v; auto|exact C].
    - destruct (read_value f d r2) as [[v r3]|] eqn:E3; [|exact I]. destruct (proj1 (reads_from f) _ _ _ _ S2 E3) as [S3 V3].
      specialize (IH d false ov r3 S3). destruct (read_top f d false ov r3) as [[[ov' l] r]|er|]; cbn [obind]; [|exact I|exact IH].
      destruct IH as (A & B & C). split; [assumption|]. split; [now constructor|exact C].
  Qed.
End Reads.
