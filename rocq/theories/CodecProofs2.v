(** Reading arbitrary strings: exact panic conditions and canonicity. *)
From Verif Require Import Base Base64 Base64Proofs Codes SpecCodec CodecProofs.

Definition cutb (s : bytes) (n : nat) : bool :=
  (n <=? List.length s) && match nth_error s n with Some b => negb (is_continuation b) | None => true end.
Lemma cutb_spec s n : cutb s n = true <-> can_cut s n.
Proof.
  unfold cutb, can_cut. rewrite andb_true_iff, Nat.leb_le. split; intros [H1 H2]; split; auto.
  - intros b Hb. rewrite Hb in H2. now destruct (is_continuation b).
  - destruct (nth_error s n) as [b|]; [rewrite (H2 b eq_refl)|]; reflexivity.
Qed.
Lemma boundary_cut s n : n <> 0 -> n <= List.length s -> is_boundary s n = cutb s n.
Proof.
  intros H0 Hn. unfold is_boundary, cutb. destruct n as [|n]; [congruence|].
  apply Nat.leb_le in Hn. rewrite Hn. apply Nat.leb_le in Hn. cbn [andb].
  destruct (S n =? List.length s) eqn:E.
  - apply Nat.eqb_eq in E. replace (nth_error s (S n)) with (@None byte); [reflexivity|].
    symmetry. apply nth_error_None. lia.
  - apply Nat.eqb_neq in E. destruct (nth_error s (S n)) eqn:En; [reflexivity|].
    apply nth_error_None in En. lia.
Qed.
Lemma str_slice_cut a b s : a <> 0 -> a <= b ->
  str_slice a b s = if cutb s a && cutb s b then Ok (firstn (b - a) (skipn a s)) else Panic.
Proof.
  intros H0 Hab. unfold str_slice.
  destruct (b <=? List.length s) eqn:Eb.
  - apply Nat.leb_le in Eb. apply Nat.leb_le in Hab as Hab'. rewrite Hab'.
    rewrite !boundary_cut by lia. reflexivity.
  - rewrite andb_false_r. cbn [andb]. unfold cutb at 2. rewrite Eb. cbn [andb]. now rewrite andb_false_r.
Qed.
Lemma str_slice_cut0 b s : b <> 0 ->
  str_slice 0 b s = if cutb s b then Ok (firstn b s) else Panic.
Proof.
  intros H0. unfold str_slice. destruct (b <=? List.length s) eqn:Eb.
  - apply Nat.leb_le in Eb. rewrite (boundary_cut s b) by lia. cbn [Nat.leb is_boundary andb skipn].
    rewrite Nat.sub_0_r. reflexivity.
  - rewrite andb_false_r. cbn [andb]. unfold cutb. now rewrite Eb.
Qed.
Lemma str_get1_cut s : s <> [] -> str_get1 s = if cutb s 1 then Some (firstn 1 s) else None.
Proof.
  destruct s as [|c s]; [congruence|intros _]. unfold str_get1.
  rewrite boundary_cut; [reflexivity|lia|cbn; lia].
Qed.

(** in a string, what follows an ASCII byte starts a character *)
Lemma utf8_head s : utf8 s = true -> forall b, nth_error s 0 = Some b -> is_continuation b = false.
Proof.
  destruct s as [|a s]; cbn [nth_error]; [discriminate|]. intros H b Hb. inversion Hb; subst b; clear Hb.
  unfold is_continuation. cbn [utf8] in H.
  destruct (b2n a <? 128)%N eqn:E1; [apply N.ltb_lt in E1; destruct (128 <=? b2n a)%N eqn:E; [apply N.leb_le in E; lia|reflexivity]|].
  destruct (b2n a <? 192)%N eqn:E2; [|now rewrite andb_false_r].
  apply N.ltb_lt in E2.
  replace ((192 <=? b2n a)%N) with false in H by (symmetry; apply N.leb_gt; lia).
  replace ((224 <=? b2n a)%N) with false in H by (symmetry; apply N.leb_gt; lia).
  replace ((240 <=? b2n a)%N) with false in H by (symmetry; apply N.leb_gt; lia).
  cbn in H. discriminate.
Qed.
Lemma utf8_skip_ascii a s : utf8 (a :: s) = true -> (b2n a < 128)%N -> utf8 s = true.
Proof. cbn [utf8]. intros H Ha. apply N.ltb_lt in Ha. now rewrite Ha in H. Qed.
Lemma cut_app p s : ascii p -> utf8 (p ++ s) = true -> cutb (p ++ s) (List.length p) = true.
Proof.
  intros Hp H. assert (Hs : utf8 s = true).
  { revert H. induction Hp as [|a p Ha Hp IH]; cbn [app]; auto. intros H. apply IH.
    eapply utf8_skip_ascii; eauto. }
  unfold cutb. rewrite app_length, nth_error_app2, Nat.sub_diag by lia.
  replace (List.length p <=? List.length p + List.length s) with true by (symmetry; apply Nat.leb_le; lia).
  destruct (nth_error s 0) eqn:E; [|reflexivity]. now rewrite (utf8_head s Hs _ E).
Qed.

Lemma cut_len s : cutb s (List.length s) = true.
Proof.
  unfold cutb. rewrite Nat.leb_refl. cbn [andb].
  replace (nth_error s (List.length s)) with (@None byte); [reflexivity|].
  symmetry. apply nth_error_None. lia.
Qed.

Lemma firstn1 (s : bytes) c r : firstn 1 s = c :: r -> exists t, s = c :: t /\ r = [].
Proof. destruct s; cbn; intros H; inversion H; eauto. Qed.

Lemma decode_no_panic s : decode s <> Panic.
Proof. unfold decode, ok_or. destruct (b64_decode s); discriminate. Qed.

Lemma is_one (c a : byte) : is [c] (String.string_of_list_byte [a]) = if Byte.byte_eq_dec c a then true else false.
Proof.
  unfold is, bstr. rewrite list_byte_of_string_of_list_byte. unfold bytes_eqb.
  destruct (bytes_eq_dec [c] [a]), (Byte.byte_eq_dec c a); congruence.
Qed.
Lemma is_one_true c a : is [c] (String.string_of_list_byte [a]) = true -> c = a.
Proof. rewrite is_one. destruct (Byte.byte_eq_dec c a); congruence. Qed.
Lemma not_starts a c (s : bytes) : c <> a -> ~ starts_with [a] (c :: s).
Proof. intros H [t E]. inversion E. congruence. Qed.
Lemma is_lit c a (s : string) : s = String.string_of_list_byte [a] ->
  is [c] s = if Byte.byte_eq_dec c a then true else false.
Proof. intros ->. apply is_one. Qed.

Ltac ifs := repeat match goal with |- context [if is ?a ?b then _ else _] => destruct (is a b) end.

Lemma basic_code_panic s :
  utf8 s = true -> (basic_code_from s = Panic <-> starts_with (bstr "1") s /\ cutb s 4 = false).
Proof.
  intros Hu. unfold basic_code_from.
  destruct s as [|c s]; [split; [discriminate|intros [[r H] _]; discriminate H]|].
  rewrite str_get1_cut by discriminate. cbn [firstn].
  destruct (Byte.byte_eq_dec c "1"%byte) as [->|Hc].
  - pose proof (cut_app ["1"%byte] s ltac:(code_ascii) Hu) as H1. cbn [app List.length] in H1. rewrite H1.
    cbv beta iota. eval_is. rewrite str_slice_cut by lia. rewrite H1. cbn [andb].
    destruct (cutb ("1"%byte :: s) 4); cbn [obind].
    + split; [|intros [_ H]; discriminate H]. ifs; discriminate.
    + split; [|reflexivity]. intros _. split; [|reflexivity]. exists s. reflexivity.
  - split.
    + destruct (cutb (c :: s) 1); [|discriminate].
      rewrite (is_lit c "1"%byte "1" eq_refl). destruct (Byte.byte_eq_dec c "1"%byte); [congruence|].
      ifs; discriminate.
    + intros [H _]. exfalso. now apply (not_starts "1"%byte c s Hc).
Qed.
Lemma sa_code_panic s :
  utf8 s = true -> (sa_code_from s = Panic <-> starts_with (bstr "0") s /\ cutb s 2 = false).
Proof.
  intros Hu. unfold sa_code_from.
  destruct s as [|c s]; [split; [discriminate|intros [[r H] _]; discriminate H]|].
  rewrite str_get1_cut by discriminate. cbn [firstn].
  destruct (Byte.byte_eq_dec c "0"%byte) as [->|Hc].
  - pose proof (cut_app ["0"%byte] s ltac:(code_ascii) Hu) as H1. cbn [app List.length] in H1. rewrite H1.
    cbv beta iota. eval_is. rewrite str_slice_cut by lia. rewrite H1. cbn [andb].
    destruct (cutb ("0"%byte :: s) 2); cbn [obind].
    + split; [|intros [_ H]; discriminate H]. ifs; discriminate.
    + split; [|reflexivity]. intros _. split; [|reflexivity]. exists s. reflexivity.
  - split.
    + destruct (cutb (c :: s) 1); [|discriminate].
      rewrite (is_lit c "0"%byte "0" eq_refl). destruct (Byte.byte_eq_dec c "0"%byte); [congruence|].
      ifs; discriminate.
    + intros [H _]. exfalso. now apply (not_starts "0"%byte c s Hc).
Qed.
Lemma ss_code_panic s :
  utf8 s = true ->
  (ss_code_from s = Panic <->
   (starts_with (bstr "0") s /\ cutb s 2 = false) \/ (starts_with (bstr "1") s /\ cutb s 4 = false)).
Proof.
  intros Hu. unfold ss_code_from.
  destruct s as [|c s]; [split; [discriminate|intros [[[r H] _]|[[r H] _]]; discriminate H]|].
  rewrite str_get1_cut by discriminate. cbn [firstn].
  destruct (Byte.byte_eq_dec c "0"%byte) as [->|Hc]; [|destruct (Byte.byte_eq_dec c "1"%byte) as [->|Hc']].
  - pose proof (cut_app ["0"%byte] s ltac:(code_ascii) Hu) as H1. cbn [app List.length] in H1. rewrite H1.
    cbv beta iota. eval_is. rewrite str_slice_cut by lia. rewrite H1. cbn [andb].
    destruct (cutb ("0"%byte :: s) 2); cbn [obind].
    + split; [|intros [[_ H]|[[r H] _]]; discriminate H]. ifs; discriminate.
    + split; [|reflexivity]. intros _. left. split; [|reflexivity]. exists s. reflexivity.
  - pose proof (cut_app ["1"%byte] s ltac:(code_ascii) Hu) as H1. cbn [app List.length] in H1. rewrite H1.
    cbv beta iota. eval_is. rewrite str_slice_cut by lia. rewrite H1. cbn [andb].
    destruct (cutb ("1"%byte :: s) 4); cbn [obind].
    + split; [|intros [[[r H] _]|[_ H]]; discriminate H]. ifs; discriminate.
    + split; [|reflexivity]. intros _. right. split; [|reflexivity]. exists s. reflexivity.
  - split.
    + destruct (cutb (c :: s) 1); [|discriminate].
      rewrite (is_lit c "0"%byte "0" eq_refl), (is_lit c "1"%byte "1" eq_refl).
      destruct (Byte.byte_eq_dec c "0"%byte); [congruence|]. destruct (Byte.byte_eq_dec c "1"%byte); [congruence|].
      discriminate.
    + intros [[H _]|[H _]]; exfalso; [now apply (not_starts "0"%byte c s Hc)|now apply (not_starts "1"%byte c s Hc')].
Qed.

(** when a code is read, the text can be cut after it *)
Ltac code_cut_solve :=
  repeat match goal with
  | |- context [if is ?a ?b then _ else _] => destruct (is a b)
  | |- Ok ?x = Ok ?y -> _ => let H := fresh in intros H; injection H as <-; assumption
  | |- Err _ = Ok _ -> _ => discriminate
  | |- Panic = Ok _ -> _ => discriminate
  end.
Lemma basic_code_cut s c : basic_code_from s = Ok c -> cutb s (basic_code_len c) = true.
Proof.
  unfold basic_code_from. destruct s as [|x s]; [discriminate|].
  rewrite str_get1_cut by discriminate. destruct (cutb (x :: s) 1) eqn:E1; [|discriminate].
  rewrite str_slice_cut by lia. rewrite E1. cbn [andb].
  destruct (cutb (x :: s) 4) eqn:E4; cbn [obind]; code_cut_solve.
Qed.
Lemma sa_code_cut s c : sa_code_from s = Ok c -> cutb s (sa_code_len c) = true.
Proof.
  unfold sa_code_from. destruct s as [|x s]; [discriminate|].
  rewrite str_get1_cut by discriminate. destruct (cutb (x :: s) 1) eqn:E1; [|discriminate].
  rewrite str_slice_cut by lia. rewrite E1. cbn [andb].
  destruct (cutb (x :: s) 2) eqn:E4; cbn [obind]; code_cut_solve.
Qed.
Lemma ss_code_cut s c : ss_code_from s = Ok c -> cutb s (ss_code_len c) = true.
Proof.
  unfold ss_code_from. destruct s as [|x s]; [discriminate|].
  rewrite str_get1_cut by discriminate. destruct (cutb (x :: s) 1) eqn:E1; [|discriminate].
  rewrite !str_slice_cut by lia. rewrite E1. cbn [andb].
  destruct (cutb (x :: s) 2) eqn:E2; destruct (cutb (x :: s) 4) eqn:E4; cbn [obind]; code_cut_solve.
Qed.

Lemma tail_no_panic {A} s a b (k : bytes -> A) :
  a <> 0 -> cutb s a = true -> List.length s = a + b ->
  (let? sub := str_slice a (a + b) s in let? d := decode sub in Ok (k d)) <> Panic.
Proof.
  intros H0 Ha Hl. rewrite <- Hl. rewrite str_slice_cut.
  - rewrite Ha, cut_len. cbn [andb obind].
    pose proof (decode_no_panic (firstn (List.length s - a) (skipn a s))) as D.
    destruct (decode _); cbn [obind]; congruence.
  - exact H0.
  - lia.
Qed.

Theorem bp_panic s : utf8 s = true ->
  (bp_from s = Panic <-> starts_with (bstr "1") s /\ ~ can_cut s 4).
Proof.
  intros Hu. rewrite <- (cutb_spec s 4), not_true_iff_false, <- (basic_code_panic s Hu).
  unfold bp_from. destruct (basic_code_from s) as [c|e|] eqn:E; cbn [obind]; try (split; congruence).
  split; [|discriminate].
  destruct (List.length s =? _) eqn:El; [|discriminate]. apply Nat.eqb_eq in El. intros H. exfalso. revert H.
  apply tail_no_panic; [destruct c; discriminate | now apply basic_code_cut | exact El].
Qed.
Theorem sap_panic s : utf8 s = true ->
  (sap_from s = Panic <-> starts_with (bstr "0") s /\ ~ can_cut s 2).
Proof.
  intros Hu. rewrite <- (cutb_spec s 2), not_true_iff_false, <- (sa_code_panic s Hu).
  unfold sap_from. destruct (sa_code_from s) as [c|e|] eqn:E; cbn [obind]; try (split; congruence).
  split; [|discriminate].
  destruct (List.length s =? _) eqn:El; [|discriminate]. apply Nat.eqb_eq in El. intros H. exfalso. revert H.
  apply tail_no_panic; [destruct c; discriminate | now apply sa_code_cut | exact El].
Qed.
Theorem ssp_panic s : utf8 s = true ->
  (ssp_from s = Panic <->
   (starts_with (bstr "0") s /\ ~ can_cut s 2) \/ (starts_with (bstr "1") s /\ ~ can_cut s 4)).
Proof.
  intros Hu. rewrite <- (cutb_spec s 2), <- (cutb_spec s 4), !not_true_iff_false, <- (ss_code_panic s Hu).
  unfold ssp_from. destruct (ss_code_from s) as [c|e|] eqn:E; cbn [obind]; try (split; congruence).
  split; [|discriminate].
  destruct (List.length s =? _) eqn:El; [|discriminate]. apply Nat.eqb_eq in El. intros H. exfalso. revert H.
  apply tail_no_panic; [destruct c; discriminate | now apply ss_code_cut | exact El].
Qed.
Lemma starts_excl a b (s : bytes) : a <> b -> starts_with [a] s -> ~ starts_with [b] s.
Proof. intros H [t ->] [t' E]. inversion E. congruence. Qed.
Lemma bp_ok_not_zero s p : bp_from s = Ok p -> ~ starts_with (bstr "0") s.
Proof.
  intros H [t ->]. revert H. unfold bp_from.
  replace (basic_code_from (bstr "0" ++ t)) with (@Err Basic (if is_boundary ("0"%byte :: t) 1 then EDeserialize "Unknown prefix code" else EDeserialize "Empty prefix")).
  - discriminate.
  - unfold basic_code_from, str_get1, bstr. cbn [list_byte_of_string].
    match goal with |- context [list_byte_of_string ?x] =>
      let v := eval vm_compute in (list_byte_of_string x) in change (list_byte_of_string x) with v end.
    cbn [app]. destruct (is_boundary _ 1); [|reflexivity]. eval_is. reflexivity.
Qed.
Theorem id_panic s : utf8 s = true ->
  (id_from s = Panic <->
   (starts_with (bstr "0") s /\ ~ can_cut s 2) \/ (starts_with (bstr "1") s /\ ~ can_cut s 4)).
Proof.
  intros Hu. unfold id_from.
  pose proof (bp_panic s Hu) as B. pose proof (sap_panic s Hu) as A. pose proof (ssp_panic s Hu) as S.
  destruct (bp_from s) as [p|e|] eqn:Eb.
  - split; [discriminate|]. intros [[H0 H]|H].
    + exfalso. exact (bp_ok_not_zero _ _ Eb H0).
    + apply B in H. discriminate.
  - destruct (sap_from s) as [p|e'|] eqn:Ea.
    + split; [discriminate|]. intros [H|H]; [apply A in H|apply B in H]; discriminate.
    + rewrite <- S. destruct (ssp_from s); cbn [obind]; split; congruence.
    + split; [|reflexivity]. intros _. left. now apply A.
  - split; [|reflexivity]. intros _. right. now apply B.
Qed.

Lemma b64_to_num_no_panic b : b64_to_num b <> Panic.
Proof.
  unfold b64_to_num.
  match goal with |- context [decode ?x] => pose proof (decode_no_panic x); destruct (decode x) end;
    cbn [obind]; try congruence.
  destruct (rev a) as [|x [|y r]]; discriminate.
Qed.
(** a byte that reads as a number is ASCII *)
Lemma b64_to_num_ascii x n : b64_to_num [x] = Ok n -> (b2n x < 128)%N.
Proof.
  unfold b64_to_num. cbn [List.length].
  match goal with |- context [decode ?l] => change l with [x41; x41; x41; x] end.
  unfold decode. cbn [b64_decode].
  destruct (is_pad x) eqn:Ep.
  - apply is_pad_spec in Ep. subst x. reflexivity.
  - unfold dec_group4. destruct (dec6 x) as [v|] eqn:E.
    + intros _. apply dec6_spec in E. destruct E as [Hv <-]. now apply enc6_ascii.
    + change (dec6 x41) with (Some 0%N). discriminate.
Qed.
Lemma slice1 a s : slice a (S a) s = match nth_error s a with Some c => Ok [c] | None => Panic end.
Proof.
  destruct (nth_error s a) as [c|] eqn:E; [now apply slice_byte|].
  apply nth_error_None in E. unfold slice.
  replace (S a <=? List.length s) with false by (symmetry; apply Nat.leb_gt; lia).
  now rewrite andb_false_r.
Qed.

(** The panics of reading an indexed signature. *)
Definition asp_bad (s : bytes) : Prop :=
  ~ can_cut s 1
  \/ ((starts_with (bstr "A") s \/ starts_with (bstr "B") s) /\ List.length s < 2)
  \/ (starts_with (bstr "0") s /\ ~ can_cut s 3)
  \/ (starts_with (bstr "0AA") s /\ List.length s < 4).

Lemma asp_tail_no_panic s c n :
  utf8 s = true -> as_code_from s = Ok (c, n) -> cutb s (as_code_len c) = true.
Proof.
  intros Hu. unfold as_code_from. rewrite str_slice_cut0 by lia.
  destruct (cutb s 1) eqn:E1; cbn [obind]; [|discriminate].
  destruct s as [|a s]; [cbn; discriminate|]. cbn [firstn].
  rewrite (is_lit a "A"%byte "A" eq_refl), (is_lit a "B"%byte "B" eq_refl), (is_lit a "0"%byte "0" eq_refl).
  rewrite !(slice1 1). cbn [nth_error].
  assert (AB : (b2n a < 128)%N -> forall k,
    (let? i := match nth_error s 0 with Some c => Ok [c] | None => Panic end in
     let? n := b64_to_num i in Ok (k, n)) = Ok (c, n) -> as_code_len k = 2 -> cutb (a :: s) (as_code_len c) = true).
  { intros Ha k H Hk. destruct s as [|x s]; [discriminate H|]. cbn [nth_error obind] in H.
    destruct (b64_to_num [x]) as [m| |] eqn:Ex; try discriminate H. cbn [obind] in H. inversion H; subst.
    rewrite Hk. apply (cut_app [a; x] s); [|exact Hu].
    apply Forall_cons; [exact Ha|]. apply Forall_cons; [|apply Forall_nil]. eapply b64_to_num_ascii; eauto. }
  destruct (Byte.byte_eq_dec a "A"%byte) as [->|HA].
  { intros H. eapply AB in H; eauto. reflexivity. }
  destruct (Byte.byte_eq_dec a "B"%byte) as [->|HB].
  { intros H. eapply AB in H; eauto. reflexivity. }
  destruct (Byte.byte_eq_dec a "0"%byte) as [->|H0]; [|discriminate].
  rewrite str_slice_cut by lia. rewrite E1. cbn [andb].
  destruct (cutb ("0"%byte :: s) 3) eqn:E3; cbn [obind]; [|discriminate].
  match goal with |- context [is ?t "AA"] => destruct (is t "AA") eqn:EA end; [|discriminate].
  apply bytes_eqb_eq in EA.
  change 4 with (S 3). rewrite slice1.
  destruct s as [|y [|z [|x s]]]; try discriminate EA; cbn [nth_error obind]; try discriminate.
  cbn in EA. inversion EA; subst y z.
  destruct (b64_to_num [x]) as [m| |] eqn:Ex; try discriminate. cbn [obind]. intros H; inversion H; subst.
  cbn [as_code_len]. apply (cut_app ["0"%byte; "A"%byte; "A"%byte; x] s); [|exact Hu].
  repeat (apply Forall_cons; [vm_compute; reflexivity|]).
  apply Forall_cons; [|apply Forall_nil]. eapply b64_to_num_ascii; eauto.
Qed.

Lemma as_code_panic s : utf8 s = true -> (as_code_from s = Panic <-> asp_bad s).
Proof.
  intros Hu. unfold as_code_from, asp_bad. rewrite str_slice_cut0 by lia.
  rewrite <- (cutb_spec s 1), <- (cutb_spec s 3).
  destruct (cutb s 1) eqn:E1; cbn [obind]; [|split; [left; discriminate|reflexivity]].
  destruct s as [|a s]; [discriminate E1|]. cbn [firstn].
  rewrite (is_lit a "A"%byte "A" eq_refl), (is_lit a "B"%byte "B" eq_refl), (is_lit a "0"%byte "0" eq_refl).
  rewrite !(slice1 1). cbn [nth_error].
  assert (ST : forall b, starts_with (bstr (String.string_of_list_byte [b])) (a :: s) <-> a = b).
  { intros b. unfold bstr. rewrite list_byte_of_string_of_list_byte. split.
    - intros [t H]. now inversion H.
    - intros ->. now exists s. }
  assert (SA := ST "A"%byte). assert (SB := ST "B"%byte). assert (S0 := ST "0"%byte). clear ST.
  change (bstr (String.string_of_list_byte ["A"%byte])) with (bstr "A") in SA.
  change (bstr (String.string_of_list_byte ["B"%byte])) with (bstr "B") in SB.
  change (bstr (String.string_of_list_byte ["0"%byte])) with (bstr "0") in S0.
  assert (S3 : starts_with (bstr "0AA") (a :: s) -> a = "0"%byte) by (intros [t H]; now inversion H).
  assert (AB : forall k : SelfSigning,
    (let? i := match nth_error s 0 with Some c => Ok [c] | None => Panic end in
     let? n := b64_to_num i in Ok (k, n)) = Panic <-> List.length (a :: s) < 2).
  { intros k. destruct s as [|x s]; cbn [nth_error obind].
    - split; [cbn; lia|reflexivity].
    - pose proof (b64_to_num_no_panic [x]). destruct (b64_to_num [x]); cbn [obind]; cbn [List.length];
      split; try congruence; lia. }
  destruct (Byte.byte_eq_dec a "A"%byte) as [HA|HA].
  { rewrite AB. split.
    - intros H. right; left. split; [left; now apply SA|exact H].
    - intros [H|[[_ H]|[[H _]|[H _]]]]; [congruence|exact H|apply S0 in H; congruence|apply S3 in H; congruence]. }
  destruct (Byte.byte_eq_dec a "B"%byte) as [HB|HB].
  { rewrite AB. split.
    - intros H. right; left. split; [right; now apply SB|exact H].
    - intros [H|[[_ H]|[[H _]|[H _]]]]; [congruence|exact H|apply S0 in H; congruence|apply S3 in H; congruence]. }
  destruct (Byte.byte_eq_dec a "0"%byte) as [H0|H0].
  2:{ split; [discriminate|].
    intros [H|[[[H|H] _]|[[H _]|[H _]]]]; [congruence|apply SA in H|apply SB in H|apply S0 in H|apply S3 in H]; congruence. }
  subst a. rewrite str_slice_cut by lia. rewrite E1. cbn [andb].
  destruct (cutb ("0"%byte :: s) 3) eqn:E3; cbn [obind].
  2:{ split; [|reflexivity]. intros _. right; right; left. split; [now apply S0|discriminate]. }
  match goal with |- context [is ?t "AA"] => destruct (is t "AA") eqn:EA end.
  - apply bytes_eqb_eq in EA.
    change 4 with (S 3) at 1. rewrite slice1.
    destruct s as [|y [|z s]]; try discriminate EA. cbn in EA. inversion EA; subst y z. cbn [nth_error].
    destruct s as [|x s]; cbn [obind].
    + split; [|reflexivity]. intros _. right; right; right. split; [now exists []|cbn; lia].
    + pose proof (b64_to_num_no_panic [x]) as NP. split.
      * destruct (b64_to_num [x]); cbn [obind]; congruence.
      * intros [H|[[[H|H] _]|[[_ H]|[_ H]]]]; [congruence|apply SA in H; congruence|apply SB in H; congruence|congruence|].
        cbn [List.length] in H. lia.
  - split; [discriminate|].
    intros [H|[[[H|H] _]|[[_ H]|[H _]]]]; [congruence|apply SA in H; congruence|apply SB in H; congruence|congruence|].
    exfalso. destruct H as [t H]. inversion H; subst s. discriminate EA.
Qed.

Theorem asp_panic s : utf8 s = true -> (asp_from s = Panic <-> asp_bad s).
Proof.
  intros Hu. rewrite <- (as_code_panic s Hu). unfold asp_from.
  destruct (as_code_from s) as [[c n]|e|] eqn:E; cbn [obind]; try (split; congruence).
  split; [|discriminate].
  destruct (List.length s =? _) eqn:El; [|discriminate]. apply Nat.eqb_eq in El. intros H. exfalso. revert H.
  apply tail_no_panic; [destruct c; discriminate | now apply asp_tail_no_panic in E | exact El].
Qed.

(** ** Seeds *)
Lemma seed_tail_no_panic {A} s a (k : bytes -> A) :
  a <> 0 -> cutb s a = true ->
  (let? sub := str_slice a (List.length s) s in let? d := decode sub in Ok (k d)) <> Panic.
Proof.
  intros H0 Ha. rewrite str_slice_cut.
  - rewrite Ha, cut_len. cbn [andb obind].
    pose proof (decode_no_panic (firstn (List.length s - a) (skipn a s))) as D.
    destruct (decode _); cbn [obind]; congruence.
  - exact H0.
  - unfold cutb in Ha. apply andb_prop in Ha. destruct Ha as [Ha _]. now apply Nat.leb_le.
Qed.
Theorem seed_panic s : utf8 s = true ->
  (seed_from s = Panic <-> ~ can_cut s 1 \/ (starts_with (bstr "0") s /\ ~ can_cut s 2)).
Proof.
  intros Hu. rewrite <- (cutb_spec s 1), <- (cutb_spec s 2), !not_true_iff_false.
  unfold seed_from. rewrite str_slice_cut0 by lia.
  destruct (cutb s 1) eqn:E1; cbn [obind]; [|split; auto].
  destruct s as [|a s]; [discriminate E1|].
  cbn [firstn].
  rewrite (is_lit a "0"%byte "0" eq_refl).
  destruct (Byte.byte_eq_dec a "0"%byte) as [->|Ha].
  - eval_is. rewrite (str_slice_cut 1 2) by lia. rewrite E1. cbn [andb].
    destruct (cutb ("0"%byte :: s) 2) eqn:E2; cbn [obind].
    + split; [|intros [H|[_ H]]; discriminate H].
      match goal with |- context [is ?t "A"] => destruct (is t "A") eqn:EA end; [|discriminate].
      intros H. exfalso. revert H. apply seed_tail_no_panic; [lia|exact E2].
    + split; [|reflexivity]. intros _. right. split; [now exists s|reflexivity].
  - split; [|intros [H|[[t H] _]]; [discriminate H|inversion H; congruence]].
    repeat match goal with |- context [if is ?x ?y then _ else _] => destruct (is x y) end;
      try discriminate; intros H; exfalso; revert H; apply seed_tail_no_panic; (lia || exact E1).
Qed.

Theorem seed_round_trip p : seed_bytes p <> [] -> seed_from (seed_str p) = Ok p.
Proof.
  destruct p as [d|d|d|d]; cbn [seed_bytes seed_str]; intros Hd; rewrite prefix_str_ne by exact Hd;
    pose proof (encode_ascii d) as Ht; unfold seed_from, bstr;
    match goal with |- context [list_byte_of_string ?x ++ _] =>
      let v := eval vm_compute in (list_byte_of_string x) in change (list_byte_of_string x) with v end;
    cbn [app];
    (rewrite str_slice_ascii by
      first [ repeat (apply Forall_cons; [vm_compute; reflexivity|]); exact Ht | cbn [List.length]; lia ]);
    cbn [Nat.sub skipn firstn obind]; eval_is;
    repeat (rewrite str_slice_ascii by
      first [ repeat (apply Forall_cons; [vm_compute; reflexivity|]); exact Ht | cbn [List.length]; lia ];
      cbn [skipn Nat.sub List.length obind]; eval_is);
    cbn [firstn]; eval_is;
    try rewrite Nat.sub_0_r, firstn_all; cbn [obind];
    try (rewrite str_slice_ascii by
      first [ repeat (apply Forall_cons; [vm_compute; reflexivity|]); exact Ht | cbn [List.length]; lia ];
      cbn [skipn Nat.sub List.length obind]; rewrite Nat.sub_0_r, firstn_all; cbn [obind]);
    unfold decode; rewrite ?firstn_all; rewrite decode_encode; reflexivity.
Qed.

(** ** Accepted texts *)
Lemma firstn_skipn_all (s : bytes) a n : List.length s = a + n -> firstn (a + n - a) (skipn a s) = skipn a s.
Proof. intros H. apply firstn_all2. rewrite skipn_length. lia. Qed.
Lemma in_skipn {A} (x : A) n l : In x (skipn n l) -> In x l.
Proof. intros H. rewrite <- (firstn_skipn n l). apply in_or_app. now right. Qed.

Lemma is_true_eq t s : is t s = true -> t = bstr s.
Proof. unfold is. apply bytes_eqb_eq. Qed.
Ltac text_solve s :=
  repeat match goal with
  | |- context [if is ?a ?b then _ else _] =>
      let E := fresh "E" in destruct (is a b) eqn:E; [apply is_true_eq in E | clear E]
  | |- Err _ = Ok _ -> _ => discriminate
  | |- Panic = Ok _ -> _ => discriminate
  end;
  let H := fresh in intros H; injection H as <-;
  repeat match goal with
  | H : firstn _ (skipn _ (_ :: ?s)) = _ |- _ =>
      cbn [Nat.sub skipn] in H;
      repeat (destruct s as [|? s]; [discriminate H|]; cbn [firstn] in H);
      cbn in H; inversion H; subst; clear H
  | H : [_] = bstr _ |- _ => inversion H; subst; clear H
  end; try reflexivity.
Lemma basic_code_text s c :
  basic_code_from s = Ok c -> s = basic_code c ++ skipn (basic_code_len c) s.
Proof.
  unfold basic_code_from. destruct s as [|x s]; [discriminate|].
  rewrite str_get1_cut by discriminate. destruct (cutb (x :: s) 1) eqn:E1; [|discriminate].
  rewrite str_slice_cut by lia. cbn [firstn].
  destruct (cutb (x :: s) 1 && cutb (x :: s) 4); cbn [obind]; text_solve s.
  all: repeat match goal with H : firstn _ ?s = _ |- _ => destruct s as [|? ?]; [discriminate H|]; cbn [firstn] in H end.
  all: try match goal with H : _ :: _ = bstr _ |- _ => cbn in H; inversion H; subst; reflexivity end.
Qed.
Lemma sa_code_text s c :
  sa_code_from s = Ok c -> s = sa_code c ++ skipn (sa_code_len c) s.
Proof.
  unfold sa_code_from. destruct s as [|x s]; [discriminate|].
  rewrite str_get1_cut by discriminate. destruct (cutb (x :: s) 1) eqn:E1; [|discriminate].
  rewrite str_slice_cut by lia. cbn [firstn].
  destruct (cutb (x :: s) 1 && cutb (x :: s) 2); cbn [obind]; text_solve s.
Qed.
Lemma ss_code_text s c :
  ss_code_from s = Ok c -> s = ss_code c ++ skipn (ss_code_len c) s.
Proof.
  unfold ss_code_from. destruct s as [|x s]; [discriminate|].
  rewrite str_get1_cut by discriminate. destruct (cutb (x :: s) 1) eqn:E1; [|discriminate].
  rewrite !str_slice_cut by lia. cbn [firstn]. rewrite E1. cbn [andb].
  destruct (cutb (x :: s) 2), (cutb (x :: s) 4); cbn [obind]; text_solve s.
Qed.

Lemma tail_canonical {A} s a n (k : bytes -> A) x :
  a <> 0 -> n <> 0 -> cutb s a = true -> List.length s = a + n -> ~ In x3d s ->
  (let? sub := str_slice a (a + n) s in let? d := decode sub in Ok (k d)) = Ok x ->
  exists d, x = k d /\ d <> [] /\ b64_encode d = skipn a s.
Proof.
  intros H0 Hn Ha Hl Hp. rewrite <- Hl at 1. rewrite str_slice_cut by lia. rewrite Ha, cut_len. cbn [andb obind].
  rewrite Hl, firstn_skipn_all by exact Hl. unfold decode.
  destruct (b64_decode (skipn a s)) as [d|] eqn:E; cbn [ok_or obind]; [|discriminate].
  intros H; injection H as <-. exists d. split; [reflexivity|].
  apply decode_canonical in E.
  - split; [|exact E]. intros ->. cbn in E. assert (List.length (skipn a s) = 0) by now rewrite <- E.
    rewrite skipn_length in H. lia.
  - intros Hin. apply Hp. eapply in_skipn; eauto.
Qed.
Theorem bp_canonical s p : ~ In x3d s -> bp_from s = Ok p -> bp_str p = s.
Proof.
  intros Hp. unfold bp_from. destruct (basic_code_from s) as [c| |] eqn:E; cbn [obind]; try discriminate.
  destruct (List.length s =? _) eqn:El; [|discriminate]. apply Nat.eqb_eq in El. intros H.
  apply tail_canonical in H; auto.
  - destruct H as (d & -> & Hd & He). unfold bp_str. cbn [bp_code bp_key].
    rewrite prefix_str_ne by exact Hd. rewrite He. symmetry. now apply basic_code_text.
  - destruct c; discriminate.
  - destruct c; discriminate.
  - now apply basic_code_cut.
Qed.
Theorem sap_canonical s p : ~ In x3d s -> sap_from s = Ok p -> sap_str p = s.
Proof.
  intros Hp. unfold sap_from. destruct (sa_code_from s) as [c| |] eqn:E; cbn [obind]; try discriminate.
  destruct (List.length s =? _) eqn:El; [|discriminate]. apply Nat.eqb_eq in El. intros H.
  apply tail_canonical in H; auto.
  - destruct H as (d & -> & Hd & He). unfold sap_str. cbn [sap_code sap_digest].
    rewrite prefix_str_ne by exact Hd. rewrite He. symmetry. now apply sa_code_text.
  - destruct c; discriminate.
  - destruct c; discriminate.
  - now apply sa_code_cut.
Qed.
Theorem ssp_canonical s p : ~ In x3d s -> ssp_from s = Ok p -> ssp_str p = s.
Proof.
  intros Hp. unfold ssp_from. destruct (ss_code_from s) as [c| |] eqn:E; cbn [obind]; try discriminate.
  destruct (List.length s =? _) eqn:El; [|discriminate]. apply Nat.eqb_eq in El. intros H.
  apply tail_canonical in H; auto.
  - destruct H as (d & -> & Hd & He). unfold ssp_str. cbn [ssp_code ssp_sig].
    rewrite prefix_str_ne by exact Hd. rewrite He. symmetry. now apply ss_code_text.
  - destruct c; discriminate.
  - destruct c; discriminate.
  - now apply ss_code_cut.
Qed.
Theorem id_canonical s p : ~ In x3d s -> id_from s = Ok p -> id_str p = s.
Proof.
  intros Hp. unfold id_from.
  destruct (bp_from s) as [b| |] eqn:Eb.
  - intros H; injection H as <-. now apply bp_canonical.
  - destruct (sap_from s) as [b| |] eqn:Ea.
    + intros H; injection H as <-. now apply sap_canonical.
    + destruct (ssp_from s) as [b| |] eqn:Es; cbn [obind]; try discriminate.
      intros H; injection H as <-. now apply ssp_canonical.
    + discriminate.
  - discriminate.
Qed.
