(** * ArithProofs: machine arithmetic of thresholds against exact weights. *)
From Coq Require Import QArith Lqa ZifyBool ZifyN ZifyNat.
From Verif Require Import Base Base64 Codes NumFmt Types KeyConf SpecSig State Db Processor Spec
  StateProofs LogProofs LogTheorems SigProofs SpecArith Arith.
Local Open Scope nat_scope.

Lemma pos_of d : d <> 0%N -> Z.pos (N.succ_pos (N.pred d)) = Z.of_N d.
Proof.
  intros H. rewrite <- (N.succ_pred d H) at 2. change (Z.pos (N.succ_pos (N.pred d))) with (Z.of_N (N.pos (N.succ_pos (N.pred d)))). now rewrite N.succ_pos_spec.
Qed.
Lemma ratio_new_spec n d r : ratio_new n d = Ok r -> exists n' d', r = FRat n' d' /\ d' <> 0%N /\ (n' * d = n * d')%N /\ N.divide d' d.
Proof.
  unfold ratio_new. destruct (N.eqb_spec d 0) as [|Hd]; [discriminate|]. destruct (N.eqb_spec n 0) as [->|Hn].
  - intros [= <-]. exists 0%N, 1%N. split; [reflexivity|]. split; [lia|]. split; [lia|]. apply N.divide_1_l.
  - intros [= <-]. pose proof (N.gcd_divide_l n d) as [a Ha]. pose proof (N.gcd_divide_r n d) as [b Hb].
    assert (Hg : N.gcd n d <> 0%N) by (intros Hg; apply N.gcd_eq_0_r in Hg; contradiction). set (g := N.gcd n d) in *.
    exists (n / g)%N, (d / g)%N. split; [reflexivity|]. rewrite Ha, Hb, !N.div_mul by assumption. split; [|split; [|]].
    + intros ->. lia.
    + lia.
    + exists g. lia.
Qed.
Lemma ratio_new_ok n d : d <> 0%N -> exists r, ratio_new n d = Ok r.
Proof. unfold ratio_new. intros H. destruct (N.eqb_spec d 0); [contradiction|]. destruct (n =? 0)%N; eauto. Qed.
Lemma machine_le m max n k : machine m max n = Ok k -> (k <= n)%N.
Proof.
  unfold machine. destruct (n <=? max)%N; [intros [= <-]; lia|]. destruct m; [discriminate|]. intros [= <-]. apply N.mod_le. lia.
Qed.
Lemma machine_ok m max n : (n <= max)%N -> machine m max n = Ok n.
Proof. intros H. unfold machine. now rewrite (proj2 (N.leb_le n max) H). Qed.
Lemma weight_le s l n1 d1 n2 d2 : l <> 0%N -> d1 <> 0%N -> d2 <> 0%N -> (s * (d1 * d2) <= (n1 * d2 + n2 * d1) * l)%N ->
  (weight (FRat s l) <= weight (FRat n1 d1) + weight (FRat n2 d2))%Q.
Proof.
  intros Hl H1 H2 H. unfold Qle, Qplus. cbn [weight Qnum Qden]. rewrite !Pos2Z.inj_mul, !pos_of by assumption.
  rewrite <- !N2Z.inj_mul, <- N2Z.inj_add, <- N2Z.inj_mul. apply N2Z.inj_le in H. lia.
Qed.
Lemma weight_same n d n' d' : d <> 0%N -> d' <> 0%N -> (n' * d = n * d')%N -> (weight (FRat n' d') == weight (FRat n d))%Q.
Proof.
  intros H1 H2 H. unfold Qeq. cbn [weight Qnum Qden]. rewrite !pos_of by assumption. rewrite <- !N2Z.inj_mul. now rewrite H.
Qed.
Lemma obind_ok2 {A B} (x : out A) (f : A -> out B) b : obind x f = Ok b -> exists a, x = Ok a /\ f a = Ok b.
Proof. destruct x; cbn [obind]; [eauto|discriminate|discriminate]. Qed.
(** wrapping only makes sums smaller *)
Lemma add_sound m a b r : rational a -> rational b -> frac_add64 m a b = Ok r -> rational r /\ (weight r <= weight a + weight b)%Q.
Proof.
  destruct a as [| |n1 d1], b as [| |n2 d2]; cbn [rational]; try contradiction. intros H1 H2. cbn [frac_add64]. unfold ratio_add.
  destruct (N.eqb_spec d1 d2) as [->|Hd].
  - intros H. apply obind_ok2 in H as (n & Hn & H). apply machine_le in Hn. apply ratio_new_spec in H as (n' & d' & -> & Hd' & Hv & _).
    split; [exact Hd'|]. rewrite (weight_same n d2 n' d' H2 Hd' Hv). apply weight_le; [assumption|assumption|assumption|]. nia.
  - intros H. apply obind_ok2 in H as (l & _ & H). apply obind_ok2 in H as (x & Hx & H). apply obind_ok2 in H as (y & Hy & H). apply obind_ok2 in H as (s & Hs & H).
    apply machine_le in Hx. apply machine_le in Hy. apply machine_le in Hs.
    assert (Hl : l <> 0%N) by (intros ->; discriminate H).
    apply ratio_new_spec in H as (n' & d' & -> & Hd' & Hv & _). split; [exact Hd'|]. rewrite (weight_same s l n' d' Hl Hd' Hv).
    apply weight_le; [assumption|assumption|assumption|].
    pose proof (N.mul_div_le l d1 H1) as L1. pose proof (N.mul_div_le l d2 H2) as L2.
    set (q1 := (l / d1)%N) in *. set (q2 := (l / d2)%N) in *. clearbody q1 q2.
    assert (A : (x * d1 <= n1 * l)%N) by (transitivity (n1 * q1 * d1)%N; [now apply N.mul_le_mono_r|rewrite <- N.mul_assoc, (N.mul_comm q1); now apply N.mul_le_mono_l]).
    assert (B : (y * d2 <= n2 * l)%N) by (transitivity (n2 * q2 * d2)%N; [now apply N.mul_le_mono_r|rewrite <- N.mul_assoc, (N.mul_comm q2); now apply N.mul_le_mono_l]).
    apply (N.mul_le_mono_r _ _ d2) in A. apply (N.mul_le_mono_r _ _ d1) in B.
    transitivity ((x + y) * (d1 * d2))%N; [now apply N.mul_le_mono_r|]. rewrite !N.mul_add_distr_r.
    replace (x * (d1 * d2))%N with (x * d1 * d2)%N by lia. replace (y * (d1 * d2))%N with (y * d2 * d1)%N by lia.
    replace (n1 * d2 * l)%N with (n1 * l * d2)%N by lia. replace (n2 * d1 * l)%N with (n2 * l * d1)%N by lia. lia.
Qed.
Definition sum_step64 (m : build) (c : ThresholdClause) (start : N) :=
  fun (acc : out frac) (sig : AttachedSignaturePrefix) =>
    let? a := acc in
    if (asp_index sig <? start)%N then Panic
    else match nth_error c (N.to_nat (asp_index sig - start)) with
         | Some w => frac_add64 m a w
         | None => Panic
         end.
Lemma step_stuck m c start sigs x : (forall a, x <> Ok a) -> fold_left (sum_step64 m c start) sigs x = x.
Proof. intros H. induction sigs as [|s sigs IH]; [reflexivity|]. cbn [fold_left]. unfold sum_step64 at 2. destruct x as [a| |]; [now destruct (H a)|exact IH|exact IH]. Qed.
Lemma sum_sound m c start sigs : Forall rational c -> forall a r, rational a -> fold_left (sum_step64 m c start) sigs (Ok a) = Ok r ->
  Forall (in_clause (N.to_nat start) c) sigs /\ rational r /\ (weight r <= weight a + total_weight (N.to_nat start) c sigs)%Q.
Proof.
  intros Hc. induction sigs as [|s sigs IH]; intros a r Ha H.
  - cbn [fold_left] in H. injection H as <-. split; [constructor|]. split; [exact Ha|]. cbn. lra.
  - cbn [fold_left] in H. unfold sum_step64 at 2 in H. cbn [obind] in H.
    destruct (N.ltb_spec (asp_index s) start) as [Hlt|Hge]; [rewrite step_stuck in H by discriminate; discriminate H|].
    replace (N.to_nat (asp_index s - start)) with (N.to_nat (asp_index s) - N.to_nat start) in H by lia.
    destruct (nth_error c (N.to_nat (asp_index s) - N.to_nat start)) as [w|] eqn:Hw; [|rewrite step_stuck in H by discriminate; discriminate H].
    assert (Hwr : rational w) by (rewrite Forall_forall in Hc; apply Hc; eapply nth_error_In; eauto).
    destruct (frac_add64 m a w) as [a'|e|] eqn:E; [|rewrite step_stuck in H by discriminate; discriminate H|rewrite step_stuck in H by discriminate; discriminate H].
    destruct (add_sound m a w a' Ha Hwr E) as [R1 R2]. destruct (IH a' r R1 H) as (I1 & I2 & I3).
    split; [constructor; [|exact I1]|split; [exact I2|]].
    + unfold in_clause, index_of. assert (N.to_nat (asp_index s) - N.to_nat start < List.length c) by (apply nth_error_Some; congruence). lia.
    + assert (Hkw : key_weight (N.to_nat start) c (index_of s) = weight w).
      { unfold key_weight, index_of. destruct (Nat.leb_spec (N.to_nat start) (N.to_nat (asp_index s))); [|lia]. now rewrite Hw. }
      unfold total_weight in *. cbn [map fold_right]. rewrite Hkw. lra.
Qed.
Lemma clause_sound m c start sigs : Forall rational c -> clause_enough64 m c start sigs = Ok true ->
  Forall (in_clause (N.to_nat start) c) sigs /\ (1 <= total_weight (N.to_nat start) c sigs)%Q.
Proof.
  intros Hc H. unfold clause_enough64 in H. fold (sum_step64 m c start) in H. apply obind_ok2 in H as (r & Hr & H).
  destruct (sum_sound m c start sigs Hc frac_zero r ltac:(cbn; discriminate) Hr) as (I1 & I2 & I3). split; [exact I1|].
  assert (G : frac_ge1 r = true) by congruence. apply frac_ge1_weight in G; [|exact I2].
  assert (Z : (weight frac_zero == 0)%Q) by reflexivity. rewrite Z in I3. lra.
Qed.
(** ** Several clauses, all within [u16] *)
Lemma in_range_eq start len : in_range64 start (start + len) = in_range start len.
Proof. reflexivity. Qed.
Lemma multi_sound m sigs cs : Forall (Forall rational) cs -> forall start n, List.length (List.concat cs) + N.to_nat start <= N.to_nat u16_max ->
  fold_left (multi_step64 m sigs) cs (Ok (start, true)) = Ok (n, true) ->
  Forall (fun sc => (1 <= total_weight (fst sc) (snd sc) sigs)%Q) (with_starts (N.to_nat start) cs).
Proof.
  intros Hcs. induction Hcs as [|c cs Hc Hcs IH]; intros start n Hl H; [constructor|].
  cbn [List.concat] in Hl. rewrite app_length in Hl. cbn [fold_left with_starts] in *. unfold multi_step64 at 2 in H. cbn [obind] in H.
  change (N.to_nat u16_max) with (N.to_nat 65535) in Hl. change u16_max with 65535%N in H.
  rewrite N.mod_small in H by lia. rewrite machine_ok in H by lia. cbn [obind] in H. rewrite in_range_eq in H.
  destruct (clause_enough64 m c start (filter (in_range start (N.of_nat (List.length c))) sigs)) as [b|e|] eqn:E; cbn [obind] in H.
  - destruct b.
    + apply clause_sound in E as [_ E]; [|exact Hc]. rewrite total_weight_filter in E. constructor; [exact E|].
      replace (N.to_nat start + List.length c) with (N.to_nat (start + N.of_nat (List.length c))) by lia. apply (IH _ n); [|exact H].
      change (N.to_nat u16_max) with (N.to_nat 65535). lia.
    + exfalso. assert (G : forall cs x, fold_left (multi_step64 m sigs) cs x = Ok (n, true) -> (exists k, x = Ok (k, false)) \/ (forall a, x <> Ok a) -> False).
      { clear. induction cs as [|c cs IH]; intros x H [(k & ->)|Hx]; cbn [fold_left] in H.
        - discriminate H. - now apply Hx in H.
        - unfold multi_step64 at 2 in H. cbn [obind] in H. destruct (machine m u16_max _) as [stop|e|]; cbn [obind] in H; apply IH in H; auto; [left; now exists stop|right; discriminate|right; discriminate].
        - unfold multi_step64 at 2 in H. destruct x as [a|e|]; [now destruct (Hx a)| |]; cbn [obind] in H; apply IH in H; auto; right; discriminate. }
      apply (G _ _ H). left. eauto.
  - exfalso. assert (G : forall cs x, (forall a, x <> Ok a) -> fold_left (multi_step64 m sigs) cs x = x).
    { clear. intros cs x Hx. induction cs as [|c cs IH]; [reflexivity|]. cbn [fold_left]. unfold multi_step64 at 2. destruct x as [a|e|]; [now destruct (Hx a)|exact IH|exact IH]. }
    rewrite G in H by discriminate. discriminate H.
  - exfalso. assert (G : forall cs x, (forall a, x <> Ok a) -> fold_left (multi_step64 m sigs) cs x = x).
    { clear. intros cs x Hx. induction cs as [|c cs IH]; [reflexivity|]. cbn [fold_left]. unfold multi_step64 at 2. destruct x as [a|e|]; [now destruct (Hx a)|exact IH|exact IH]. }
    rewrite G in H by discriminate. discriminate H.
Qed.
(** ** Sums that fit *)
Definition frac_over (D : N) (f : frac) : Prop := match f with FRat _ d => N.divide d D | _ => False end.
Definition over (D : N) (f : frac) : N := match f with FRat n d => (n * (D / d))%N | _ => 0%N end.
Lemma over_rational D f : D <> 0%N -> frac_over D f -> rational f.
Proof. intros HD. destruct f as [| |n d]; cbn; try tauto. intros [k Hk] ->. lia. Qed.
Lemma over_weight D f : D <> 0%N -> frac_over D f -> (weight f * inject_Z (Z.of_N D) == inject_Z (Z.of_N (over D f)))%Q.
Proof.
  intros HD. destruct f as [| |n d]; cbn [frac_over over]; try tauto. intros [k Hk]. assert (Hd : d <> 0%N) by (intros ->; lia).
  subst D. rewrite N.div_mul by assumption. unfold Qeq, Qmult, inject_Z. cbn [weight Qnum Qden]. rewrite Pos.mul_1_r, pos_of by assumption. rewrite !N2Z.inj_mul. ring.
Qed.
Lemma over_new D s l r : D <> 0%N -> N.divide l D -> ratio_new s l = Ok r -> frac_over D r /\ over D r = (s * (D / l))%N.
Proof.
  intros HD [k Hk] H. assert (Hl : l <> 0%N) by (intros ->; lia). apply ratio_new_spec in H as (n & d & -> & Hd & Hv & [j Hj]). cbn [frac_over over]. subst D.
  rewrite N.div_mul by assumption. subst l. split; [exists (k * j)%N; lia|]. rewrite N.mul_assoc, N.div_mul by assumption.
  assert ((n * j) = s)%N by nia. nia.
Qed.
Lemma add_fits m D a b : (0 < D <= u64_max)%N -> frac_over D a -> frac_over D b -> (over D a + over D b <= u64_max)%N ->
  exists r, frac_add64 m a b = Ok r /\ frac_over D r /\ over D r = (over D a + over D b)%N.
Proof.
  intros HD. destruct a as [| |n1 d1], b as [| |n2 d2]; cbn [frac_over over]; try tauto. intros H1 H2 Hs. cbn [frac_add64]. unfold ratio_add, add64, mul64.
  assert (HD0 : D <> 0%N) by lia.
  destruct (N.eqb_spec d1 d2) as [->|Hd].
  - destruct H2 as [k Hk]. assert (Hd2 : d2 <> 0%N) by (intros ->; lia). rewrite Hk, N.div_mul in Hs by assumption. assert (Hk0 : k <> 0%N) by (intros ->; lia). rewrite machine_ok by nia. cbn [obind].
    destruct (ratio_new_ok (n1 + n2) d2 Hd2) as [r Hr]. exists r. split; [exact Hr|]. destruct (over_new D _ _ _ HD0 (ex_intro _ k Hk) Hr) as [R1 R2]. split; [exact R1|].
    rewrite R2. rewrite N.mul_add_distr_r. reflexivity.
  - assert (L : (d1 * (d2 / N.gcd d1 d2))%N = N.lcm d1 d2) by reflexivity. rewrite L. pose proof (N.lcm_least d1 d2 D H1 H2) as [k Hk].
    pose proof (N.divide_lcm_l d1 d2) as [e1 He1]. pose proof (N.divide_lcm_r d1 d2) as [e2 He2]. clear L. set (l := N.lcm d1 d2) in *. clearbody l.
    assert (Hl : l <> 0%N) by (intros ->; lia). assert (Hd1 : d1 <> 0%N) by (intros ->; lia). assert (Hd2 : d2 <> 0%N) by (intros ->; lia).
    assert (E1 : (D / d1 = k * e1)%N) by (rewrite Hk, He1, N.mul_assoc; now apply N.div_mul). assert (E2 : (D / d2 = k * e2)%N) by (rewrite Hk, He2, N.mul_assoc; now apply N.div_mul).
    assert (F1 : (l / d1 = e1)%N) by (rewrite He1; now apply N.div_mul). assert (F2 : (l / d2 = e2)%N) by (rewrite He2; now apply N.div_mul).
    assert (Hk0 : k <> 0%N) by (intros ->; lia). rewrite E1, E2 in Hs. rewrite machine_ok by nia. cbn [obind]. rewrite F1, F2.
    rewrite machine_ok by nia. cbn [obind]. rewrite machine_ok by nia. cbn [obind]. rewrite machine_ok by nia. cbn [obind].
    destruct (ratio_new_ok (n1 * e1 + n2 * e2) l Hl) as [r Hr]. exists r. split; [exact Hr|]. destruct (over_new D _ _ _ HD0 (ex_intro _ k Hk) Hr) as [R1 R2]. split; [exact R1|].
    rewrite R2, E1, E2. replace (D / l)%N with k by (rewrite Hk; now rewrite N.div_mul). nia.
Qed.
Definition key_over (D : N) (start : nat) (c : ThresholdClause) (i : nat) : N :=
  if start <=? i then match nth_error c (i - start) with Some f => over D f | None => 0%N end else 0%N.
Definition total_over (D : N) (start : nat) (c : ThresholdClause) (sigs : list AttachedSignaturePrefix) : N :=
  fold_right N.add 0%N (map (fun s => key_over D start c (index_of s)) sigs).
Lemma key_over_weight D start c i : D <> 0%N -> Forall (frac_over D) c -> (key_weight start c i * inject_Z (Z.of_N D) == inject_Z (Z.of_N (key_over D start c i)))%Q.
Proof.
  intros HD Hc. unfold key_weight, key_over. destruct (start <=? i); [|reflexivity]. destruct (nth_error c (i - start)) as [f|] eqn:E; [|reflexivity].
  apply over_weight; [exact HD|]. rewrite Forall_forall in Hc. apply Hc. eapply nth_error_In; eauto.
Qed.
Lemma total_over_weight D start c sigs : D <> 0%N -> Forall (frac_over D) c -> (total_weight start c sigs * inject_Z (Z.of_N D) == inject_Z (Z.of_N (total_over D start c sigs)))%Q.
Proof.
  intros HD Hc. unfold total_weight, total_over. induction sigs as [|s sigs IH]; [reflexivity|]. cbn [map fold_right].
  rewrite Qmult_plus_distr_l, IH, key_over_weight, N2Z.inj_add, inject_Z_plus by assumption. reflexivity.
Qed.
Lemma sum_fits m D c start sigs : (0 < D <= u64_max)%N -> Forall (frac_over D) c -> Forall (in_clause (N.to_nat start) c) sigs -> forall a,
  frac_over D a -> (over D a + total_over D (N.to_nat start) c sigs <= u64_max)%N ->
  exists r, fold_left (sum_step64 m c start) sigs (Ok a) = Ok r /\ frac_over D r /\ over D r = (over D a + total_over D (N.to_nat start) c sigs)%N.
Proof.
  intros HD Hc Hs. induction Hs as [|s sigs [H1 H2] Hs IH]; intros a Ha Hf.
  - exists a. split; [reflexivity|]. split; [exact Ha|]. unfold total_over. cbn. lia.
  - cbn [fold_left]. unfold sum_step64 at 2. cbn [obind]. unfold index_of in *. destruct (N.ltb_spec (asp_index s) start); [lia|].
    replace (N.to_nat (asp_index s - start)) with (N.to_nat (asp_index s) - N.to_nat start) by lia.
    assert (T : total_over D (N.to_nat start) c (s :: sigs) = (key_over D (N.to_nat start) c (N.to_nat (asp_index s)) + total_over D (N.to_nat start) c sigs)%N) by reflexivity.
    assert (Hk : exists w, nth_error c (N.to_nat (asp_index s) - N.to_nat start) = Some w /\ key_over D (N.to_nat start) c (N.to_nat (asp_index s)) = over D w).
    { unfold key_over. destruct (Nat.leb_spec (N.to_nat start) (N.to_nat (asp_index s))); [|lia].
      destruct (nth_error c (N.to_nat (asp_index s) - N.to_nat start)) as [w|] eqn:E; [eauto|]. apply nth_error_None in E. lia. }
    destruct Hk as (w & Hw & Ko). rewrite Hw. rewrite T, Ko in Hf |- *.
    assert (Hwo : frac_over D w) by (rewrite Forall_forall in Hc; apply Hc; eapply nth_error_In; eauto).
    destruct (add_fits m D a w HD Ha Hwo ltac:(lia)) as (r & Hr & Ro & Rv). rewrite Hr. destruct (IH r Ro ltac:(lia)) as (r' & Hr' & Ro' & Rv').
    exists r'. split; [exact Hr'|]. split; [exact Ro'|]. lia.
Qed.
Lemma sum_panics m D c start sigs : (0 < D <= u64_max)%N -> Forall (frac_over D) c -> Exists (fun s => ~ in_clause (N.to_nat start) c s) sigs -> forall a,
  frac_over D a -> (over D a + total_over D (N.to_nat start) c sigs <= u64_max)%N -> fold_left (sum_step64 m c start) sigs (Ok a) = Panic.
Proof.
  intros HD Hc. induction sigs as [|s sigs IH]; intros He a Ha Hf; [inversion He|].
  assert (T : total_over D (N.to_nat start) c (s :: sigs) = (key_over D (N.to_nat start) c (N.to_nat (asp_index s)) + total_over D (N.to_nat start) c sigs)%N) by reflexivity.
  cbn [fold_left]. unfold sum_step64 at 2. cbn [obind]. destruct (N.ltb_spec (asp_index s) start); [apply step_stuck; discriminate|].
  replace (N.to_nat (asp_index s - start)) with (N.to_nat (asp_index s) - N.to_nat start) by lia.
  destruct (nth_error c (N.to_nat (asp_index s) - N.to_nat start)) as [w|] eqn:Hw; [|apply step_stuck; discriminate].
  assert (Ko : key_over D (N.to_nat start) c (N.to_nat (asp_index s)) = over D w).
  { unfold key_over. destruct (Nat.leb_spec (N.to_nat start) (N.to_nat (asp_index s))); [|lia]. now rewrite Hw. }
  rewrite T, Ko in Hf. assert (Hwo : frac_over D w) by (rewrite Forall_forall in Hc; apply Hc; eapply nth_error_In; eauto).
  destruct (add_fits m D a w HD Ha Hwo ltac:(lia)) as (r & Hr & Ro & Rv). rewrite Hr. apply IH; [|exact Ro|lia].
  inversion He as [? ? Hn|]; subst; [|assumption]. exfalso. apply Hn. unfold in_clause, index_of.
  assert (N.to_nat (asp_index s) - N.to_nat start < List.length c) by (apply nth_error_Some; congruence). lia.
Qed.
Lemma clause_agrees m c start sigs : clause_fits sigs (N.to_nat start) c -> clause_enough64 m c start sigs = clause_enough c start sigs.
Proof.
  intros (D & [HD Hc] & Hf). change (Forall (frac_over D) c) in Hc. assert (HD0 : D <> 0%N) by lia.
  rewrite total_over_weight in Hf by assumption. rewrite <- Zle_Qle in Hf. apply N2Z.inj_le in Hf.
  assert (Hr : Forall rational c) by (eapply Forall_impl; [|exact Hc]; intros f; now apply over_rational).
  assert (Z0 : frac_over D frac_zero) by apply N.divide_1_l. assert (Zv : over D frac_zero = 0%N) by reflexivity.
  destruct (Forall_Exists_dec (in_clause (N.to_nat start) c)) with (l := sigs) as [Hin|Hout].
  { intros s. unfold in_clause. destruct (le_dec (N.to_nat start) (index_of s)); [|right; lia]. destruct (lt_dec (index_of s) (N.to_nat start + List.length c)); [left; lia|right; lia]. }
  - destruct (clause_enough_weight c start sigs Hr Hin) as (b & Hb & Hw).
    destruct (sum_fits m D c start sigs HD Hc Hin frac_zero Z0 ltac:(lia)) as (r & Er & Ro & Rv). rewrite Hb.
    unfold clause_enough64. fold (sum_step64 m c start). rewrite Er. cbn [obind]. f_equal.
    assert (G : frac_ge1 r = true <-> b = true).
    { rewrite Hw. rewrite (frac_ge1_weight r) by now apply (over_rational D). pose proof (over_weight D r HD0 Ro) as W. pose proof (total_over_weight D (N.to_nat start) c sigs HD0 Hc) as T.
      rewrite Rv, Zv, N.add_0_l, <- T in W. apply Qmult_inj_r in W; [now rewrite W|]. intros Q. change 0%Q with (inject_Z 0) in Q. apply (proj1 (inject_Z_injective _ _)) in Q. lia. }
    destruct (frac_ge1 r), b; intuition congruence.
  - unfold clause_enough64. fold (sum_step64 m c start). rewrite (sum_panics m D c start sigs HD Hc Hout frac_zero Z0) by lia.
    unfold clause_enough, clause_sum. fold (sum_step c start). rewrite clause_sum_panics by exact Hout. reflexivity.
Qed.
Lemma fits_filter start c sigs : clause_fits sigs (N.to_nat start) c -> clause_fits (filter (in_range start (N.of_nat (List.length c))) sigs) (N.to_nat start) c.
Proof. intros (D & H1 & H2). exists D. split; [exact H1|]. now rewrite total_weight_filter. Qed.
Lemma multi_agrees m sigs cs : forall start b, List.length (List.concat cs) + N.to_nat start <= N.to_nat u16_max ->
  Forall (fun sc => clause_fits sigs (fst sc) (snd sc)) (with_starts (N.to_nat start) cs) ->
  fold_left (multi_step64 m sigs) cs (Ok (start, b)) = fold_left (multi_step sigs) cs (Ok (start, b)).
Proof.
  assert (G : forall x, (forall a, x <> Ok a) -> forall cs, fold_left (multi_step64 m sigs) cs x = x /\ fold_left (multi_step sigs) cs x = x).
  { intros x Hx. induction cs0 as [|c cs0 [IH1 IH2]]; [split; reflexivity|]. cbn [fold_left]. unfold multi_step64 at 2, multi_step at 2. destruct x as [a|e|]; [now destruct (Hx a)|split; [exact IH1|exact IH2]|split; [exact IH1|exact IH2]]. }
  induction cs as [|c cs IH]; intros start b Hl Hf; [reflexivity|]. cbn [List.concat] in Hl. rewrite app_length in Hl. cbn [fold_left with_starts] in *.
  apply Forall_cons_iff in Hf as [Hc Hf]. cbn [fst snd] in Hc. unfold multi_step64 at 2, multi_step at 2. cbn [obind].
  change (N.to_nat u16_max) with (N.to_nat 65535) in Hl. change u16_max with 65535%N.
  rewrite N.mod_small by lia. rewrite machine_ok by lia. cbn [obind]. rewrite in_range_eq. rewrite (clause_agrees m c start _ (fits_filter _ _ _ Hc)).
  replace (N.to_nat start + List.length c) with (N.to_nat (start + N.of_nat (List.length c))) in Hf by lia.
  assert (Hl' : List.length (List.concat cs) + N.to_nat (start + N.of_nat (List.length c)) <= N.to_nat u16_max) by (change (N.to_nat u16_max) with (N.to_nat 65535); lia).
  destruct b; [|now apply IH]. destruct (clause_enough c start (filter (in_range start (N.of_nat (List.length c))) sigs)) as [e|e|]; cbn [obind]; [now apply IH| |].
  - destruct (G (Err e) ltac:(discriminate) cs) as [-> ->]. reflexivity.
  - destruct (G Panic ltac:(discriminate) cs) as [-> ->]. reflexivity.
Qed.
Lemma enough_agrees m t sigs : threshold_fits t sigs -> enough_signatures64 m t sigs = enough_signatures t sigs.
Proof.
  destruct t as [n|[c|cs]]; cbn [threshold_fits enough_signatures64 enough_signatures weighted_enough]; [reflexivity| |].
  - intros [_ H]. inversion_clear H as [|? ? Hc _]. now apply (clause_agrees m c 0).
  - intros [Ha Hf]. unfold multi_enough64, multi_enough. rewrite (multi_agrees m sigs cs 0 true); [reflexivity| |exact Hf].
    cbn [addressable] in Ha. change u16_max with 65535%N in *. lia.
Qed.
Lemma enough_sound m t sigs : rational_threshold t -> threshold_addressable t -> enough_signatures64 m t sigs = Ok true -> in_single t sigs /\ threshold_met t sigs.
Proof.
  destruct t as [n|[c|cs]]; cbn [rational_threshold threshold_addressable enough_signatures64 in_single threshold_met clauses_of addressable].
  - intros _ _ [= H]. split; [exact I|]. now apply N.leb_le.
  - intros Hr _ H. apply clause_sound in H as [H1 H2]; [|exact Hr]. split; [|now constructor].
    eapply Forall_impl; [|exact H1]. intros s Hs. unfold in_clause in Hs. cbn in Hs. lia.
  - intros Hr Ha H. split; [exact I|]. unfold multi_enough64 in H. apply obind_ok2 in H as ([n b] & Hm & H). cbn [snd] in H. assert (b = true) by congruence. subst b.
    apply (multi_sound m sigs cs Hr 0 n); [|exact Hm]. change u16_max with 65535%N in *. lia.
Qed.
Lemma verify_agrees m E kc msg sigs : threshold_fits (kc_threshold kc) sigs -> kc_verify64 m E kc msg sigs = kc_verify E kc msg sigs.
Proof. intros H. unfold kc_verify64, kc_verify. now rewrite enough_agrees. Qed.
Lemma verify64_sound m E kc msg sigs : rational_threshold (kc_threshold kc) -> threshold_addressable (kc_threshold kc) ->
  kc_verify64 m E kc msg sigs = Ok true -> satisfies E kc msg sigs.
Proof.
  intros Hr Ha H. unfold kc_verify64 in H. destruct (enough_signatures64 m (kc_threshold kc) sigs) as [b|e|] eqn:E1; cbn [obind] in H; [|discriminate|discriminate].
  destruct b; [|discriminate]. apply enough_sound in E1 as [Hs Hm]; [|assumption|assumption]. apply verify_sound; [exact Hr|].
  destruct (enough_spec (kc_threshold kc) sigs Hr Hs) as (b & Hb & Hiff). assert (b = true) by now apply Hiff. subst b.
  unfold kc_verify. rewrite Hb. exact H.
Qed.
