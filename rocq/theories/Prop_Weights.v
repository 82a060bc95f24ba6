(** * C140: a threshold built from pairs of numbers asks for those weights. *)
From Coq Require Import QArith.
From Verif Require Import Base Base64 Codes NumFmt Types NumProofs KeyConf SpecSig SigProofs SpecCodec SpecJson Json JsonRead
  JsonProofs JsonProofs2 JsonProofs3 JsonProofs4 JsonProofs10 JsonProofs11 Weights SpecWeights Demo Prop_Json2.
Local Open Scope nat_scope.

(** The full statement: a threshold built from any pairs is met by the signatures whose weights
    reach 1, and its text is read as the same threshold. *)
Definition C140_statement : Prop :=
  (forall pairs sigs, Forall (fun s => key_of s < List.length pairs) sigs ->
     exists b, enough_signatures (single_weighted pairs) sigs = Ok b
       /\ (b = true <-> (1 <= sum (map (carried 0 pairs) sigs))%Q))
  /\ (forall groups sigs,
     exists b, enough_signatures (multi_weighted groups) sigs = Ok b /\ (b = true <-> groups_reach 0 groups sigs))
  /\ (forall hx pairs, reads_hex hx -> Forall in_u64 pairs ->
     as_threshold hx (erase (threshold_val (single_weighted pairs))) = Ok (single_weighted pairs))
  /\ (forall hx groups, reads_hex hx -> Forall (Forall in_u64) groups ->
     as_threshold hx (erase (threshold_val (multi_weighted groups))) = Ok (multi_weighted groups)).

(** ** Values *)
Lemma value_weight p : denominated p -> rational (frac_new (fst p) (snd p)) /\ (weight (frac_new (fst p) (snd p)) == value p)%Q.
Proof.
  destruct p as [n d]. unfold denominated, value. cbn [fst snd]. intros Hd.
  destruct (frac_new_weight n d Hd) as [R W]. split; [exact R|]. rewrite W.
  rewrite (Qmake_Qdiv (Z.of_N n)).
  assert (P : Z.pos (N.succ_pos (N.pred d)) = Z.of_N d).
  { change (Z.pos (N.succ_pos (N.pred d))) with (Z.of_N (N.pos (N.succ_pos (N.pred d)))). rewrite N.succ_pos_spec. now rewrite N.succ_pred. }
  rewrite P. reflexivity.
Qed.
Lemma carried_weight start pairs s : Forall denominated pairs ->
  (key_weight start (clause_new_from_tuples pairs) (index_of s) == carried start pairs s)%Q.
Proof.
  intros H. unfold key_weight, carried. change (index_of s) with (key_of s).
  assert (M : forall i, (match nth_error (clause_new_from_tuples pairs) i with Some f => weight f | None => 0 end ==
    match nth_error pairs i with Some p => value p | None => 0 end)%Q).
  { intros i. unfold clause_new_from_tuples. rewrite nth_error_map. destruct (nth_error pairs i) as [p|] eqn:Ep; cbn [option_map]; [|reflexivity].
    apply value_weight. rewrite Forall_forall in H. apply H. eapply nth_error_In; eassumption. }
  destruct (Nat.compare_spec (key_of s) start) as [C|C|C]; destruct (Nat.leb_spec start (key_of s)); try lia; try apply M. reflexivity.
Qed.
Lemma total_carried start pairs sigs : Forall denominated pairs ->
  (total_weight start (clause_new_from_tuples pairs) sigs == sum (map (carried start pairs) sigs))%Q.
Proof.
  intros H. unfold total_weight, sum. induction sigs as [|s sigs IH]; cbn [map fold_right]; [reflexivity|].
  rewrite IH. now rewrite carried_weight.
Qed.
Lemma rational_pairs pairs : Forall denominated pairs -> Forall rational (clause_new_from_tuples pairs).
Proof. intros H. unfold clause_new_from_tuples. apply Forall_map. eapply Forall_impl; [|exact H]. intros p Hp. now apply value_weight. Qed.
Lemma groups_met groups sigs : forall start, Forall (Forall denominated) groups ->
  (Forall (fun sc => (1 <= total_weight (fst sc) (snd sc) sigs)%Q) (with_starts start (multi_new_from_tuples groups)) <-> groups_reach start groups sigs).
Proof.
  induction groups as [|g groups IH]; intros start H; cbn [multi_new_from_tuples map with_starts groups_reach].
  - split; [trivial|constructor].
  - apply Forall_cons_iff in H as [Hg H]. rewrite Forall_cons_iff. cbn [fst snd]. rewrite total_carried by assumption.
    assert (L : List.length (clause_new_from_tuples g) = List.length g) by apply map_length.
    rewrite L. fold (multi_new_from_tuples groups). now rewrite IH.
Qed.

(** ** Signatures.  A pair with a denominator is worth its quotient. *)
Theorem C140_single_partial :
  forall pairs sigs, Forall denominated pairs -> Forall (fun s => key_of s < List.length pairs) sigs ->
    exists b, enough_signatures (single_weighted pairs) sigs = Ok b
      /\ (b = true <-> (1 <= sum (map (carried 0 pairs) sigs))%Q).
Proof.
  intros pairs sigs Hd Hs. destruct (enough_spec (single_weighted pairs) sigs) as (b & E & H).
  - now apply rational_pairs.
  - cbn [single_weighted in_single]. unfold clause_new_from_tuples. now rewrite map_length.
  - exists b. split; [exact E|]. rewrite H. cbn [threshold_met single_weighted clauses_of]. rewrite Forall_cons_iff. cbn [fst snd].
    rewrite total_carried by assumption. split; [now intros [? _]|]. intros ?; split; [assumption|constructor].
Qed.
Theorem C140_groups_partial :
  forall groups sigs, Forall (Forall denominated) groups ->
    exists b, enough_signatures (multi_weighted groups) sigs = Ok b /\ (b = true <-> groups_reach 0 groups sigs).
Proof.
  intros groups sigs Hd. destruct (enough_spec (multi_weighted groups) sigs) as (b & E & H).
  - cbn [multi_weighted rational_threshold]. unfold multi_new_from_tuples. apply Forall_map. eapply Forall_impl; [|exact Hd]. intros g. apply rational_pairs.
  - exact I.
  - exists b. split; [exact E|]. rewrite H. cbn [threshold_met multi_weighted clauses_of]. now apply groups_met.
Qed.

(** ** Only the quotients matter: 2/4 and 1/2 are the same weight, in signatures, in the text of
    the event and in commitments, because they are the same threshold *)
Lemma frac_new_same n d n' d' : d <> 0%N -> d' <> 0%N -> (n * d' = n' * d)%N -> frac_new n d = frac_new n' d'.
Proof.
  intros Hd Hd' E. unfold frac_new. destruct (N.eqb_spec d 0); [congruence|]. destruct (N.eqb_spec d' 0); [congruence|].
  assert (C : forall n d, d <> 0%N -> exists a b g, n = (g * a)%N /\ d = (g * b)%N /\ N.gcd a b = 1%N /\ g <> 0%N /\ (n / N.gcd n d)%N = a /\ (d / N.gcd n d)%N = b).
  { clear. intros n d Hd. assert (Hg : N.gcd n d <> 0%N) by (intros Hz; apply N.gcd_eq_0_r in Hz; contradiction).
    exists (n / N.gcd n d)%N, (d / N.gcd n d)%N, (N.gcd n d).
    pose proof (N.gcd_div_gcd n d (N.gcd n d) Hg eq_refl) as G.
    destruct (N.gcd_divide_l n d) as [a Ha]. destruct (N.gcd_divide_r n d) as [b Hb].
    set (g := N.gcd n d) in *. clearbody g. subst n d. rewrite !N.div_mul in * by assumption.
    rewrite (N.mul_comm a), (N.mul_comm b). auto 10. }
  destruct (C n d Hd) as (a & b & g & -> & Ed & Gab & Hg & -> & ->). destruct (C n' d' Hd') as (a' & b' & g' & -> & Ed' & Gab' & Hg' & -> & ->).
  clear C. subst d d'.
  assert (Hb : b <> 0%N) by (intros ->; apply Hd; apply N.mul_0_r). assert (Hb' : b' <> 0%N) by (intros ->; apply Hd'; apply N.mul_0_r).
  assert (X : (a * b' = a' * b)%N).
  { apply (N.mul_cancel_l _ _ (g * g')); [now apply N.neq_mul_0|]. transitivity (g * a * (g' * b'))%N; [ring|]. rewrite E. ring. }
  assert (D1 : (b | b')%N). { apply (N.gauss b a b'); [rewrite X; apply N.divide_factor_r|]. now rewrite N.gcd_comm. }
  assert (D2 : (b' | b)%N). { apply (N.gauss b' a' b); [rewrite <- X; apply N.divide_factor_r|]. now rewrite N.gcd_comm. }
  assert (b = b') by (apply N.divide_antisym; assumption). subst b'.
  apply N.mul_cancel_r in X; [|assumption]. now subst a'.
Qed.
Theorem C140_quotients_matter :
  forall n d n' d', d <> 0%N -> d' <> 0%N ->
    (clause_new_from_tuples [(n, d)] = clause_new_from_tuples [(n', d')] <-> (value (n, d) == value (n', d'))%Q).
Proof.
  intros n d n' d' Hd Hd'. split.
  - intros H. assert (E : frac_new n d = frac_new n' d') by (unfold clause_new_from_tuples in H; cbn [map fst snd] in H; congruence).
    rewrite <- (proj2 (value_weight (n, d) Hd)), <- (proj2 (value_weight (n', d') Hd')). cbn [fst snd]. now rewrite E.
  - intros H. unfold clause_new_from_tuples. cbn [map fst snd]. f_equal. apply frac_new_same; try assumption.
    unfold value in H. cbn [fst snd] in H.
    assert (P : forall d, d <> 0%N -> ~ (inject_Z (Z.of_N d) == 0)%Q).
    { clear. intros d Hd Q. unfold Qeq in Q. cbn in Q. lia. }
    assert (Q : (inject_Z (Z.of_N n) * inject_Z (Z.of_N d') == inject_Z (Z.of_N n') * inject_Z (Z.of_N d))%Q).
    { pose proof (P d Hd) as Pd. pose proof (P d' Hd') as Pd'. clear P.
      set (x := inject_Z (Z.of_N n)) in *. set (y := inject_Z (Z.of_N d)) in *. set (x' := inject_Z (Z.of_N n')) in *. set (y' := inject_Z (Z.of_N d')) in *.
      assert (X : (x * y' == x / y * (y * y'))%Q) by (field; exact Pd).
      assert (X' : (x' * y == x' / y' * (y * y'))%Q) by (field; exact Pd'). rewrite X, X', H. reflexivity. }
    rewrite <- !inject_Z_mult in Q. unfold Qeq in Q. cbn in Q. lia.
Qed.
Theorem C140_same_quotients :
  forall ps qs, Forall2 (fun p q => denominated p /\ denominated q /\ (value p == value q)%Q) ps qs ->
    single_weighted ps = single_weighted qs.
Proof.
  intros ps qs H. unfold single_weighted. do 2 f_equal. induction H as [|[n d] [n' d'] ps qs (Hp & Hq & E) _ IH]; [reflexivity|].
  unfold clause_new_from_tuples in *. cbn [map]. f_equal; [|exact IH].
  pose proof (proj2 (C140_quotients_matter n d n' d' Hp Hq) E) as X. unfold clause_new_from_tuples in X. cbn [map] in X. congruence.
Qed.

(** ** The text *)
Lemma u64_bound n : (n < 2 ^ 64)%N -> u64 n.
Proof. unfold u64. change (2 ^ 64)%N with (u64_max + 1)%N. lia. Qed.
Lemma pair_readable p : denominated p -> in_u64 p -> frac_readable (frac_new (fst p) (snd p)).
Proof.
  destruct p as [n d]. unfold denominated, in_u64. cbn [fst snd]. intros Hd [H1 H2].
  destruct (frac_new n d) as [| |a b] eqn:E.
  1,2: unfold frac_new in E; destruct (N.eqb_spec d 0); [congruence|discriminate].
  apply (frac_new_readable n d a b); [now apply u64_bound|now apply u64_bound|exact E].
Qed.
Lemma pairs_readable ps : Forall denominated ps -> Forall in_u64 ps -> Forall frac_readable (clause_new_from_tuples ps).
Proof.
  intros H1 H2. unfold clause_new_from_tuples. apply Forall_map. rewrite Forall_forall in *. intros p Hp. apply pair_readable; auto.
Qed.
Theorem C140_single_text_partial :
  forall hx pairs, reads_hex hx -> Forall in_u64 pairs -> Forall denominated pairs ->
    as_threshold hx (erase (threshold_val (single_weighted pairs))) = Ok (single_weighted pairs).
Proof. intros hx pairs Hhx Hu Hd. apply threshold_text; [exact Hhx|]. now apply pairs_readable. Qed.
Theorem C140_groups_text_partial :
  forall hx groups, reads_hex hx -> Forall (Forall in_u64) groups -> Forall (Forall denominated) groups -> groups <> [] ->
    as_threshold hx (erase (threshold_val (multi_weighted groups))) = Ok (multi_weighted groups).
Proof.
  intros hx groups Hhx Hu Hd Hne. apply threshold_text; [exact Hhx|]. split; [destruct groups; [congruence|discriminate]|].
  unfold multi_new_from_tuples. apply Forall_map. rewrite Forall_forall in *. intros g Hg. apply pairs_readable; auto.
Qed.

(** ** A pair without a denominator.  n/0 is more than any sum: one such key alone is enough,
    whatever the others have.  0/0 is less than any sum: no list with that key ever is. *)
Lemma frac_new_zero n : frac_new n 0 = if (n =? 0)%N then FNaN else FInf.
Proof. reflexivity. Qed.
Lemma nth_clause pairs i : nth_error (clause_new_from_tuples pairs) i = option_map (fun p => frac_new (fst p) (snd p)) (nth_error pairs i).
Proof. apply nth_error_map. Qed.
Definition step (c : ThresholdClause) (acc : out frac) (sig : AttachedSignaturePrefix) : out frac :=
  let? a := acc in
  if (asp_index sig <? 0)%N then Panic
  else match nth_error c (N.to_nat (asp_index sig - 0)) with Some w => Ok (frac_add a w) | None => Panic end.
Lemma step_in c a s w : nth_error c (key_of s) = Some w -> step c (Ok a) s = Ok (frac_add a w).
Proof.
  intros H. unfold step. cbn [obind]. replace (asp_index s <? 0)%N with false by (symmetry; apply N.ltb_ge; lia).
  rewrite N.sub_0_r. fold (key_of s). now rewrite H.
Qed.
(** a sum that ends in [top], once it has met a weight that absorbs *)
Lemma absorbed c sigs : forall a, a <> FNaN -> (a = FInf \/ exists s, In s sigs /\ nth_error c (key_of s) = Some FInf) ->
  Forall (fun s => exists w, nth_error c (key_of s) = Some w /\ w <> FNaN) sigs ->
  fold_left (step c) sigs (Ok a) = Ok FInf.
Proof.
  induction sigs as [|s sigs IH]; intros a Ha H Hs; cbn [fold_left].
  - destruct H as [->|(s & [] & _)]. reflexivity.
  - apply Forall_cons_iff in Hs as [(w & Ew & Hw) Hs]. rewrite (step_in c a s w Ew). apply IH; [| |exact Hs].
    + destruct a, w; try congruence; discriminate.
    + destruct H as [->|(s' & [<-|Hin] & E')].
      * left. destruct w; try congruence; reflexivity.
      * left. assert (w = FInf) by congruence. subst w. destruct a; try congruence; reflexivity.
      * right. now exists s'.
Qed.
Lemma poisoned c sigs : forall a, (a = FNaN \/ exists s, In s sigs /\ nth_error c (key_of s) = Some FNaN) ->
  Forall (fun s => exists w, nth_error c (key_of s) = Some w) sigs ->
  fold_left (step c) sigs (Ok a) = Ok FNaN.
Proof.
  induction sigs as [|s sigs IH]; intros a H Hs; cbn [fold_left].
  - destruct H as [->|(s & [] & _)]. reflexivity.
  - apply Forall_cons_iff in Hs as [(w & Ew) Hs]. rewrite (step_in c a s w Ew). apply IH; [|exact Hs].
    destruct H as [->|(s' & [<-|Hin] & E')].
    + left. reflexivity.
    + left. assert (w = FNaN) by congruence. subst w. destruct a; reflexivity.
    + right. now exists s'.
Qed.
Lemma in_pairs (pairs : list (N * N)) sigs : Forall (fun s => key_of s < List.length pairs) sigs ->
  Forall (fun s => exists p, nth_error pairs (key_of s) = Some p) sigs.
Proof.
  intros H. eapply Forall_impl; [|exact H]. cbn beta. intros s Hs. destruct (nth_error pairs (key_of s)) as [p|] eqn:E; [now exists p|].
  apply nth_error_None in E. lia.
Qed.
Theorem C140_no_denominator_is_enough :
  forall pairs sigs s n, Forall (fun s => key_of s < List.length pairs) sigs -> ~ In (0, 0)%N pairs ->
    In s sigs -> nth_error pairs (key_of s) = Some (n, 0%N) ->
    enough_signatures (single_weighted pairs) sigs = Ok true.
Proof.
  intros pairs sigs s n Hs Hz Hin Hp. cbn [enough_signatures single_weighted weighted_enough]. unfold clause_enough, clause_sum.
  change (fold_left _ sigs (Ok frac_zero)) with (fold_left (step (clause_new_from_tuples pairs)) sigs (Ok frac_zero)).
  rewrite absorbed; [reflexivity|discriminate| |].
  - right. exists s. split; [exact Hin|]. rewrite nth_clause, Hp. cbn [option_map fst snd]. rewrite frac_new_zero.
    destruct (N.eqb_spec n 0) as [->|]; [|reflexivity]. exfalso. apply Hz. eapply nth_error_In; eassumption.
  - eapply Forall_impl; [|apply in_pairs; exact Hs]. cbn beta. intros s' ([a b] & E'). exists (frac_new a b). rewrite nth_clause, E'. split; [reflexivity|].
    unfold frac_new. destruct (N.eqb_spec b 0) as [->|]; [|discriminate]. destruct (N.eqb_spec a 0) as [->|]; [|discriminate].
    exfalso. apply Hz. eapply nth_error_In; eassumption.
Qed.
Theorem C140_zero_over_zero_never :
  forall pairs sigs s, Forall (fun s => key_of s < List.length pairs) sigs ->
    In s sigs -> nth_error pairs (key_of s) = Some (0, 0)%N ->
    enough_signatures (single_weighted pairs) sigs = Ok false.
Proof.
  intros pairs sigs s Hs Hin Hp. cbn [enough_signatures single_weighted weighted_enough]. unfold clause_enough, clause_sum.
  change (fold_left _ sigs (Ok frac_zero)) with (fold_left (step (clause_new_from_tuples pairs)) sigs (Ok frac_zero)).
  rewrite poisoned; [reflexivity| |].
  - right. exists s. split; [exact Hin|]. rewrite nth_clause, Hp. reflexivity.
  - eapply Forall_impl; [|apply in_pairs; exact Hs]. cbn beta. intros s' (p & E'). exists (frac_new (fst p) (snd p)). now rewrite nth_clause, E'.
Qed.
(** The text of such a threshold is read by nobody: the event made with it is lost on the wire
    (read as a receipt of itself, C79).  But a text "n/0" is read, with that same meaning. *)
Lemma zero_text n v : as_frac (JStr (frac_str (frac_new n 0))) = Ok v -> False.
Proof. rewrite frac_new_zero. destruct (n =? 0)%N; vm_compute; discriminate. Qed.
Lemma omapm_in {A B} (f : A -> out B) l x : In x l -> (forall b, f x <> Ok b) -> forall bs, omapm f l <> Ok bs.
Proof.
  induction l as [|a l IH]; intros Hin Hx bs; [contradiction|]. cbn [omapm]. destruct Hin as [->|Hin].
  - destruct (f x) as [b|e|] eqn:E; try discriminate. now contradiction (Hx b).
  - destruct (f a) as [b|e|]; try discriminate. cbn [obind]. destruct (omapm f l) as [bs'|e|] eqn:E; try discriminate. now contradiction (IH Hin Hx bs').
Qed.
Lemma orelse_ok {A} (x y : out A) (a : A) : (forall a, x <> Ok a) -> (forall a, y <> Ok a) -> orelse x y <> Ok a.
Proof. intros Hx Hy. destruct x; cbn [orelse]; [apply Hx|apply Hy|discriminate]. Qed.
Lemma omap_ok {A B} (f : A -> B) (x : out A) b : (forall a, x <> Ok a) -> omap f x <> Ok b.
Proof. intros H. unfold omap. destruct x as [a|e|]; cbn [obind]; try discriminate. now contradiction (H a). Qed.
Theorem C140_no_denominator_is_not_read :
  forall hx pairs n t, In (n, 0%N) pairs ->
    as_threshold hx (erase (threshold_val (single_weighted pairs))) <> Ok t.
Proof.
  intros hx pairs n t Hin. cbn [threshold_val single_weighted]. unfold clause_val. cbn [erase]. unfold clause_new_from_tuples. rewrite !map_map. cbn [erase].
  unfold as_threshold. apply orelse_ok; intros x; apply omap_ok; intros y.
  - discriminate.
  - apply orelse_ok; intros z; apply omap_ok; intros w; cbn [as_clause as_vec].
    + unfold as_clause. cbn [as_vec]. eapply omapm_in; [apply (in_map _ _ _ Hin)|]. cbn [fst snd]. intros v Q. exact (zero_text n v Q).
    + eapply omapm_in; [apply (in_map _ _ _ Hin)|]. cbn [fst snd]. intros v. discriminate.
Qed.
Theorem C140_no_denominator_received :
  forall n, (n < 2 ^ 64)%N -> as_frac (JStr (fmt_dec n ++ bstr "/0")) = Ok (frac_new n 0).
Proof.
  intros n Hn. unfold as_frac, as_str. cbn [obind]. unfold frac_from. change (bstr "/0") with (bstr "/" ++ bstr "0").
  rewrite split_one; [|apply dec_no_slash|constructor; [reflexivity|constructor]].
  unfold fmt_dec. rewrite fmt_parse by (exact radix10 || now apply u64_bound). reflexivity.
Qed.
(** No group at all asks for nothing, and is read as one group that is never reached. *)
Theorem C140_no_groups :
  forall hx, (forall sigs, enough_signatures (multi_weighted []) sigs = Ok true)
    /\ as_threshold hx (erase (threshold_val (multi_weighted []))) = Ok (single_weighted [])
    /\ enough_signatures (single_weighted []) [] = Ok false.
Proof. intros hx. split; [reflexivity|]. split; reflexivity. Qed.

Theorem C140_refuted : ~ C140_statement.
Proof.
  intros (H & _). destruct (H [(1, 0); (1, 2)]%N [mkASP 0 (mkSSP Ed25519Sha512 [])]) as (b & E & Hb).
  - constructor; [|constructor]. vm_compute. lia.
  - assert (b = true) by (vm_compute in E; congruence). subst b. destruct Hb as [Hb _]. specialize (Hb eq_refl). vm_compute in Hb. congruence.
Qed.
Print Assumptions C140_single_partial.
Print Assumptions C140_groups_partial.
Print Assumptions C140_quotients_matter.
Print Assumptions C140_same_quotients.
Print Assumptions C140_single_text_partial.
Print Assumptions C140_groups_text_partial.
Print Assumptions C140_no_denominator_is_enough.
Print Assumptions C140_zero_over_zero_never.
Print Assumptions C140_no_denominator_is_not_read.
Print Assumptions C140_no_denominator_received.
Print Assumptions C140_no_groups.
Print Assumptions C140_refuted.

(** The hypotheses are met: *)
Definition w_sig (i : N) : AttachedSignaturePrefix := mkASP i (mkSSP Ed25519Sha512 []).
Example C140_example :
  Forall (Forall denominated) [[(2, 4); (1, 2); (1, 3)]; [(1, 1)]]%N
  /\ Forall (Forall in_u64) [[(2, 4); (1, 2); (1, 3)]; [(1, 1)]]%N
  /\ enough_signatures (multi_weighted [[(2, 4); (1, 2); (1, 3)]; [(1, 1)]]%N) [w_sig 0; w_sig 1; w_sig 3] = Ok true
  /\ enough_signatures (multi_weighted [[(2, 4); (1, 2); (1, 3)]; [(1, 1)]]%N) [w_sig 0; w_sig 2; w_sig 3] = Ok false
  /\ reads_hex hx0
  /\ enough_signatures (single_weighted [(1, 0); (1, 2)]%N) [w_sig 0] = Ok true
  /\ enough_signatures (single_weighted [(0, 0); (1, 1)]%N) [w_sig 0; w_sig 1] = Ok false.
Proof.
  split; [repeat constructor; discriminate|]. split; [repeat constructor|]. split; [ex_vm|]. split; [ex_vm|].
  split; [exact hx0_reads|]. split; ex_vm.
Qed.
