(** * C143: held events have one order, that of their sequence numbers. *)
From Coq Require Import Permutation Sorted.
From Verif Require Import Base Base64 Codes NumFmt Types KeyConf State Db Processor Spec LogProofs LogTheorems Order SpecOrder Demo.

(** The full statement: both comparisons order; [cmp] says Equal exactly when [==] holds (what the
    standard library asks of every [Ord]); and [==] holds only between the same events. *)
Definition C143_statement : Prop :=
  orders tem_cmp /\ orders tsem_cmp
  /\ (forall a b, tem_cmp a b = Eq <-> tem_eqb a b = true)
  /\ (forall a b, tsem_cmp a b = Eq <-> tsem_eqb a b = true)
  /\ (forall a b, tsem_eqb a b = true -> tsem_event a = tsem_event b).

Lemma cmp_number a b : tsem_cmp a b = (number a ?= number b)%N.
Proof.
  unfold tsem_cmp. fold (number a). fold (number b). destruct (N.compare_spec (number a) (number b)) as [H|H|H].
  - now rewrite (proj2 (N.eqb_eq _ _) H).
  - rewrite (proj2 (N.eqb_neq _ _)) by lia. now rewrite (proj2 (N.ltb_ge _ _)) by lia.
  - rewrite (proj2 (N.eqb_neq _ _)) by lia. now rewrite (proj2 (N.ltb_lt _ _)) by lia.
Qed.
Lemma tem_cmp_number a b : tem_cmp a b = (em_sn (tem_event a) ?= em_sn (tem_event b))%N.
Proof.
  unfold tem_cmp. destruct (N.compare_spec (em_sn (tem_event a)) (em_sn (tem_event b))) as [H|H|H].
  - now rewrite (proj2 (N.eqb_eq _ _) H).
  - rewrite (proj2 (N.eqb_neq _ _)) by lia. now rewrite (proj2 (N.ltb_ge _ _)) by lia.
  - rewrite (proj2 (N.eqb_neq _ _)) by lia. now rewrite (proj2 (N.ltb_lt _ _)) by lia.
Qed.
Lemma number_orders {A} (f : A -> N) : orders (fun a b => (f a ?= f b)%N).
Proof.
  split; [intros a; apply N.compare_refl|]. split; [intros a b; apply N.compare_antisym|]. split.
  - intros a b c [| |] H1 H2.
    + apply N.compare_eq_iff in H1, H2. apply N.compare_eq_iff. congruence.
    + apply N.compare_lt_iff in H1, H2. apply N.compare_lt_iff. eapply N.lt_trans; eassumption.
    + apply N.compare_gt_iff in H1, H2. apply N.compare_gt_iff. eapply N.lt_trans; eassumption.
  - intros a b c H. apply N.compare_eq_iff in H. now rewrite H.
Qed.
Lemma orders_ext {A} (c c' : A -> A -> comparison) : (forall a b, c a b = c' a b) -> orders c' -> orders c.
Proof.
  intros H (O1 & O2 & O3 & O4). split; [intros a; now rewrite H|]. split; [intros a b; now rewrite !H|]. split.
  - intros a b x r. rewrite !H. apply O3.
  - intros a b x. rewrite !H. apply O4.
Qed.

(** Both kinds of held events are ordered, by their numbers alone (not by moments, signatures or
    content), and the two traits agree. *)
Theorem C143_both_order : orders tem_cmp /\ orders tsem_cmp.
Proof.
  split.
  - eapply orders_ext; [exact tem_cmp_number|apply (number_orders (fun a => em_sn (tem_event a)))].
  - eapply orders_ext; [exact cmp_number|apply number_orders].
Qed.
Print Assumptions C143_both_order.
Theorem C143_only_numbers_count :
  forall a b, (tsem_cmp a b = Lt <-> (number a < number b)%N) /\ (tsem_cmp a b = Gt <-> (number b < number a)%N)
    /\ (tsem_cmp a b = Eq <-> number a = number b) /\ tsem_partial_cmp a b = Some (tsem_cmp a b).
Proof.
  intros a b. rewrite cmp_number. apply conj; [apply N.compare_lt_iff|]. apply conj; [apply N.compare_gt_iff|]. apply conj; [apply N.compare_eq_iff|].
  rewrite <- cmp_number. reflexivity.
Qed.
Print Assumptions C143_only_numbers_count.
Theorem C143_only_numbers_count_unsigned :
  forall a b, let num e := em_sn (tem_event e) in
    (tem_cmp a b = Lt <-> (num a < num b)%N) /\ (tem_cmp a b = Gt <-> (num b < num a)%N)
    /\ (tem_cmp a b = Eq <-> num a = num b) /\ tem_partial_cmp a b = Some (tem_cmp a b).
Proof.
  cbv zeta. intros a b. rewrite tem_cmp_number. apply conj; [apply N.compare_lt_iff|]. apply conj; [apply N.compare_gt_iff|]. apply conj; [apply N.compare_eq_iff|].
  rewrite <- tem_cmp_number. reflexivity.
Qed.
Print Assumptions C143_only_numbers_count_unsigned.

(** ** Sorting *)
Lemma lt_number a b : tsem_lt a b = (number a <? number b)%N.
Proof.
  unfold tsem_lt. destruct (C143_only_numbers_count a b) as (_ & _ & _ & ->). rewrite cmp_number.
  unfold N.ltb. now destruct (number a ?= number b)%N.
Qed.
Lemma insert_perm e l : Permutation (e :: l) (tsem_insert e l).
Proof.
  induction l as [|x l IH]; cbn [tsem_insert]; [apply Permutation_refl|]. destruct (tsem_lt x e); [|apply Permutation_refl].
  eapply perm_trans; [apply perm_swap|]. now apply perm_skip.
Qed.
Lemma insert_sorted e l : StronglySorted (fun a b => (number a <= number b)%N) l -> StronglySorted (fun a b => (number a <= number b)%N) (tsem_insert e l).
Proof.
  induction 1 as [|x l Hs IH Hx]; cbn [tsem_insert]; [now repeat constructor|].
  rewrite lt_number. destruct (N.ltb_spec (number x) (number e)) as [H|H].
  - constructor; [exact IH|]. rewrite Forall_forall in *. intros y Hy. apply (Permutation_in y (Permutation_sym (insert_perm e l))) in Hy.
    destruct Hy as [<-|Hy]; [lia|now apply Hx].
  - constructor; [now constructor|]. constructor; [exact H|]. eapply Forall_impl; [|exact Hx]. cbn. intros y Hy. lia.
Qed.
Lemma insert_stable n e l :
  filter (fun e => number e =? n)%N (tsem_insert e l) = filter (fun e => number e =? n)%N (e :: l).
Proof.
  induction l as [|x l IH]; cbn [tsem_insert]; [reflexivity|]. rewrite lt_number. destruct (N.ltb_spec (number x) (number e)) as [H|H]; [|reflexivity].
  cbn [filter] in *. rewrite IH. destruct (N.eqb_spec (number x) n), (N.eqb_spec (number e) n); try reflexivity. lia.
Qed.

(** The sort puts the events in order and keeps events of one number as they came. *)
Theorem C143_sort : forall l, sorted_of l (tsem_sort l).
Proof.
  intros l. split; [|split].
  - induction l as [|e l IH]; cbn [tsem_sort]; [constructor|]. eapply perm_trans; [|apply insert_perm]. now apply perm_skip.
  - induction l as [|e l IH]; cbn [tsem_sort]; [constructor|]. now apply insert_sorted.
  - intros n. induction l as [|e l IH]; cbn [tsem_sort]; [reflexivity|]. rewrite insert_stable. cbn [filter]. now rewrite IH.
Qed.
Print Assumptions C143_sort.
Lemma sorted_same : forall l1 l2,
  StronglySorted (fun a b => (number a <= number b)%N) l1 -> StronglySorted (fun a b => (number a <= number b)%N) l2 ->
  (forall n, filter (fun e => number e =? n)%N l1 = filter (fun e => number e =? n)%N l2) -> l1 = l2.
Proof.
  assert (Hd : forall x (l1 l2 : list TimestampedSignedEventMessage),
    (forall n, filter (fun e => number e =? n)%N l1 = filter (fun e => number e =? n)%N l2) -> In x l1 -> In x l2).
  { intros x l1 l2 H Hx. assert (Q : In x (filter (fun e => number e =? number x)%N l1)) by (apply filter_In; split; [exact Hx|apply N.eqb_refl]).
    rewrite H in Q. apply filter_In in Q. apply Q. }
  induction l1 as [|a l1 IH]; intros [|b l2] H1 H2 H.
  - reflexivity.
  - specialize (H (number b)). cbn [filter] in H. rewrite N.eqb_refl in H. discriminate H.
  - specialize (H (number a)). cbn [filter] in H. rewrite N.eqb_refl in H. discriminate H.
  - inversion H1 as [|? ? S1 F1]; subst. inversion H2 as [|? ? S2 F2]; subst. rewrite Forall_forall in F1, F2.
    assert (Hab : (number b <= number a)%N) by (destruct (Hd a _ _ H (or_introl eq_refl)) as [->|Q]; [lia|now apply F2]).
    assert (Hba : (number a <= number b)%N) by (destruct (Hd b _ _ (fun n => eq_sym (H n)) (or_introl eq_refl)) as [->|Q]; [lia|now apply F1]).
    assert (Heq : number a = number b) by lia.
    assert (Q := H (number a)). cbn [filter] in Q. rewrite <- Heq, N.eqb_refl in Q. assert (a = b) by congruence. subst b. f_equal.
    apply IH; [assumption..|]. intros n. specialize (H n). cbn [filter] in H. destruct (number a =? n)%N; congruence.
Qed.
(** Nothing else does: whatever stable sort the standard library runs, this is its result. *)
Theorem C143_sort_is_the_only_one : forall l l', sorted_of l l' -> l' = tsem_sort l.
Proof.
  intros l l' (_ & S & F). destruct (C143_sort l) as (_ & S' & F'). apply sorted_same; [assumption..|]. intros n. now rewrite F, F'.
Qed.
Print Assumptions C143_sort_is_the_only_one.
(** It is the sort that computing a state uses: the moments at which events were stored do not count. *)
Theorem C143_moments_do_not_count :
  forall l, map tsem_event (tsem_sort l) = sort_by_sn (map tsem_event l).
Proof.
  induction l as [|e l IH]; [reflexivity|]. cbn [tsem_sort sort_by_sn map]. rewrite <- IH. generalize (tsem_sort l) as r. intros r.
  induction r as [|x r IHr]; [reflexivity|]. cbn [tsem_insert insert_by_sn map]. rewrite lt_number. unfold number.
  destruct (N.ltb_spec (em_sn (sem_msg (tsem_event x))) (em_sn (sem_msg (tsem_event e)))) as [H|H];
    destruct (N.leb_spec (em_sn (sem_msg (tsem_event e))) (em_sn (sem_msg (tsem_event x)))) as [H'|H']; try lia; cbn [map].
  - now rewrite IHr.
  - reflexivity.
Qed.
Print Assumptions C143_moments_do_not_count.

(** ** Logs *)
Lemma log_sorts E cs id l l' :
  id <> id_default -> get_kel (run E db_empty cs) id = Some l -> Permutation l l' -> sort_by_sn l' = sort_by_sn l.
Proof.
  intros Hid Hl Hp.
  assert (R : forall x, map tsem_event (map (mkTSEM 0%Z) x) = x) by (intros x; rewrite map_map; cbn [tsem_event]; apply map_id).
  rewrite <- (R l), <- (R l'), <- !C143_moments_do_not_count. f_equal. symmetry. apply C143_sort_is_the_only_one.
  destruct (C143_sort (map (mkTSEM 0%Z) l)) as (P & S & F). split; [eapply perm_trans; [|exact P]; symmetry; now apply Permutation_map|].
  split; [exact S|]. intros n. rewrite F.
  (* at most one event has the number [n], so both filters are the same *)
  assert (Q : Permutation (filter (fun e => number e =? n)%N (map (mkTSEM 0%Z) l)) (filter (fun e => number e =? n)%N (map (mkTSEM 0%Z) l'))).
  { generalize (Permutation_map (mkTSEM 0%Z) Hp). generalize (map (mkTSEM 0%Z) l) (map (mkTSEM 0%Z) l').
    induction 1 as [|x a b H IH|x y a|a b c H1 IH1 H2 IH2]; cbn [filter].
    - constructor.
    - destruct (number x =? n)%N; [now apply perm_skip|exact IH].
    - destruct (number x =? n)%N, (number y =? n)%N; first [apply perm_swap|apply Permutation_refl].
    - eapply perm_trans; eassumption. }
  assert (L : List.length (filter (fun e => number e =? n)%N (map (mkTSEM 0%Z) l)) <= 1).
  { assert (K : forall k e, nth_error l k = Some e -> em_sn (sem_msg e) = N.of_nat (0 + k)) by (intros k e He; now apply (c01_sns E cs id l k e)).
    enough (G : forall s, (forall k e, nth_error l k = Some e -> em_sn (sem_msg e) = N.of_nat (s + k)) ->
      List.length (filter (fun e => number e =? n)%N (map (mkTSEM 0%Z) l)) <= 1) by exact (G 0 K).
    clear. induction l as [|x l IH]; intros s K; cbn [map filter List.length]; [lia|].
    assert (Hx := K 0 x eq_refl). assert (K' : forall k e, nth_error l k = Some e -> em_sn (sem_msg e) = N.of_nat (S s + k))
      by (intros k e He; rewrite (K (S k) e He); f_equal; lia).
    destruct (N.eqb_spec (number (mkTSEM 0%Z x)) n) as [Hn|Hn]; [|now apply (IH (S s))].
    cbn [List.length]. unfold number in Hn. cbn [tsem_event] in Hn.
    assert (Z : filter (fun e => number e =? n)%N (map (mkTSEM 0%Z) l) = []).
    { destruct (filter _ (map (mkTSEM 0%Z) l)) as [|y r] eqn:Hf; [reflexivity|]. exfalso.
      assert (Hy : In y (y :: r)) by now left. rewrite <- Hf in Hy. apply filter_In in Hy. destruct Hy as [Hy Hy'].
      apply in_map_iff in Hy. destruct Hy as (z & <- & Hz). apply N.eqb_eq in Hy'. unfold number in Hy'. cbn [tsem_event] in Hy'.
      apply In_nth_error in Hz. destruct Hz as [k Hk]. apply K' in Hk. lia. }
    rewrite Z. cbn [List.length]. lia. }
  destruct (filter _ (map _ l)) as [|a [|b r]]; [now rewrite (Permutation_nil Q)|now rewrite (Permutation_length_1_inv Q)|cbn [List.length] in L; lia].
Qed.
(** A store that gives the events of a log back in any other order answers with the same states. *)
Theorem C143_order_of_reading_does_not_matter :
  forall E cs id l l' d', let d := run E db_empty cs in
    id <> id_default -> get_kel d id = Some l -> Permutation l l' -> get_kel d' id = Some l' ->
    compute_state E d' id = compute_state E d id
    /\ (forall sn, compute_state_at_sn E d' id sn = compute_state_at_sn E d id sn).
Proof.
  cbv zeta. intros E cs id l l' d' Hid Hl Hp Hl'. unfold compute_state, compute_state_at_sn. rewrite Hl, Hl', (log_sorts E cs id l l' Hid Hl Hp). now split.
Qed.
Print Assumptions C143_order_of_reading_does_not_matter.
(** Within one log the comparison tells events apart, as [==] does. *)
Theorem C143_within_a_log_partial :
  forall E cs id l i j a b ta tb, let d := run E db_empty cs in
    id <> id_default -> get_kel d id = Some l -> nth_error l i = Some a -> nth_error l j = Some b ->
    (tsem_cmp (mkTSEM ta a) (mkTSEM tb b) = Eq <-> i = j)
    /\ (tsem_eqb (mkTSEM ta a) (mkTSEM tb b) = true <-> i = j)
    /\ (tsem_cmp (mkTSEM ta a) (mkTSEM tb b) = Lt <-> i < j).
Proof.
  cbv zeta. intros E cs id l i j a b ta tb Hid Hl Ha Hb.
  assert (Na : number (mkTSEM ta a) = N.of_nat i) by (unfold number; cbn [tsem_event]; now apply (c01_sns E cs id l)).
  assert (Nb : number (mkTSEM tb b) = N.of_nat j) by (unfold number; cbn [tsem_event]; now apply (c01_sns E cs id l)).
  destruct (C143_only_numbers_count (mkTSEM ta a) (mkTSEM tb b)) as (Hlt & _ & Heq & _). rewrite Na, Nb in *. apply conj; [|apply conj].
  - rewrite Heq. lia.
  - unfold tsem_eqb. cbn [tsem_event]. split.
    + intros H. apply sem_eqb_true in H. destruct H as [H _]. unfold number in Na, Nb. cbn [tsem_event] in Na, Nb. rewrite H in Na. lia.
    + intros ->. assert (a = b) by congruence. subst b. apply sem_eqb_refl.
  - rewrite Hlt. lia.
Qed.
Print Assumptions C143_within_a_log_partial.

(** ** What fails *)
(** [==] of signed events is an equality of messages and signatures, but not of delegator seals. *)
Theorem C143_equality :
  forall a b, tsem_eqb a b = true <->
    sem_msg (tsem_event a) = sem_msg (tsem_event b) /\ sem_sigs (tsem_event a) = sem_sigs (tsem_event b).
Proof.
  intros a b. unfold tsem_eqb. split; [apply sem_eqb_true|]. intros [H1 H2]. unfold sem_eqb.
  destruct (EM_eq_dec _ _); [|contradiction]. now destruct (sigs_eq_dec _ _).
Qed.
Print Assumptions C143_equality.
(** Unequal events that the comparison calls equal: in a sorted set one of them would be lost. *)
Theorem C143_equal_but_different :
  exists a b, tsem_cmp a b = Eq /\ tsem_eqb a b = false.
Proof. exists (mkTSEM 0 s_icp), (mkTSEM 0 s_dip). apply conj; [exact eq_refl|vm_compute; exact eq_refl]. Qed.
Print Assumptions C143_equal_but_different.
(** The same unsigned event, held at two moments. *)
Theorem C143_same_event_two_moments :
  forall m t t', t <> t' -> tem_cmp (mkTEM t m) (mkTEM t' m) = Eq /\ tem_eqb (mkTEM t m) (mkTEM t' m) = false.
Proof.
  intros m t t' H. split; [rewrite tem_cmp_number; apply N.compare_refl|]. unfold tem_eqb. cbn [tem_time]. now rewrite (proj2 (Z.eqb_neq _ _) H).
Qed.
Print Assumptions C143_same_event_two_moments.
Theorem C143_seal_is_not_compared :
  forall t t' m sigs seal seal', tsem_eqb (mkTSEM t (mkSEM m sigs seal)) (mkTSEM t' (mkSEM m sigs seal')) = true.
Proof. intros. apply C143_equality. now split. Qed.
Print Assumptions C143_seal_is_not_compared.
Theorem C143_refuted : ~ C143_statement.
Proof.
  intros (_ & _ & _ & H & _). destruct C143_equal_but_different as (a & b & H1 & H2). apply H in H1. congruence.
Qed.
Print Assumptions C143_refuted.

(** Hypotheses met: Alice's log, read back in the order of the table and reversed. *)
Example C143_example :
  alice <> id_default /\ (exists l, get_kel demo alice = Some l /\ List.length l = 4 /\ Permutation l (rev l))
  /\ map number (tsem_sort (map (mkTSEM 0) [s_ixn2; s_icp; s_ixn; s_dip; s_rot])) = [0; 0; 1; 2; 3]%N.
Proof.
  apply conj; [vm_compute; discriminate|]. apply conj; [|vm_compute; exact eq_refl].
  eexists. apply conj; [vm_compute; exact eq_refl|]. apply conj; [exact eq_refl|apply Permutation_rev].
Qed.
