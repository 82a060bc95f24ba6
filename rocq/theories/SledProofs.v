(** The numeric-key store refines the per-identifier tables. *)
From Coq Require Import Permutation Sorted.
From Verif Require Import Base Base64 Codes NumFmt Types KeyConf State Db Processor Prog ProgProofs Sled
  SpecCodec CodecProofs.

Lemma id_ok_inj a b : id_ok a -> id_ok b -> id_str a = id_str b -> a = b.
Proof. intros [Ha Ea] [Hb Eb] H. rewrite <- Ea, <- Eb. now apply id_str_inj. Qed.

(** ** trees *)
Lemma tr_get_put {V} (t : tree V) k v k' :
  tr_get (tr_put t k v) k' = if (k' =? k)%N then Some v else tr_get t k'.
Proof.
  induction t as [|[a x] t IH]; cbn [tr_put tr_get]; [reflexivity|].
  destruct (k <? a)%N eqn:El; cbn [tr_get]; [reflexivity|].
  destruct (k =? a)%N eqn:Ee; cbn [tr_get].
  - apply N.eqb_eq in Ee. subst a. now destruct (k' =? k)%N.
  - destruct (k' =? a)%N eqn:Ea; [|exact IH].
    apply N.eqb_eq in Ea. subst a. apply N.eqb_neq in Ee.
    destruct (k' =? k)%N eqn:Ek; [apply N.eqb_eq in Ek; congruence|reflexivity].
Qed.
Definition ascending {V} (t : tree V) : Prop := StronglySorted (fun a b => (a < b)%N) (map fst t).
Lemma tr_put_keys {V} (t : tree V) k v x : In x (map fst (tr_put t k v)) -> x = k \/ In x (map fst t).
Proof.
  induction t as [|[a y] t IH]; cbn [tr_put map fst In]; [intros [->|[]]; now left|].
  destruct (k <? a)%N; cbn [map fst In]; [intros [->|H]; auto|].
  destruct (k =? a)%N eqn:Ee; cbn [map fst In].
  - intros [->|H]; auto.
  - intros [->|H]; auto. apply IH in H. tauto.
Qed.
Lemma tr_put_ascending {V} (t : tree V) k v : ascending t -> ascending (tr_put t k v).
Proof.
  unfold ascending. induction t as [|[a x] t IH]; cbn [tr_put map fst]; intros H.
  - repeat constructor.
  - apply StronglySorted_inv in H. destruct H as [Hs Ha].
    destruct (k <? a)%N eqn:El; cbn [map fst].
    + apply N.ltb_lt in El. constructor; [now constructor|]. constructor; [exact El|].
      eapply Forall_impl; [|exact Ha]. cbn. intros; lia.
    + apply N.ltb_ge in El. destruct (k =? a)%N eqn:Ee; cbn [map fst].
      * apply N.eqb_eq in Ee. subst a. now constructor.
      * apply N.eqb_neq in Ee. constructor; [now apply IH|]. apply Forall_forall. intros y Hy.
        apply tr_put_keys in Hy. destruct Hy as [->|Hy]; [lia|]. rewrite Forall_forall in Ha. now apply Ha.
Qed.
Lemma tr_get_none {V} (t : tree V) k : tr_get t k = None <-> ~ In k (map fst t).
Proof.
  induction t as [|[a x] t IH]; cbn [tr_get map fst In]; [tauto|].
  destruct (k =? a)%N eqn:E.
  - apply N.eqb_eq in E. subst a. split; [discriminate|tauto].
  - apply N.eqb_neq in E. rewrite IH. split; [intros H [->|H']; congruence|tauto].
Qed.

(** ** numbering *)
Fixpoint ids_from (i : N) (L : list IdentifierPrefix) : tree bytes :=
  match L with [] => [] | id :: r => (i, id_str id) :: ids_from (i + 1) r end.
Fixpoint idx (i : N) (L : list IdentifierPrefix) (id : IdentifierPrefix) : option N :=
  match L with
  | [] => None
  | x :: r => if IdentifierPrefix_eq_dec x id then Some i else idx (i + 1) r id
  end.
Lemma find_ids_from L : Forall id_ok L -> forall i id, id_ok id ->
  find_text (ids_from i L) (id_str id) = idx i L id.
Proof.
  induction 1 as [|x L Hx HL IH]; intros i id Hid; cbn [ids_from find_text idx]; [reflexivity|].
  destruct (bytes_eq_dec (id_str x) (id_str id)) as [E|E];
    destruct (IdentifierPrefix_eq_dec x id) as [E'|E']; try congruence.
  - exfalso. apply E'. now apply id_ok_inj.
  - now apply IH.
Qed.
Lemma idx_range L : forall i id k, idx i L id = Some k -> (i <= k < i + N.of_nat (List.length L))%N.
Proof.
  induction L as [|x L IH]; intros i id k; cbn [idx List.length]; [discriminate|].
  destruct (IdentifierPrefix_eq_dec x id).
  - intros H; inversion H; subst. lia.
  - intros H. apply IH in H. lia.
Qed.
Lemma idx_none L : forall i id, idx i L id = None <-> ~ In id L.
Proof.
  induction L as [|x L IH]; intros i id; cbn [idx In]; [tauto|].
  destruct (IdentifierPrefix_eq_dec x id) as [->|E].
  - split; [discriminate|tauto].
  - rewrite IH. tauto.
Qed.
Lemma idx_inj L : forall i a b k, idx i L a = Some k -> idx i L b = Some k -> a = b.
Proof.
  induction L as [|x L IH]; intros i a b k; cbn [idx]; [discriminate|].
  destruct (IdentifierPrefix_eq_dec x a) as [->|Ea], (IdentifierPrefix_eq_dec a b) as [->|Eab]; auto.
  - destruct (IdentifierPrefix_eq_dec a b); [congruence|]. intros H1 H2. inversion H1; subst.
    apply idx_range in H2. lia.
  - destruct (IdentifierPrefix_eq_dec x b) as [->|Eb]; [|apply IH].
    intros H1 H2. inversion H2; subst. apply idx_range in H1. lia.
Qed.
Lemma idx_app L L' : forall i id k, idx i L id = Some k -> idx i (L ++ L') id = Some k.
Proof.
  induction L as [|x L IH]; intros i id k; cbn [idx app]; [discriminate|].
  destruct (IdentifierPrefix_eq_dec x id); auto.
Qed.
Lemma idx_snoc L : forall i id, ~ In id L -> idx i (L ++ [id]) id = Some (i + N.of_nat (List.length L))%N.
Proof.
  induction L as [|x L IH]; intros i id H; cbn [idx app List.length].
  - destruct (IdentifierPrefix_eq_dec id id); [f_equal; lia|congruence].
  - destruct (IdentifierPrefix_eq_dec x id) as [->|]; [exfalso; apply H; now left|].
    rewrite IH; [f_equal; lia|]. intros Hin. apply H. now right.
Qed.
Lemma idx_snoc_other L : forall i id x, id <> x -> idx i (L ++ [x]) id = idx i L id.
Proof.
  induction L as [|y L IH]; intros i id x H; cbn [idx app].
  - destruct (IdentifierPrefix_eq_dec x id); [congruence|reflexivity].
  - destruct (IdentifierPrefix_eq_dec y id); auto.
Qed.
Lemma last_ids_from L : forall i,
  tr_last (ids_from i L) = match L with [] => None | _ => Some (i + N.of_nat (List.length L) - 1)%N end.
Proof.
  induction L as [|x L IH]; intros i; [reflexivity|].
  destruct L as [|y L].
  - cbn [ids_from tr_last List.length]. f_equal. lia.
  - transitivity (tr_last (ids_from (i + 1) (y :: L))); [reflexivity|].
    rewrite IH. cbn [List.length]. f_equal. lia.
Qed.
Lemma put_ids_from L : forall i x,
  tr_put (ids_from i L) (i + N.of_nat (List.length L)) (id_str x) = ids_from i (L ++ [x]).
Proof.
  induction L as [|y L IH]; intros i x; cbn [ids_from tr_put List.length app].
  - f_equal. f_equal. lia.
  - replace ((i + N.of_nat (S (List.length L)) <? i)%N) with false by (symmetry; apply N.ltb_ge; lia).
    replace ((i + N.of_nat (S (List.length L)) =? i)%N) with false by (symmetry; apply N.eqb_neq; lia).
    f_equal. replace (i + N.of_nat (S (List.length L)))%N with (i + 1 + N.of_nat (List.length L))%N by lia.
    apply IH.
Qed.

(** ** the refinement relation *)
Lemma stab_sset_same n s t : stab n (sset n s t) = t.
Proof. destruct s, n; reflexivity. Qed.
Lemma stab_sset_other n m s t : n <> m -> stab m (sset n s t) = stab m s.
Proof. destruct s, n, m; intros H; try reflexivity; congruence. Qed.
Lemma ids_sset n s t : s_ids (sset n s t) = s_ids s.
Proof. destruct s, n; reflexivity. Qed.
Lemma stab_set_ids n s i : stab n (set_ids s i) = stab n s.
Proof. destruct s, n; reflexivity. Qed.
Lemma dtab_dset_same n d t : dtab n (dset n d t) = t.
Proof. destruct d, n; reflexivity. Qed.
Lemma dtab_dset_other n m d t : n <> m -> dtab m (dset n d t) = dtab m d.
Proof. destruct d, n, m; intros H; try reflexivity; congruence. Qed.

Record Rel (s : Sled) (d : Db) (L : list IdentifierPrefix) : Prop := {
  r_ids : s_ids s = ids_from 0 L;
  r_nodup : NoDup L;
  r_ok : Forall id_ok L;
  r_asc : forall n, ascending (stab n s);
  r_fresh : forall n k, (N.of_nat (List.length L) <= k)%N -> tr_get (stab n s) k = None;
  r_dnodup : forall n, NoDup (map fst (dtab n d));
  r_dincl : forall n, incl (map fst (dtab n d)) L;
  r_tab : forall n id, tget (dtab n d) id = match idx 0 L id with Some k => tr_get (stab n s) k | None => None end }.

Lemma Rel_empty : Rel sled_empty db_empty [].
Proof.
  constructor.
  - reflexivity.
  - constructor.
  - constructor.
  - intros n; destruct n; constructor.
  - intros n k _; destruct n; reflexivity.
  - intros n; destruct n; constructor.
  - intros n x Hx; destruct n; destruct Hx.
  - intros n id; destruct n; reflexivity.
Qed.

Lemma sinterp_pbind {A B} (p : prog prim A) (k : A -> prog prim B) s :
  sinterp (pbind p k) s = let (s', a) := sinterp p s in sinterp (k a) s'.
Proof.
  revert s. induction p as [r|X o k' IH]; intros s; cbn [pbind sinterp]; [reflexivity|].
  destruct (prim_sem o s) as [s' a]. apply IH.
Qed.

Lemma designated_spec s d L id : Rel s d L -> id_ok id ->
  exists s' L' k, sinterp (designated id) s = (s', k) /\ Rel s' d L' /\ idx 0 L' id = Some k
    /\ (forall n, stab n s' = stab n s) /\ (L' = L \/ (~ In id L /\ L' = L ++ [id])).
Proof.
  intros R Hid. unfold designated. rewrite sinterp_pbind. cbn [sinterp prim_sem].
  rewrite (r_ids _ _ _ R), find_ids_from by (auto; apply (r_ok _ _ _ R)).
  destruct (idx 0 L id) as [k|] eqn:E.
  - exists s, L, k. cbn [sinterp]. split; [reflexivity|]. split; [exact R|]. split; [exact E|]. split; [reflexivity|now left].
  - apply idx_none in E as Hni. rewrite sinterp_pbind. cbn [sinterp prim_sem].
    rewrite (r_ids _ _ _ R), last_ids_from.
    set (k := match match L with [] => None | _ :: _ => Some (0 + N.of_nat (List.length L) - 1)%N end with
              | Some x => (x + 1)%N | None => 0%N end).
    assert (Hk : k = (0 + N.of_nat (List.length L))%N).
    { unfold k. destruct L; cbn [List.length]; lia. }
    rewrite sinterp_pbind. cbn [sinterp prim_sem]. rewrite (r_ids _ _ _ R), Hk, put_ids_from.
    eexists _, (L ++ [id]), _. split; [reflexivity|].
    split; [|split; [now apply idx_snoc|split; [intros n; apply stab_set_ids|right; auto]]].
    constructor.
    + reflexivity.
    + apply (Permutation_NoDup (Permutation_cons_append L id)). constructor; [exact Hni|apply (r_nodup _ _ _ R)].
    + apply Forall_app. split; [apply (r_ok _ _ _ R)|]. constructor; auto.
    + intros n. rewrite stab_set_ids. apply (r_asc _ _ _ R).
    + intros n x Hx. rewrite stab_set_ids. apply (r_fresh _ _ _ R). rewrite app_length in Hx. lia.
    + apply (r_dnodup _ _ _ R).
    + intros n x Hx. apply in_or_app. left. now apply (r_dincl _ _ _ R n).
    + intros n x. rewrite stab_set_ids, (r_tab _ _ _ R).
      destruct (IdentifierPrefix_eq_dec x id) as [->|Hx].
      * rewrite E, idx_snoc by exact Hni. symmetry. apply (r_fresh _ _ _ R). lia.
      * now rewrite idx_snoc_other.
Qed.

Lemma aput_keys {V} (t : list (IdentifierPrefix * V)) k v :
  map fst (aput IdentifierPrefix_eq_dec t k v) = map fst t /\ In k (map fst t)
  \/ map fst (aput IdentifierPrefix_eq_dec t k v) = map fst t ++ [k] /\ ~ In k (map fst t).
Proof.
  induction t as [|[a x] t IH]; cbn [aput map fst In app]; [right; auto|].
  destruct (IdentifierPrefix_eq_dec k a) as [->|E]; cbn [map fst].
  - left. auto.
  - destruct IH as [[-> H]|[-> H]]; [left; auto|right]. split; [reflexivity|]. intros [->|H']; auto.
Qed.

(** writing the same list on both sides *)
Lemma Rel_put s d L n id k l : Rel s d L -> idx 0 L id = Some k ->
  Rel (sset n s (tr_put (stab n s) k l)) (dset n d (tput (dtab n d) id l)) L.
Proof.
  intros R Hk.
  assert (Hin : In id L).
  { destruct (in_dec IdentifierPrefix_eq_dec id L) as [H|H]; auto. apply (idx_none L 0) in H. congruence. }
  constructor.
  - rewrite ids_sset. apply (r_ids _ _ _ R).
  - apply (r_nodup _ _ _ R).
  - apply (r_ok _ _ _ R).
  - intros m. destruct (tname_eq_dec n m) as [<-|E].
    + rewrite stab_sset_same. apply tr_put_ascending, (r_asc _ _ _ R).
    + rewrite stab_sset_other by exact E. apply (r_asc _ _ _ R).
  - intros m x Hx. apply idx_range in Hk as Hr. destruct (tname_eq_dec n m) as [<-|E].
    + rewrite stab_sset_same, tr_get_put.
      destruct (x =? k)%N eqn:Ex; [apply N.eqb_eq in Ex; lia|]. now apply (r_fresh _ _ _ R).
    + rewrite stab_sset_other by exact E. now apply (r_fresh _ _ _ R).
  - intros m. destruct (tname_eq_dec n m) as [<-|E].
    + rewrite dtab_dset_same. unfold tput. pose proof (r_dnodup _ _ _ R n) as ND.
      destruct (aput_keys (dtab n d) id l) as [[-> _]|[-> H]]; [exact ND|].
      apply (Permutation_NoDup (Permutation_cons_append _ id)). now constructor.
    + rewrite dtab_dset_other by exact E. apply (r_dnodup _ _ _ R).
  - intros m. destruct (tname_eq_dec n m) as [<-|E].
    + rewrite dtab_dset_same. unfold tput. pose proof (r_dincl _ _ _ R n) as I.
      destruct (aput_keys (dtab n d) id l) as [[-> _]|[-> H]]; [exact I|].
      intros x Hx. apply in_app_or in Hx. destruct Hx as [Hx|[<-|[]]]; auto.
    + rewrite dtab_dset_other by exact E. apply (r_dincl _ _ _ R).
  - intros m x. destruct (tname_eq_dec n m) as [<-|E].
    + rewrite dtab_dset_same, stab_sset_same. unfold tget, tput. rewrite aget_aput.
      destruct (IdentifierPrefix_eq_dec x id) as [->|Hx].
      * rewrite Hk, tr_get_put, N.eqb_refl. reflexivity.
      * fold (tget (dtab n d) x). rewrite (r_tab _ _ _ R). destruct (idx 0 L x) as [k'|] eqn:E'; [|reflexivity].
        rewrite tr_get_put. destruct (k' =? k)%N eqn:Ek; [|reflexivity]. apply N.eqb_eq in Ek. subst k'.
        exfalso. apply Hx. eapply idx_inj; eauto.
    + rewrite dtab_dset_other, stab_sset_other by exact E. apply (r_tab _ _ _ R).
Qed.

(** ** operations *)
Definition op_ok {A} (o : op A) : Prop :=
  match o with
  | OGet _ id | OPush _ id _ | ORemove _ id _ | OPut _ id _ => id_ok id
  | OAll _ => True
  end.
(** equal results, except that [OAll] may list the entries in another order *)
Definition same_result {A} (o : op A) : A -> A -> Prop :=
  match o in op A return A -> A -> Prop with
  | OAll n => fun a b => Permutation a b
  | _ => fun a b => a = b
  end.

Lemma flat_map_snd_perm {K V} (dec : forall a b : K, {a = b} + {a <> b}) (get : list (K * list V) -> K -> option (list V)) :
  (forall a v t k, get ((a, v) :: t) k = if dec k a then Some v else get t k) ->
  (forall k, get [] k = None) ->
  forall t L, NoDup (map fst t) -> NoDup L -> incl (map fst t) L ->
  Permutation (flat_map snd t) (flat_map (fun k => olist (get t k)) L).
Proof.
  intros Hc Hn t. induction t as [|[a v] t IH]; intros L NDt NDL I.
  - cbn. induction L as [|x L IHL]; cbn; [constructor|]. rewrite Hn. cbn. apply IHL; [now inversion NDL|easy].
  - cbn [flat_map snd map fst] in *. inversion NDt as [|? ? Hni NDt']; subst.
    assert (Ha : In a L) by (apply I; now left).
    apply in_split in Ha. destruct Ha as (L1 & L2 & ->).
    assert (NDL' : NoDup (L1 ++ L2)) by (eapply NoDup_remove_1; eauto).
    assert (Hni' : ~ In a (L1 ++ L2)) by (eapply NoDup_remove_2; eauto).
    assert (I' : incl (map fst t) (L1 ++ L2)).
    { intros x Hx. assert (Hx' : In x (L1 ++ a :: L2)) by (apply I; now right).
      apply in_app_or in Hx'. apply in_or_app. destruct Hx' as [?|[<-|?]]; auto. contradiction. }
    specialize (IH (L1 ++ L2) NDt' NDL' I').
    assert (EQ : forall l, ~ In a l -> flat_map (fun k => olist (get ((a, v) :: t) k)) l = flat_map (fun k => olist (get t k)) l).
    { induction l as [|x l IHl]; cbn [flat_map In]; [reflexivity|]. intros H. rewrite Hc.
      destruct (dec x a) as [->|]; [exfalso; tauto|]. rewrite IHl; tauto. }
    rewrite flat_map_app in *. cbn [flat_map]. rewrite Hc. destruct (dec a a) as [_|]; [|congruence]. cbn [olist].
    rewrite !EQ by (intros H; apply Hni'; apply in_or_app; tauto).
    rewrite IH. rewrite !app_assoc. apply Permutation_app_tail. apply Permutation_app_comm.
Qed.

Lemma idx_keys {V} (f : N -> list V) L : NoDup L -> forall i L0,
  (forall x, In x L -> idx 0 L0 x = idx i L x) ->
  flat_map (fun id => olist (match idx 0 L0 id with Some k => Some (f k) | None => None end)) L
  = flat_map f (map (fun j => i + N.of_nat j)%N (seq 0 (List.length L))).
Proof.
  induction 1 as [|x L Hx ND IH]; intros i L0 H; cbn [flat_map map seq List.length]; [reflexivity|].
  rewrite (H x) by now left. cbn [idx]. destruct (IdentifierPrefix_eq_dec x x); [|congruence]. cbn [olist].
  f_equal; [f_equal; lia|].
  rewrite (IH (i + 1)%N L0).
  - rewrite <- seq_shift, map_map. f_equal. apply map_ext. intros j. lia.
  - intros y Hy. rewrite H by now right. cbn [idx].
    destruct (IdentifierPrefix_eq_dec x y) as [->|]; [contradiction|reflexivity].
Qed.

Lemma ascending_nodup {V} (t : tree V) : ascending t -> NoDup (map fst t).
Proof.
  unfold ascending. induction (map fst t) as [|a l IH]; intros H; [constructor|].
  apply StronglySorted_inv in H. destruct H as [Hs Ha]. constructor; [|auto].
  intros Hin. rewrite Forall_forall in Ha. apply Ha in Hin. lia.
Qed.

Lemma all_perm s d L n : Rel s d L -> Permutation (flat_map snd (stab n s)) (flat_map snd (dtab n d)).
Proof.
  intros R.
  rewrite (flat_map_snd_perm IdentifierPrefix_eq_dec (aget IdentifierPrefix_eq_dec)) with (t := dtab n d) (L := L);
    [|reflexivity|reflexivity|apply (r_dnodup _ _ _ R)|apply (r_nodup _ _ _ R)|apply (r_dincl _ _ _ R)].
  rewrite (flat_map_snd_perm N.eq_dec (@tr_get _)) with (t := stab n s)
    (L := map (fun j => 0 + N.of_nat j)%N (seq 0 (List.length L))).
  - rewrite <- (idx_keys (fun k => olist (tr_get (stab n s) k)) L (r_nodup _ _ _ R) 0 L) by reflexivity.
    erewrite flat_map_ext; [apply Permutation_refl|]. intros id. cbn.
    change (aget IdentifierPrefix_eq_dec (dtab n d) id) with (tget (dtab n d) id).
    rewrite (r_tab _ _ _ R). destruct (idx 0 L id); reflexivity.
  - intros a v t k. cbn [tr_get]. destruct (k =? a)%N eqn:E, (N.eq_dec k a) as [E'|E']; try reflexivity;
      [apply N.eqb_eq in E|apply N.eqb_neq in E]; congruence.
  - reflexivity.
  - apply ascending_nodup, (r_asc _ _ _ R).
  - apply FinFun.Injective_map_NoDup; [intros a b H; lia|apply seq_NoDup].
  - intros k Hk. apply in_map_iff. exists (N.to_nat k). split; [lia|]. apply in_seq.
    destruct (N.le_gt_cases (N.of_nat (List.length L)) k) as [H|H]; [|lia].
    apply (r_fresh _ _ _ R n) in H. apply tr_get_none in H. contradiction.
Qed.

Theorem sop_refines {A} (o : op A) s d L : Rel s d L -> op_ok o ->
  exists L', Rel (fst (sop o s)) (fst (op_sem o d)) L'
    /\ same_result o (snd (sop o s)) (snd (op_sem o d))
    /\ (exists M, L' = L ++ M).
Proof.
  intros R Hok. unfold sop.
  assert (EX : forall L' id, L' = L \/ (~ In id L /\ L' = L ++ [id]) -> exists M, L' = L ++ M).
  { intros L' id [->|[_ ->]]; [exists []; now rewrite app_nil_r|now exists [id]]. }
  destruct o as [n id|n id x|n id x|n id l|n]; cbn [expand_op op_ok] in *;
    try (destruct (designated_spec s d L id R Hok) as (s' & L' & k & Hd & R' & Hk & Ht & HL);
         rewrite sinterp_pbind, Hd; exists L').
  - cbn [sinterp prim_sem fst snd op_sem same_result]. split; [exact R'|]. split; [|eauto].
    rewrite (r_tab _ _ _ R'), Hk. reflexivity.
  - cbn [pbind sinterp prim_sem fst snd op_sem same_result]. split; [|split; [reflexivity|eauto]].
    unfold tpush. rewrite (r_tab _ _ _ R'), Hk. destruct (tr_get (stab n s') k); now apply Rel_put.
  - cbn [pbind sinterp prim_sem]. unfold op_sem, tremove. rewrite (r_tab _ _ _ R'), Hk.
    destruct (tr_get (stab n s') k) eqn:Eg; cbn [sinterp prim_sem fst snd same_result].
    + split; [now apply Rel_put|split; [reflexivity|eauto]].
    + split; [|split; [reflexivity|eauto]].
      replace (dset n d (dtab n d)) with d by (destruct d, n; reflexivity). exact R'.
  - cbn [sinterp prim_sem fst snd op_sem same_result]. split; [now apply Rel_put|split; [reflexivity|eauto]].
  - exists L. cbn [sinterp prim_sem fst snd op_sem same_result]. split; [exact R|].
    split; [now apply (all_perm s d L)|exists []; now rewrite app_nil_r].
Qed.

(** ** histories of operations *)
Definition any_ok (a : anyop) : Prop := match a with AnyOp _ o => op_ok o end.
Definition dops (d : Db) (h : list anyop) : Db :=
  fold_left (fun d a => match a with AnyOp _ o => fst (op_sem o d) end) h d.
Lemma sops_refines h : Forall any_ok h -> forall s d L, Rel s d L ->
  exists M, Rel (sops s h) (dops d h) (L ++ M).
Proof.
  induction 1 as [|[A o] h Ho Hh IH]; intros s d L R; cbn [sops dops fold_left].
  - exists []. now rewrite app_nil_r.
  - destruct (sop_refines o s d L R Ho) as (L' & R' & _ & M & ->).
    destruct (IH _ _ _ R') as [M' R'']. exists (M ++ M'). now rewrite app_assoc.
Qed.
Definition lookup (s : Sled) (n : tname) (id : IdentifierPrefix) : option (list (tty n)) :=
  snd (sop (OGet n id) s).
Definition number (s : Sled) (id : IdentifierPrefix) : option N := find_text (s_ids s) (id_str id).

Lemma lookup_rel s d L n id : Rel s d L -> id_ok id -> lookup s n id = tget (dtab n d) id.
Proof.
  intros R H. destruct (sop_refines (OGet n id) s d L R H) as (L' & _ & E & _). exact E.
Qed.
Lemma number_rel s d L id : Rel s d L -> id_ok id -> number s id = idx 0 L id.
Proof.
  intros R H. unfold number. rewrite (r_ids _ _ _ R). apply find_ids_from; [apply (r_ok _ _ _ R)|exact H].
Qed.

Theorem c38_injective h a b k : Forall any_ok h -> id_ok a -> id_ok b ->
  number (sops sled_empty h) a = Some k -> number (sops sled_empty h) b = Some k -> a = b.
Proof.
  intros Hh Ha Hb. destruct (sops_refines h Hh _ _ _ Rel_empty) as [M R].
  rewrite !(number_rel _ _ _ _ R) by assumption. apply idx_inj.
Qed.
Theorem c38_stable h h' a k : Forall any_ok h -> Forall any_ok h' -> id_ok a ->
  number (sops sled_empty h) a = Some k -> number (sops sled_empty (h ++ h')) a = Some k.
Proof.
  intros Hh Hh' Ha. destruct (sops_refines h Hh _ _ _ Rel_empty) as [M R].
  destruct (sops_refines h' Hh' _ _ _ R) as [M' R'].
  unfold sops at 2. rewrite fold_left_app. fold (sops sled_empty h).
  change (fold_left _ h' (sops sled_empty h)) with (sops (sops sled_empty h) h').
  rewrite (number_rel _ _ _ _ R), (number_rel _ _ _ _ R') by assumption. apply idx_app.
Qed.

Lemma tget_tput {T} (t : table T) id l id' :
  tget (tput t id l) id' = if IdentifierPrefix_eq_dec id' id then Some l else tget t id'.
Proof. apply aget_aput. Qed.

Section Laws.
  Context (h : list anyop) (Hh : Forall any_ok h).
  Let s := sops sled_empty h.
  Lemma law_rel : exists d L, Rel s d L.
  Proof. destruct (sops_refines h Hh _ _ _ Rel_empty) as [M R]. eauto. Qed.
  Lemma law_any {A} (o : op A) n id : op_ok o -> id_ok id ->
    exists d, (forall m i, id_ok i -> lookup s m i = tget (dtab m d) i)
      /\ lookup (fst (sop o s)) n id = tget (dtab n (fst (op_sem o d))) id.
  Proof.
    intros Ho Hid. destruct law_rel as (d & L & R). exists d. split.
    - intros m i Hi. now apply (lookup_rel _ _ L).
    - destruct (sop_refines o s d L R Ho) as (L' & R' & _). now apply (lookup_rel _ _ L').
  Qed.
  Theorem law_push n id x : id_ok id ->
    lookup (fst (sop (OPush n id x) s)) n id = Some (olist (lookup s n id) ++ [x]).
  Proof.
    intros H. destruct (law_any (OPush n id x) n id H H) as (d & E & ->). rewrite E by exact H.
    cbn [op_sem fst]. rewrite dtab_dset_same. unfold tpush.
    destruct (tget (dtab n d) id); rewrite tget_tput; destruct (IdentifierPrefix_eq_dec id id); try congruence; reflexivity.
  Qed.
  Theorem law_remove n id x : id_ok id ->
    lookup (fst (sop (ORemove n id x) s)) n id =
    match lookup s n id with Some l => Some (filter (fun e => negb (teqb n e x)) l) | None => None end.
  Proof.
    intros H. destruct (law_any (ORemove n id x) n id H H) as (d & E & ->). rewrite E by exact H.
    cbn [op_sem fst]. rewrite dtab_dset_same. unfold tremove.
    destruct (tget (dtab n d) id) eqn:G; [|exact G].
    rewrite tget_tput; destruct (IdentifierPrefix_eq_dec id id); congruence.
  Qed.
  Theorem law_put n id l : id_ok id -> lookup (fst (sop (OPut n id l) s)) n id = Some l.
  Proof.
    intros H. destruct (law_any (OPut n id l) n id H H) as (d & E & ->).
    cbn [op_sem fst]. rewrite dtab_dset_same, tget_tput. destruct (IdentifierPrefix_eq_dec id id); congruence.
  Qed.
  (** what an operation writes to *)
  Definition writes_to {A} (o : op A) (n : tname) (id : IdentifierPrefix) : Prop :=
    match o with
    | OPush m i _ | ORemove m i _ | OPut m i _ => m = n /\ i = id
    | _ => False
    end.
  Theorem law_frame {A} (o : op A) n id : op_ok o -> id_ok id -> ~ writes_to o n id ->
    lookup (fst (sop o s)) n id = lookup s n id.
  Proof.
    intros Ho H NW. destruct (law_any o n id Ho H) as (d & E & ->). rewrite E by exact H.
    destruct o as [m i|m i x|m i x|m i l|m]; cbn [op_sem fst writes_to] in *; try reflexivity;
      (destruct (tname_eq_dec m n) as [->|Hm];
       [rewrite dtab_dset_same|now rewrite dtab_dset_other]);
      assert (Hi : id <> i) by (intros ->; tauto).
    - unfold tpush. destruct (tget (dtab n d) i); rewrite tget_tput;
        destruct (IdentifierPrefix_eq_dec id i); congruence.
    - unfold tremove. destruct (tget (dtab n d) i); [|reflexivity]. rewrite tget_tput;
        destruct (IdentifierPrefix_eq_dec id i); congruence.
    - rewrite tget_tput; destruct (IdentifierPrefix_eq_dec id i); congruence.
  Qed.
  Theorem law_all n :
    exists ids, NoDup ids /\ Forall id_ok ids
      /\ (forall id, id_ok id -> In id ids <-> lookup s n id <> None)
      /\ Permutation (snd (sop (OAll n) s)) (flat_map (fun id => olist (lookup s n id)) ids).
  Proof.
    destruct law_rel as (d & L & R).
    exists (map fst (dtab n d)).
    assert (OK : Forall id_ok (map fst (dtab n d))).
    { apply Forall_forall. intros x Hx. apply (r_dincl _ _ _ R) in Hx.
      pose proof (r_ok _ _ _ R) as F. rewrite Forall_forall in F. auto. }
    split; [apply (r_dnodup _ _ _ R)|]. split; [exact OK|].
    assert (NN : forall (t : table (tty n)) id, In id (map fst t) <-> tget t id <> None).
    { intros t id. unfold tget. induction t as [|[a v] t IH]; cbn [map fst In aget]; [tauto|].
      destruct (IdentifierPrefix_eq_dec id a) as [->|Hne]; [split; [discriminate|auto]|].
      rewrite <- IH. split; [intros [->|?]; [congruence|auto]|auto]. }
    split.
    - intros id Hid. rewrite (lookup_rel s d L n id R Hid). apply NN.
    - cbn [sop expand_op sinterp prim_sem snd].
      rewrite (all_perm s d L n R).
      rewrite (flat_map_snd_perm IdentifierPrefix_eq_dec (aget IdentifierPrefix_eq_dec)) with (t := dtab n d) (L := map fst (dtab n d));
        [|reflexivity|reflexivity|apply (r_dnodup _ _ _ R)|apply (r_dnodup _ _ _ R)|apply incl_refl].
      rewrite !flat_map_concat_map.
      erewrite map_ext_in; [apply Permutation_refl|]. intros id Hid. cbn.
      rewrite (lookup_rel s d L n id R); [reflexivity|]. rewrite Forall_forall in OK. auto.
  Qed.
End Laws.

(** ** whole programs *)
Fixpoint safe {R} (p : prog op R) (d : Db) : Prop :=
  match p with
  | Ret _ => True
  | Do o k => op_ok o /\ (match o with OAll _ => False | _ => True end)
              /\ let (d', a) := op_sem o d in safe (k a) d'
  end.
Lemma safe_pbind {A B} (p : prog op A) (k : A -> prog op B) d :
  safe (pbind p k) d <-> safe p d /\ (let (d', a) := interp p d in safe (k a) d').
Proof.
  revert d. induction p as [r|X o k' IH]; intros d; cbn [pbind safe interp]; [tauto|].
  destruct (op_sem o d) as [d' a]. rewrite IH. tauto.
Qed.
Theorem expand_refines {A} (p : prog op A) : forall s d L, Rel s d L -> safe p d ->
  exists M, Rel (fst (sinterp (expand p) s)) (fst (interp p d)) (L ++ M)
    /\ snd (sinterp (expand p) s) = snd (interp p d).
Proof.
  induction p as [r|X o k IH]; intros s d L R; cbn [expand interp safe sinterp].
  - intros _. exists []. rewrite app_nil_r. auto.
  - intros (Ho & Hall & Hs). rewrite sinterp_pbind.
    destruct (sop_refines o s d L R Ho) as (L' & R' & E & M & ->). unfold sop in *.
    destruct (sinterp (expand_op o) s) as [s' a'] eqn:Es. destruct (op_sem o d) as [d' a] eqn:Ed. cbn [fst snd] in *.
    assert (a' = a) as -> by (destruct o; exact E || contradiction).
    destruct (IH a s' d' (L ++ M) R' Hs) as (M' & R2 & E2). exists (M ++ M'). rewrite app_assoc. auto.
Qed.
