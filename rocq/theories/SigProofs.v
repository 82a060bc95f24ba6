(** * SigProofs: signature verification meets its specification (C12-C18). *)
From Coq Require Import QArith Lqa Permutation.
From Verif Require Import Base Base64 Codes NumFmt Types KeyConf SpecSig State Db Processor Spec
  StateProofs LogProofs LogTheorems.
Local Open Scope nat_scope.

(** ** Sums of fractions *)
Lemma frac_add_weight a b : rational a -> rational b ->
  rational (frac_add a b) /\ (weight (frac_add a b) == weight a + weight b)%Q.
Proof.
  destruct a as [| |n1 d1], b as [| |n2 d2]; cbn; try tauto. intros H1 H2. split; [nia|].
  unfold Qeq, Qplus; cbn. rewrite !N.succ_pos_spec || idtac.
  assert (P : forall d, d <> 0%N -> Z.pos (N.succ_pos (N.pred d)) = Z.of_N d).
  { intros d Hd. rewrite <- (N.succ_pred d Hd) at 2.
    change (Z.pos (N.succ_pos (N.pred d))) with (Z.of_N (N.pos (N.succ_pos (N.pred d)))).
    now rewrite N.succ_pos_spec. }
  rewrite !Pos2Z.inj_mul, !P by nia. rewrite N2Z.inj_add, !N2Z.inj_mul. ring.
Qed.
Lemma frac_ge1_weight a : rational a -> (frac_ge1 a = true <-> (1 <= weight a)%Q).
Proof.
  destruct a as [| |n d]; cbn; try tauto. intros H. rewrite N.leb_le. unfold Qle; cbn.
  assert (P : Z.pos (N.succ_pos (N.pred d)) = Z.of_N d).
  { rewrite <- (N.succ_pred d H) at 2.
    change (Z.pos (N.succ_pos (N.pred d))) with (Z.of_N (N.pos (N.succ_pos (N.pred d)))).
    now rewrite N.succ_pos_spec. }
  rewrite P. lia.
Qed.
Lemma weight_nonneg a : (0 <= weight a)%Q.
Proof. destruct a as [| |n d]; cbn; unfold Qle; cbn; lia. Qed.

Definition sum_step (c : ThresholdClause) (start : N) :=
  fun (acc : out frac) (sig : AttachedSignaturePrefix) =>
    let? a := acc in
    if (asp_index sig <? start)%N then Panic
    else match nth_error c (N.to_nat (asp_index sig - start)) with
         | Some w => Ok (frac_add a w)
         | None => Panic
         end.
Definition in_clause (start : nat) (c : ThresholdClause) (s : AttachedSignaturePrefix) : Prop :=
  start <= index_of s < start + List.length c.

Lemma sum_step_panic c start sigs : fold_left (sum_step c start) sigs Panic = Panic.
Proof. induction sigs; auto. Qed.
Lemma clause_sum_weight c start sigs a :
  Forall rational c -> rational a -> Forall (in_clause (N.to_nat start) c) sigs ->
  exists r, fold_left (sum_step c start) sigs (Ok a) = Ok r /\ rational r
    /\ (weight r == weight a + total_weight (N.to_nat start) c sigs)%Q.
Proof.
  intros Hc. revert a. induction sigs as [|s sigs IH]; intros a Ha Hs.
  - exists a. repeat split; auto. cbn. ring.
  - inversion Hs as [|? ? [H1 H2] Hs']; subst. unfold index_of in *. cbn [fold_left].
    unfold sum_step at 2. cbn [obind].
    destruct (N.ltb_spec (asp_index s) start); [lia|].
    replace (N.to_nat (asp_index s - start)) with (N.to_nat (asp_index s) - N.to_nat start) by lia.
    destruct (nth_error c (N.to_nat (asp_index s) - N.to_nat start)) as [w|] eqn:Hw;
      [|apply nth_error_None in Hw; lia].
    assert (Hwr : rational w) by (rewrite Forall_forall in Hc; apply Hc; eapply nth_error_In; eauto).
    destruct (frac_add_weight a w Ha Hwr) as [R1 R2].
    destruct (IH _ R1 Hs') as (r & Hr & Hrr & Hw2). exists r. split; [exact Hr|]. split; [exact Hrr|].
    rewrite Hw2, R2. assert (Hkw : key_weight (N.to_nat start) c (index_of s) = weight w).
    { unfold key_weight, index_of. destruct (Nat.leb_spec (N.to_nat start) (N.to_nat (asp_index s))); [|lia].
      now rewrite Hw. }
    unfold total_weight. cbn [map fold_right]. rewrite Hkw. ring.
Qed.
Lemma clause_sum_panics c start sigs a :
  Exists (fun s => ~ in_clause (N.to_nat start) c s) sigs ->
  fold_left (sum_step c start) sigs (Ok a) = Panic.
Proof.
  revert a. induction sigs as [|s sigs IH]; intros a H; [inversion H|]. cbn [fold_left].
  unfold sum_step at 2. cbn [obind]. destruct (N.ltb_spec (asp_index s) start); [apply sum_step_panic|].
  destruct (nth_error c (N.to_nat (asp_index s - start))) as [w|] eqn:Hw; [|apply sum_step_panic].
  apply IH. inversion H as [? ? Hn|]; subst; [|assumption]. exfalso. apply Hn. unfold in_clause, index_of.
  assert (N.to_nat (asp_index s - start) < List.length c) by (apply nth_error_Some; congruence). lia.
Qed.
Lemma clause_enough_weight c start sigs :
  Forall rational c -> Forall (in_clause (N.to_nat start) c) sigs ->
  exists b, clause_enough c start sigs = Ok b
    /\ (b = true <-> (1 <= total_weight (N.to_nat start) c sigs)%Q).
Proof.
  intros Hc Hs. destruct (clause_sum_weight c start sigs frac_zero Hc ltac:(cbn; discriminate) Hs) as (r & Hr & Hrr & Hw).
  exists (frac_ge1 r). split.
  - unfold clause_enough, clause_sum. fold (sum_step c start). rewrite Hr. reflexivity.
  - rewrite (frac_ge1_weight r Hrr), Hw. cbn [weight frac_zero]. split; intros H; [|].
    + eapply Qle_trans; [exact H|]. unfold Qle; cbn. destruct (total_weight _ _ _); cbn; lia.
    + eapply Qle_trans; [exact H|]. unfold Qle; cbn. destruct (total_weight _ _ _); cbn; lia.
Qed.
(** signatures outside the slice have weight zero in it *)
Lemma total_weight_filter start c sigs :
  (total_weight (N.to_nat start) c (filter (in_range start (N.of_nat (List.length c))) sigs)
   == total_weight (N.to_nat start) c sigs)%Q.
Proof.
  unfold total_weight. induction sigs as [|s sigs IH]; [reflexivity|]. cbn [filter map fold_right].
  destruct (in_range start (N.of_nat (List.length c)) s) eqn:Hr; cbn [map fold_right]; rewrite IH; [reflexivity|].
  unfold in_range in Hr. apply andb_false_iff in Hr.
  assert (Hz : key_weight (N.to_nat start) c (index_of s) = 0%Q).
  { unfold key_weight, index_of. destruct (Nat.leb_spec (N.to_nat start) (N.to_nat (asp_index s))); [|reflexivity].
    destruct Hr as [Hr|Hr]; [apply N.leb_gt in Hr; lia|]. apply N.ltb_ge in Hr.
    destruct (nth_error c _) eqn:Hn; [|reflexivity].
    assert (N.to_nat (asp_index s) - N.to_nat start < List.length c) by (apply nth_error_Some; congruence). lia. }
  rewrite Hz. ring.
Qed.

Lemma multi_weight sigs cs start :
  Forall (Forall rational) cs ->
  exists b n, fold_left (multi_step sigs) cs (Ok (start, true)) = Ok (n, b)
    /\ (b = true <-> Forall (fun sc => (1 <= total_weight (fst sc) (snd sc) sigs)%Q) (with_starts (N.to_nat start) cs)).
Proof.
  intros Hcs. revert start. induction Hcs as [|c cs Hc Hcs IH]; intros start.
  - exists true, start. split; [reflexivity|]. cbn. split; [constructor|reflexivity].
  - cbn [fold_left with_starts].
    assert (Hin : Forall (in_clause (N.to_nat start) c) (filter (in_range start (N.of_nat (List.length c))) sigs)).
    { apply Forall_forall. intros s Hs. apply filter_In in Hs. destruct Hs as [_ Hs]. unfold in_range in Hs.
      apply andb_true_iff in Hs. destruct Hs as [H1 H2]. apply N.leb_le in H1. apply N.ltb_lt in H2.
      unfold in_clause, index_of. lia. }
    destruct (clause_enough_weight c start _ Hc Hin) as (b & Hb & Hw).
    unfold multi_step at 2. cbn [obind]. rewrite Hb. cbn [obind].
    rewrite total_weight_filter in Hw.
    replace (N.to_nat start + List.length c) with (N.to_nat (start + N.of_nat (List.length c))) by lia.
    destruct b.
    + destruct (IH (start + N.of_nat (List.length c))%N) as (b2 & n & Hf & Hb2).
      exists b2, n. split; [exact Hf|]. rewrite Hb2. split.
      * intros H. constructor; [now apply Hw|exact H].
      * intros H. now inversion H.
    + exists false. assert (G : forall cs n, exists n', fold_left (multi_step sigs) cs (Ok (n, false)) = Ok (n', false)).
      { induction cs0 as [|c0 cs0 IH0]; intros n; [now exists n|]. cbn. apply IH0. }
      destruct (G cs (start + N.of_nat (List.length c))%N) as [n' Hn']. exists n'. split; [exact Hn'|].
      split; [discriminate|]. intros H. inversion H as [|? ? Hx _]; subst. now apply Hw in Hx.
Qed.

Lemma multi_enough_weight cs sigs :
  Forall (Forall rational) cs ->
  exists b, multi_enough cs sigs = Ok b
    /\ (b = true <-> Forall (fun sc => (1 <= total_weight (fst sc) (snd sc) sigs)%Q) (with_starts 0 cs)).
Proof.
  intros H. destruct (multi_weight sigs cs 0 H) as (b & n & Hf & Hb). exists b. split; [|exact Hb].
  unfold multi_enough. rewrite Hf. reflexivity.
Qed.

(** [enough_signatures] for every threshold with rational weights *)
Lemma enough_spec t sigs :
  rational_threshold t -> in_single t sigs ->
  exists b, enough_signatures t sigs = Ok b /\ (b = true <-> threshold_met t sigs).
Proof.
  destruct t as [n|[c|cs]]; cbn; intros Hr Hs.
  - exists (n <=? N.of_nat (List.length sigs))%N. split; [reflexivity|apply N.leb_le].
  - destruct (clause_enough_weight c 0 sigs Hr) as (b & Hb & Hw).
    { eapply Forall_impl; [|exact Hs]. cbn. intros s H. unfold in_clause. cbn. lia. }
    exists b. split; [exact Hb|]. cbn in Hw. rewrite Hw. split.
    + intros H. constructor; [exact H|constructor].
    + intros H. now inversion H.
  - apply multi_enough_weight. exact Hr.
Qed.
Lemma enough_panics t sigs : ~ in_single t sigs -> enough_signatures t sigs = Panic.
Proof.
  destruct t as [n|[c|cs]]; cbn; try tauto. intros H.
  unfold clause_enough, clause_sum. fold (sum_step c 0). rewrite clause_sum_panics; [reflexivity|].
  assert (G : forall (l : list AttachedSignaturePrefix), ~ Forall (fun s => index_of s < List.length c) l ->
              Exists (fun s => ~ in_clause (N.to_nat 0) c s) l).
  { clear. induction l as [|x l IH]; intros H; [exfalso; apply H; constructor|].
    destruct (lt_dec (index_of x) (List.length c)) as [Hx|Hx].
    - right. apply IH. intros Hl. apply H. now constructor.
    - left. unfold in_clause. cbn. lia. }
  now apply G.
Qed.

(** ** Counting indices *)
Lemma bump_spec i acc acc' :
  bump i acc = Some acc' ->
  i < List.length acc /\ List.length acc' = List.length acc
  /\ forall j, nth j acc' 0%N = (nth j acc 0 + (if (j =? i)%nat then 1 else 0))%N.
Proof.
  revert i acc'. induction acc as [|n acc IH]; intros i acc' H; [destruct i; discriminate H|].
  destruct i as [|i]; cbn in H.
  - injection H as <-. cbn. repeat split; [lia|]. intros [|j]; cbn; lia.
  - destruct (bump i acc) as [r|] eqn:Hb; [|discriminate H]. injection H as <-.
    destruct (IH _ _ Hb) as (H1 & H2 & H3). cbn. repeat split; [lia|lia|].
    intros [|j]; [cbn; lia|]. cbn. apply H3.
Qed.
Lemma bump_none i acc : bump i acc = None <-> List.length acc <= i.
Proof.
  revert i. induction acc as [|n acc IH]; intros i; cbn; [destruct i; cbn; intuition lia|].
  destruct i as [|i]; cbn; [split; [discriminate|lia]|].
  destruct (bump i acc) eqn:Hb.
  - split; [discriminate|]. intros H. assert (List.length acc <= i) by lia. apply IH in H0. congruence.
  - split; [|reflexivity]. intros _. apply IH in Hb. lia.
Qed.
Definition cnt_step := fun (acc : out (list N)) (sig : AttachedSignaturePrefix) =>
  let? a := acc in match bump (N.to_nat (asp_index sig)) a with Some a' => Ok a' | None => Panic end.
Lemma cnt_panic sigs : fold_left cnt_step sigs Panic = Panic.
Proof. induction sigs; auto. Qed.
Lemma cnt_ok sigs acc :
  Forall (fun s => index_of s < List.length acc) sigs ->
  exists r, fold_left cnt_step sigs (Ok acc) = Ok r /\ List.length r = List.length acc
   /\ forall j, nth j r 0%N = (nth j acc 0 + N.of_nat (count_occ Nat.eq_dec (map index_of sigs) j))%N.
Proof.
  revert acc. induction sigs as [|s sigs IH]; intros acc H.
  - exists acc. repeat split. intros j. cbn. lia.
  - inversion H as [|? ? H1 H2]; subst. cbn [fold_left]. unfold cnt_step at 2. cbn [obind].
    fold (index_of s).
    destruct (bump (index_of s) acc) as [acc'|] eqn:Hb; [|apply bump_none in Hb; lia].
    destruct (bump_spec _ _ _ Hb) as (_ & Hlen & Hnth).
    destruct (IH acc') as (r & Hr & Hl & Hn).
    { eapply Forall_impl; [|exact H2]. cbn. intros; lia. }
    exists r. split; [exact Hr|]. split; [lia|]. intros j. rewrite Hn, Hnth. cbn [map count_occ].
    destruct (Nat.eq_dec (index_of s) j) as [<-|Hne]; [rewrite Nat.eqb_refl; lia|].
    destruct (Nat.eqb_spec j (index_of s)); [congruence|lia].
Qed.
Lemma cnt_panics sigs acc :
  ~ Forall (fun s => index_of s < List.length acc) sigs -> fold_left cnt_step sigs (Ok acc) = Panic.
Proof.
  revert acc. induction sigs as [|s sigs IH]; intros acc H; [exfalso; apply H; constructor|].
  cbn [fold_left]. unfold cnt_step at 2. cbn [obind]. fold (index_of s).
  destruct (bump (index_of s) acc) as [acc'|] eqn:Hb; [|apply cnt_panic].
  destruct (bump_spec _ _ _ Hb) as (Hi & Hlen & _). apply IH. intros Hf. apply H.
  constructor; [exact Hi|]. now rewrite Hlen in Hf.
Qed.
Lemma counts_nodup n sigs :
  Forall (fun s => index_of s < n) sigs ->
  exists r, count_indices n sigs = Ok r
    /\ (forallb (fun n => n <=? 1)%N r = true <-> NoDup (map index_of sigs)).
Proof.
  intros H. destruct (cnt_ok sigs (repeat 0%N n)) as (r & Hr & Hl & Hn).
  { rewrite repeat_length. exact H. }
  exists r. split; [exact Hr|]. rewrite repeat_length in Hl.
  assert (Hz : forall j, nth j (repeat 0%N n) 0%N = 0%N).
  { intros j. destruct (nth_in_or_default j (repeat 0%N n) 0%N) as [Hi|He]; [|exact He].
    now apply repeat_spec in Hi. }
  split.
  - intros Hf. apply (NoDup_count_occ Nat.eq_dec). intros j. rewrite forallb_forall in Hf.
    destruct (lt_dec j n) as [Hj|Hj].
    + specialize (Hf (nth j r 0%N) ltac:(apply nth_In; lia)). apply N.leb_le in Hf.
      rewrite Hn, Hz in Hf. lia.
    + enough (count_occ Nat.eq_dec (map index_of sigs) j = 0) by lia. apply count_occ_not_In.
      rewrite in_map_iff. intros (s & <- & Hs). rewrite Forall_forall in H. apply H in Hs. lia.
  - intros Hd.
    pose proof (proj1 (NoDup_count_occ Nat.eq_dec _) Hd) as Hc.
    apply forallb_forall. intros x Hx. apply In_nth with (d := 0%N) in Hx. destruct Hx as (j & _ & <-).
    rewrite Hn, Hz. apply N.leb_le. specialize (Hc j). lia.
Qed.
(** distinct indices below n: at most n of them *)
Lemma nodup_bound n (l : list nat) : NoDup l -> Forall (fun i => i < n) l -> List.length l <= n.
Proof.
  intros Hd Hf. rewrite <- (seq_length n 0). apply NoDup_incl_length; [exact Hd|].
  intros x Hx. rewrite Forall_forall in Hf. apply in_seq. apply Hf in Hx. lia.
Qed.

(** [Fraction::new] gives the weight it says *)
Lemma frac_new_weight n d : d <> 0%N -> rational (frac_new n d) /\ (weight (frac_new n d) == Z.of_N n # N.succ_pos (N.pred d))%Q.
Proof.
  intros Hd. unfold frac_new. destruct (N.eqb_spec d 0); [contradiction|].
  assert (Hg : N.gcd n d <> 0%N) by (intros Hz; apply N.gcd_eq_0_r in Hz; contradiction).
  destruct (N.gcd_divide_l n d) as [a Ha]. destruct (N.gcd_divide_r n d) as [b Hb].
  set (g := N.gcd n d) in *. clearbody g. subst n d. rewrite !N.div_mul by assumption.
  assert (Hb : b <> 0%N) by (intros ->; apply Hd; reflexivity).
  split; [exact Hb|]. cbn. unfold Qeq; cbn.
  assert (P : forall d, d <> 0%N -> Z.pos (N.succ_pos (N.pred d)) = Z.of_N d).
  { intros d Hd'. rewrite <- (N.succ_pred d Hd') at 2.
    change (Z.pos (N.succ_pos (N.pred d))) with (Z.of_N (N.pos (N.succ_pos (N.pred d)))).
    now rewrite N.succ_pos_spec. }
  rewrite !P by assumption. rewrite !N2Z.inj_mul. ring.
Qed.

Section WithEnv.
  Context (E : Env).

  Lemma key_verify_ok k msg s : key_verify E k msg s = Ok true <-> sig_ok E k msg s.
  Proof.
    unfold key_verify, sig_ok, is_ed25519, is_secp256k1.
    destruct (bp_code k) eqn:Hk, (ssp_code s) eqn:Hs;
      split; intros H;
      repeat match goal with
      | H : Ok _ = Ok _ |- _ => injection H as H
      | H : Err _ = Ok _ |- _ => discriminate H
      | H : _ \/ _ |- _ => destruct H as [H|H]
      | H : _ /\ _ |- _ => destruct H
      end; try discriminate; try congruence; try (f_equal; congruence); auto 6.
  Qed.
  Lemma key_verify_nopanic k msg s : key_verify E k msg s <> Panic.
  Proof. unfold key_verify. destruct (bp_code k), (ssp_code s); discriminate. Qed.

  Definition each_step (keys : list BasicPrefix) (msg : bytes) :=
    fun (acc : out bool) (sig : AttachedSignaturePrefix) =>
      let? a := acc in
      if (a : bool) then
        match nth_error keys (N.to_nat (asp_index sig)) with
        | None => Err (ESemantic "Key index not present in set")
        | Some key => key_verify E key msg (asp_sig sig)
        end
      else Ok false.
  Lemma each_ok keys msg sigs :
    fold_left (each_step keys msg) sigs (Ok true) = Ok true <->
    Forall (fun s => exists k, nth_error keys (index_of s) = Some k /\ sig_ok E k msg (asp_sig s)) sigs.
  Proof.
    assert (Hf : forall sigs a, fold_left (each_step keys msg) sigs a = Ok true -> a = Ok true).
    { induction sigs0 as [|s l IH]; intros a H; [exact H|]. cbn in H. apply IH in H.
      destruct a as [[|]| |]; cbn in H; try discriminate; reflexivity. }
    induction sigs as [|s l IH]; cbn [fold_left]; [split; [constructor|reflexivity]|].
    unfold each_step at 2. cbn [obind]. fold (index_of s). split.
    - intros H. pose proof (Hf _ _ H) as H1. rewrite H1 in H. constructor; [|now apply IH].
      destruct (nth_error keys (index_of s)) as [k|]; [|discriminate H1]. exists k. split; [reflexivity|].
      now apply key_verify_ok.
    - intros H. inversion H as [|? ? (k & Hk & Hs) Hl]; subst. rewrite Hk.
      apply key_verify_ok in Hs. rewrite Hs. now apply IH.
  Qed.
  Lemma each_nopanic keys msg sigs a :
    a <> Panic -> fold_left (each_step keys msg) sigs a <> Panic.
  Proof.
    revert a; induction sigs as [|s l IH]; intros a Ha; [exact Ha|]. cbn. apply IH.
    destruct a as [[|]| |]; cbn; try congruence; try discriminate.
    destruct (nth_error _ _); [apply key_verify_nopanic|discriminate].
  Qed.

  (** C12 / C13 *)
  Lemma in_range_nopanic kc sigs :
    Forall (fun s => index_of s < List.length (kc_keys kc)) sigs ->
    exists r, count_indices (List.length (kc_keys kc)) sigs = Ok r
      /\ (forallb (fun n => n <=? 1)%N r = true <-> NoDup (map index_of sigs)).
  Proof. apply counts_nodup. Qed.

  Lemma verify_sound_complete kc msg sigs :
    rational_threshold (kc_threshold kc) ->
    in_single (kc_threshold kc) sigs ->
    (kc_verify E kc msg sigs = Ok true <-> satisfies E kc msg sigs).
  Proof.
    intros Hr Hs. destruct (enough_spec _ _ Hr Hs) as (b & Hb & Hm).
    unfold kc_verify, satisfies. rewrite Hb. cbn [obind]. split.
    - destruct b; cbn; [|discriminate]. destruct (Nat.leb_spec (List.length sigs) (List.length (kc_keys kc))); [|discriminate].
      intros Hx. apply obind_ok in Hx. destruct Hx as (r & Hc & Hx).
      assert (Hin : Forall (fun s => index_of s < List.length (kc_keys kc)) sigs).
      { destruct (Forall_dec (fun s => index_of s < List.length (kc_keys kc))
                    (fun s => lt_dec _ _) sigs) as [Hf|Hf]; [exact Hf|].
        exfalso. unfold count_indices in Hc. fold cnt_step in Hc. rewrite cnt_panics in Hc; [discriminate Hc|].
        now rewrite repeat_length. }
      destruct (counts_nodup _ _ Hin) as (r' & Hc' & Hd). rewrite Hc in Hc'. injection Hc' as <-.
      destruct (forallb _ r); [|discriminate Hx]. split; [now apply Hm|]. split; [now apply Hd|].
      unfold verify_each in Hx. fold (each_step (kc_keys kc) msg) in Hx. now apply each_ok.
    - intros (Ht & Hd & Hf). apply Hm in Ht. subst b. cbn.
      assert (Hin : Forall (fun s => index_of s < List.length (kc_keys kc)) sigs).
      { eapply Forall_impl; [|exact Hf]. cbn. intros s (k & Hk & _). apply nth_error_Some. congruence. }
      pose proof (nodup_bound (List.length (kc_keys kc)) _ Hd ltac:(now apply Forall_map)) as Hlen.
      rewrite map_length in Hlen. apply Nat.leb_le in Hlen. rewrite Hlen.
      destruct (counts_nodup _ _ Hin) as (r & Hc & Hd'). rewrite Hc. cbn.
      apply Hd' in Hd. rewrite Hd. unfold verify_each. fold (each_step (kc_keys kc) msg). now apply each_ok.
  Qed.

  (** acceptance implies the specification, whatever the weights and indices *)
  Lemma verify_ok_parts kc msg sigs :
    kc_verify E kc msg sigs = Ok true ->
    enough_signatures (kc_threshold kc) sigs = Ok true
    /\ NoDup (map index_of sigs)
    /\ Forall (fun s => exists k, nth_error (kc_keys kc) (index_of s) = Some k /\ sig_ok E k msg (asp_sig s)) sigs.
  Proof.
    unfold kc_verify. intros H. apply obind_ok in H. destruct H as (b & Hb & H).
    destruct b; cbn in H; [|discriminate H]. split; [exact Hb|].
    destruct (Nat.leb_spec (List.length sigs) (List.length (kc_keys kc))); [|discriminate].
    apply obind_ok in H. destruct H as (r & Hc & Hx).
    assert (Hin : Forall (fun s => index_of s < List.length (kc_keys kc)) sigs).
    { destruct (Forall_dec (fun s => index_of s < List.length (kc_keys kc))
                  (fun s => lt_dec _ _) sigs) as [Hf|Hf]; [exact Hf|].
      exfalso. unfold count_indices in Hc. fold cnt_step in Hc. rewrite cnt_panics in Hc; [discriminate Hc|].
      now rewrite repeat_length. }
    destruct (counts_nodup _ _ Hin) as (r' & Hc' & Hd). rewrite Hc in Hc'. injection Hc' as <-.
    destruct (forallb _ r); [|discriminate Hx]. split; [now apply Hd|].
    unfold verify_each in Hx. fold (each_step (kc_keys kc) msg) in Hx. now apply each_ok.
  Qed.
  Lemma verify_sound kc msg sigs :
    rational_threshold (kc_threshold kc) ->
    kc_verify E kc msg sigs = Ok true -> satisfies E kc msg sigs.
  Proof.
    intros Hr H. apply verify_sound_complete; auto.
    destruct (verify_ok_parts _ _ _ H) as (He & _).
    destruct (kc_threshold kc) as [n|[c|cs]] eqn:Ht; cbn; auto.
    destruct (Forall_dec (fun s => index_of s < List.length c) (fun s => lt_dec _ _) sigs) as [Hf|Hf]; [exact Hf|].
    exfalso. rewrite (enough_panics (Weighted (WSingle c))) in He; [discriminate He|exact Hf].
  Qed.

  (** C14 *)
  Lemma verify_panics_iff kc msg sigs :
    rational_threshold (kc_threshold kc) ->
    (kc_verify E kc msg sigs = Panic <->
     ~ in_single (kc_threshold kc) sigs
     \/ (threshold_met (kc_threshold kc) sigs /\ List.length sigs <= List.length (kc_keys kc)
         /\ ~ Forall (fun s => index_of s < List.length (kc_keys kc)) sigs)).
  Proof.
    intros Hr.
    assert (Hdec : in_single (kc_threshold kc) sigs \/ ~ in_single (kc_threshold kc) sigs).
    { destruct (kc_threshold kc) as [n|[c|cs]]; cbn; auto.
      destruct (Forall_dec (fun s => index_of s < List.length c) (fun s => lt_dec _ _) sigs); auto. }
    destruct Hdec as [Hs|Hs].
    2:{ split; [auto|]. intros _. unfold kc_verify. now rewrite enough_panics. }
    destruct (enough_spec _ _ Hr Hs) as (b & Hb & Hm). unfold kc_verify. rewrite Hb. cbn [obind].
    destruct b; cbn; [|split; [discriminate|]; intros [H|(H & _)]; [contradiction|]; apply Hm in H; discriminate].
    assert (Ht : threshold_met (kc_threshold kc) sigs) by now apply Hm.
    destruct (Nat.leb_spec (List.length sigs) (List.length (kc_keys kc))) as [Hl|Hl];
      [|split; [discriminate|]; intros [H|(_ & H & _)]; [contradiction|lia]].
    destruct (Forall_dec (fun s => index_of s < List.length (kc_keys kc)) (fun s => lt_dec _ _) sigs) as [Hf|Hf].
    - destruct (counts_nodup _ _ Hf) as (r & -> & _). cbn. split.
      + intros H. exfalso. destruct (forallb _ r); [|discriminate H]. revert H. unfold verify_each.
        fold (each_step (kc_keys kc) msg). apply each_nopanic. discriminate.
      + intros [H|(_ & _ & H)]; contradiction.
    - assert (Hc : count_indices (List.length (kc_keys kc)) sigs = Panic).
      { unfold count_indices. fold cnt_step. apply cnt_panics. now rewrite repeat_length. }
      rewrite Hc. cbn. split; [|reflexivity]. intros _. right. auto.
  Qed.

  (** C15 *)
  Lemma total_weight_perm st c s1 s2 : Permutation s1 s2 -> (total_weight st c s1 == total_weight st c s2)%Q.
  Proof.
    unfold total_weight. induction 1; cbn; try reflexivity.
    - now rewrite IHPermutation.
    - ring.
    - now rewrite IHPermutation1.
  Qed.
  Lemma threshold_met_perm t s1 s2 : Permutation s1 s2 -> threshold_met t s1 -> threshold_met t s2.
  Proof.
    intros HP. destruct t as [n|w]; cbn.
    - now rewrite (Permutation_length HP).
    - intros H. eapply Forall_impl; [|exact H]. cbn. intros sc Hs. now rewrite <- (total_weight_perm _ _ _ _ HP).
  Qed.
  Lemma satisfies_perm kc msg s1 s2 : Permutation s1 s2 -> satisfies E kc msg s1 -> satisfies E kc msg s2.
  Proof.
    intros HP (H1 & H2 & H3). split; [eapply threshold_met_perm; eauto|]. split.
    - eapply Permutation_NoDup; [apply Permutation_map, HP|exact H2].
    - eapply Permutation_Forall; eauto.
  Qed.
  Lemma in_single_perm t s1 s2 : Permutation s1 s2 -> in_single t s1 -> in_single t s2.
  Proof. intros HP. destruct t as [n|[c|cs]]; cbn; auto. now apply Permutation_Forall. Qed.
  Lemma verify_in_single kc msg sigs : kc_verify E kc msg sigs = Ok true -> in_single (kc_threshold kc) sigs.
  Proof.
    intros H. destruct (verify_ok_parts _ _ _ H) as (He & _).
    destruct (kc_threshold kc) as [n|[c|cs]]; cbn; auto.
    destruct (Forall_dec (fun s => index_of s < List.length c) (fun s => lt_dec _ _) sigs) as [Hf|Hf]; [exact Hf|].
    exfalso. rewrite (enough_panics (Weighted (WSingle c))) in He; [discriminate He|exact Hf].
  Qed.
  Lemma c15_perm kc msg s1 s2 :
    rational_threshold (kc_threshold kc) -> Permutation s1 s2 ->
    (kc_verify E kc msg s1 = Ok true <-> kc_verify E kc msg s2 = Ok true).
  Proof.
    intros Hr.
    assert (G : forall a b, Permutation a b -> kc_verify E kc msg a = Ok true -> kc_verify E kc msg b = Ok true).
    { intros a b HP H. apply verify_sound_complete; [exact Hr| |].
      - eapply in_single_perm; [exact HP|]. eapply verify_in_single; eauto.
      - eapply satisfies_perm; [exact HP|]. now apply verify_sound. }
    intros HP. split; apply G; [exact HP|now symmetry].
  Qed.
  Lemma threshold_met_cons t s sigs : threshold_met t sigs -> threshold_met t (s :: sigs).
  Proof.
    destruct t as [n|w]; cbn [threshold_met List.length]; [lia|]. intros H.
    eapply Forall_impl; [|exact H]. cbn. intros sc Hs. eapply Qle_trans; [exact Hs|].
    unfold total_weight. cbn.
    assert (Hz : (0 <= key_weight (fst sc) (snd sc) (index_of s))%Q).
    { unfold key_weight. destruct (fst sc <=? index_of s); [|apply Qle_refl].
      destruct (nth_error (snd sc) _); [apply weight_nonneg|apply Qle_refl]. }
    lra.
  Qed.
  Lemma c15_more kc msg s sigs k :
    rational_threshold (kc_threshold kc) -> in_single (kc_threshold kc) [s] ->
    kc_verify E kc msg sigs = Ok true ->
    nth_error (kc_keys kc) (index_of s) = Some k -> sig_ok E k msg (asp_sig s) ->
    ~ In (index_of s) (map index_of sigs) ->
    kc_verify E kc msg (s :: sigs) = Ok true.
  Proof.
    intros Hr Hs H Hk Hok Hni. apply verify_sound_complete; [exact Hr| |].
    - apply verify_in_single in H. destruct (kc_threshold kc) as [n|[c|cs]]; cbn in *; auto.
      inversion Hs; subst. now constructor.
    - destruct (verify_sound _ _ _ Hr H) as (H1 & H2 & H3). split; [now apply threshold_met_cons|]. split.
      + cbn. now constructor.
      + constructor; eauto.
  Qed.

  (** C16 *)
  Lemma xor_all_perm z l1 l2 : Permutation l1 l2 -> xor_all z l1 = xor_all z l2.
  Proof.
    induction 1 as [|x l1 l2 _ IH|x y l|l1 l2 l3 _ IH1 _ IH2]; [reflexivity| | |congruence].
    - now rewrite !xor_all_cons, IH.
    - rewrite !xor_all_cons, !xor_bytes_assoc. f_equal. apply xor_bytes_comm.
  Qed.
  Lemma c16_order t k1 k2 d : Permutation k1 k2 -> nxt_commitment E t k1 d = nxt_commitment E t k2 d.
  Proof. intros H. rewrite !nxt_commitment_xor. f_equal. apply xor_all_perm. now apply Permutation_map. Qed.
  Lemma c16_self t keys kc d :
    kc_next kc = Some (nxt_commitment E (kc_threshold t) keys d) -> kc_keys t = keys -> computable d ->
    verify_next E kc t = Ok true.
  Proof.
    intros Hn <- Hcm. unfold verify_next, commit. rewrite Hn.
    assert (Hc : sap_code (nxt_commitment E (kc_threshold t) (kc_keys t) d) = d) by now rewrite nxt_commitment_xor.
    rewrite Hc. apply aborts_computable in Hcm. rewrite Hcm. destruct (SAP_eq_dec _ _); congruence.
  Qed.

  (** C17 *)
  Lemma xor_bytes_self_cancel a b : List.length b = List.length a -> xor_bytes (xor_bytes a b) b = a.
  Proof.
    revert b; induction a as [|x a IH]; intros [|y b] H; cbn in *; try discriminate; [reflexivity|].
    f_equal; [|apply IH; lia]. apply b2n_inj. rewrite !b2n_xor, N.lxor_assoc, N.lxor_nilpotent. apply N.lxor_0_r.
  Qed.
  Lemma xor_bytes_len a b : List.length a = List.length b -> List.length (xor_bytes a b) = List.length a.
  Proof. revert b; induction a as [|x a IH]; intros [|y b] H; cbn in *; try discriminate; auto. Qed.
  Lemma xor_all_len n z l :
    List.length z = n -> Forall (fun x => List.length x = n) l -> List.length (xor_all z l) = n.
  Proof.
    intros Hz Hl. induction Hl as [|x l Hx Hl IH]; [exact Hz|]. rewrite xor_all_cons, xor_bytes_len; congruence.
  Qed.
  Lemma c17_cancel t keys k d :
    (forall x y, List.length (e_digest E d x) = List.length (e_digest E d y)) ->
    nxt_commitment E t (k :: k :: keys) d = nxt_commitment E t keys d.
  Proof.
    intros HL. rewrite !nxt_commitment_xor. f_equal. cbn [map]. rewrite !xor_all_cons.
    apply xor_bytes_self_cancel. erewrite xor_all_len; [|reflexivity|]; [apply HL|].
    apply Forall_map, Forall_forall. intros x _. apply HL.
  Qed.
  Lemma xor_bytes_inj_r z a b :
    List.length a = List.length z -> List.length b = List.length z -> xor_bytes z a = xor_bytes z b -> a = b.
  Proof.
    intros Ha Hb H. rewrite <- (xor_bytes_self_cancel a z), <- (xor_bytes_self_cancel b z) by congruence.
    rewrite (xor_bytes_comm a z), (xor_bytes_comm b z). now rewrite H.
  Qed.
  Lemma c17_single t k1 k2 d :
    (forall x y, List.length (e_digest E d x) = List.length (e_digest E d y)) ->
    (e_digest E d (bp_str k1) = e_digest E d (bp_str k2) -> bp_str k1 = bp_str k2) ->
    nxt_commitment E t [k1] d = nxt_commitment E t [k2] d -> bp_str k1 = bp_str k2.
  Proof.
    intros HL HI. rewrite !nxt_commitment_xor. cbn [map]. rewrite !xor_all_cons. cbn [xor_all fold_right].
    intros H. injection H as H. apply HI. eapply xor_bytes_inj_r; [| |exact H]; apply HL.
  Qed.

  (** C18 *)
  Lemma nonzero_nonempty t sigs : nonzero t -> enough_signatures t sigs = Ok true -> sigs <> [].
  Proof.
    intros Hn H ->. destruct t as [n|[c|cs]]; cbn in *; try discriminate.
    - injection H as H. apply N.leb_le in H. lia.
    - destruct cs as [|c cs]; [congruence|]. unfold multi_enough in H. cbn [fold_left] in H.
      unfold multi_step at 2 in H. cbn in H.
      assert (G : forall cs n, exists n', fold_left (multi_step []) cs (Ok (n, false)) = Ok (n', false)).
      { induction cs0 as [|c0 cs0 IH0]; intros n; [now exists n|]. cbn. apply IH0. }
      destruct (G cs (N.of_nat (List.length c))) as [n' Hn']. rewrite Hn' in H. discriminate H.
  Qed.
  Lemma accepted_verified d se d' s :
    process E d (MEvent se) = (d', Ok (Some s)) ->
    exists ser, e_ser_event E (sem_msg se) = Ok ser /\ kc_verify E (st_current s) ser (sem_sigs se) = Ok true.
  Proof.
    cbn. intros H. destruct (process_event_cases E d se) as [(r & Hr & Hn)|(ns & _ & Ha & Hc)].
    { rewrite Hr in H. injection H as _ H. exfalso. eapply Hn; eauto. }
    destruct Hc as [(ser & Hs & Hv & Hc)|[(r & Hc & Hn & _)|(e & ser & _ & Hc & _)]];
        rewrite Hc in H; injection H as _ H; [subst ns; eauto|exfalso; eapply Hn; eauto|discriminate H].
  Qed.
  Lemma c18_signed d se d' s :
    process E d (MEvent se) = (d', Ok (Some s)) -> nonzero (kc_threshold (st_current s)) ->
    exists ser sg k, e_ser_event E (sem_msg se) = Ok ser /\ In sg (sem_sigs se)
      /\ nth_error (kc_keys (st_current s)) (index_of sg) = Some k /\ sig_ok E k ser (asp_sig sg).
  Proof.
    intros H Hn. destruct (accepted_verified _ _ _ _ H) as (ser & Hs & Hv).
    destruct (verify_ok_parts _ _ _ Hv) as (He & _ & Hf).
    pose proof (nonzero_nonempty _ _ Hn He) as Hne. destruct (sem_sigs se) as [|sg r]; [congruence|].
    inversion Hf as [|? ? (k & Hk & Hok) _]; subst. exists ser, sg, k. repeat split; auto. now left.
  Qed.
End WithEnv.

Lemma c12 E kc msg sigs t :
  kc_threshold kc = Simple t ->
  (kc_verify E kc msg sigs = Ok true <->
   (t <= N.of_nat (List.length sigs))%N /\ NoDup (map index_of sigs)
   /\ Forall (fun s => exists k, nth_error (kc_keys kc) (index_of s) = Some k /\ sig_ok E k msg (asp_sig s)) sigs).
Proof.
  intros Ht. rewrite verify_sound_complete by (rewrite Ht; exact I). unfold satisfies. now rewrite Ht.
Qed.
Lemma c13 E kc msg sigs w :
  kc_threshold kc = Weighted w -> rational_threshold (Weighted w) -> in_single (Weighted w) sigs ->
  (kc_verify E kc msg sigs = Ok true <->
   Forall (fun sc => (1 <= total_weight (fst sc) (snd sc) sigs)%Q) (clauses_of w)
   /\ NoDup (map index_of sigs)
   /\ Forall (fun s => exists k, nth_error (kc_keys kc) (index_of s) = Some k /\ sig_ok E k msg (asp_sig s)) sigs).
Proof.
  intros Ht Hr Hs. rewrite verify_sound_complete by (rewrite Ht; assumption). unfold satisfies. now rewrite Ht.
Qed.
Lemma c16_self' E kc next d :
  kc_next kc = Some (nxt_commitment E (kc_threshold next) (kc_keys next) d) -> computable d -> verify_next E kc next = Ok true.
Proof. intros H Hc. eapply c16_self; eauto. Qed.
Lemma c17_cancel' E d t k keys :
  (forall x y, List.length (e_digest E d x) = List.length (e_digest E d y)) ->
  nxt_commitment E t (k :: k :: keys) d = nxt_commitment E t keys d.
Proof. apply c17_cancel. Qed.
