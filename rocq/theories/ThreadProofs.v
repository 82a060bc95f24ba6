(** * ThreadProofs: any number of threads. *)
From Coq Require Import Permutation Sorted.
From Verif Require Import Base Base64 Base64Proofs Codes NumFmt Types KeyConf SpecSig State Db Processor Prog ProgProofs Sled
  SpecCodec CodecProofs SledProofs Spec SpecProc SpecStore StateProofs LogProofs LogTheorems ProcProofs StoreProofs Crash CrashProofs
  Conc ConcProofs SpecWhole WholeProofs Threads SpecThreads.

Lemma nth_replace_same {A} (x : A) : forall i l y, nth_error l i = Some y -> nth_error (replace i x l) i = Some x.
Proof. induction i as [|i IH]; intros [|z l] y; cbn; try discriminate; [reflexivity|apply IH]. Qed.
Lemma nth_replace_other {A} (x : A) : forall i l j, i <> j -> nth_error (replace i x l) j = nth_error l j.
Proof. induction i as [|i IH]; intros [|z l] [|j] H; cbn; try reflexivity; try congruence. apply IH. congruence. Qed.
Lemma nth_replace_inv {A} (x : A) i l j y : nth_error (replace i x l) j = Some y -> (j = i /\ y = x) \/ (j <> i /\ nth_error l j = Some y).
Proof.
  intros H. destruct (Nat.eq_dec i j) as [->|Hn]; [|rewrite nth_replace_other in H by exact Hn; right; split; congruence].
  left. split; [reflexivity|]. destruct (nth_error l j) as [z|] eqn:Hz; [rewrite (nth_replace_same x j l z Hz) in H; congruence|].
  exfalso. revert l Hz H. induction j as [|j IH]; intros [|w l]; cbn; try discriminate. apply IH.
Qed.

(** ** [runs] and [pool] *)
Lemma in_turn_ret {A} (l : list A) s : in_turn (map Ret l) s = (s, l).
Proof. induction l as [|a l IH]; [reflexivity|]. cbn [map in_turn sinterp]. now rewrite IH. Qed.
Lemma runs_pool {A} (ps : list (prog prim A)) s s' l : runs ps s s' l -> exists sch, pool sch ps s = (s', l).
Proof.
  induction 1 as [l s|ps i X o k s s1 x s2 l Hi Ho _ (sch & IH)]; [exists []; cbn [pool]; apply in_turn_ret|].
  exists (i :: sch). cbn [pool]. rewrite Hi, Ho. exact IH.
Qed.
Lemma replace_mid {A} (x y : A) : forall l r, replace (List.length l) x (l ++ y :: r) = l ++ x :: r.
Proof. induction l as [|z l IH]; intros r; cbn; [reflexivity|]. now rewrite IH. Qed.
Lemma nth_mid {A} (y : A) l r : nth_error (l ++ y :: r) (List.length l) = Some y.
Proof. rewrite nth_error_app2 by auto. now rewrite Nat.sub_diag. Qed.
Lemma in_turn_runs {A} (ps : list (prog prim A)) : forall l s, runs (map Ret l ++ ps) s (fst (in_turn ps s)) (l ++ snd (in_turn ps s)).
Proof.
  induction ps as [|p ps IH]; intros l s; [cbn [in_turn fst snd]; rewrite !app_nil_r; constructor|]. cbn [in_turn].
  revert s. induction p as [r|X o k IHk]; intros s; cbn [sinterp].
  - specialize (IH (l ++ [r]) s). destruct (in_turn ps s) as [s2 l2]. cbn [fst snd] in *. rewrite map_app, <- !app_assoc in IH. exact IH.
  - destruct (prim_sem o s) as [s' x] eqn:Ho. specialize (IHk x s'). eapply runs_access with (i := List.length (map (@Ret prim A) l)); [apply nth_mid|exact Ho|].
    rewrite replace_mid. destruct (sinterp (k x) s') as [s1 a]. exact IHk.
Qed.
Lemma pool_runs {A} sch : forall (ps : list (prog prim A)) s, runs ps s (fst (pool sch ps s)) (snd (pool sch ps s)).
Proof.
  induction sch as [|i sch IH]; intros ps s; cbn [pool]; [apply (in_turn_runs ps [])|].
  destruct (nth_error ps i) as [[r|X o k]|] eqn:Hi; [apply IH| |apply IH].
  destruct (prim_sem o s) as [s' x] eqn:Ho. eapply runs_access; [exact Hi|exact Ho|apply IH].
Qed.

Section Many.
  Context {A : Type}.
  (** the invariant: thread [i] cannot see the difference between the common store [c] and
      the store [ss i] it would have alone *)
  Record fits (Rd Wr Ot : nat -> loc -> Prop) (ps : list (prog prim A)) (c : Sled) (ss : nat -> Sled) : Prop := {
    f_foot : forall i p, nth_error ps i = Some p -> foot (Rd i) (Wr i) p (ss i);
    f_agree : forall i p l, nth_error ps i = Some p -> ~ Ot i l -> agree c (ss i) l }.
  Definition apart (Rd Wr Ot : nat -> loc -> Prop) : Prop :=
    (forall i l, Ot i l -> ~ Rd i l /\ ~ Wr i l) /\ (forall i j l, i <> j -> Wr j l -> Ot i l).

  Definition solo_end (Wr Ot : nat -> loc -> Prop) (ps : list (prog prim A)) (c : Sled) (ss : nat -> Sled) (r : Sled * list A) : Prop :=
    List.length (snd r) = List.length ps
    /\ (forall i p a, nth_error ps i = Some p -> nth_error (snd r) i = Some a -> a = snd (sinterp p (ss i)))
    /\ (forall i p l, nth_error ps i = Some p -> ~ Ot i l -> agree (fst r) (fst (sinterp p (ss i))) l)
    /\ (forall l, (forall i p, nth_error ps i = Some p -> ~ Wr i l) -> agree (fst r) c l).

  Lemma in_turn_spec (ps : list (prog prim A)) : forall Rd Wr Ot c ss, apart Rd Wr Ot -> fits Rd Wr Ot ps c ss ->
    solo_end Wr Ot ps c ss (in_turn ps c).
  Proof.
    induction ps as [|p ps IH]; intros Rd Wr Ot c ss [D O] [F G].
    - unfold solo_end. cbn. split; [reflexivity|]. split; [intros [|i]; discriminate|]. split; [intros [|i]; discriminate|]. intros; apply agree_refl.
    - cbn [in_turn].
      destruct (solo (Rd 0) (Wr 0) (Ot 0) (D 0) p c (ss 0) (F 0 p eq_refl) (fun l => G 0 p l eq_refl)) as (H1 & H2 & H3).
      destruct (sinterp p c) as [c1 a] eqn:Ec. cbn [fst snd] in H1, H2, H3.
      assert (K : solo_end (fun i => Wr (S i)) (fun i => Ot (S i)) ps c1 (fun i => ss (S i)) (in_turn ps c1)).
      { apply (IH (fun i => Rd (S i))).
        - split; [intros i; apply D|]. intros i j l Hij Hw. apply (O (S i) (S j)); [congruence|exact Hw].
        - split; [intros i q Hq; apply (F (S i)); exact Hq|]. intros i q l Hq Hl.
          eapply agree_trans; [apply H3|apply (G (S i) q); assumption]. intros Hw. apply Hl. apply (O (S i) 0); [discriminate|exact Hw]. }
      destruct (in_turn ps c1) as [c2 l2]. destruct K as (K0 & K1 & K2 & K3). cbn [fst snd] in K0, K1, K2, K3.
      unfold solo_end. cbn [fst snd List.length]. split; [congruence|]. split.
      { intros [|i] q b; cbn [nth_error]; intros Hq Hb; [injection Hq as <-; injection Hb as <-; exact H1|]. now apply (K1 i q). }
      split.
      { intros [|i] q l; cbn [nth_error]; intros Hq Hl; [injection Hq as <-|now apply (K2 i)].
        eapply agree_trans; [apply K3|now apply H2]. intros i q Hq Hw. apply Hl. apply (O 0 (S i)); [discriminate|exact Hw]. }
      intros l Hl. eapply agree_trans; [apply K3; intros i q Hq; apply (Hl (S i) q Hq)|]. apply H3. apply (Hl 0 p eq_refl).
  Qed.

  Lemma pool_spec sch : forall (ps : list (prog prim A)) Rd Wr Ot c ss, apart Rd Wr Ot -> fits Rd Wr Ot ps c ss ->
    solo_end Wr Ot ps c ss (pool sch ps c).
  Proof.
    induction sch as [|t sch IH]; intros ps Rd Wr Ot c ss AP FI; cbn [pool]; [now apply (in_turn_spec ps Rd)|].
    destruct (nth_error ps t) as [[r|X o k]|] eqn:Ht; [now apply (IH ps Rd)| |now apply (IH ps Rd)].
    destruct AP as [D O]. destruct FI as [F G].
    pose proof (F t _ Ht) as Ft. cbn [foot] in Ft. destruct Ft as (Ha & Hni & Ft).
    assert (Hr : forall l, Rd t l -> agree c (ss t) l) by (intros l Hl; apply (G t _ l Ht); intros Ho; exact (proj1 (D t l Ho) Hl)).
    destruct (acc_same (Rd t) (Wr t) o c (ss t) Ha Hni Hr) as (E1 & E2 & E3 & _).
    destruct (prim_sem o c) as [c' x] eqn:Eo. destruct (prim_sem o (ss t)) as [s' y] eqn:Es. cbn [fst snd] in E1, E2, E3. subst y.
    set (ss' := fun i => if Nat.eq_dec i t then s' else ss i).
    assert (SS : forall i, i <> t -> ss' i = ss i) by (intros i Hi; unfold ss'; destruct (Nat.eq_dec i t); congruence).
    assert (ST : ss' t = s') by (unfold ss'; destruct (Nat.eq_dec t t); congruence).
    assert (K : solo_end Wr Ot (replace t (k x) ps) c' ss' (pool sch (replace t (k x) ps) c')).
    { apply (IH _ Rd Wr Ot); [split; assumption|]. split.
      - intros i p Hp. apply nth_replace_inv in Hp. destruct Hp as [[-> ->]|[Hi Hp]]; [rewrite ST; exact Ft|rewrite SS by exact Hi; now apply F].
      - intros i p l Hp Hl. apply nth_replace_inv in Hp. destruct Hp as [[-> ->]|[Hi Hp]].
        + rewrite ST. apply E2. now apply (G t _ l Ht).
        + rewrite SS by exact Hi. eapply agree_trans; [apply E3|now apply (G i p)]. intros Hw. apply Hl. apply (O i t); assumption. }
    destruct (pool sch (replace t (k x) ps) c') as [c2 l2]. destruct K as (K0 & K1 & K2 & K3). cbn [fst snd] in K0, K1, K2, K3.
    assert (SI : forall i p, nth_error ps i = Some p -> exists p', nth_error (replace t (k x) ps) i = Some p' /\ sinterp p' (ss' i) = sinterp p (ss i)).
    { intros i p Hp. destruct (Nat.eq_dec t i) as [<-|Hi].
      - exists (k x). split; [now apply (nth_replace_same (k x) t ps p)|]. rewrite ST. rewrite Ht in Hp. injection Hp as <-. cbn [sinterp]. now rewrite Es.
      - exists p. split; [rewrite nth_replace_other by exact Hi; exact Hp|]. rewrite SS by congruence. reflexivity. }
    unfold solo_end. cbn [fst snd]. split.
    { rewrite K0. clear. revert t. induction ps as [|p ps IH]; intros [|t]; cbn; congruence. }
    split; [intros i p a Hp Hal; destruct (SI i p Hp) as (p' & Hp' & <-); now apply (K1 i p')|].
    split; [intros i p l Hp Hl; destruct (SI i p Hp) as (p' & Hp' & <-); now apply (K2 i p')|].
    intros l Hl. eapply agree_trans; [apply K3|].
    - intros i p' Hp'. apply nth_replace_inv in Hp'. destruct Hp' as [[-> _]|[_ Hp']]; [apply (Hl t _ Ht)|now apply (Hl i p')].
    - apply E3. apply (Hl t _ Ht).
  Qed.

  (** Any two schedules end alike. *)
  Theorem pool_det sch (ps : list (prog prim A)) Rd Wr Ot s :
    apart Rd Wr Ot -> (forall i l, Wr i l \/ ~ Wr i l) ->
    (forall i p, nth_error ps i = Some p -> foot (Rd i) (Wr i) p s) ->
    snd (pool sch ps s) = map (fun p => snd (sinterp p s)) ps
    /\ snd (in_turn ps s) = map (fun p => snd (sinterp p s)) ps
    /\ forall l, agree (fst (pool sch ps s)) (fst (in_turn ps s)) l.
  Proof.
    intros AP Wd F.
    assert (FI : fits Rd Wr Ot ps s (fun _ => s)) by (split; [exact F|intros; apply agree_refl]).
    pose proof (pool_spec sch ps Rd Wr Ot s _ AP FI) as (H0 & H1 & H2 & H3).
    pose proof (in_turn_spec ps Rd Wr Ot s _ AP FI) as (G0 & G1 & G2 & G3).
    assert (AN : forall r : Sled * list A, List.length (snd r) = List.length ps ->
       (forall i p a, nth_error ps i = Some p -> nth_error (snd r) i = Some a -> a = snd (sinterp p s)) ->
       snd r = map (fun p => snd (sinterp p s)) ps).
    { clear. intros [c l]. cbn [snd]. revert l. induction ps as [|p ps IH]; intros [|a l] Hl Hn; try discriminate Hl; [reflexivity|].
      cbn [map]. f_equal; [apply (Hn 0 p a eq_refl eq_refl)|]. apply IH; [now injection Hl|]. intros i q b Hq Hb. apply (Hn (S i) q b Hq Hb). }
    split; [now apply AN|]. split; [now apply AN|].
    intros l.
    assert (Dec : (exists i p, nth_error ps i = Some p /\ Wr i l) \/ (forall i p, nth_error ps i = Some p -> ~ Wr i l)).
    { clear - Wd. revert Wr Wd. induction ps as [|p ps IH]; intros Wr Wd; [right; intros [|i]; discriminate|].
      destruct (Wd 0 l) as [H|H]; [left; exists 0, p; split; [reflexivity|exact H]|].
      destruct (IH (fun i => Wr (S i)) (fun i => Wd (S i))) as [(i & q & Hq & Hw)|Hn]; [left; exists (S i), q; split; assumption|].
      right. intros [|i] q Hq; [exact H|apply (Hn i q Hq)]. }
    destruct Dec as [(i & p & Hp & Hw)|Hn].
    - assert (~ Ot i l) by (intros Ho; exact (proj2 (proj1 AP i l Ho) Hw)).
      eapply agree_trans; [apply (H2 i p); assumption|]. apply agree_sym. apply (G2 i p); assumption.
    - eapply agree_trans; [apply H3; exact Hn|]. apply agree_sym. apply G3. exact Hn.
  Qed.
End Many.

(** ** Threads of messages *)
Lemma sinterp_expand_pbind {A B} (p : prog op A) (k : A -> prog op B) : forall s,
  sinterp (expand (pbind p k)) s = let (s', a) := sinterp (expand p) s in sinterp (expand (k a)) s'.
Proof.
  induction p as [r|X o k' IH]; intros s; cbn [pbind expand]; [reflexivity|].
  rewrite !sinterp_pbind. destruct (sinterp (expand_op o) s) as [s' a]. apply IH.
Qed.
Lemma id_ok_proper id : id_ok id -> id <> id_default.
Proof. intros [H _] ->. now apply H. Qed.

Section Messages.
  Context (E : Env).
  Lemma p_all_alone ms : forall s, sinterp (expand (p_all E ms)) s = (srun E s ms, sresults E s ms).
  Proof.
    induction ms as [|m ms IH]; intros s; [reflexivity|]. cbn [p_all]. rewrite sinterp_expand_pbind.
    unfold srun. cbn [fold_left sresults]. unfold sprocess. destruct (sinterp (expand (p_process E m)) s) as [s1 a].
    rewrite sinterp_expand_pbind, IH. reflexivity.
  Qed.
  Lemma in_turn_srun ths : forall s, fst (in_turn (map (fun ms => expand (p_all E ms)) ths) s) = srun E s (List.concat ths).
  Proof.
    induction ths as [|ms ths IH]; intros s; [reflexivity|]. cbn [map in_turn List.concat]. rewrite p_all_alone.
    unfold srun in *. rewrite fold_left_app. specialize (IH (fold_left (fun s m => fst (sprocess E s m)) ms s)).
    destruct (in_turn _ _) as [s2 l]. exact IH.
  Qed.

  Definition writes (ms : list Message) (id : IdentifierPrefix) : Prop := exists m, In m ms /\ subject m = Some id.
  Lemma writes_dec L ms l : loc_of L (writes ms) l \/ ~ loc_of L (writes ms) l.
  Proof.
    induction ms as [|m ms IH].
    - right. destruct l as [|n k]; cbn; [tauto|]. intros (id & (m & [] & _) & _).
    - destruct (loc_of_subject L m l) as [H|H].
      + left. destruct l as [|n k]; cbn in *; [contradiction|]. destruct H as (id & Hs & Hk). exists id. split; [|exact Hk]. exists m. split; [now left|exact Hs].
      + destruct IH as [IH|IH].
        * left. destruct l as [|n k]; cbn in *; [contradiction|]. destruct IH as (id & (x & Hx & Hs) & Hk). exists id. split; [|exact Hk]. exists x. split; [now right|exact Hs].
        * right. destruct l as [|n k]; cbn in *; [tauto|]. intros (id & (x & [->|Hx] & Hs) & Hk); [apply H; eauto|]. apply IH. exists id. split; [|exact Hk]. now exists x.
  Qed.

  Section Area.
    Context (T : IdentifierPrefix -> bool) (HT : forall id, T id = true -> id <> id_default).
    Lemma reads_area m d id :
      Inv E d -> delegators_in T d -> (forall i, names m i -> T i = true) -> reads_of E d m id -> T id = true.
    Proof.
      intros HI HG Hn. destruct m as [se|r|r|r|q]; cbn [reads_of]; try (intros H; apply Hn; cbn; exact H).
      intros [->|H]; [apply Hn; cbn; now left|]. destruct (em_data (sem_msg se)) eqn:Ed; try contradiction.
      - subst. apply Hn. cbn. right. unfold named_delegator. now rewrite Ed.
      - destruct H as (s & Hs & Hd). eapply state_delegator; [exact HT|exact HI|exact HG| |exact Hs|exact Hd]. apply Hn. cbn. now left.
    Qed.
    Lemma alg_all ms : forall d, Inv E d -> delegators_in T d ->
      (forall m id, In m ms -> names m id -> T id = true) ->
      forall W : IdentifierPrefix -> Prop, (forall id, writes ms id -> W id) ->
      along (fun id => T id = true) W (p_all E ms) d.
    Proof.
      induction ms as [|m ms IH]; intros d HI HG Hn W HW; [exact I|]. cbn [p_all]. apply alg_pbind. split.
      - apply alg_process; [intros id; apply reads_area; auto; intros i; apply Hn; now left|].
        intros id Hs. apply HW. exists m. split; [now left|exact Hs].
      - rewrite interp_process. destruct (process E d m) as [d' a] eqn:Ep. apply alg_pbind. split.
        + assert (d' = call E d (CProcess m)) as -> by (cbn [call]; now rewrite Ep).
          apply IH; [now apply Inv_call| | |].
          * apply delegators_call; [|exact HG]. intros se dl Hc _ Hd. injection Hc as ->. apply (Hn (MEvent se) dl); [now left|]. cbn. now right.
          * intros x id Hx. apply Hn. now right.
          * intros id (x & Hx & Hs). apply HW. exists x. split; [now right|exact Hs].
        + destruct (interp (p_all E ms) d'). exact I.
    Qed.
  End Area.

  Theorem threads_apart h ths (area : nat -> IdentifierPrefix -> bool) sch :
    Forall message_ids_ok h ->
    let s := srun E sled_empty h in
    (forall i ms, nth_error ths i = Some ms -> enough_for (area i) h ms) ->
    (forall i id, i < List.length ths -> area i id = true -> id_ok id /\ number s id <> None) ->
    (forall i j ms m id, i <> j -> nth_error ths j = Some ms -> In m ms -> subject m = Some id -> area i id = false) ->
    snd (threads_process E sch s ths) = map (sresults E s) ths
    /\ forall n id, lookup (fst (threads_process E sch s ths)) n id = lookup (srun E s (List.concat ths)) n id.
  Proof.
    intros Hh s Hen Hnum Hsep.
    destruct (process_refines E h Hh _ _ _ Rel_empty store_ok_empty) as (L & R & Hok & _). cbn [app] in R. fold s in R.
    set (d := run E db_empty (map CProcess h)) in *.
    set (n := List.length ths).
    set (Rd := fun i => if i <? n then rd_of L (fun id => area i id = true) else fun _ => False).
    set (Wr := fun i => loc_of L (writes (nth i ths []))).
    set (Ot := fun i l => exists j, j <> i /\ Wr j l).
    set (ps := map (fun ms => expand (p_all E ms)) ths).
    assert (Hnth : forall i ms, nth_error ths i = Some ms -> nth i ths [] = ms) by (intros i ms H; apply nth_error_nth; exact H).
    assert (Hlt : forall i ms, nth_error ths i = Some ms -> i < n) by (intros i ms H; apply nth_error_Some; congruence).
    assert (Hwr : forall j l, Wr j l -> exists k m id tn ms, l = LTab tn k /\ nth_error ths j = Some ms /\ In m ms /\ subject m = Some id /\ idx 0 L id = Some k).
    { intros j [|tn k] H; cbn in H; [contradiction|]. destruct H as (id & (m & Hm & Hs) & Hk).
      destruct (nth_error ths j) as [ms|] eqn:Hj; [|rewrite nth_overflow in Hm by (apply nth_error_None; exact Hj); destruct Hm].
      rewrite (Hnth _ _ Hj) in Hm. exists k, m, id, tn, ms. auto. }
    assert (Hsub : forall i ms m id, nth_error ths i = Some ms -> In m ms -> subject m = Some id -> area i id = true).
    { intros i ms m id Hi Hm Hs. apply (proj1 (Hen i ms Hi) m); [exact Hm|]. destruct m; cbn in *; try discriminate Hs; injection Hs as <-; auto. }
    assert (HF : forall i p, nth_error ps i = Some p -> foot (Rd i) (Wr i) p s).
    { intros i p Hp. unfold ps in Hp. rewrite nth_error_map in Hp. destruct (nth_error ths i) as [ms|] eqn:Hi; [|discriminate Hp]. injection Hp as <-.
      unfold Rd, Wr. rewrite (Hnth _ _ Hi). replace (i <? n) with true by (symmetry; apply Nat.ltb_lt; eapply Hlt; eassumption).
      destruct (Hen i ms Hi) as [Hn1 Hn2].
      assert (HT : forall id, area i id = true -> id <> id_default) by (intros id H; apply id_ok_proper; apply (Hnum i id); [eapply Hlt; eassumption|exact H]).
      apply (foot_expand (p_all E ms) L (fun id => area i id = true) (writes ms)) with (d := d).
      - intros id Ha. destruct (Hnum i id) as [Hid Hk]; [eapply Hlt; eassumption|exact Ha|]. split; [exact Hid|].
        rewrite (number_rel _ _ _ _ R Hid) in Hk. destruct (idx 0 L id); [eauto|congruence].
      - intros id (m & Hm & Hs). eapply Hsub; eassumption.
      - exact R.
      - apply alg_all; [exact HT|apply Inv_run, Inv_empty| |exact Hn1|auto].
        apply delegators_run; [|intros id e dl _ []]. intros se dl Hin Ha Hd. apply in_map_iff in Hin. destruct Hin as (m & Hm & Hin). injection Hm as ->.
        apply (Hn2 se); [apply in_or_app; now left|exact Ha|exact Hd]. }
    assert (AP : apart Rd Wr Ot).
    { split.
      - intros i l (j & Hji & Hw). destruct (Hwr j l Hw) as (k & m & id & tn & ms & -> & Hj & Hm & Hs & Hk).
        assert (Ha : area i id = false) by (eapply Hsep; [|exact Hj|exact Hm|exact Hs]; congruence). split.
        + unfold Rd. destruct (i <? n); [|tauto]. cbn. intros (id' & Ha' & Hk').
          assert (id' = id) as -> by (eapply idx_inj; eassumption). congruence.
        + intros Hwi. destruct (Hwr i _ Hwi) as (k' & m' & id' & tn' & ms' & Hl & Hi' & Hm' & Hs' & Hk'). injection Hl as <- <-.
          assert (id' = id) as -> by (eapply idx_inj; eassumption). assert (area i id = true) by (eapply Hsub; eassumption). congruence.
      - intros i j l Hij Hw. exists j. split; [congruence|exact Hw]. }
    destruct (pool_det sch ps Rd Wr Ot s AP (fun i l => writes_dec L _ l) HF) as (H1 & _ & H2).
    unfold threads_process, threads. fold ps. split.
    - rewrite H1. unfold ps. rewrite map_map. apply map_ext. intros ms. now rewrite p_all_alone.
    - intros tn id. rewrite (agree_lookup _ _ H2). unfold ps. now rewrite in_turn_srun.
  Qed.
End Messages.
