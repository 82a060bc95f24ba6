From Coq Require Import Permutation Sorted.
From Verif Require Import Base Base64 Base64Proofs Codes NumFmt Types KeyConf SpecSig State Db Processor Prog ProgProofs Sled
  SpecCodec CodecProofs SledProofs Spec SpecProc SpecStore StateProofs LogProofs StoreProofs Crash CrashProofs Conc.

Inductive loc := LIds | LTab (n : tname) (k : N).
Definition agree (s s' : Sled) (l : loc) : Prop :=
  match l with
  | LIds => s_ids s = s_ids s'
  | LTab n k => tr_get (stab n s) k = tr_get (stab n s') k
  end.
Lemma agree_sym s s' l : agree s s' l -> agree s' s l.
Proof. destruct l; cbn; congruence. Qed.
Lemma agree_trans a b c l : agree a b l -> agree b c l -> agree a c l.
Proof. destruct l; cbn; congruence. Qed.
Lemma agree_refl a l : agree a a l.
Proof. destruct l; reflexivity. Qed.

(** reads and writes of one access *)
Definition acc (Rd Wr : loc -> Prop) {A} (o : prim A) : Prop :=
  match o with
  | PFind _ | PLast => Rd LIds
  | PInsert _ _ => Wr LIds
  | PGet n k => Rd (LTab n k)
  | PPut n k _ => Wr (LTab n k)
  | PAll _ => False
  end.
Fixpoint foot (Rd Wr : loc -> Prop) {R} (p : prog prim R) (s : Sled) : Prop :=
  match p with
  | Ret _ => True
  | Do o k => acc Rd Wr o /\ (match o with PInsert _ _ => False | _ => True end)
              /\ let (s', a) := prim_sem o s in foot Rd Wr (k a) s'
  end.
(** the effect of one access depends only on what it reads *)
Lemma acc_same Rd Wr {A} (o : prim A) s s' :
  acc Rd Wr o -> (match o with PInsert _ _ => False | _ => True end) ->
  (forall l, Rd l -> agree s s' l) ->
  snd (prim_sem o s) = snd (prim_sem o s')
  /\ (forall l, agree s s' l -> agree (fst (prim_sem o s)) (fst (prim_sem o s')) l)
  /\ (forall l, ~ Wr l -> agree (fst (prim_sem o s)) s l /\ agree (fst (prim_sem o s')) s' l)
  /\ (forall l, Wr l -> ~ agree (fst (prim_sem o s)) (fst (prim_sem o s')) l -> ~ agree s s' l).
Proof.
  intros Ha Hni Hr. assert (G : forall l, agree s s' l -> agree (fst (prim_sem o s)) (fst (prim_sem o s')) l).
  { destruct o as [id| |k id|n k|n k v|n]; cbn [prim_sem fst]; intros l Hl; try exact Hl; try contradiction.
    destruct l as [|m j]; cbn [agree] in *; [now rewrite !ids_sset|].
    destruct (tname_eq_dec n m) as [<-|Hne].
    - rewrite !stab_sset_same, !tr_get_put. destruct (j =? k)%N; [reflexivity|exact Hl].
    - rewrite !stab_sset_other by exact Hne. exact Hl. }
  split; [|split; [exact G|split]].
  - destruct o as [id| |k id|n k|n k v|n]; cbn [prim_sem snd acc] in *; try reflexivity; try contradiction.
    + specialize (Hr LIds Ha). cbn in Hr. now rewrite Hr.
    + specialize (Hr LIds Ha). cbn in Hr. now rewrite Hr.
    + exact (Hr (LTab n k) Ha).
  - intros l Hl. destruct o as [id| |k id|n k|n k v|n]; cbn [prim_sem fst acc] in *; try (split; apply agree_refl); try contradiction.
    destruct l as [|m j]; cbn [agree]; [now rewrite !ids_sset|].
    destruct (tname_eq_dec n m) as [<-|Hne].
    + rewrite !stab_sset_same, !tr_get_put. destruct (j =? k)%N eqn:Ej; [|now split].
      apply N.eqb_eq in Ej. subst j. contradiction.
    + rewrite !stab_sset_other by exact Hne. now split.
  - intros l _ Hn H. apply Hn, G, H.
Qed.
(** writes make the two sides agree *)
Lemma acc_write Rd Wr {A} (o : prim A) s s' : acc Rd Wr o -> (match o with PInsert _ _ => False | _ => True end) ->
  forall l, agree s s' l -> agree (fst (prim_sem o s)) (fst (prim_sem o s')) l.
Proof.
  intros Ha Hni. destruct o as [id| |k id|n k|n k v|n]; cbn [prim_sem fst]; intros l Hl; try exact Hl; try contradiction.
  destruct l as [|m j]; cbn [agree] in *; [now rewrite !ids_sset|].
  destruct (tname_eq_dec n m) as [<-|Hne].
  - rewrite !stab_sset_same, !tr_get_put. destruct (j =? k)%N; [reflexivity|exact Hl].
  - rewrite !stab_sset_other by exact Hne. exact Hl.
Qed.

Section Two.
  Context (Rp Wp Rq Wq : loc -> Prop).
  Context (Wp_dec : forall l, Wp l \/ ~ Wp l).
  Context (Dpq : forall l, Wp l -> ~ Rq l /\ ~ Wq l) (Dqp : forall l, Wq l -> ~ Rp l /\ ~ Wp l).

  (** solo run of the rest of a program over a store that agrees on what is not written by
      the other thread *)
  Lemma solo {A} (Rd Wr Ot : loc -> Prop) (D : forall l, Ot l -> ~ Rd l /\ ~ Wr l) (p : prog prim A) : forall c s,
    foot Rd Wr p s -> (forall l, ~ Ot l -> agree c s l) ->
    snd (sinterp p c) = snd (sinterp p s)
    /\ (forall l, ~ Ot l -> agree (fst (sinterp p c)) (fst (sinterp p s)) l)
    /\ (forall l, ~ Wr l -> agree (fst (sinterp p c)) c l).
  Proof.
    induction p as [r|X o k IH]; intros c s Hf Hag; cbn [sinterp foot] in *.
    - split; [reflexivity|]. split; [exact Hag|]. intros; apply agree_refl.
    - destruct Hf as (Ha & Hni & Hf).
      assert (Hr : forall l, Rd l -> agree c s l).
      { intros l Hl. apply Hag. intros Ho. exact (proj1 (D l Ho) Hl). }
      destruct (acc_same Rd Wr o c s Ha Hni Hr) as (E1 & E2 & E3 & _).
      destruct (prim_sem o c) as [c' x]. destruct (prim_sem o s) as [s' y]. cbn [fst snd] in *. subst y.
      destruct (IH x c' s' Hf) as (H1 & H2 & H3); [intros l Hl; apply E2; auto|].
      split; [exact H1|]. split; [exact H2|]. intros l Hl. eapply agree_trans; [apply H3; exact Hl|]. now apply E3.
  Qed.
  Lemma foot_writes {A} (Rd Wr : loc -> Prop) (p : prog prim A) : forall s, foot Rd Wr p s ->
    forall l, ~ Wr l -> agree (fst (sinterp p s)) s l.
  Proof.
    intros s Hf. destruct (solo Rd Wr (fun _ => False) (fun l H => match H with end) p s s Hf) as (_ & _ & H).
    - intros; apply agree_refl.
    - exact H.
  Qed.

  (** any schedule: each thread gets the result of its solo run; the final store has the
      first thread's writes and, elsewhere, the second thread's store *)
  Lemma par_spec {A B} sch : forall (p : prog prim A) (q : prog prim B) c sp sq,
    foot Rp Wp p sp -> foot Rq Wq q sq ->
    (forall l, ~ Wq l -> agree c sp l) -> (forall l, ~ Wp l -> agree c sq l) ->
    let '(s', (a, b)) := par sch p q c in
    a = snd (sinterp p sp) /\ b = snd (sinterp q sq)
    /\ (forall l, ~ Wq l -> agree s' (fst (sinterp p sp)) l) /\ (forall l, ~ Wp l -> agree s' (fst (sinterp q sq)) l).
  Proof.
    induction sch as [|t sch IH]; intros p q c sp sq Fp Fq Ap Aq; cbn [par].
    - destruct (solo Rp Wp Wq Dqp p c sp Fp Ap) as (H1 & H2 & H3).
      destruct (sinterp p c) as [c1 a]. cbn [fst snd] in *.
      assert (Aq1 : forall l, ~ Wp l -> agree c1 sq l).
      { intros l Hl. eapply agree_trans; [apply H3; exact Hl|]. now apply Aq. }
      destruct (solo Rq Wq Wp Dpq q c1 sq Fq Aq1) as (G1 & G2 & G3).
      destruct (sinterp q c1) as [c2 b]. cbn [fst snd] in *.
      split; [exact H1|]. split; [exact G1|]. split; [|exact G2].
      intros l Hl. eapply agree_trans; [apply G3; exact Hl|]. now apply H2.
    - destruct t.
      + destruct p as [r|X o k]; [apply IH; auto|]. cbn [foot] in Fp. destruct Fp as (Ha & Hni & Fp).
        assert (Hr : forall l, Rp l -> agree c sp l) by (intros l Hl; apply Ap; intros Ho; exact (proj1 (Dqp l Ho) Hl)).
        destruct (acc_same Rp Wp o c sp Ha Hni Hr) as (E1 & E2 & E3 & _).
        cbn [sinterp]. destruct (prim_sem o c) as [c' x]. destruct (prim_sem o sp) as [s' y]. cbn [fst snd] in *. subst y.
        apply IH; auto. intros l Hl. eapply agree_trans; [now apply E3|]. now apply Aq.
      + destruct q as [r|X o k]; [apply IH; auto|]. cbn [foot] in Fq. destruct Fq as (Ha & Hni & Fq).
        assert (Hr : forall l, Rq l -> agree c sq l) by (intros l Hl; apply Aq; intros Ho; exact (proj1 (Dpq l Ho) Hl)).
        destruct (acc_same Rq Wq o c sq Ha Hni Hr) as (E1 & E2 & E3 & _).
        cbn [sinterp]. destruct (prim_sem o c) as [c' x]. destruct (prim_sem o sq) as [s' y]. cbn [fst snd] in *. subst y.
        apply IH; auto. intros l Hl. eapply agree_trans; [now apply E3|]. now apply Ap.
  Qed.
  Theorem par_det {A B} sch (p : prog prim A) (q : prog prim B) s :
    foot Rp Wp p s -> foot Rq Wq q s ->
    let '(s', (a, b)) := par sch p q s in let '(s2, (a2, b2)) := par [] p q s in
    a = a2 /\ b = b2 /\ a = snd (sinterp p s) /\ b = snd (sinterp q s) /\ (forall l, agree s' s2 l).
  Proof.
    intros Fp Fq. assert (Rf : forall l, agree s s l) by (intros; apply agree_refl).
    pose proof (par_spec sch p q s s s Fp Fq (fun l _ => Rf l) (fun l _ => Rf l)) as H1.
    pose proof (par_spec [] p q s s s Fp Fq (fun l _ => Rf l) (fun l _ => Rf l)) as H2.
    destruct (par sch p q s) as [s' [a b]], (par [] p q s) as [s2 [a2 b2]].
    destruct H1 as (A1 & B1 & P1 & Q1), H2 as (A2 & B2 & P2 & Q2).
    split; [congruence|]. split; [congruence|]. split; [exact A1|]. split; [exact B1|].
    intros l. destruct (Wp_dec l) as [Hl|Hl].
    - assert (Hq : ~ Wq l) by now apply Dpq. eapply agree_trans; [apply P1; exact Hq|]. apply agree_sym. now apply P2.
    - eapply agree_trans; [apply Q1; exact Hl|]. apply agree_sym. now apply Q2.
  Qed.
End Two.

(** ** footprint of expanded programs *)
Definition loc_of (L : list IdentifierPrefix) (T : IdentifierPrefix -> Prop) (l : loc) : Prop :=
  match l with LIds => False | LTab _ k => exists id, T id /\ idx 0 L id = Some k end.
Definition rd_of (L : list IdentifierPrefix) (T : IdentifierPrefix -> Prop) (l : loc) : Prop :=
  match l with LIds => True | l => loc_of L T l end.

Lemma foot_pbind Rd Wr {A B} (p : prog prim A) (k : A -> prog prim B) : forall s,
  foot Rd Wr p s -> (let (s', a) := sinterp p s in foot Rd Wr (k a) s') -> foot Rd Wr (pbind p k) s.
Proof.
  induction p as [r|X o k' IH]; intros s Hp Hk; cbn [pbind foot sinterp] in *; [exact Hk|].
  destruct Hp as (H1 & H2 & H3). split; [exact H1|]. split; [exact H2|].
  destruct (prim_sem o s) as [s' a]. now apply IH.
Qed.
Lemma designated_known s d L id k : Rel s d L -> id_ok id -> idx 0 L id = Some k ->
  sinterp (designated id) s = (s, k) /\ forall T W, foot (rd_of L T) W (designated id) s.
Proof.
  intros R Hid Hk. unfold designated. rewrite sinterp_pbind. cbn [sinterp prim_sem].
  rewrite (r_ids _ _ _ R), find_ids_from, Hk by (auto; apply (r_ok _ _ _ R)). split; [reflexivity|].
  intros T W. cbn [pbind foot acc prim_sem rd_of]. split; [exact I|]. split; [exact I|].
  rewrite (r_ids _ _ _ R), find_ids_from, Hk by (auto; apply (r_ok _ _ _ R)). exact I.
Qed.
Lemma foot_op {A} (o : op A) s d L (T W : IdentifierPrefix -> Prop) :
  Rel s d L -> touch T W o -> (forall id, T id -> id_ok id /\ exists k, idx 0 L id = Some k) ->
  (forall id, W id -> T id) ->
  foot (rd_of L T) (loc_of L W) (expand_op o) s
  /\ Rel (fst (sop o s)) (fst (op_sem o d)) L.
Proof.
  intros R Ht HT HW.
  destruct o as [n id|n id x|n id x|n id l|n]; cbn [touch expand_op] in *; try contradiction.
  - destruct (HT id Ht) as [Hid [k Hk]]. destruct (designated_known s d L id k R Hid Hk) as [Hd Hf]. split.
    + apply foot_pbind; [apply Hf|]. rewrite Hd. cbn [foot acc prim_sem]. split; [|split; exact I].
      exists id. auto.
    + unfold sop. cbn [expand_op]. rewrite sinterp_pbind, Hd. cbn [sinterp prim_sem fst op_sem]. exact R.
  - destruct (HT id (HW id Ht)) as [Hid [k Hk]]. destruct (designated_known s d L id k R Hid Hk) as [Hd Hf]. split.
    + apply foot_pbind; [apply Hf|]. rewrite Hd. cbn [foot acc prim_sem pbind].
      split; [exists id; auto|]. split; [exact I|]. split; [exists id; auto|]. split; exact I.
    + unfold sop. cbn [expand_op]. rewrite sinterp_pbind, Hd. cbn [pbind sinterp prim_sem fst op_sem].
      unfold tpush. rewrite (r_tab _ _ _ R), Hk. destruct (tr_get (stab n s) k); now apply Rel_put.
  - destruct (HT id (HW id Ht)) as [Hid [k Hk]]. destruct (designated_known s d L id k R Hid Hk) as [Hd Hf]. split.
    + apply foot_pbind; [apply Hf|]. rewrite Hd. cbn [foot acc prim_sem pbind].
      split; [exists id; auto|]. split; [exact I|]. destruct (tr_get (stab n s) k); [|exact I].
      cbn [foot acc]. split; [exists id; auto|]. split; [exact I|]. cbn [prim_sem]. exact I.
    + unfold sop. cbn [expand_op]. rewrite sinterp_pbind, Hd. cbn [pbind sinterp prim_sem fst op_sem].
      unfold tremove. rewrite (r_tab _ _ _ R), Hk. destruct (tr_get (stab n s) k); cbn [sinterp prim_sem fst]; [now apply Rel_put|].
      replace (dset n d (dtab n d)) with d by (destruct d, n; reflexivity). exact R.
  - destruct (HT id (HW id Ht)) as [Hid [k Hk]]. destruct (designated_known s d L id k R Hid Hk) as [Hd Hf]. split.
    + apply foot_pbind; [apply Hf|]. rewrite Hd. cbn [foot acc prim_sem]. split; [exists id; auto|]. split; exact I.
    + unfold sop. cbn [expand_op]. rewrite sinterp_pbind, Hd. cbn [sinterp prim_sem fst op_sem]. now apply Rel_put.
Qed.
Lemma foot_expand {A} (p : prog op A) L (T W : IdentifierPrefix -> Prop) :
  (forall id, T id -> id_ok id /\ exists k, idx 0 L id = Some k) -> (forall id, W id -> T id) ->
  forall s d, Rel s d L -> along T W p d -> foot (rd_of L T) (loc_of L W) (expand p) s.
Proof.
  intros HT HW. induction p as [r|X o k IH]; intros s d R; cbn [along expand]; [intros _; exact I|].
  intros [Ht Hs]. destruct (foot_op o s d L T W R Ht HT HW) as [Hf R'].
  assert (Hok : op_ok o) by (destruct o; cbn [touch op_ok] in *; try contradiction; apply HT; auto).
  destruct (sop_refines o s d L R Hok) as (L' & _ & Er & _). unfold sop in *.
  apply foot_pbind; [exact Hf|].
  destruct (sinterp (expand_op o) s) as [s' a']. destruct (op_sem o d) as [d' a]. cbn [fst snd] in *.
  assert (a' = a) as -> by (destruct o; exact Er || contradiction). eapply IH; eauto.
Qed.

(** lookups depend only on the locations *)
Lemma agree_lookup s s' : (forall l, agree s s' l) -> forall n id, lookup s n id = lookup s' n id.
Proof.
  intros H n id. pose proof (H LIds) as Hi. cbn in Hi.
  assert (D : snd (sinterp (designated id) s) = snd (sinterp (designated id) s')
              /\ forall k, tr_get (stab n (fst (sinterp (designated id) s))) k = tr_get (stab n (fst (sinterp (designated id) s'))) k).
  { unfold designated. rewrite !sinterp_pbind. cbn [sinterp prim_sem]. rewrite Hi.
    destruct (find_text (s_ids s') (id_str id)).
    - cbn [sinterp fst snd]. split; [reflexivity|]. intros k. exact (H (LTab n k)).
    - rewrite !sinterp_pbind. cbn [sinterp prim_sem]. rewrite Hi. rewrite !sinterp_pbind. cbn [sinterp prim_sem fst snd].
      split; [reflexivity|]. intros k. rewrite !stab_set_ids. exact (H (LTab n k)). }
  unfold lookup, sop. cbn [expand_op]. rewrite !sinterp_pbind.
  destruct (sinterp (designated id) s) as [c k]. destruct (sinterp (designated id) s') as [c' k'].
  cbn [fst snd] in D. destruct D as [-> D]. cbn [sinterp prim_sem snd]. apply D.
Qed.

Section Process.
  Context (E : Env).
  Lemma loc_of_subject L m l :
    loc_of L (fun id => subject m = Some id) l \/ ~ loc_of L (fun id => subject m = Some id) l.
  Proof.
    destruct l as [|n k]; cbn; [now right|]. destruct (subject m) as [i|]; [|right; intros (x & H & _); discriminate H].
    destruct (idx 0 L i) as [k'|] eqn:Ei.
    - destruct (N.eq_dec k k') as [->|Hk]; [left; eauto|]. right. intros (x & H & H'). injection H as <-. congruence.
    - right. intros (x & H & H'). injection H as <-. congruence.
  Qed.
  Theorem c37 s d L m1 m2 sch :
    Rel s d L -> store_ok d -> message_ids_ok m1 -> message_ids_ok m2 ->
    (forall id, reads_of E d m1 id \/ reads_of E d m2 id -> number s id <> None) ->
    (forall id, subject m1 = Some id -> ~ reads_of E d m2 id) ->
    (forall id, subject m2 = Some id -> ~ reads_of E d m1 id) ->
    let '(s', (r1, r2)) := par_process E sch s m1 m2 in
    let s1 := fst (sprocess E s m1) in
    r1 = snd (sprocess E s m1) /\ r2 = snd (sprocess E s1 m2)
    /\ forall n id, lookup s' n id = lookup (fst (sprocess E s1 m2)) n id.
  Proof.
    intros R Hd H1 H2 HK N1 N2.
    assert (HT : forall m, message_ids_ok m -> (forall id, reads_of E d m id -> number s id <> None) ->
              forall id, reads_of E d m id -> id_ok id /\ exists k, idx 0 L id = Some k).
    { intros m Hm Hn id Hr. assert (Hid : id_ok id) by (eapply reads_ok; eauto). split; [exact Hid|].
      specialize (Hn id Hr). rewrite (number_rel _ _ _ _ R Hid) in Hn. destruct (idx 0 L id); [eauto|congruence]. }
    pose proof (HT m1 H1 (fun id H => HK id (or_introl H))) as T1.
    pose proof (HT m2 H2 (fun id H => HK id (or_intror H))) as T2.
    assert (F1 : foot (rd_of L (reads_of E d m1)) (loc_of L (fun id => subject m1 = Some id)) (expand (p_process E m1)) s).
    { apply (foot_expand (p_process E m1) L (reads_of E d m1) (fun id => subject m1 = Some id) T1) with (d := d).
      - intros id. apply subject_reads.
      - exact R.
      - apply alg_process; auto. }
    assert (F2 : foot (rd_of L (reads_of E d m2)) (loc_of L (fun id => subject m2 = Some id)) (expand (p_process E m2)) s).
    { apply (foot_expand (p_process E m2) L (reads_of E d m2) (fun id => subject m2 = Some id) T2) with (d := d).
      - intros id. apply subject_reads.
      - exact R.
      - apply alg_process; auto. }
    assert (DD : forall a b, (forall id, subject a = Some id -> ~ reads_of E d b id) ->
              forall l, loc_of L (fun id => subject a = Some id) l ->
              ~ rd_of L (reads_of E d b) l /\ ~ loc_of L (fun id => subject b = Some id) l).
    { intros a b Hn l Hl. destruct l as [|n k]; cbn in *; [contradiction|]. destruct Hl as (id & Hs & Hk).
      split; intros (id' & Hr & Hk'); assert (id' = id) as -> by (eapply idx_inj; eauto).
      - now apply (Hn id Hs).
      - apply (Hn id Hs). now apply subject_reads. }
    pose proof (par_det _ _ _ _ (loc_of_subject L m1) (DD m1 m2 N1) (DD m2 m1 N2) sch _ _ s F1 F2) as P.
    unfold par_process. destruct (par sch _ _ s) as [s' [r1 r2]]. unfold par in P. fold (sprocess E s m1) in P.
    unfold sprocess in *. destruct (sinterp (expand (p_process E m1)) s) as [s1 a]. cbn [fst snd].
    destruct (sinterp (expand (p_process E m2)) s1) as [s2 b]. destruct P as (-> & -> & _ & _ & P). cbn [fst snd].
    split; [reflexivity|]. split; [reflexivity|]. intros n id. now apply agree_lookup.
  Qed.
End Process.
