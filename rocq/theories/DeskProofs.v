(** * DeskProofs: what replies and escrow passes cannot disturb. *)
From Verif Require Import Base Base64 Codes NumFmt Types KeyConf State Db Processor Prog ProgProofs Sled Crash
  SpecCodec SledProofs Spec SpecProc Threads SpecThreads ThreadProofs Desk SpecDesk.

Notation reply_names r id := (names (MKeyStateNotice r) id).
(** [t]'s last key is its greatest *)
Definition last_max (t : tree bytes) : Prop :=
  match tr_last t with Some m => Forall (fun kv => (fst kv <= m)%N) t | None => t = [] end.
Lemma find_text_app t x v k : find_text t v = Some k -> find_text (t ++ x) v = Some k.
Proof. induction t as [|[j w] t IH]; cbn [find_text app]; [discriminate|]. destruct (bytes_eq_dec w v); auto. Qed.
Lemma put_above {V} (t x : tree V) k v : Forall (fun kv => (fst kv < k)%N) t -> tr_put (t ++ x) k v = t ++ tr_put x k v.
Proof.
  induction 1 as [|[j w] t Hj Ht IH]; [reflexivity|]. cbn [app tr_put fst] in *.
  destruct (k <? j)%N eqn:E1; [apply N.ltb_lt in E1; lia|]. destruct (k =? j)%N eqn:E2; [apply N.eqb_eq in E2; lia|]. now rewrite IH.
Qed.
Lemma last_app {V} (t x : tree V) : x <> [] -> tr_last (t ++ x) = tr_last x.
Proof.
  intros Hx. induction t as [|[j w] t IH]; [reflexivity|]. cbn [app tr_last]. destruct (t ++ x) eqn:E; [|exact IH].
  destruct t; [subst; contradiction|discriminate E].
Qed.
Lemma last_in {V} (t : tree V) m : tr_last t = Some m -> exists v, In (m, v) t.
Proof.
  induction t as [|[j w] t IH]; [discriminate|]. cbn [tr_last]. destruct t as [|p t].
  - intros H. injection H as <-. exists w. now left.
  - intros H. destruct (IH H) as (v & Hv). exists v. now right.
Qed.
Lemma last_none {V} (t : tree V) : tr_last t = None -> t = [].
Proof.
  induction t as [|[j w] t IH]; [reflexivity|]. cbn [tr_last]. destruct t as [|p t]; [discriminate|].
  intros H. specialize (IH H). discriminate IH.
Qed.

Section Shadow.
  Context (ids0 : tree bytes) (LM : last_max ids0).
  Definition kn (id : IdentifierPrefix) : Prop := find_text ids0 (id_str id) <> None.
  Definition known (r : SignedReply) : Prop := forall id, reply_names r id -> kn id.
  Definition good (n : tname) : list (tty n) -> Prop :=
    match n with TEscRpy => fun l => Forall known l | _ => fun _ => True end.
  Definition above (k : N) : Prop := Forall (fun kv => (fst kv < k)%N) ids0.
  (** what accesses answer in the stores met *)
  Definition okres {X} (o : prim X) : X -> Prop :=
    match o in prim X return X -> Prop with
    | PFind id => fun x => kn id -> x <> None
    | PLast => fun x => match x with Some m => Forall (fun kv => (fst kv <= m)%N) ids0 | None => ids0 = [] end
    | PGet n _ => fun v => good n (match v with Some l => l | None => [] end)
    | PAll n => good n
    | PInsert _ _ | PPut _ _ _ => fun _ => True
    end.
  (** accesses that are kept, and accesses that are left out *)
  Definition e_op {X} (o : prim X) : Prop :=
    match o with
    | PFind _ | PLast => True
    | PInsert k _ => above k
    | PGet n _ | PPut n _ _ => reply_table n = false
    | PAll _ => False
    end.
  Definition r_op {X} (o : prim X) : Prop :=
    match o with
    | PFind id => kn id
    | PLast | PInsert _ _ => False
    | PGet _ _ => True
    | PPut n _ l => reply_table n = true /\ good n l
    | PAll n => n = TEscRpy
    end.
  Fixpoint shadow {A B} (R : A -> B -> Prop) (p : prog prim A) (q : prog prim B) : Prop :=
    match p with
    | Ret a => exists b, q = Ret b /\ R a b
    | Do o k => (e_op o /\ exists k', q = Do o k' /\ forall x, okres o x -> shadow R (k x) (k' x))
                \/ (r_op o /\ forall x, okres o x -> shadow R (k x) q)
    end.
  Record inv (s : Sled) : Prop := {
    i_ids : exists x, s_ids s = ids0 ++ x /\ Forall (fun kv => above (fst kv)) x;
    i_esc : Forall (fun kv => Forall known (snd kv)) (s_esc_rpy s) }.
  Definition same (s s' : Sled) : Prop := s_ids s = s_ids s' /\ forall n, reply_table n = false -> stab n s = stab n s'.

  Lemma above_put x k v : above k -> Forall (fun kv : N * bytes => above (fst kv)) x -> Forall (fun kv => above (fst kv)) (tr_put x k v).
  Proof.
    intros Hk. induction 1 as [|[j w] x Hj Hx IH]; cbn [tr_put]; [constructor; [exact Hk|constructor]|].
    destruct (k <? j)%N; [repeat constructor; auto|]. destruct (k =? j)%N; constructor; auto.
  Qed.
  Lemma esc_put t k l : Forall (fun kv : N * list SignedReply => Forall known (snd kv)) t -> Forall known l ->
    Forall (fun kv => Forall known (snd kv)) (tr_put t k l).
  Proof.
    intros Ht Hl. induction Ht as [|[j w] t Hj Ht IH]; cbn [tr_put]; [constructor; [exact Hl|constructor]|].
    destruct (k <? j)%N; [repeat constructor; auto|]. destruct (k =? j)%N; constructor; auto.
  Qed.
  Lemma esc_get t k l : Forall (fun kv : N * list SignedReply => Forall known (snd kv)) t -> tr_get t k = Some l -> Forall known l.
  Proof.
    induction 1 as [|[j w] t Hj Ht IH]; cbn [tr_get]; [discriminate|]. destruct (k =? j)%N; [|exact IH]. intros H. injection H as <-. exact Hj.
  Qed.
  Lemma esc_all t : Forall (fun kv : N * list SignedReply => Forall known (snd kv)) t -> Forall known (flat_map snd t).
  Proof. induction 1 as [|[j w] t Hj Ht IH]; cbn [flat_map snd]; [constructor|]. now apply Forall_app. Qed.
  Lemma res_ok {X} (o : prim X) s : inv s -> okres o (snd (prim_sem o s)).
  Proof.
    intros [(x & Hi & Hx) He]. destruct o as [id| |k id|n k|n k l|n]; cbn [okres prim_sem snd]; try exact I.
    - intros Hk. rewrite Hi. unfold kn in Hk. destruct (find_text ids0 (id_str id)) eqn:Ef; [|congruence].
      rewrite (find_text_app _ x _ _ Ef). discriminate.
    - rewrite Hi. destruct x as [|p x].
      + rewrite app_nil_r. unfold last_max in LM. destruct (tr_last ids0); exact LM.
      + rewrite last_app by discriminate. destruct (tr_last (p :: x)) as [m|] eqn:El; [|apply last_none in El; discriminate El].
        apply last_in in El. destruct El as (v & Hv). rewrite Forall_forall in Hx. specialize (Hx _ Hv). cbn [fst] in Hx.
        unfold above in Hx. eapply Forall_impl; [|exact Hx]. cbn. intros; lia.
    - destruct n; try exact I. change (Forall known (match tr_get (s_esc_rpy s) k with Some l => l | None => [] end)).
      pose proof (esc_get (s_esc_rpy s) k) as G. destruct (tr_get (s_esc_rpy s) k) as [l|]; [exact (G l He eq_refl)|constructor].
    - destruct n; try exact I. cbn [good stab]. now apply esc_all.
  Qed.
  Lemma stab_same n s t : stab n (sset n s t) = t.
  Proof. apply stab_sset_same. Qed.
  Lemma e_keeps {X} (o : prim X) s : e_op o -> inv s -> inv (fst (prim_sem o s)).
  Proof.
    intros Ho [(x & Hi & Hx) He]. destruct o as [id| |k id|n k|n k l|n]; cbn [e_op prim_sem fst] in *; try (constructor; eauto; fail).
    - constructor; [|exact He]. cbn [set_ids s_ids]. rewrite Hi, put_above by exact Ho. eexists. split; [reflexivity|]. now apply above_put.
    - constructor; [rewrite ids_sset; eauto|]. destruct s, n; try exact He; discriminate Ho.
  Qed.
  Lemma r_keeps {X} (o : prim X) s : r_op o -> inv s -> inv (fst (prim_sem o s)).
  Proof.
    intros Ho [(x & Hi & Hx) He]. destruct o as [id| |k id|n k|n k l|n]; cbn [r_op prim_sem fst] in *; try (constructor; eauto; fail); try contradiction.
    destruct Ho as [Hn Hg]. constructor; [rewrite ids_sset; eauto|]. destruct s, n; try discriminate Hn; [exact He|].
    apply esc_put; [exact He|exact Hg].
  Qed.
  Lemma e_same {X} (o : prim X) s s' : e_op o -> same s s' ->
    snd (prim_sem o s) = snd (prim_sem o s') /\ same (fst (prim_sem o s)) (fst (prim_sem o s')).
  Proof.
    intros Ho [Hi Ht]. destruct o as [id| |k id|n k|n k l|n]; cbn [e_op prim_sem fst snd] in *; try contradiction.
    - rewrite Hi. split; [reflexivity|split; auto].
    - rewrite Hi. split; [reflexivity|split; auto].
    - split; [reflexivity|]. split; [cbn [set_ids s_ids]; now rewrite Hi|]. intros n Hn. rewrite !stab_set_ids. now apply Ht.
    - rewrite (Ht n Ho). split; [reflexivity|split; auto].
    - split; [reflexivity|]. split; [rewrite !ids_sset; exact Hi|]. intros m Hm. destruct (tname_eq_dec n m) as [<-|Hne].
      + rewrite !stab_sset_same. now rewrite Ht.
      + rewrite !stab_sset_other by exact Hne. now apply Ht.
  Qed.
  Lemma r_same {X} (o : prim X) s s' : r_op o -> same s s' -> same (fst (prim_sem o s)) s'.
  Proof.
    intros Ho [Hi Ht]. destruct o as [id| |k id|n k|n k l|n]; cbn [r_op prim_sem fst] in *; try contradiction; try (split; auto; fail).
    destruct Ho as [Hn _]. split; [rewrite ids_sset; exact Hi|]. intros m Hm. rewrite stab_sset_other by (intros ->; congruence). now apply Ht.
  Qed.
  Lemma Forall2_nth {A B} (R : A -> B -> Prop) l l' : Forall2 R l l' -> forall i a, nth_error l i = Some a -> exists b, nth_error l' i = Some b /\ R a b.
  Proof.
    induction 1 as [|x y l l' Hxy Hl IH]; intros [|i] a Hn; try discriminate Hn; cbn [nth_error] in *; [|now apply IH].
    injection Hn as <-. eauto.
  Qed.
  Lemma Forall2_replace {A B} (R : A -> B -> Prop) l l' a b : Forall2 R l l' -> R a b -> forall i, Forall2 R (replace i a l) (replace i b l').
  Proof. intros H Hab. induction H; intros [|i]; cbn [replace]; constructor; auto. Qed.
  Lemma Forall2_replace_l {A B} (R : A -> B -> Prop) l l' : Forall2 R l l' -> forall i a b, nth_error l' i = Some b -> R a b -> Forall2 R (replace i a l) l'.
  Proof. induction 1; intros [|i] a b Hn Hr; cbn [replace nth_error] in *; try discriminate Hn; constructor; auto; [congruence|eauto]. Qed.
  Lemma shadow_rets {A B} (R : A -> B -> Prop) l : forall qs, Forall2 (shadow R) (map Ret l) qs -> exists l', qs = map Ret l' /\ Forall2 R l l'.
  Proof.
    induction l as [|a l IH]; intros qs H; inversion H as [|x y xs ys Hxy Hl]; subst; [exists []; split; constructor|].
    destruct Hxy as (b & -> & Hab). destruct (IH _ Hl) as (l' & -> & Hl'). exists (b :: l'). split; [reflexivity|now constructor].
  Qed.
  (** leaving the replies and passes out of a run gives a run *)
  Theorem leave_out {A B} (R : A -> B -> Prop) ps s s' l : runs ps s s' l ->
    forall qs t, Forall2 (shadow R) ps qs -> inv s -> same s t ->
    exists t' l', runs qs t t' l' /\ Forall2 R l l' /\ same s' t'.
  Proof.
    induction 1 as [l s|ps i X o k s s1 x s2 l Hn Ho Hr IH]; intros qs t Hsh HI Hs.
    - destruct (shadow_rets R l qs Hsh) as (l' & -> & Hl). exists t, l'. split; [constructor|auto].
    - destruct (Forall2_nth _ _ _ Hsh i _ Hn) as (q & Hq & Hpq). cbn [shadow] in Hpq.
      pose proof (res_ok o s HI) as Hres. destruct Hpq as [(He & k' & -> & Hk)|(He & Hk)].
      + pose proof (e_keeps o s He HI) as HI'. destruct (e_same o s t He Hs) as (E1 & E2).
        rewrite Ho in *. cbn [fst snd] in *. destruct (prim_sem o t) as [t1 y] eqn:Ht. cbn [fst snd] in *. subst y.
        destruct (IH (replace i (k' x) qs) t1) as (t' & l' & H1 & H2 & H3); [|exact HI'|exact E2|].
        * apply Forall2_replace; [exact Hsh|]. apply Hk. exact Hres.
        * exists t', l'. split; [|auto]. eapply runs_access; eauto.
      + pose proof (r_keeps o s He HI) as HI'. pose proof (r_same o s t He Hs) as E2. rewrite Ho in *. cbn [fst snd] in *.
        apply (IH qs t); [|exact HI'|exact E2]. eapply Forall2_replace_l; [exact Hsh|exact Hq|]. apply Hk. exact Hres.
  Qed.

  (** ** programs of store operations *)
  Lemma shadow_bind {A B A' B'} (R : A -> B -> Prop) (R' : A' -> B' -> Prop) (p : prog prim A) (k : A -> prog prim A') (k' : B -> prog prim B') :
    (forall a b, R a b -> shadow R' (k a) (k' b)) -> forall q, shadow R p q -> shadow R' (pbind p k) (pbind q k').
  Proof.
    intros Hk. induction p as [a|X o c IH]; intros q Hp; cbn [shadow pbind] in *.
    - destruct Hp as (b & -> & Hab). cbn [pbind]. auto.
    - destruct Hp as [(He & c' & -> & Hc)|(He & Hc)]; [left|right].
      + split; [exact He|]. cbn [pbind]. eexists. split; [reflexivity|]. intros x Hx. apply IH. now apply Hc.
      + split; [exact He|]. intros x Hx. apply IH. now apply Hc.
  Qed.
  Definition e_store {X} (o : op X) : Prop :=
    match o with
    | OGet n _ | OPush n _ _ | ORemove n _ _ | OPut n _ _ => reply_table n = false
    | OAll _ => False
    end.
  Definition gd (n : tname) : tty n -> Prop := match n with TEscRpy => known | _ => fun _ => True end.
  Definition r_store {X} (o : op X) : Prop :=
    match o with
    | OGet n id => kn id
    | OPush n id x => kn id /\ reply_table n = true /\ gd n x
    | ORemove n id _ => kn id /\ reply_table n = true
    | OPut n id l => kn id /\ n = TRpy
    | OAll n => n = TEscRpy
    end.
  Definition rgood {X} (o : op X) : X -> Prop :=
    match o in op X return X -> Prop with OAll n => good n | _ => fun _ => True end.
  Fixpoint oshadow {A B} (R : A -> B -> Prop) (p : prog op A) (q : prog op B) : Prop :=
    match p with
    | Ret a => exists b, q = Ret b /\ R a b
    | Do o k => (e_store o /\ exists k', q = Do o k' /\ forall x, oshadow R (k x) (k' x))
                \/ (r_store o /\ forall x, rgood o x -> oshadow R (k x) q)
    end.
  Lemma oshadow_bind {A B A' B'} (R : A -> B -> Prop) (R' : A' -> B' -> Prop) (p : prog op A) (k : A -> prog op A') (k' : B -> prog op B') :
    (forall a b, R a b -> oshadow R' (k a) (k' b)) -> forall q, oshadow R p q -> oshadow R' (pbind p k) (pbind q k').
  Proof.
    intros Hk. induction p as [a|X o c IH]; intros q Hp; cbn [oshadow pbind] in *.
    - destruct Hp as (b & -> & Hab). cbn [pbind]. auto.
    - destruct Hp as [(He & c' & -> & Hc)|(He & Hc)]; [left|right].
      + split; [exact He|]. cbn [pbind]. eexists. split; [reflexivity|]. intros x. apply IH. apply Hc.
      + split; [exact He|]. intros x Hx. apply IH. now apply Hc.
  Qed.
  Lemma designated_e id : shadow eq (designated id) (designated id).
  Proof.
    unfold designated. cbn [pbind shadow]. left. split; [exact I|]. eexists. split; [reflexivity|]. intros [k|] _; [now exists k|].
    cbn [pbind shadow]. left. split; [exact I|]. eexists. split; [reflexivity|]. intros x Hx. cbn [okres] in Hx.
    cbn [pbind shadow]. left. split.
    - cbn [e_op]. unfold above. destruct x as [m|].
      + eapply Forall_impl; [|exact Hx]. cbn. intros; lia.
      + rewrite Hx. constructor.
    - eexists. split; [reflexivity|]. intros ? _. eexists. split; reflexivity.
  Qed.
  Lemma expand_e {X} (o : op X) : e_store o -> shadow eq (expand_op o) (expand_op o).
  Proof.
    intros Ho. destruct o as [n id|n id x|n id x|n id l|n]; cbn [e_store expand_op] in *; try contradiction.
    - apply (shadow_bind eq eq _ _ _) with (q := designated id); [|apply designated_e]. intros a b <-. cbn [shadow]. left. split; [exact Ho|]. eexists. split; [reflexivity|].
      intros y _. eexists. split; reflexivity.
    - apply (shadow_bind eq eq _ _ _) with (q := designated id); [|apply designated_e]. intros a b <-. cbn [pbind shadow]. left. split; [exact Ho|]. eexists. split; [reflexivity|].
      intros y _. cbn [pbind shadow]. left. split; [exact Ho|]. eexists. split; [reflexivity|]. intros z _. eexists. split; reflexivity.
    - apply (shadow_bind eq eq _ _ _) with (q := designated id); [|apply designated_e]. intros a b <-. cbn [pbind shadow]. left. split; [exact Ho|]. eexists. split; [reflexivity|].
      intros y _. cbn [pbind]. destruct y; cbn [shadow]; [|eexists; split; reflexivity]. left. split; [exact Ho|]. eexists. split; [reflexivity|]. intros z _. eexists. split; reflexivity.
    - apply (shadow_bind eq eq _ _ _) with (q := designated id); [|apply designated_e]. intros a b <-. cbn [shadow]. left. split; [exact Ho|]. eexists. split; [reflexivity|].
      intros y _. eexists. split; reflexivity.
  Qed.
  Lemma designated_r {B} (R : N -> B -> Prop) id q : kn id -> (forall k, shadow R (Ret k) q) -> shadow R (designated id) q.
  Proof.
    intros Hid Hq. unfold designated. cbn [pbind shadow]. right. split; [exact Hid|]. intros [k|] Hx; [apply Hq|].
    exfalso. apply Hx; [exact Hid|reflexivity].
  Qed.
  Lemma good_push n (v : option (list (tty n))) x : good n (match v with Some l => l | None => [] end) -> gd n x ->
    good n (match v with Some l => l ++ [x] | None => [x] end).
  Proof.
    destruct n; cbn [good gd]; try (intros _ _; exact I). intros Hl Hx. destruct v; [apply Forall_app; split; [exact Hl|]|]; repeat constructor; exact Hx.
  Qed.
  Lemma good_filter n f (l : list (tty n)) : good n l -> good n (filter f l).
  Proof.
    destruct n; cbn [good]; try (intros _; exact I). intros Hl. rewrite Forall_forall in *. intros x Hx. apply filter_In in Hx. now apply Hl.
  Qed.
  Lemma expand_r {X} (o : op X) {A B} (R : A -> B -> Prop) (k : X -> prog prim A) q :
    r_store o -> (forall x, rgood o x -> shadow R (k x) q) -> shadow R (pbind (expand_op o) k) q.
  Proof.
    intros Ho Hk.
    assert (G : shadow (fun x (_ : unit) => rgood o x) (expand_op o) (Ret tt)).
    { destruct o as [n id|n id x|n id x|n id l|n]; cbn [r_store rgood expand_op] in *.
      - eapply (shadow_bind (fun _ _ => True) _ _ _ (fun _ => Ret tt)) with (q := Ret tt); [|apply designated_r; [exact Ho|intros j; exists tt; split; constructor]].
        intros j [] _. cbn [shadow]. right. split; [exact I|]. intros y _. exists tt. split; constructor.
      - destruct Ho as (Ho & Hn & Hx). eapply (shadow_bind (fun _ _ => True) _ _ _ (fun _ => Ret tt)) with (q := Ret tt); [|apply designated_r; [exact Ho|intros j; exists tt; split; constructor]].
        intros j [] _. cbn [pbind shadow]. right. split; [exact I|]. intros y Hy. cbn [pbind shadow]. right.
        split; [split; [exact Hn|now apply good_push]|]. intros z _. exists tt. split; constructor.
      - destruct Ho as (Ho & Hn). eapply (shadow_bind (fun _ _ => True) _ _ _ (fun _ => Ret tt)) with (q := Ret tt); [|apply designated_r; [exact Ho|intros j; exists tt; split; constructor]].
        intros j [] _. cbn [pbind shadow]. right. split; [exact I|]. intros y Hy. cbn [pbind okres] in *. destruct y; cbn [shadow]; [right|exists tt; split; constructor].
        split; [split; [exact Hn|now apply good_filter]|]. intros z _. exists tt. split; constructor.
      - destruct Ho as (Ho & ->). eapply (shadow_bind (fun _ _ => True) _ _ _ (fun _ => Ret tt)) with (q := Ret tt); [|apply designated_r; [exact Ho|intros j; exists tt; split; constructor]].
        intros j [] _. cbn [shadow]. right. split; [split; [reflexivity|exact I]|]. intros y _. exists tt. split; constructor.
      - subst n. cbn [shadow]. right. split; [reflexivity|]. intros y Hy. exists tt. split; [reflexivity|exact Hy]. }
    change q with (pbind (Ret (S := prim) tt) (fun _ => q)). eapply shadow_bind; [|exact G]. intros a [] Ha. now apply Hk.
  Qed.
  Lemma oshadow_expand {A B} (R : A -> B -> Prop) (p : prog op A) : forall q, oshadow R p q -> shadow R (expand p) (expand q).
  Proof.
    induction p as [a|X o k IH]; intros q H; cbn [oshadow expand] in *.
    - destruct H as (b & -> & Hab). exists b. split; [reflexivity|exact Hab].
    - destruct H as [(He & k' & -> & Hk)|(He & Hk)].
      + cbn [expand]. eapply shadow_bind; [|apply expand_e; exact He]. intros a b <-. apply IH, Hk.
      + apply expand_r; [exact He|]. intros x Hx. apply IH, Hk, Hx.
  Qed.

  Section Calls.
    Context (E : Env).
    Notation T := (fun _ (_ : unit) => True).
    Lemma ev_ret {A} (a : A) : oshadow eq (Ret a) (Ret a).
    Proof. exists a. split; reflexivity. Qed.
    Lemma ev_bind {A B} (p : prog op A) (k : A -> prog op B) : oshadow eq p p -> (forall a, oshadow eq (k a) (k a)) -> oshadow eq (pbind p k) (pbind p k).
    Proof. intros Hp Hk. eapply oshadow_bind; [|exact Hp]. intros a b <-. apply Hk. Qed.
    Lemma ev_try {A B} (p : prog op (out A)) (k : A -> prog op (out B)) : oshadow eq p p -> (forall a, oshadow eq (k a) (k a)) -> oshadow eq (ptry p k) (ptry p k).
    Proof. intros Hp Hk. apply ev_bind; [exact Hp|]. intros [a|e|]; [apply Hk|apply ev_ret..]. Qed.
    Lemma ev_op {X} (o : op X) : e_store o -> oshadow eq (p_do o) (p_do o).
    Proof. intros Ho. unfold p_do. cbn [oshadow]. left. split; [exact Ho|]. eexists. split; [reflexivity|]. intros x. exists x. split; reflexivity. Qed.
    Lemma ev_get n id : reply_table n = false -> oshadow eq (p_get n id) (p_get n id).
    Proof. intros Hn. apply (ev_op (OGet n id)). exact Hn. Qed.
    Lemma ev_compute id : oshadow eq (p_compute_state E id) (p_compute_state E id).
    Proof. apply ev_bind; [now apply ev_get|]. intros; apply ev_ret. Qed.
    Lemma ev_at id sn : oshadow eq (p_event_at_sn id sn) (p_event_at_sn id sn).
    Proof. apply ev_bind; [now apply ev_get|]. intros; apply ev_ret. Qed.
    Lemma ev_keys id sn dig : oshadow eq (p_keys_at_event E id sn dig) (p_keys_at_event E id sn dig).
    Proof. apply ev_bind; [apply ev_at|]. intros; apply ev_ret. Qed.
    Lemma ev_seal sl m : oshadow eq (p_validate_seal E sl m) (p_validate_seal E sl m).
    Proof. apply ev_bind; [apply ev_at|]. intros; apply ev_ret. Qed.
    Lemma ev_delegation se : oshadow eq (p_check_delegation E se) (p_check_delegation E se).
    Proof.
      unfold p_check_delegation. destruct (em_data (sem_msg se)); try apply ev_ret.
      - apply ev_try; [apply ev_ret|]. intros; apply ev_seal.
      - apply ev_try; [apply ev_compute|]. intros. repeat (apply ev_try; [apply ev_ret|]; intros). apply ev_seal.
    Qed.
    Lemma ev_event se : oshadow eq (p_process_event E se) (p_process_event E se).
    Proof.
      unfold p_process_event. apply ev_try; [apply ev_delegation|]. intros _. apply ev_try.
      { apply ev_try; [apply ev_compute|]. intros; apply ev_ret. }
      intros ns. apply ev_bind; [now apply (ev_op (OPush TKel _ _))|]. intros _. apply ev_try; [apply ev_ret|]. intros ser.
      destruct (verify_signatures E ns ser se) as [s|e|]; try apply ev_ret.
      apply ev_bind; [|intros _; apply ev_bind; [now apply (ev_op (ORemove TKel _ _))|intros; apply ev_ret]].
      destruct e; try apply ev_ret. now apply (ev_op (OPush TDup _ _)).
    Qed.
    Lemma ev_vrc r : oshadow eq (p_process_validator_receipt E r) (p_process_validator_receipt E r).
    Proof.
      unfold p_process_validator_receipt. apply ev_bind; [apply ev_at|]. intros [ev|].
      - apply ev_try; [apply ev_keys|]. intros kc. apply ev_try; [apply ev_ret|]. intros ser. apply ev_try; [apply ev_ret|]. intros [|]; [|apply ev_ret].
        apply ev_bind; [now apply (ev_op (OPush TRctT _ _))|]. intros; apply ev_compute.
      - apply ev_bind; [now apply (ev_op (OPush TEscT _ _))|]. intros; apply ev_ret.
    Qed.
    Lemma ev_wrc r : oshadow eq (p_process_witness_receipt E r) (p_process_witness_receipt E r).
    Proof.
      unfold p_process_witness_receipt. apply ev_bind; [apply ev_at|]. intros [ev|].
      - apply ev_try; [apply ev_ret|]. intros ser. destruct (rev _); [|apply ev_ret].
        apply ev_bind; [now apply (ev_op (OPush TRctNt _ _))|]. intros; apply ev_compute.
      - apply ev_bind; [now apply (ev_op (OPush TEscNt _ _))|]. intros; apply ev_compute.
    Qed.

    Lemma re_ret {A} (a : A) : oshadow T (Ret a) (Ret tt).
    Proof. exists tt. split; constructor. Qed.
    Lemma re_bind {A B} (p : prog op A) (k : A -> prog op B) : oshadow T p (Ret tt) -> (forall a, oshadow T (k a) (Ret tt)) -> oshadow T (pbind p k) (Ret tt).
    Proof. intros Hp Hk. change (Ret (S := op) tt) with (pbind (Ret (S := op) tt) (fun _ => Ret tt)) . eapply oshadow_bind; [|exact Hp]. intros a [] _. apply Hk. Qed.
    Lemma re_try {A B} (p : prog op (out A)) (k : A -> prog op (out B)) : oshadow T p (Ret tt) -> (forall a, oshadow T (k a) (Ret tt)) -> oshadow T (ptry p k) (Ret tt).
    Proof. intros Hp Hk. apply re_bind; [exact Hp|]. intros [a|e|]; [apply Hk|apply re_ret..]. Qed.
    Lemma re_op {X} (o : op X) : r_store o -> oshadow T (p_do o) (Ret tt).
    Proof. intros Ho. unfold p_do. cbn [oshadow]. right. split; [exact Ho|]. intros x _. exists tt. split; constructor. Qed.
    Lemma re_get n id : kn id -> oshadow T (p_get n id) (Ret tt).
    Proof. intros Hn. apply (re_op (OGet n id)). exact Hn. Qed.
    Lemma re_at id sn : kn id -> oshadow T (p_event_at_sn id sn) (Ret tt).
    Proof. intros H. apply re_bind; [now apply re_get|]. intros; apply re_ret. Qed.
    Lemma re_compute id : kn id -> oshadow T (p_compute_state E id) (Ret tt).
    Proof. intros H. apply re_bind; [now apply re_get|]. intros; apply re_ret. Qed.
    Lemma re_escrow r : known r -> oshadow T (p_escrow_reply r) (Ret tt).
    Proof. intros H. apply (re_op (OPush TEscRpy _ _)). split; [apply H; now left|]. split; [reflexivity|exact H]. Qed.
    Lemma re_reply r : known r -> oshadow T (p_process_signed_reply E r) (Ret tt).
    Proof.
      intros H. assert (Hp : kn (sr_prefix r)) by (apply H; now left). unfold p_process_signed_reply.
      destruct (rp_route (sr_reply r)); try apply re_ret. destruct (IdentifierPrefix_eq_dec _ _); [|apply re_ret].
      apply re_try; [apply re_ret|]. intros ser. apply re_bind.
      { unfold p_verify. destruct (sr_sig r) as [seal sigs|bp sg] eqn:Es; [|apply re_ret]. apply re_try; [|intros; apply re_ret].
        unfold p_keys_at_event. apply re_bind; [apply re_at|intros; apply re_ret]. apply H. right. now rewrite Es. }
      intros vr. destruct vr as [u|er|]; [|destruct er; try apply re_ret|apply re_ret].
      2:{ apply re_bind; [now apply re_escrow|]. intros; apply re_ret. }
      apply re_try; [apply re_ret|]. intros _. apply re_bind.
      { unfold p_bada_logic. apply re_bind; [now apply re_get|]. intros; apply re_ret. }
      intros br. apply re_try; [apply re_ret|]. intros _. apply re_bind.
      { unfold p_check_ksn. apply re_bind; [now apply re_at|]. intros oe. repeat (apply re_try; [apply re_ret|]; intros).
        apply re_bind; [unfold p_check_timestamp; apply re_bind; [now apply re_get|intros; apply re_ret]|]. intros rt.
        apply re_try; [apply re_ret|]. intros _. apply re_try; [now apply re_compute|]. intros os. apply re_try; [apply re_ret|]. intros; apply re_ret. }
      intros kr.
      destruct kr as [u'|er|]; [|destruct er as [| |?| | | | |?| | | | | |q]; try apply re_ret|apply re_ret].
      - apply re_bind; [|intros; apply re_ret]. unfold p_update_accepted_reply. apply re_bind; [now apply re_get|].
        intros [rs|]; [apply (re_op (OPut TRpy _ _)); split; [exact Hp|reflexivity]|apply (re_op (OPush TRpy _ _)); split; [exact Hp|split; [reflexivity|exact I]]].
      - destruct q; try apply re_ret. apply re_bind; [now apply re_escrow|]. intros; apply re_ret.
    Qed.
    Lemma re_loop l : Forall known l -> oshadow T (p_escrow_loop E l) (Ret tt).
    Proof.
      induction 1 as [|r l Hr Hl IH]; cbn [p_escrow_loop]; [apply re_ret|]. apply re_bind; [now apply re_reply|].
      assert (G : oshadow T (let* _ := p_do (ORemove TEscRpy (sr_prefix r) r) in p_escrow_loop E l) (Ret tt)).
      { apply re_bind; [|intros _; exact IH]. apply (re_op (ORemove TEscRpy _ _)). split; [apply Hr; now left|reflexivity]. }
      intros [a|er|]; [exact G| |apply re_ret].
      destruct er as [| |?| | | | |?| | | | | |q]; try exact IH; try exact G. destruct q; try exact IH; exact G.
    Qed.
    Lemma re_pass : oshadow T (p_process_escrow E) (Ret tt).
    Proof.
      unfold p_process_escrow, p_do. cbn [pbind oshadow]. right. split; [reflexivity|]. intros l Hl. apply re_loop. exact Hl.
    Qed.
    Definition call_known (c : Call) : Prop := match c with CProcess (MKeyStateNotice r) => known r | _ => True end.
    Definition ends_like (cs : list Call) (l l' : list outcome) : Prop := l' = answers_without cs l /\ List.length l = List.length cs.
    Lemma calls_shadow cs : Forall call_known cs -> oshadow (ends_like cs) (p_calls E cs) (p_calls E (without_replies cs)).
    Proof.
      induction 1 as [|c cs Hc Hcs IH]; [exists []; split; [reflexivity|split; reflexivity]|]. cbn [p_calls without_replies filter]. fold (without_replies cs).
      destruct (reply_call c) eqn:Hr; cbn [negb].
      - assert (G : oshadow T (p_call E c) (Ret tt)).
        { destruct c as [[e|e|e|r|q]|]; cbn [reply_call] in Hr; try discriminate Hr; cbn [p_call].
          - apply re_bind; [apply re_reply; exact Hc|]. intros; apply re_ret.
          - apply re_bind; [apply re_pass|]. intros; apply re_ret. }
        change (p_calls E (without_replies cs)) with (pbind (Ret (S := op) tt) (fun _ => p_calls E (without_replies cs))).
        eapply oshadow_bind; [|exact G]. intros a [] _.
        assert (Q : oshadow (ends_like (c :: cs)) (let* l := p_calls E cs in Ret (a :: l)) (let* l := p_calls E (without_replies cs) in Ret l)).
        { eapply oshadow_bind; [|exact IH]. intros l l' [Hl Hn]. exists l'. split; [reflexivity|]. split; cbn [answers_without List.length]; [now rewrite Hr|congruence]. }
        assert (Z : forall (p : prog op (list outcome)) R (q : prog op (list outcome)), oshadow R p (pbind q Ret) -> oshadow (A := list outcome) R p q).
        { clear. induction p as [a|X o k IHp]; intros R q H; cbn [oshadow] in *.
          - destruct H as (b & Hq & Hb). destruct q; cbn [pbind] in Hq; [|discriminate Hq]. exists r. split; [reflexivity|]. congruence.
          - destruct H as [(He & k' & Hq & Hk)|(He & Hk)]; [left|right; split; [exact He|]; intros x Hx; apply IHp; now apply Hk].
            split; [exact He|]. destruct q as [b|Y o' k2]; cbn [pbind] in Hq; [discriminate Hq|].
            assert (G : forall r, Do o' (fun a => pbind (k2 a) Ret) = r -> match r with Do o1 k1 => exists k'', Do (R := list outcome) o' k2 = Do o1 k'' /\ forall x, k1 x = pbind (k'' x) Ret | Ret _ => True end).
            { intros r <-. exists k2. split; reflexivity. }
            specialize (G _ Hq). cbn in G. destruct G as (k'' & E1 & E2). exists k''. split; [exact E1|]. intros x. apply IHp. rewrite <- E2. apply Hk. }
        apply Z. exact Q.
      - cbn [p_calls]. eapply oshadow_bind with (R := eq).
        2:{ destruct c as [[e|e|e|r|q]|]; cbn [reply_call] in Hr; try discriminate Hr; cbn [p_call p_process];
            (apply ev_bind; [|intros; apply ev_ret]); [apply ev_event|apply ev_wrc|apply ev_vrc|apply ev_ret]. }
        intros a b <-. eapply oshadow_bind; [|exact IH]. intros l l' [Hl Hn]. eexists. split; [reflexivity|].
        split; cbn [answers_without List.length]; [rewrite Hr, Hl; reflexivity|congruence].
    Qed.
  End Calls.
End Shadow.

(** ** stores with the same logs answer alike *)
Lemma same_lookup s t n id : same s t -> reply_table n = false -> lookup s n id = lookup t n id.
Proof.
  intros [Hi Ht] Hn. unfold lookup, sop. cbn [expand_op]. unfold designated. rewrite !sinterp_pbind.
  cbn [sinterp prim_sem]. rewrite Hi. destruct (find_text (s_ids t) (id_str id)).
  - cbn [sinterp prim_sem snd]. now rewrite Ht.
  - rewrite !sinterp_pbind. cbn [sinterp prim_sem]. rewrite Hi, !sinterp_pbind. cbn [sinterp prim_sem snd]. rewrite !stab_set_ids. now rewrite Ht.
Qed.
