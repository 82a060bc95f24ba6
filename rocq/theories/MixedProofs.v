(** * MixedProofs: programs that run together. *)
From Verif Require Import Base Base64 Codes NumFmt Types KeyConf State Db Processor Prog ProgProofs Sled Crash CrashProofs
  SpecCodec SledProofs Spec SpecProc SpecStore StateProofs LogProofs StoreProofs Threads ThreadProofs Ask SpecAsk Prop_Ask Mixed.

(** ** Programs that have made some of their accesses *)
Inductive adv {A} : prog prim A -> Sled -> prog prim A -> Sled -> Prop :=
| adv_refl p s : adv p s p s
| adv_step X (o : prim X) k s s1 x q s2 : prim_sem o s = (s1, x) -> adv (k x) s1 q s2 -> adv (Do o k) s q s2.
Lemma adv_trans {A} (p : prog prim A) s q s1 r s2 : adv p s q s1 -> adv q s1 r s2 -> adv p s r s2.
Proof. induction 1; intros H2; [exact H2|]. econstructor; [eassumption|]. now apply IHadv. Qed.
Lemma adv_end {A} (p : prog prim A) : forall s, adv p s (Ret (snd (sinterp p s))) (fst (sinterp p s)).
Proof.
  induction p as [r|X o k IH]; intros s; cbn [sinterp]; [constructor|].
  destruct (prim_sem o s) as [s1 x] eqn:Eo. econstructor; [exact Eo|]. apply IH.
Qed.
Lemma adv_sinterp {A} (p : prog prim A) s q s1 : adv p s q s1 -> sinterp p s = sinterp q s1.
Proof. induction 1; [reflexivity|]. cbn [sinterp]. rewrite H. exact IHadv. Qed.
Lemma adv_bind {A B} (p : prog prim A) (k : A -> prog prim B) : forall s,
  adv (pbind p k) s (k (snd (sinterp p s))) (fst (sinterp p s)).
Proof.
  induction p as [r|X o c IH]; intros s; cbn [pbind sinterp]; [constructor|].
  destruct (prim_sem o s) as [s1 x] eqn:Eo. econstructor; [exact Eo|]. apply IH.
Qed.
Lemma adv_expand {A B C} (p : prog op A) (k : A -> prog op B) (K : B -> prog op C) : forall s,
  adv (expand (pbind (pbind p k) K)) s (expand (pbind (k (snd (sinterp (expand p) s))) K)) (fst (sinterp (expand p) s)).
Proof.
  induction p as [r|X o c IH]; intros s; cbn [pbind expand]; [constructor|].
  rewrite sinterp_pbind. eapply adv_trans; [apply adv_bind|].
  destruct (sinterp (expand_op o) s) as [s1 x]. cbn [fst snd]. apply IH.
Qed.
Lemma adv_cut {A} (p : prog prim A) : forall n s, exists q, adv p s q (cut n p s).
Proof.
  induction p as [r|X o k IH]; intros n s; destruct n as [|n]; cbn [cut]; try (eexists; constructor).
  destruct (prim_sem o s) as [s1 x] eqn:Eo. destruct (IH x n s1) as (q & H). exists q. econstructor; eassumption.
Qed.
Lemma replace_self {A} (x : A) : forall i l, nth_error l i = Some x -> replace i x l = l.
Proof. induction i as [|i IH]; intros [|y l] H; cbn in *; try discriminate H; [congruence|]. now rewrite IH. Qed.
Lemma replace_twice {A} (x y : A) : forall i l, replace i x (replace i y l) = replace i x l.
Proof. induction i as [|i IH]; intros [|z l]; cbn; try reflexivity. now rewrite IH. Qed.
Lemma runs_adv {A} (p : prog prim A) s q s1 : adv p s q s1 -> forall ps i s2 l,
  nth_error ps i = Some p -> runs (replace i q ps) s1 s2 l -> runs ps s s2 l.
Proof.
  induction 1 as [p s|X o k s s1 x q s2' Ho Ha IH]; intros ps i s2 l Hn Hr.
  - now rewrite replace_self in Hr.
  - eapply runs_access; [exact Hn|exact Ho|]. apply (IH _ i).
    + eapply nth_replace_same; exact Hn.
    + now rewrite replace_twice.
Qed.
(** ** the store after some accesses *)
Fixpoint after {A} (n : nat) (p : prog prim A) (s : Sled) : prog prim A * Sled :=
  match n, p with
  | S n', Do o k => let (s', x) := prim_sem o s in after n' (k x) s'
  | _, _ => (p, s)
  end.
Lemma after_cut {A} (p : prog prim A) : forall n s, snd (after n p s) = cut n p s.
Proof.
  induction p as [r|X o k IH]; intros n s; destruct n as [|n]; cbn [after cut]; try reflexivity.
  destruct (prim_sem o s) as [s1 x]. apply IH.
Qed.
Lemma after_sinterp {A} (p : prog prim A) : forall n s, sinterp (fst (after n p s)) (snd (after n p s)) = sinterp p s.
Proof.
  induction p as [r|X o k IH]; intros n s; destruct n as [|n]; cbn [after sinterp]; try reflexivity.
  destruct (prim_sem o s) as [s1 x]. apply IH.
Qed.
Lemma after_more {A} (p : prog prim A) : forall n s X (o : prim X) k s1 s2 x,
  after n p s = (Do o k, s1) -> prim_sem o s1 = (s2, x) -> after (S n) p s = (k x, s2).
Proof.
  induction p as [r|Y o' k' IH]; intros n s X o k s1 s2 x Ha Ho.
  - destruct n; cbn in Ha; discriminate Ha.
  - destruct n as [|n].
    + cbn [after] in Ha. pose proof (f_equal fst Ha) as HD. pose proof (f_equal snd Ha) as Hs. cbn [fst snd] in HD, Hs. subst s1.
      assert (G : forall p, p = Do o k -> after 1 p s = (k x, s2)).
      { intros p ->. cbn [after]. rewrite Ho. destruct (k x); reflexivity. }
      exact (G _ HD).
    + cbn [after] in Ha. change (after (S (S n)) (Do o' k') s) with (let (s', y) := prim_sem o' s in after (S n) (k' y) s').
      destruct (prim_sem o' s) as [s' y]. eapply IH; eassumption.
Qed.
Lemma cut_tail {A B} (p : prog op A) (f : A -> B) : forall n s, cut n (expand (pbind p (fun a => Ret (f a)))) s = cut n (expand p) s.
Proof.
  induction p as [r|X o k IH]; intros n s; cbn [pbind expand]; [now rewrite !cut_ret|].
  rewrite !cut_pbind. destruct (_ <? _); [reflexivity|]. destruct (sinterp (expand_op o) s) as [s1 x]. apply IH.
Qed.
Lemma sinterp_tail {A B} (p : prog op A) (f : A -> B) : forall s,
  sinterp (expand (pbind p (fun a => Ret (f a)))) s = (fst (sinterp (expand p) s), f (snd (sinterp (expand p) s))).
Proof.
  induction p as [r|X o k IH]; intros s; cbn [pbind expand]; [reflexivity|].
  rewrite !sinterp_pbind. destruct (sinterp (expand_op o) s) as [s1 x]. apply IH.
Qed.

Section One.
  Context (E : Env).
  (** [P] runs beside a question about an identifier whose number never changes *)
  Section Beside.
    Context (P : prog prim answer) (s0 : Sled) (q : question).
    Context (Hnum : forall id, In id (about q) -> exists x, forall k, number (cut k P s0) id = Some x).
    Definition stepof (p : prog prim answer) (s : Sled) : option (Sled * prog prim answer) :=
      match p with Do o k => let (s', x) := prim_sem o s in Some (s', k x) | Ret _ => None end.
    Definition at_cut (k : nat) : answer := snd (sask E (cut k P s0) q).
    Lemma ask_beside :
      (exists a, expand (p_ask E q) = Ret a /\ forall k, at_cut k = a)
      \/ exists mid, (forall k, stepof (expand (p_ask E q)) (cut k P s0) = Some (cut k P s0, mid))
                     /\ forall k, stepof mid (cut k P s0) = Some (cut k P s0, Ret (at_cut k)).
    Proof.
      destruct (shape E q) as [(a & Hp & _)|(n & id & c & Hp & Ha & Hc)].
      - left. exists a. unfold at_cut, sask. rewrite Hp. split; [reflexivity|]. reflexivity.
      - right. destruct (Hnum id) as (x & Hx); [rewrite Ha; now left|].
        exists (Do (PGet n x) (fun v => expand (c v))). unfold at_cut, sask. rewrite Hp. cbn [expand expand_op]. split; intros k.
        + unfold designated. cbn [pbind stepof prim_sem]. specialize (Hx k). unfold number in Hx. rewrite Hx. cbn [pbind]. reflexivity.
        + cbn [stepof prim_sem]. rewrite !sinterp_pbind. specialize (Hx k). unfold number in Hx.
          unfold designated. rewrite sinterp_pbind. cbn [sinterp prim_sem]. rewrite Hx. cbn [sinterp prim_sem].
          destruct (Hc (tr_get (stab n (cut k P s0)) x)) as (a & ->). reflexivity.
    Qed.
    Lemma beside_forward mid ps s s' l : runs ps s s' l ->
      (forall k, stepof (expand (p_ask E q)) (cut k P s0) = Some (cut k P s0, mid)) ->
      (forall k, stepof mid (cut k P s0) = Some (cut k P s0, Ret (at_cut k))) ->
      forall n a b, ps = [a; b] -> after n P s0 = (a, s) ->
      (b = expand (p_ask E q) \/ b = mid \/ exists k, b = Ret (at_cut k)) ->
      exists k, l = [snd (sinterp P s0); at_cut k] /\ s' = fst (sinterp P s0).
    Proof.
      intros Hr H1 H2. induction Hr as [l s|ps i X o c s s1 x s2 l Hn Ho Hr IH]; intros n a b Hps Ha Hb.
      - destruct l as [|r1 [|r2 [|? ?]]]; try discriminate Hps. injection Hps as <- <-.
        pose proof (after_sinterp P n s0) as Hs. rewrite Ha in Hs. cbn [fst snd sinterp] in Hs. rewrite <- Hs. cbn [fst snd].
        destruct Hb as [Hb|[Hb|(k & Hb)]].
        + exfalso. specialize (H1 0). rewrite <- Hb in H1. discriminate H1.
        + exfalso. specialize (H2 0). rewrite <- Hb in H2. discriminate H2.
        + exists k. injection Hb as ->. split; reflexivity.
      - subst ps. destruct i as [|[|i]]; cbn [nth_error] in Hn; [| |destruct i; discriminate Hn].
        + injection Hn as ->. cbn [replace] in IH. eapply IH; [reflexivity| |exact Hb]. eapply after_more; eassumption.
        + injection Hn as ->. cbn [replace] in IH.
          assert (Hs : s = cut n P s0) by (rewrite <- after_cut, Ha; reflexivity).
          assert (Hst : stepof (Do o c) s = Some (s1, c x)) by (cbn [stepof]; rewrite Ho; reflexivity).
          destruct Hb as [Hb|[Hb|(k & Hb)]]; [| |discriminate Hb]; rewrite Hb in Hst.
          * rewrite Hs, H1 in Hst. injection Hst as Q1 Q2. subst s1. eapply IH; [reflexivity|rewrite Ha, Hs; reflexivity|]. rewrite <- Q2. auto.
          * rewrite Hs, H2 in Hst. injection Hst as Q1 Q2. subst s1. eapply IH; [reflexivity|rewrite Ha, Hs; reflexivity|]. rewrite <- Q2. right. right. now exists n.
    Qed.
    Lemma beside_still a ps s s' l : runs ps s s' l -> forall n p, ps = [p; Ret a] -> after n P s0 = (p, s) ->
      l = [snd (sinterp P s0); a] /\ s' = fst (sinterp P s0).
    Proof.
      intros Hr. induction Hr as [l s|ps i X o c s s1 x s2 l Hn Ho Hr IH]; intros n p Hps Ha.
      - destruct l as [|r1 [|r2 [|? ?]]]; try discriminate Hps. injection Hps as <- <-.
        pose proof (after_sinterp P n s0) as Hs. rewrite Ha in Hs. cbn [fst snd sinterp] in Hs. rewrite <- Hs. split; reflexivity.
      - subst ps. destruct i as [|[|i]]; cbn [nth_error] in Hn; [|discriminate Hn|destruct i; discriminate Hn].
        injection Hn as ->. cbn [replace] in IH. eapply IH; [reflexivity|]. eapply after_more; eassumption.
    Qed.
    Lemma beside s' l : runs [P; expand (p_ask E q)] s0 s' l <->
      exists k, l = [snd (sinterp P s0); at_cut k] /\ s' = fst (sinterp P s0).
    Proof.
      split.
      - intros Hr. destruct ask_beside as [(a & Hp & Hk)|(mid & H1 & H2)].
        + rewrite Hp in Hr. exists 0. rewrite Hk. exact (beside_still a _ _ _ _ Hr 0 P eq_refl eq_refl).
        + eapply beside_forward with (n := 0); [exact Hr|exact H1|exact H2|reflexivity|reflexivity|now left].
      - intros (k & -> & ->). destruct (adv_cut P k s0) as (r & Hr).
        eapply (runs_adv _ _ _ _ Hr _ 0); [reflexivity|]. cbn [replace].
        eapply (runs_adv _ _ _ _ (adv_end (expand (p_ask E q)) (cut k P s0)) _ 1); [reflexivity|]. cbn [replace].
        fold (sask E (cut k P s0) q).
        assert (HQ : fst (sask E (cut k P s0) q) = cut k P s0).
        { rewrite ask_store. destruct (about q) as [|id rr] eqn:Hab; [reflexivity|]. cbn [fst].
          destruct (Hnum id) as (x & Hx); [now left|]. specialize (Hx k). unfold number in Hx.
          unfold designated. rewrite sinterp_pbind. cbn [sinterp prim_sem]. rewrite Hx. reflexivity. }
        rewrite HQ.
        eapply (runs_adv _ _ _ _ (adv_end r (cut k P s0)) _ 0); [reflexivity|]. cbn [replace].
        rewrite <- (adv_sinterp _ _ _ _ Hr). exact (runs_ended [_; _] _).
    Qed.
  End Beside.

  (** ** logs with the same messages lead to the same decisions *)
  Definition alike (l l' : list SignedEventMessage) : Prop := Forall2 (fun a b => sem_msg a = sem_msg b) l l'.
  Definition oalike (o o' : option (list SignedEventMessage)) : Prop :=
    match o, o' with Some l, Some l' => alike l l' | None, None => True | _, _ => False end.
  Definition kels_alike (d d' : Db) : Prop := forall id, oalike (get_kel d id) (get_kel d' id).
  Lemma insert_alike e e' l l' : sem_msg e = sem_msg e' -> alike l l' -> alike (insert_by_sn e l) (insert_by_sn e' l').
  Proof.
    intros He H. induction H as [|x y l l' Hx Hl IH]; cbn [insert_by_sn]; [constructor; [exact He|constructor]|].
    rewrite <- He, <- Hx. destruct (_ <=? _)%N; repeat constructor; auto.
  Qed.
  Lemma sort_alike l l' : alike l l' -> alike (sort_by_sn l) (sort_by_sn l').
  Proof. induction 1 as [|x y l l' Hx Hl IH]; cbn [sort_by_sn]; [constructor|]. now apply insert_alike. Qed.
  Lemma replay_alike l l' : alike l l' -> forall s, replay E l s = replay E l' s.
  Proof.
    induction 1 as [|x y l l' Hx Hl IH]; intros s; cbn [replay]; [reflexivity|]. rewrite <- Hx.
    destruct (apply_msg E (sem_msg x) s) as [s'|e|]; [apply IH| |reflexivity]. destruct e; try reflexivity; apply IH.
  Qed.
  Lemma compute_alike d d' id : kels_alike d d' -> compute_state E d id = compute_state E d' id.
  Proof.
    intros H. specialize (H id). unfold compute_state. destruct (get_kel d id), (get_kel d' id); try contradiction; [|reflexivity].
    cbn [oalike] in H. apply sort_alike in H. now rewrite (replay_alike _ _ H).
  Qed.
  Lemma event_alike d d' id sn : kels_alike d d' ->
    option_map sem_msg (get_event_at_sn d id sn) = option_map sem_msg (get_event_at_sn d' id sn).
  Proof.
    intros H. specialize (H id). unfold get_event_at_sn. destruct (get_kel d id) as [l|], (get_kel d' id) as [l'|]; try contradiction; [|reflexivity].
    cbn [oalike] in H. induction H as [|x y l l' Hx Hl IH]; cbn [find]; [reflexivity|]. rewrite <- Hx.
    destruct (_ =? _)%N; [cbn; congruence|exact IH].
  Qed.
  Lemma seal_alike d d' seal m : kels_alike d d' -> validate_seal E d seal m = validate_seal E d' seal m.
  Proof.
    intros H. apply (event_alike _ _ (es_prefix seal) (es_sn seal)) in H. unfold validate_seal.
    destruct (get_event_at_sn d _ _) as [x|], (get_event_at_sn d' _ _) as [y|]; cbn [option_map] in H; try discriminate H; [|reflexivity].
    assert (sem_msg x = sem_msg y) as -> by congruence. reflexivity.
  Qed.
  Lemma delegation_alike d d' se : kels_alike d d' -> check_delegation E d se = check_delegation E d' se.
  Proof.
    intros H. unfold check_delegation. rewrite (compute_alike _ _ _ H). destruct (em_data (sem_msg se)); try reflexivity.
    - destruct (sem_seal se); [|reflexivity]. cbn. now apply seal_alike.
    - destruct (compute_state E d' _) as [[s|]| |]; try reflexivity. cbn. destruct (st_delegator s); [|reflexivity]. cbn.
      destruct (sem_seal se); [|reflexivity]. cbn. now apply seal_alike.
  Qed.
  Lemma process_alike d d' se : kels_alike d d' -> snd (process_event E d se) = snd (process_event E d' se).
  Proof.
    intros H. unfold process_event, apply_to_state. rewrite (delegation_alike _ _ _ H), (compute_alike _ _ _ H).
    destruct (check_delegation E d' se); [|reflexivity..]. destruct (obind _ _); [|reflexivity..].
    destruct (e_ser_event E _); [|reflexivity..]. destruct (verify_signatures _ _ _ _); reflexivity.
  Qed.
  Lemma alike_refl l : alike l l.
  Proof. induction l; constructor; auto. Qed.
  Lemma add_alike d se se' : sem_msg se = sem_msg se' ->
    kels_alike (add_kel d se (em_prefix (sem_msg se))) (add_kel d se' (em_prefix (sem_msg se))).
  Proof.
    intros H id. rewrite !get_kel_add. destruct (IdentifierPrefix_eq_dec _ _).
    - cbn [oalike]. apply Forall2_app; [apply alike_refl|]. constructor; [exact H|constructor].
    - destruct (get_kel d id); cbn; [apply alike_refl|exact I].
  Qed.

  (** ** an event that is added and then refused *)
  Definition rest_of (se : SignedEventMessage) (ns : IdentifierState) : prog op (out (option IdentifierState)) :=
    let*? ser := Ret (e_ser_event E (sem_msg se)) in
    match verify_signatures E ns ser se with
    | Ok s => Ret (Ok (Some s))
    | Panic => Ret Panic
    | Err e =>
        let* _ := match e with EDuplicate => p_do (OPush TDup (em_prefix (sem_msg se)) (stored se)) | _ => Ret tt end in
        let* _ := p_do (ORemove TKel (em_prefix (sem_msg se)) se) in
        Ret (Err e)
    end.
  Lemma adv_added s d L se ns : Rel s d L -> store_ok d -> event_ids_ok (sem_msg se) ->
    check_delegation E d se = Ok tt -> apply_to_state E d (sem_msg se) = Ok ns ->
    exists s1 M, adv (expand (p_step E (Tell (MEvent se)))) s (expand (pbind (rest_of se ns) (fun r => Ret (ADone r)))) s1
      /\ Rel s1 (add_kel d se (em_prefix (sem_msg se))) (L ++ M) /\ store_ok (add_kel d se (em_prefix (sem_msg se))).
  Proof.
    intros R Hst Hok Hc Ha. pose proof (safe_process E (MEvent se) d Hst Hok) as Hs. cbn [p_process] in Hs.
    unfold p_process_event in Hs. cbv zeta in Hs. unfold ptry in Hs.
    apply safe_pbind in Hs. destruct Hs as [Hs1 Hs]. rewrite interp_check_delegation, Hc in Hs.
    apply safe_pbind in Hs. destruct Hs as [Hs2 Hs]. rewrite interp_apply_to_state, Ha in Hs.
    apply safe_pbind in Hs. destruct Hs as [Hs3 _].
    destruct (expand_refines _ s d L R Hs1) as (M1 & R1 & E1). rewrite interp_check_delegation in R1, E1. cbn [fst snd] in R1, E1. rewrite Hc in E1.
    destruct (expand_refines _ _ d _ R1 Hs2) as (M2 & R2 & E2). rewrite interp_apply_to_state in R2, E2. cbn [fst snd] in R2, E2. rewrite Ha in E2.
    destruct (expand_refines _ _ d _ R2 Hs3) as (M3 & R3 & E3). cbn [p_do interp op_sem fst snd dtab dset] in R3, E3.
    change (set_kel d (tpush (db_kel d) (em_prefix (sem_msg se)) (stored se))) with (add_kel d se (em_prefix (sem_msg se))) in R3.
    eexists. exists (M1 ++ M2 ++ M3). split; [|split; [rewrite !app_assoc; exact R3|now apply store_ok_add]].
    cbn [p_step p_process]. unfold p_process_event. cbv zeta. unfold ptry at 1.
    eapply adv_trans; [apply adv_expand|]. rewrite E1. cbn [snd]. unfold ptry at 1.
    eapply adv_trans; [apply adv_expand|]. rewrite E2. cbn [snd].
    eapply adv_trans; [apply adv_expand|]. constructor.
  Qed.
End One.
