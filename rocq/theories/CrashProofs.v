From Coq Require Import Permutation Sorted.
From Verif Require Import Base Base64 Base64Proofs Codes NumFmt Types KeyConf SpecSig State Db Processor Prog ProgProofs Sled
  SpecCodec CodecProofs SledProofs Spec SpecProc SpecStore StateProofs LogProofs LogTheorems ProcProofs StoreProofs PassStore Crash SigProofs.

Fixpoint nsteps {R} (p : prog prim R) (s : Sled) : nat :=
  match p with Ret _ => 0 | Do o c => let (s', a) := prim_sem o s in S (nsteps (c a) s') end.
Lemma cut_pbind {A B} (p : prog prim A) (c : A -> prog prim B) : forall k s,
  cut k (pbind p c) s =
  if k <? nsteps p s then cut k p s
  else cut (k - nsteps p s) (c (snd (sinterp p s))) (fst (sinterp p s)).
Proof.
  induction p as [r|X o c' IH]; intros k s; cbn [pbind nsteps sinterp].
  - rewrite Nat.sub_0_r. reflexivity.
  - destruct k as [|k].
    + cbn [cut]. destruct (prim_sem o s). reflexivity.
    + cbn [cut]. destruct (prim_sem o s) as [s' a]. rewrite IH. reflexivity.
Qed.
Lemma cut_zero {R} (p : prog prim R) s : cut 0 p s = s.
Proof. destruct p; reflexivity. Qed.
Lemma cut_ret {R} (r : R) k s : cut k (Ret r) s = s.
Proof. destruct k; reflexivity. Qed.

Lemma cut_designated s d L id k : Rel s d L -> id_ok id -> exists M, Rel (cut k (designated id) s) d (L ++ M).
Proof.
  intros R Hid. destruct (designated_spec s d L id R Hid) as (s' & L' & k0 & Hd & R' & Hk & Ht & HL).
  assert (E0 : exists M, Rel s d (L ++ M)) by (exists []; now rewrite app_nil_r).
  assert (E1 : exists M, Rel s' d (L ++ M)).
  { destruct HL as [->|[_ ->]]; [exists []; now rewrite app_nil_r|eauto]. }
  unfold designated in *. rewrite sinterp_pbind in Hd. rewrite cut_pbind.
  cbn [sinterp prim_sem nsteps snd fst] in *.
  destruct k as [|k]; [cbn [cut]; exact E0|]. cbn [Nat.ltb Nat.leb].
  destruct (find_text (s_ids s) (id_str id)) as [k1|]; [rewrite cut_ret; exact E0|].
  rewrite sinterp_pbind in Hd. cbn [sinterp prim_sem] in Hd. rewrite cut_pbind. cbn [nsteps sinterp prim_sem snd fst].
  replace (S k - 1) with k by lia.
  destruct k as [|k]; [cbn [cut]; exact E0|]. cbn [Nat.ltb Nat.leb].
  rewrite sinterp_pbind in Hd. cbn [sinterp prim_sem] in Hd. rewrite cut_pbind. cbn [nsteps sinterp prim_sem snd fst].
  replace (S k - 1) with k by lia.
  destruct k as [|k]; [cbn [cut]; exact E0|]. cbn [Nat.ltb Nat.leb]. rewrite cut_ret.
  injection Hd as Hs _. rewrite Hs. exact E1.
Qed.
Lemma cut_op {A} (o : op A) s d L k : Rel s d L -> op_ok o ->
  exists M, Rel (cut k (expand_op o) s) d (L ++ M) \/ Rel (cut k (expand_op o) s) (fst (op_sem o d)) (L ++ M).
Proof.
  intros R Hok.
  destruct (sop_refines o s d L R Hok) as (L' & Rf & _ & M & ->). unfold sop in Rf.
  destruct o as [n id|n id x|n id x|n id l|n]; cbn [expand_op op_ok] in *; try
   (rewrite cut_pbind; destruct (cut_designated s d L id k R Hok) as [M1 R1];
    destruct (k <? nsteps (designated id) s); [eauto|];
    destruct (designated_spec s d L id R Hok) as (s' & L1 & k0 & Hd & R' & Hk & Ht & HL);
    rewrite sinterp_pbind in Rf; rewrite Hd in *; unfold fst at 1, snd at 1; cbn [pbind] in *;
    assert (E1 : exists M, Rel s' d (L ++ M)) by
      (destruct HL as [->|[_ ->]]; [exists []; now rewrite app_nil_r|eauto]);
    destruct E1 as [M2 E1]; set (j := k - nsteps (designated id) s); clearbody j).
  - destruct j as [|j]; cbn [cut prim_sem]; rewrite ?cut_ret; eauto.
  - destruct j as [|[|j]]; cbn [cut prim_sem fst snd]; eauto. rewrite cut_ret.
    exists M. right. cbn [sinterp prim_sem] in Rf. exact Rf.
  - destruct j as [|j]; cbn [cut prim_sem fst snd]; eauto. cbn [sinterp prim_sem] in Rf.
    destruct (tr_get (stab n s') k0); [|rewrite cut_ret; eauto].
    destruct j as [|j]; cbn [cut prim_sem]; eauto. rewrite cut_ret. exists M. right. exact Rf.
  - destruct j as [|j]; cbn [cut prim_sem]; rewrite ?cut_ret; eauto.
  - exists []. left. rewrite app_nil_r. destruct k; cbn [cut prim_sem]; rewrite ?cut_ret; exact R.
Qed.
Fixpoint dcut {R} (k : nat) (p : prog op R) (d : Db) : Db :=
  match k, p with
  | S k', Do o c => let (d', a) := op_sem o d in dcut k' (c a) d'
  | _, _ => d
  end.
Theorem cut_refines {A} (p : prog op A) : forall k s d L, Rel s d L -> safe p d ->
  exists j M, Rel (cut k (expand p) s) (dcut j p d) (L ++ M).
Proof.
  induction p as [r|X o c IH]; intros k s d L R; cbn [expand safe].
  - intros _. exists 0, []. rewrite app_nil_r, cut_ret. exact R.
  - intros (Ho & Hall & Hs). rewrite cut_pbind.
    destruct (k <? nsteps (expand_op o) s).
    + destruct (cut_op o s d L k R Ho) as (M & [H|H]); [exists 0, M; exact H|].
      exists 1, M. cbn [dcut]. destruct (op_sem o d) as [d' a]. cbn [fst] in H.
      destruct (c a); exact H.
    + destruct (sop_refines o s d L R Ho) as (L' & R' & E & M & ->). unfold sop in *.
      destruct (sinterp (expand_op o) s) as [s' a'] eqn:Es. destruct (op_sem o d) as [d' a] eqn:Ed. cbn [fst snd] in *.
      assert (a' = a) as -> by (destruct o; exact E || contradiction).
      destruct (IH a (k - nsteps (expand_op o) s) s' d' (L ++ M) R' Hs) as (j & M' & R2).
      exists (S j), (M ++ M'). cbn [dcut]. rewrite Ed, app_assoc. exact R2.
Qed.

(** ** what a cut call can have written *)
Lemma dcut_pbind {A B} (p : prog op A) (c : A -> prog op B) : forall k d,
  (exists j, dcut k (pbind p c) d = dcut j p d)
  \/ (exists j, dcut k (pbind p c) d = dcut j (c (snd (interp p d))) (fst (interp p d))).
Proof.
  induction p as [r|X o c' IH]; intros k d; cbn [pbind interp].
  - right. exists k. reflexivity.
  - destruct k as [|k].
    + left. exists 0. reflexivity.
    + cbn [dcut]. destruct (op_sem o d) as [d' a] eqn:Eo. destruct (IH a k d') as [[j H]|[j H]].
      * left. exists (S j). cbn [dcut]. rewrite Eo. exact H.
      * right. exists j. exact H.
Qed.
Lemma dcut_ptry {A B} (p : prog op (out A)) (c : A -> prog op (out B)) k d :
  (exists j, dcut k (ptry p c) d = dcut j p d)
  \/ dcut k (ptry p c) d = fst (interp p d)
  \/ (exists a, snd (interp p d) = Ok a /\ exists j, dcut k (ptry p c) d = dcut j (c a) (fst (interp p d))).
Proof.
  unfold ptry. match goal with |- context [pbind p ?f] => destruct (dcut_pbind p f k d) as [[j H]|[j H]] end; [eauto|].
  right. rewrite H. destruct (snd (interp p d)) as [a|e|]; [eauto|left; destruct j; reflexivity..].
Qed.
(** programs that only read *)
Fixpoint reads {R} (p : prog op R) : Prop :=
  match p with
  | Ret _ => True
  | Do o k => (match o with OGet _ _ | OAll _ => True | _ => False end) /\ forall a, reads (k a)
  end.
Lemma dcut_reads {R} (p : prog op R) : forall k d, reads p -> dcut k p d = d.
Proof.
  induction p as [r|X o c IH]; intros k d H; destruct k; try reflexivity. destruct H as [Ho Hk].
  cbn [dcut]. destruct o; try contradiction; cbn [op_sem]; apply IH, Hk.
Qed.
(** programs that do not write event logs *)
Fixpoint keeps_logs {R} (p : prog op R) : Prop :=
  match p with
  | Ret _ => True
  | Do o k => (match o with OPush TKel _ _ | ORemove TKel _ _ | OPut TKel _ _ => False | _ => True end)
              /\ forall a, keeps_logs (k a)
  end.
Lemma dcut_keeps {R} (p : prog op R) : forall k d, keeps_logs p -> db_kel (dcut k p d) = db_kel d.
Proof.
  induction p as [r|X o c IH]; intros k d H; destruct k; try reflexivity. destruct H as [Ho Hk].
  cbn [dcut]. destruct o as [n id|n id x|n id x|n id l|n]; cbn [op_sem]; rewrite IH by apply Hk; try reflexivity;
    destruct n; try contradiction; reflexivity.
Qed.
Lemma keeps_pbind {A B} (p : prog op A) (c : A -> prog op B) :
  keeps_logs p -> (forall a, keeps_logs (c a)) -> keeps_logs (pbind p c).
Proof.
  induction p as [r|X o c' IH]; intros Hp Hc; cbn [pbind]; [apply Hc|].
  destruct Hp as [Ho Hk]. split; [exact Ho|]. intros a. apply IH; auto.
Qed.
Lemma keeps_ptry {A B} (p : prog op (out A)) (c : A -> prog op (out B)) :
  keeps_logs p -> (forall a, keeps_logs (c a)) -> keeps_logs (ptry p c).
Proof. intros Hp Hc. apply keeps_pbind; [exact Hp|]. intros [a|e|]; cbn; auto. Qed.

Lemma escrow_ok_dcut {R} (p : prog op R) : forall k d, filing p -> escrow_ok d -> escrow_ok (dcut k p d).
Proof.
  induction p as [r|X o c IH]; intros k d H Hd; destruct k; try exact Hd. destruct H as [Ho Hk]. cbn [dcut].
  pose proof (escrow_ok_op o d Ho Hd) as H. destruct (op_sem o d) as [d' a]. now apply IH.
Qed.
Section WithEnv.
  Context (E : Env).
  Lemma keeps_other m : (forall e, m <> MEvent e) -> keeps_logs (p_process E m).
  Proof.
    assert (Rd : forall {A} (p : prog op A), reads p -> keeps_logs p).
    { induction p as [r|X o c IH]; cbn; [auto|]. intros [Ho Hk]. split; [|auto]. destruct o; try contradiction; exact I. }
    assert (Cs : forall id, keeps_logs (p_compute_state E id)) by (intros; cbn; auto).
    assert (Ea : forall id sn, keeps_logs (p_event_at_sn id sn)) by (intros; cbn; auto).
    intros Hm. destruct m as [e|r|r|r|q]; cbn [p_process]; [now destruct (Hm e)| | | |exact I].
    - unfold p_process_witness_receipt. cbv zeta. apply keeps_pbind; [auto|]. intros [ev|].
      + apply keeps_ptry; [exact I|]. intros ser. destruct (rev _); [|exact I].
        apply keeps_pbind; [cbn; auto|auto].
      + apply keeps_pbind; [cbn; auto|auto].
    - unfold p_process_validator_receipt. cbv zeta. apply keeps_pbind; [auto|]. intros [ev|].
      + apply keeps_ptry; [cbn; auto|]. intros kc. apply keeps_ptry; [exact I|]. intros ser.
        apply keeps_ptry; [exact I|]. intros [|]; [|exact I]. apply keeps_pbind; [cbn; auto|auto].
      + apply keeps_pbind; [cbn; auto|]. intros; exact I.
    - unfold p_process_signed_reply. destruct (rp_route (sr_reply r)) as [| |aid]; try exact I.
      destruct (IdentifierPrefix_eq_dec _ _); [|exact I].
      apply keeps_ptry; [exact I|]. intros ser. apply keeps_pbind.
      { unfold p_verify. destruct (sr_sig r); [|exact I]. apply keeps_ptry; [cbn; auto|intros; exact I]. }
      assert (Esc : keeps_logs (let* _ := p_escrow_reply r in Ret (@Err (option IdentifierState) (EQuery QOutOfOrder)))).
      { apply keeps_pbind; [cbn; auto|intros; exact I]. }
      intros [u|er|]; [|destruct er; try exact I; exact Esc|exact I].
      apply keeps_ptry; [exact I|]. intros _. apply keeps_pbind; [cbn; auto|]. intros br.
      apply keeps_ptry; [exact I|]. intros _. apply keeps_pbind.
      { unfold p_check_ksn. cbv zeta. apply keeps_pbind; [auto|]. intros oe.
        apply keeps_ptry; [exact I|]. intros ev. apply keeps_ptry; [exact I|]. intros b.
        apply keeps_ptry; [exact I|]. intros _. apply keeps_pbind; [cbn; auto|]. intros rt.
        apply keeps_ptry; [exact I|]. intros _. apply keeps_ptry; [auto|]. intros os.
        apply keeps_ptry; [exact I|]. intros s. exact I. }
      intros [u'|er|]; [|destruct er as [ | | | | | | | | | | | | |q]; try exact I; destruct q; try exact I; exact Esc|exact I].
      apply keeps_pbind; [|intros; exact I]. unfold p_update_accepted_reply. apply keeps_pbind; [cbn; auto|].
      intros [|]; cbn; auto.
  Qed.
  Lemma keeps_loop l : keeps_logs (p_escrow_loop E l).
  Proof.
    induction l as [|r l IH]; [exact I|]. cbn [p_escrow_loop]. apply keeps_pbind; [apply (keeps_other (MKeyStateNotice r)); discriminate|].
    assert (Rm : keeps_logs (let* _ := p_do (ORemove TEscRpy (sr_prefix r) r) in p_escrow_loop E l)).
    { apply keeps_pbind; [cbn; auto|]. intros; exact IH. }
    intros [os|er|]; [exact Rm| |exact I].
    destruct er as [ | | | | | | | | | | | | |q]; try exact IH; try exact Rm. destruct q; try exact IH; exact Rm.
  Qed.
  Lemma dcut_ret {R} (r : R) k d : dcut k (Ret r) d = d.
  Proof. destruct k; reflexivity. Qed.
  Lemma reads_delegation se : reads (p_check_delegation E se).
  Proof.
    unfold p_check_delegation. cbv zeta. destruct (em_data (sem_msg se)); try exact I.
    - cbn. destruct (sem_seal se); cbn; auto.
    - cbn. split; [exact I|]. intros o. destruct o as [l|]; cbn; auto.
      destruct (obind _ _) as [[s|]| |]; cbn; auto. destruct (st_delegator s); cbn; auto.
      destruct (sem_seal se); cbn; auto.
  Qed.
  Lemma dcut_event k d se :
    let m := sem_msg se in
    dcut k (p_process_event E se) d = d
    \/ dcut k (p_process_event E se) d = fst (process_event E d se)
    \/ exists ns, check_delegation E d se = Ok tt /\ apply_to_state E d m = Ok ns
       /\ dcut k (p_process_event E se) d = add_kel d se (em_prefix m).
  Proof.
    cbv zeta. unfold p_process_event, process_event. cbv zeta.
    match goal with |- context [dcut k (ptry ?p ?c) d] => destruct (dcut_ptry p c k d) as [[j ->]|[->|(a & Hdel & j & ->)]] end.
    { left. apply dcut_reads, reads_delegation. }
    { left. rewrite interp_check_delegation. reflexivity. }
    rewrite interp_check_delegation in *. cbn [fst snd] in *. rewrite Hdel.
    match goal with |- context [dcut j (ptry ?p ?c) d] => destruct (dcut_ptry p c j d) as [[i ->]|[->|(ns & Ha & i & ->)]] end.
    { left. apply dcut_reads. cbn. split; [exact I|]. intros o. destruct o; cbn; auto. destruct (obind _ _); exact I. }
    { left. rewrite interp_apply_to_state. reflexivity. }
    rewrite interp_apply_to_state in *. cbn [fst snd] in *. rewrite Ha.
    cbn [p_do pbind]. destruct i as [|i]; [left; reflexivity|]. cbn [dcut op_sem dtab dset].
    change (set_kel d (tpush (db_kel d) (em_prefix (sem_msg se)) (stored se))) with (add_kel d se (em_prefix (sem_msg se))).
    right. unfold ptry. cbn [pbind].
    assert (AD : forall X, X = add_kel d se (em_prefix (sem_msg se)) -> exists ns0, Ok a = Ok tt /\ Ok ns = Ok ns0
               /\ X = add_kel d se (em_prefix (sem_msg se))) by (intros X ->; destruct a; eauto).
    destruct (e_ser_event E (sem_msg se)) as [ser|e|]; [|right; apply AD; apply dcut_ret..].
    destruct (verify_signatures E ns ser se) as [s|e|] eqn:Hv; [right; apply AD; apply dcut_ret| |right; apply AD; apply dcut_ret].
    assert (He : e <> EDuplicate).
    { unfold verify_signatures in Hv. destruct (kc_verify E (st_current ns) ser (sem_sigs se)) as [[|]|e'|] eqn:Hk;
        cbn in Hv; inversion Hv; subst; [discriminate|]. apply kc_verify_err in Hk. destruct Hk as [->|[? ->]]; discriminate. }
    destruct e; try congruence; cbn [pbind];
      (destruct i as [|i]; [right; apply AD; reflexivity|left; cbn [dcut interp op_sem fst]; apply dcut_ret]).
  Qed.
End WithEnv.

Section Histories.
  Context (E : Env).
  Definition verified_at (id : IdentifierPrefix) (l : list SignedEventMessage) (k : nat) (e : SignedEventMessage) : Prop :=
    exists s ser, good_log E id (firstn (S k) l) s /\ e_ser_event E (sem_msg e) = Ok ser
      /\ kc_verify E (st_current s) ser (sem_sigs e) = Ok true.
  Definition SigX (X : SignedEventMessage -> Prop) (d : Db) : Prop :=
    forall id l k e, id <> id_default -> get_kel d id = Some l -> nth_error l k = Some e ->
      verified_at id l k e \/ X e.
  Lemma SigX_weaken (X Y : SignedEventMessage -> Prop) d : (forall e, X e -> Y e) -> SigX X d -> SigX Y d.
  Proof. intros H HS id l k e Hid Hl Hk. destruct (HS id l k e Hid Hl Hk); auto. Qed.
  Lemma SigX_kel X d d' : db_kel d' = db_kel d -> SigX X d -> SigX X d'.
  Proof. intros H HS id l k e Hid Hl. unfold get_kel in Hl. rewrite H in Hl. now apply HS. Qed.
  Lemma SigX_add X d se ns :
    Inv E d -> apply_to_state E d (sem_msg se) = Ok ns -> SigX X d ->
    (X (stored se) \/ exists ser, e_ser_event E (sem_msg se) = Ok ser /\ kc_verify E (st_current ns) ser (sem_sigs se) = Ok true) ->
    SigX X (add_kel d se (em_prefix (sem_msg se))).
  Proof.
    intros HI Ha HS HX id l k e Hid Hl Hk. rewrite get_kel_add in Hl.
    destruct (IdentifierPrefix_eq_dec id (em_prefix (sem_msg se))) as [->|Hne]; [|now apply HS with (id := id)].
    injection Hl as <-.
    destruct (Nat.lt_ge_cases k (List.length (olist (get_kel d (em_prefix (sem_msg se)))))) as [Hlt|Hge].
    + rewrite nth_error_app1 in Hk by assumption.
      destruct (get_kel d (em_prefix (sem_msg se))) as [l0|] eqn:Hl0; [|cbn in Hlt; lia].
      destruct (HS _ _ _ _ Hid Hl0 Hk) as [(s & ser' & H1 & H2 & H3)|HX']; [left|right; exact HX'].
      exists s, ser'.
      rewrite firstn_app. cbn [olist] in *. replace (S k - List.length l0) with 0 by lia. cbn. rewrite app_nil_r. auto.
    + rewrite nth_error_app2 in Hk by assumption.
      destruct (k - _) as [|j] eqn:Hj; [|destruct j; discriminate Hk]. cbn in Hk. injection Hk as <-.
      destruct HX as [HX|(ser & Hs & Hv)]; [right; exact HX|left].
      exists ns, ser. split; [|auto].
      rewrite firstn_all2 by (rewrite app_length; cbn; lia). now apply good_log_extend.
  Qed.
  Lemma SigX_remove X d se ns :
    Inv E d -> apply_to_state E d (sem_msg se) = Ok ns -> SigX X d ->
    SigX X (remove_kel (add_kel d se (em_prefix (sem_msg se))) (em_prefix (sem_msg se)) se).
  Proof.
    intros HI Ha HS id l k x Hid Hl Hk. rewrite get_kel_remove in Hl.
    destruct (IdentifierPrefix_eq_dec id (em_prefix (sem_msg se))) as [->|Hne].
    + rewrite get_kel_add in Hl. destruct (IdentifierPrefix_eq_dec _ _); [|congruence]. cbn [option_map] in Hl.
      rewrite (remove_added E _ _ _ HI Hid Ha) in Hl. injection Hl as <-.
      destruct (get_kel d (em_prefix (sem_msg se))) as [l0|] eqn:Hl0; [|destruct k; discriminate Hk].
      now apply HS with (id := em_prefix (sem_msg se)).
    + rewrite get_kel_add in Hl. destruct (IdentifierPrefix_eq_dec id _); [congruence|]. now apply HS with (id := id).
  Qed.

  Definition exposed (cs : list Call) (e : SignedEventMessage) : Prop :=
    exists se, In (CProcess (MEvent se)) cs /\ stored se = e.
  Record Good (X : list Call) (d : Db) : Prop := {
    g_inv : Inv E d; g_ok : store_ok d; g_esc : escrow_ok d; g_sig : SigX (exposed X) d }.
  Context (Hser : forall m x, e_ser_event E m <> Err x).

  Lemma exposed_app X Y e : exposed X e -> exposed (X ++ Y) e.
  Proof. intros (se & H1 & H2). exists se. split; [apply in_or_app; now left|exact H2]. Qed.
  Lemma Good_more X Y d : Good X d -> Good (X ++ Y) d.
  Proof. intros [HI Hok He HS]. split; auto. eapply SigX_weaken; [|exact HS]. intros e. apply exposed_app. Qed.
  Lemma Good_kel X d d' : db_kel d' = db_kel d -> escrow_ok d' -> Good X d -> Good X d'.
  Proof.
    intros Hk He [HI Hok _ HS]. split; [eapply Inv_kel; eauto| |exact He|eapply SigX_kel; eauto].
    intros id l e. unfold get_kel. rewrite Hk. apply Hok.
  Qed.
  Lemma Good_complete X d m : message_ids_ok m -> Good X d ->
    Good (X ++ if is_panic (snd (process E d m)) then [CProcess m] else []) (fst (process E d m)).
  Proof.
    intros Hm [HI Hok Hes HS]. split; [apply (Inv_call E d (CProcess m) HI)|now apply store_ok_process|now apply escrow_ok_process|].
    assert (HS' : SigX (exposed (X ++ if is_panic (snd (process E d m)) then [CProcess m] else [])) d).
    { eapply SigX_weaken; [|exact HS]. intros e. apply exposed_app. }
    destruct m as [se|r|r|r|q]; try (eapply SigX_kel; [|exact HS']; apply process_other_kel; discriminate).
    unfold process in *.
    destruct (process_event_cases E d se) as [(r & Hr & _)|(ns & _ & Ha & H)]; [rewrite Hr in *; exact HS'|].
    destruct H as [(ser & Hs & Hv & Hr)|[(r & Hr & Hn & _ & He)|(e & ser & _ & Hr & _)]]; rewrite Hr in *; unfold fst, snd in *.
    - eapply SigX_add; eauto.
    - destruct r as [o|x|]; [exfalso; eapply Hn; eauto|exfalso; eapply Hser; eauto|].
      eapply SigX_add; eauto. left. exists se. split; [apply in_or_app; right; now left|reflexivity].
    - eapply SigX_remove; eauto.
  Qed.
  Lemma Good_cut X d m k : message_ids_ok m -> Good X d -> Good (X ++ [CProcess m]) (dcut k (p_process E m) d).
  Proof.
    intros Hm HG. pose proof (Good_more X [CProcess m] d HG) as HG'.
    pose proof (escrow_ok_dcut (p_process E m) k d (filing_process E m Hm) (g_esc _ _ HG)) as Hes.
    assert (Other : (forall e, m <> MEvent e) -> Good (X ++ [CProcess m]) (dcut k (p_process E m) d)).
    { intros Hne. eapply Good_kel; [|exact Hes|exact HG']. apply dcut_keeps. now apply keeps_other. }
    destruct m as [se|r|r|r|q]; try (apply Other; discriminate). clear Other.
    cbn [p_process message_ids_ok] in *.
    destruct (dcut_event E k d se) as [H|[H|(ns & Hdel & Ha & H)]]; rewrite H in *; [exact HG'| |].
    - pose proof (Good_complete X d (MEvent se) Hm HG) as [H1 H2 H3 H4]. cbn [process] in *. split; [exact H1|exact H2|exact H3|].
      eapply SigX_weaken; [|exact H4]. intros e (s & Hin & He). exists s. split; [|exact He].
      apply in_app_or in Hin. apply in_or_app. destruct Hin as [|Hin]; [now left|].
      destruct (is_panic _); [right; exact Hin|destruct Hin].
    - destruct HG' as [HI Hok _ HS]. split; [eapply Inv_add; eauto|now apply store_ok_add|exact Hes|].
      eapply SigX_add; eauto. left. exists se. split; [apply in_or_app; right; now left|reflexivity].
  Qed.
  (** a pass, complete or cut *)
  Lemma pass_complete s d L : Rel s d L -> escrow_ok d ->
    exists d1 M, Rel (fst (spass E s)) d1 (L ++ M) /\ db_kel d1 = db_kel d /\ escrow_ok d1.
  Proof.
    intros R He. rewrite (pass_expands E s). set (l := flat_map snd (s_esc_rpy s)).
    pose proof (escrowed_ok s d L R He) as Hl. fold l in Hl.
    destruct (expand_refines (p_escrow_loop E l) s d L R (safe_loop E l Hl d)) as (M & R' & _).
    exists (fst (interp (p_escrow_loop E l) d)), M. split; [exact R'|]. split; [|apply escrow_ok_interp; [now apply filing_loop|exact He]].
    rewrite interp_escrow_loop. apply (loop_tables E l TKel); discriminate.
  Qed.
  Lemma pass_cut s d L k : Rel s d L -> escrow_ok d ->
    exists d1 M, Rel (cut k (expand (p_process_escrow E)) s) d1 (L ++ M) /\ db_kel d1 = db_kel d /\ escrow_ok d1.
  Proof.
    intros R He. destruct k as [|k]; [exists d, []; rewrite app_nil_r; auto|].
    change (cut (S k) (expand (p_process_escrow E)) s) with (cut k (expand (p_escrow_loop E (flat_map snd (s_esc_rpy s)))) s).
    set (l := flat_map snd (s_esc_rpy s)). pose proof (escrowed_ok s d L R He) as Hl. fold l in Hl.
    destruct (cut_refines (p_escrow_loop E l) k s d L R (safe_loop E l Hl d)) as (j & M & R').
    exists (dcut j (p_escrow_loop E l) d), M. split; [exact R'|]. split; [apply dcut_keeps, keeps_loop|].
    apply escrow_ok_dcut; [now apply filing_loop|exact He].
  Qed.

  Theorem attempts_good l : Forall (fun a => call_ids_ok (fst a)) l ->
    forall X s d L, Rel s d L -> Good X d ->
    exists d' M, Rel (try_all E s l) d' (L ++ M) /\ Good (X ++ interrupted E s l) d'.
  Proof.
    induction 1 as [|[c o] l Hm Hl IH]; intros X s d L R HG; cbn [try_all fold_left interrupted].
    - exists d, []. rewrite !app_nil_r. auto.
    - cbn [fst] in Hm.
      assert (G1 : exists d1 M1, Rel (try_one E s (c, o)) d1 (L ++ M1)
                  /\ Good (X ++ match o with Some _ => [c] | None => if outcome_panics (snd (scall E s c)) then [c] else [] end) d1).
      { destruct c as [m|]; cbn [call_ids_ok] in Hm.
        - pose proof (safe_process E m d (g_ok _ _ HG) Hm) as Hsafe. destruct o as [k|]; cbn [try_one cut_call scall].
          + destruct (cut_refines (p_process E m) k s d L R Hsafe) as (j & M1 & R1).
            exists (dcut j (p_process E m) d), M1. split; [exact R1|]. now apply Good_cut.
          + destruct (expand_refines (p_process E m) s d L R Hsafe) as (M1 & R1 & E1).
            rewrite interp_process in R1, E1. fold (sprocess E s m) in R1, E1.
            destruct (sprocess E s m) as [s' r]. cbn [fst snd outcome_panics] in *. subst r.
            exists (fst (process E d m)), M1. split; [exact R1|]. now apply Good_complete.
        - destruct o as [k|]; cbn [try_one cut_call scall].
          + destruct (pass_cut s d L k R (g_esc _ _ HG)) as (d1 & M1 & R1 & Hk & He). exists d1, M1. split; [exact R1|].
            apply (Good_kel _ d); [exact Hk|exact He|]. now apply Good_more.
          + destruct (pass_complete s d L R (g_esc _ _ HG)) as (d1 & M1 & R1 & Hk & He). exists d1, M1.
            destruct (spass E s) as [s' r]. cbn [fst snd outcome_panics] in *. split; [exact R1|].
            apply (Good_kel _ d); [exact Hk|exact He|]. now apply Good_more. }
      destruct G1 as (d1 & M1 & R1 & G1).
      destruct (IH _ _ _ _ R1 G1) as (d2 & M2 & R2 & G2).
      exists d2, (M1 ++ M2). rewrite !app_assoc in *. auto.
  Qed.
  Lemma Good_empty : Good [] db_empty.
  Proof. split; [apply Inv_empty|apply store_ok_empty|apply escrow_ok_empty|]. intros id l k e _ H. discriminate H. Qed.
End Histories.

Section Steps.
  Context (E : Env).
  Lemma log_remove_added d se ns : Inv E d -> em_prefix (sem_msg se) <> id_default ->
    apply_to_state E d (sem_msg se) = Ok ns ->
    forall i, log (remove_kel (add_kel d se (em_prefix (sem_msg se))) (em_prefix (sem_msg se)) se) i = log d i.
  Proof.
    intros HI Hid Ha i. unfold log. rewrite get_kel_remove.
    destruct (IdentifierPrefix_eq_dec i (em_prefix (sem_msg se))) as [->|Hne].
    + rewrite get_kel_add. destruct (IdentifierPrefix_eq_dec _ _); [|congruence]. cbn [option_map].
      rewrite (remove_added E _ _ _ HI Hid Ha). reflexivity.
    + rewrite get_kel_add. destruct (IdentifierPrefix_eq_dec i _); congruence.
  Qed.
  Lemma log_add d se i :
    log (add_kel d se (em_prefix (sem_msg se))) i = log d i
    \/ i = em_prefix (sem_msg se) /\ log (add_kel d se (em_prefix (sem_msg se))) i = log d i ++ [stored se].
  Proof.
    unfold log. rewrite get_kel_add. destruct (IdentifierPrefix_eq_dec i (em_prefix (sem_msg se))) as [->|]; auto.
  Qed.
  Definition one_more (m : Message) (i : IdentifierPrefix) (l l' : list SignedEventMessage) : Prop :=
    l' = l \/ exists se, m = MEvent se /\ i = em_prefix (sem_msg se) /\ l' = l ++ [stored se].
  Lemma step_complete d m i : Inv E d -> message_ids_ok m -> (forall x, id_ok x -> x <> id_default) ->
    one_more m i (log d i) (log (fst (process E d m)) i).
  Proof.
    intros HI Hm Hdef.
    destruct m as [se|r|r|r|q]; try (left; unfold log, get_kel; rewrite process_other_kel by discriminate; reflexivity).
    unfold process. destruct Hm as [Hp _]. apply Hdef in Hp.
    destruct (process_event_cases E d se) as [(r & -> & _)|(ns & _ & Ha & H)]; [left; reflexivity|].
    assert (Add : one_more (MEvent se) i (log d i) (log (add_kel d se (em_prefix (sem_msg se))) i)).
    { destruct (log_add d se i) as [->|[-> ->]]; [now left|right; eauto]. }
    destruct H as [(ser & _ & _ & ->)|[(r & -> & _)|(e & ser & _ & -> & _)]]; unfold fst; auto.
    left. eapply log_remove_added; eauto.
  Qed.
  Lemma step_cut d m k i : Inv E d -> message_ids_ok m -> (forall x, id_ok x -> x <> id_default) ->
    one_more m i (log d i) (log (dcut k (p_process E m) d) i).
  Proof.
    intros HI Hm Hdef.
    assert (Other : (forall e, m <> MEvent e) -> one_more m i (log d i) (log (dcut k (p_process E m) d) i)).
    { intros Hne. left. unfold log, get_kel. now rewrite (dcut_keeps (p_process E m) k d (keeps_other E m Hne)). }
    destruct m as [se|r|r|r|q]; try (apply Other; discriminate). clear Other.
    cbn [p_process].
    destruct (dcut_event E k d se) as [->|[->|(ns & Hdel & Ha & ->)]]; [now left| |].
    - apply (step_complete d (MEvent se) i HI Hm Hdef).
    - destruct (log_add d se i) as [->|[-> ->]]; [now left|right; eauto].
  Qed.
End Steps.
Lemma id_ok_default x : id_ok x -> x <> id_default.
Proof. intros [H _] ->. now apply H. Qed.

Definition properly_signed (E : Env) (l : list SignedEventMessage) (k : nat) (e : SignedEventMessage) : Prop :=
  exists e0 kc ser,
    last_establishment (log_of (firstn (S k) l)) = Some e0 /\ est_keys e0 = Some kc
    /\ e_ser_event E (sem_msg e) = Ok ser
    /\ enough_signatures (kc_threshold kc) (sem_sigs e) = Ok true
    /\ (rational_threshold (kc_threshold kc) -> satisfies E kc ser (sem_sigs e)).

Section Results.
  Context (E : Env) (Hser : forall m x, e_ser_event E m <> Err x).
  Context (l : list attempt) (Hl : Forall (fun a => call_ids_ok (fst a)) l).
  Let s := try_all E sled_empty l.
  Lemma c36_reach : exists d L, Rel s d L /\ Good E (interrupted E sled_empty l) d.
  Proof.
    destruct (attempts_good E Hser l Hl [] _ _ _ Rel_empty (Good_empty E)) as (d & M & R & G). exists d, M. auto.
  Qed.
  Theorem c36 id evs k e : id_ok id -> lookup s TKel id = Some evs -> nth_error evs k = Some e ->
    properly_signed E evs k e \/ exposed (interrupted E sled_empty l) e.
  Proof.
    change (tty TKel) with SignedEventMessage in *. intros Hid Hlk Hk. destruct c36_reach as (d & L & R & G). rewrite (lookup_rel _ _ _ _ _ R Hid) in Hlk.
    pose proof (id_ok_default _ Hid) as Hd.
    destruct (g_sig _ _ _ G id evs k e Hd Hlk Hk) as [(s' & ser & Hg & Hs & Hv)|]; [left|now right].
    destruct (good_keys E _ _ _ Hd Hg) as (e0 & H1 & H2).
    { rewrite (firstn_S_nth _ _ _ Hk). destruct (firstn k evs); discriminate. }
    exists e0, (st_current s'), ser. split; [exact H1|]. split; [exact H2|]. split; [exact Hs|].
    split; [now apply verify_ok_parts in Hv|]. intros Hr. now apply verify_sound.
  Qed.
  Theorem c36_replay id evs : id_ok id -> lookup s TKel id = Some evs ->
    exists st, replay_strict E evs state_default = Ok st.
  Proof.
    intros Hid Hlk. destruct c36_reach as (d & L & R & G). rewrite (lookup_rel _ _ _ _ _ R Hid) in Hlk.
    destruct (g_inv _ _ _ G id evs (id_ok_default _ Hid) Hlk) as (st & [_ Hr]). exists st. exact Hr.
  Qed.
  Definition one_more_call (c : Call) (i : IdentifierPrefix) (x y : list SignedEventMessage) : Prop :=
    y = x \/ exists se, c = CProcess (MEvent se) /\ i = em_prefix (sem_msg se) /\ y = x ++ [stored se].
  Theorem c36_step a id : call_ids_ok (fst a) -> id_ok id ->
    one_more_call (fst a) id (olist (lookup s TKel id)) (olist (lookup (try_one E s a) TKel id)).
  Proof.
    intros Ha Hid. destruct c36_reach as (d & L & R & G). rewrite (lookup_rel _ _ _ _ _ R Hid).
    assert (Lift : forall m y, one_more m id (log d id) y -> one_more_call (CProcess m) id (log d id) y).
    { intros m y [->|(se & -> & Hi & ->)]; [now left|right; eauto]. }
    destruct a as [[m|] [k|]]; cbn [fst try_one call_ids_ok cut_call scall] in *.
    - pose proof (safe_process E m d (g_ok _ _ _ G) Ha) as Hsafe.
      destruct (cut_refines (p_process E m) k s d L R Hsafe) as (j & M1 & R1).
      rewrite (lookup_rel _ _ _ _ _ R1 Hid). apply Lift, (step_cut E d m j id (g_inv _ _ _ G) Ha id_ok_default).
    - pose proof (safe_process E m d (g_ok _ _ _ G) Ha) as Hsafe.
      destruct (expand_refines (p_process E m) s d L R Hsafe) as (M1 & R1 & _).
      rewrite interp_process in R1. fold (sprocess E s m) in R1. destruct (sprocess E s m) as [s' r]. cbn [fst] in *.
      rewrite (lookup_rel _ _ _ _ _ R1 Hid). apply Lift, (step_complete E d m id (g_inv _ _ _ G) Ha id_ok_default).
    - destruct (pass_cut E s d L k R (g_esc _ _ _ G)) as (d1 & M1 & R1 & Hk & _). rewrite (lookup_rel _ _ _ _ _ R1 Hid).
      left. cbn [dtab]. now rewrite Hk.
    - destruct (pass_complete E s d L R (g_esc _ _ _ G)) as (d1 & M1 & R1 & Hk & _). destruct (spass E s) as [s' r]. cbn [fst] in *.
      rewrite (lookup_rel _ _ _ _ _ R1 Hid). left. cbn [dtab]. now rewrite Hk.
  Qed.
End Results.
