(** Whole processor calls over the numeric-key store. *)
From Coq Require Import Permutation Sorted.
From Verif Require Import Base Base64 Base64Proofs Codes NumFmt Types KeyConf State Db Processor Prog ProgProofs Sled
  SpecCodec CodecProofs SledProofs Spec SpecProc SpecStore StateProofs LogProofs Crash.

Definition store_ok (d : Db) : Prop :=
  forall id l e, get_kel d id = Some l -> In e l -> event_ids_ok (sem_msg e).

Section WithEnv.
  Context (E : Env).
  Definition deleg_ok (s : IdentifierState) : Prop := forall x, st_delegator s = Some x -> id_ok x.

  Lemma apply_msg_delegator m s s' :
    apply_msg E m s = Ok s' -> event_ids_ok m -> deleg_ok s -> deleg_ok s'.
  Proof.
    intros H Hm Hs. destruct (is_inception m) eqn:Hi.
    - apply apply_msg_incept in H; [|exact Hi]. destruct H as (_ & _ & _ & kc & _ & ->).
      intros x. cbn [st_delegator]. unfold named_delegator. destruct Hm as [_ Hm].
      destruct (em_data m); try apply Hs. intros Hx; now injection Hx as <-.
    - apply apply_msg_next in H; [|exact Hi]. destruct H as (_ & _ & _ & Hd & _).
      intros x. rewrite Hd. apply Hs.
  Qed.
  Lemma replay_delegator l : forall s s', replay E l s = Ok s' ->
    (forall e, In e l -> event_ids_ok (sem_msg e)) -> deleg_ok s -> deleg_ok s'.
  Proof.
    induction l as [|e l IH]; intros s s' H Hl Hs; cbn [replay] in H.
    - injection H as <-. exact Hs.
    - destruct (apply_msg E (sem_msg e) s) as [s1|err|] eqn:Ha.
      + apply (IH s1 s' H); [intros; apply Hl; now right|].
        eapply apply_msg_delegator; eauto. apply Hl. now left.
      + destruct err; try discriminate H; try (injection H as <-; exact Hs);
          (apply (IH s s' H); [intros; apply Hl; now right|exact Hs]).
      + discriminate H.
  Qed.
  Lemma sort_in e l : In e (sort_by_sn l) -> In e l.
  Proof.
    unfold sort_by_sn. induction l as [|x l IH]; cbn; [tauto|].
    assert (G : forall y t, In e (insert_by_sn y t) -> e = y \/ In e t).
    { intros y t. induction t as [|z t IHt]; cbn; [intros [->|[]]; auto|].
      destruct (_ <=? _)%N; cbn; [intros [->|[->|]]; auto|]. intros [->|H]; [auto|]. apply IHt in H. tauto. }
    intros H. apply G in H. destruct H as [->|H]; auto.
  Qed.
  Lemma compute_delegator d id s : store_ok d -> compute_state E d id = Ok (Some s) -> deleg_ok s.
  Proof.
    intros Hd H. unfold compute_state in H. destruct (get_kel d id) as [l|] eqn:Hg; [|discriminate H].
    apply obind_ok in H. destruct H as (s' & Hr & Hs). injection Hs as <-.
    eapply replay_delegator; [exact Hr| |intros x Hx; discriminate Hx].
    intros e He. apply (Hd id l); [exact Hg|]. now apply sort_in.
  Qed.

  Definition touch (T W : IdentifierPrefix -> Prop) {A} (o : op A) : Prop :=
    match o with
    | OGet _ id => T id
    | OPush _ id _ | ORemove _ id _ | OPut _ id _ => W id
    | OAll _ => False
    end.
  Fixpoint along (T W : IdentifierPrefix -> Prop) {R} (p : prog op R) (d : Db) : Prop :=
    match p with
    | Ret _ => True
    | Do o k => touch T W o /\ let (d', a) := op_sem o d in along T W (k a) d'
    end.
  Section Touch.
  Context (T W : IdentifierPrefix -> Prop).
  Notation alg := (along T W).
  Lemma alg_pbind {A B} (p : prog op A) (k : A -> prog op B) d :
    alg (pbind p k) d <-> alg p d /\ (let (d', a) := interp p d in alg (k a) d').
  Proof.
    revert d. induction p as [r|X o k' IH]; intros d; cbn [pbind along interp]; [tauto|].
    destruct (op_sem o d) as [d' a]. rewrite IH. tauto.
  Qed.
  Lemma alg_ptry {A B} (p : prog op (out A)) (k : A -> prog op (out B)) d :
    alg p d -> (forall a, snd (interp p d) = Ok a -> alg (k a) (fst (interp p d))) -> alg (ptry p k) d.
  Proof.
    intros Hp Hk. unfold ptry. apply alg_pbind. split; [exact Hp|].
    destruct (interp p d) as [d' [a|e|]]; cbn; auto.
  Qed.
  Lemma alg_bind {A B} (p : prog op A) (k : A -> prog op B) d :
    alg p d -> alg (k (snd (interp p d))) (fst (interp p d)) -> alg (pbind p k) d.
  Proof.
    intros Hp Hk. apply alg_pbind. split; [exact Hp|]. destruct (interp p d); exact Hk.
  Qed.
  Lemma alg_compute id d : T id -> alg (p_compute_state E id) d.
  Proof. intros H. cbn. auto. Qed.
  Lemma alg_event_at id sn d : T id -> alg (p_event_at_sn id sn) d.
  Proof. intros H. cbn. auto. Qed.
  Lemma alg_keys_at id sn g d : T id -> alg (p_keys_at_event E id sn g) d.
  Proof. intros H. cbn. auto. Qed.
  Lemma alg_seal s m d : T (es_prefix s) -> alg (p_validate_seal E s m) d.
  Proof. intros H. cbn. auto. Qed.
  Lemma alg_delegation se d : (forall id, reads_of E d (MEvent se) id -> T id) -> alg (p_check_delegation E se) d.
  Proof.
    intros HT. cbn [reads_of] in HT. unfold p_check_delegation. cbv zeta.
    destruct (em_data (sem_msg se)) as [| | |dip|r]; try exact I.
    - apply alg_ptry; [exact I|]. intros src _. apply alg_seal. apply HT. now right.
    - apply alg_ptry; [apply alg_compute; apply HT; now left|]. rewrite interp_compute_state. cbn [fst snd]. intros os Hc.
      apply alg_ptry; [exact I|]. cbn [interp fst snd]. intros s Hs. destruct os as [s'|]; [|discriminate Hs].
      injection Hs as ->. apply alg_ptry; [exact I|]. cbn [interp fst snd]. intros dl Hdl.
      apply alg_ptry; [exact I|]. intros src _. apply alg_seal. cbn [es_prefix].
      apply HT. right. exists s. split; [exact Hc|]. destruct (st_delegator s); [|discriminate Hdl]. injection Hdl as ->. reflexivity.
  Qed.
  Lemma alg_event se d : (forall id, reads_of E d (MEvent se) id -> T id) -> W (em_prefix (sem_msg se)) ->
    alg (p_process_event E se) d.
  Proof.
    intros HT HW. unfold p_process_event. cbv zeta. apply alg_ptry; [now apply alg_delegation|].
    rewrite interp_check_delegation. cbn [fst snd]. intros _ _.
    assert (Hp : T (em_prefix (sem_msg se))) by (apply HT; now left).
    apply alg_ptry; [apply alg_ptry; [now apply alg_compute|intros; exact I]|].
    rewrite interp_apply_to_state. cbn [fst snd]. intros ns _.
    apply alg_bind; [cbn; auto|]. apply alg_ptry; [exact I|]. intros ser _.
    destruct (verify_signatures E ns ser se) as [s|e|]; try exact I.
    apply alg_bind; [destruct e; cbn; auto|]. apply alg_bind; [cbn; auto|exact I].
  Qed.
  Lemma alg_reply r d : (forall id, reads_of E d (MKeyStateNotice r) id -> T id) -> W (sr_prefix r) ->
    alg (p_process_signed_reply E r) d.
  Proof.
    intros HT HW. cbn [reads_of] in HT. assert (Hp : T (sr_prefix r)) by (apply HT; now left).
    unfold p_process_signed_reply. destruct (rp_route (sr_reply r)) as [| |aid]; try exact I.
    destruct (IdentifierPrefix_eq_dec _ _); [|exact I].
    apply alg_ptry; [exact I|]. intros ser _.
    apply alg_bind.
    { unfold p_verify. destruct (sr_sig r); [|exact I].
      apply alg_ptry; [apply alg_keys_at; apply HT; now right|intros; exact I]. }
    rewrite interp_verify. cbn [fst snd].
    assert (Esc : forall d, alg (let* _ := p_escrow_reply r in Ret (@Err (option IdentifierState) (EQuery QOutOfOrder))) d).
    { intros d'. apply alg_bind; [cbn; auto|exact I]. }
    destruct (proc_verify E _ ser (sr_sig r)) as [u|er|]; [|destruct er; try exact I; apply Esc|exact I].
    apply alg_ptry; [exact I|]. intros _ _. apply alg_bind; [cbn; auto|]. apply alg_ptry; [exact I|]. intros _ _.
    apply alg_bind.
    { unfold p_check_ksn. cbv zeta. apply alg_bind; [now apply alg_event_at|].
      apply alg_ptry; [exact I|]. intros ev _. apply alg_ptry; [exact I|]. intros b _.
      apply alg_ptry; [exact I|]. intros _ _. apply alg_bind; [cbn; auto|]. apply alg_ptry; [exact I|]. intros _ _.
      apply alg_ptry; [now apply alg_compute|]. intros os _. apply alg_ptry; [exact I|]. intros s _. exact I. }
    destruct (snd _) as [u'|er|]; [|destruct er as [ | | | | | | | | | | | | |q]; try exact I; destruct q; try exact I; apply Esc|exact I].
    apply alg_bind; [|exact I]. unfold p_update_accepted_reply. apply alg_bind; [cbn; auto|].
    destruct (snd _); cbn; auto.
  Qed.
  Lemma alg_process m d : (forall id, reads_of E d m id -> T id) -> (forall id, subject m = Some id -> W id) ->
    alg (p_process E m) d.
  Proof.
    intros HT HW. destruct m as [se|r|r|r|q]; cbn [p_process subject reads_of] in *.
    - apply alg_event; [exact HT|now apply HW].
    - assert (Hp : T (rct_prefix (nr_body r))) by now apply HT. assert (Hw : W (rct_prefix (nr_body r))) by now apply HW.
      unfold p_process_witness_receipt. cbv zeta. apply alg_bind; [now apply alg_event_at|].
      rewrite interp_event_at_sn. cbn [fst snd].
      destruct (get_event_at_sn _ _ _).
      + apply alg_ptry; [exact I|]. intros ser _. destruct (rev _); [|exact I].
        apply alg_bind; [cbn; auto|now apply alg_compute].
      + apply alg_bind; [cbn; auto|now apply alg_compute].
    - assert (Hp : T (rct_prefix (tr_body r))) by (apply HT; now left).
      assert (Hs : T (es_prefix (tr_seal r))) by (apply HT; now right).
      assert (Hw : W (rct_prefix (tr_body r))) by now apply HW.
      unfold p_process_validator_receipt. cbv zeta. apply alg_bind; [now apply alg_event_at|].
      rewrite interp_event_at_sn. cbn [fst snd].
      destruct (get_event_at_sn _ _ _).
      + apply alg_ptry; [now apply alg_keys_at|]. intros kc _. apply alg_ptry; [exact I|]. intros ser _.
        apply alg_ptry; [exact I|]. intros [|] _; [|exact I]. apply alg_bind; [cbn; auto|now apply alg_compute].
      + apply alg_bind; [cbn; auto|exact I].
    - apply alg_reply; [exact HT|now apply HW].
    - exact I.
  Qed.
  End Touch.
  Lemma along_safe {R} (p : prog op R) : forall d, along id_ok id_ok p d -> safe p d.
  Proof.
    induction p as [r|X o k IH]; intros d; cbn [along safe]; [auto|].
    destruct (op_sem o d) as [d' a] eqn:Eo. intros [H1 H2]. split; [destruct o; exact H1 || exact I|].
    split; [destruct o; exact I || contradiction|]. now apply IH.
  Qed.
  Lemma reads_ok m d id : store_ok d -> message_ids_ok m -> reads_of E d m id -> id_ok id.
  Proof.
    intros Hd Hm. destruct m as [se|r|r|r|q]; cbn [reads_of message_ids_ok].
    - destruct Hm as [Hp Hm]. intros [->|H]; [exact Hp|]. destruct (em_data (sem_msg se)); try contradiction.
      + subst. exact Hm.
      + destruct H as (s & Hc & Hs). now apply (compute_delegator d _ _ Hd Hc).
    - now intros ->.
    - destruct Hm. intros [->| ->]; assumption.
    - destruct Hm as [H1 H2]. intros [->|H]; [exact H1|]. destruct (sr_sig r); [subst; exact H2|contradiction].
    - contradiction.
  Qed.
  Lemma subject_reads m d id : subject m = Some id -> reads_of E d m id.
  Proof. destruct m; cbn; intros H; try discriminate H; injection H as <-; auto. Qed.
  Lemma safe_process m d : store_ok d -> message_ids_ok m -> safe (p_process E m) d.
  Proof.
    intros Hd Hm. apply along_safe, alg_process.
    - intros id. now apply reads_ok.
    - intros id H. apply (reads_ok m d id Hd Hm). now apply subject_reads.
  Qed.
  Lemma store_ok_add d se : store_ok d -> event_ids_ok (sem_msg se) -> store_ok (add_kel d se (em_prefix (sem_msg se))).
  Proof.
    intros Hd Hm id l e. rewrite get_kel_add. destruct (IdentifierPrefix_eq_dec _ _) as [->|]; [|apply Hd].
    intros H He. injection H as <-. apply in_app_or in He. destruct He as [He|[<-|[]]]; [|exact Hm].
    destruct (get_kel d _) eqn:Hg; [|destruct He]. eapply Hd; eauto.
  Qed.
  Lemma store_ok_remove d id se : store_ok d -> store_ok (remove_kel d id se).
  Proof.
    intros Hd i l e. rewrite get_kel_remove. destruct (IdentifierPrefix_eq_dec i id) as [->|]; [|apply Hd].
    destruct (get_kel d id) eqn:Hg; cbn; [|discriminate]. intros H He. injection H as <-. apply filter_In in He.
    eapply Hd; [exact Hg|tauto].
  Qed.
  Lemma store_ok_process m d : store_ok d -> message_ids_ok m -> store_ok (fst (process E d m)).
  Proof.
    intros Hd Hm. destruct m as [se|r|r|r|q].
    - cbn [process message_ids_ok] in *.
      destruct (process_event_cases E d se) as [(r & -> & _)|(ns & _ & _ & H)]; [exact Hd|].
      destruct H as [(ser & _ & _ & ->)|[(r & -> & _)|(e & ser & _ & -> & _)]]; unfold fst.
      + now apply store_ok_add.
      + now apply store_ok_add.
      + now apply store_ok_remove, store_ok_add.
    - intros id l e; unfold get_kel; rewrite process_other_kel by discriminate; apply Hd.
    - intros id l e; unfold get_kel; rewrite process_other_kel by discriminate; apply Hd.
    - intros id l e; unfold get_kel; rewrite process_other_kel by discriminate; apply Hd.
    - exact Hd.
  Qed.

  (** ** histories of messages on the numeric-key store *)
  Fixpoint sresults (s : Sled) (ms : list Message) : list (out (option IdentifierState)) :=
    match ms with [] => [] | m :: r => snd (sprocess E s m) :: sresults (fst (sprocess E s m)) r end.
  Definition srun (s : Sled) (ms : list Message) : Sled := fold_left (fun s m => fst (sprocess E s m)) ms s.
  Fixpoint dresults (d : Db) (ms : list Message) : list (out (option IdentifierState)) :=
    match ms with [] => [] | m :: r => snd (process E d m) :: dresults (fst (process E d m)) r end.

  Theorem process_refines ms : Forall message_ids_ok ms -> forall s d L, Rel s d L -> store_ok d ->
    exists M, Rel (srun s ms) (run E d (map CProcess ms)) (L ++ M) /\ store_ok (run E d (map CProcess ms))
      /\ sresults s ms = dresults d ms.
  Proof.
    induction 1 as [|m ms Hm Hms IH]; intros s d L R Hd; cbn [srun fold_left map run sresults dresults].
    - exists []. rewrite app_nil_r. auto.
    - destruct (expand_refines (p_process E m) s d L R (safe_process m d Hd Hm)) as (M & R' & Er).
      rewrite interp_process in R', Er. fold (sprocess E s m) in R', Er.
      destruct (IH _ _ _ R' (store_ok_process m d Hd Hm)) as (M' & R2 & Hd2 & Er2).
      exists (M ++ M'). rewrite app_assoc. split; [exact R2|]. split; [exact Hd2|].
      rewrite Er, Er2. reflexivity.
  Qed.
  Lemma store_ok_empty : store_ok db_empty.
  Proof. intros id l e H. discriminate H. Qed.
End WithEnv.
