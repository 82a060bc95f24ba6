(** * WholeProofs: proofs about whole histories. *)
From Verif Require Import Base Base64 Codes NumFmt Types KeyConf SpecSig State Db Processor Spec SpecProc
  StateProofs LogProofs LogTheorems ProcProofs SpecWhole.

Section WithEnv.
  Variable E : Env.

  Lemma event_at_ext d d' id sn : get_kel d' id = get_kel d id -> get_event_at_sn d' id sn = get_event_at_sn d id sn.
  Proof. unfold get_event_at_sn. now intros ->. Qed.
  Lemma validate_seal_ext d d' s m : get_kel d' (es_prefix s) = get_kel d (es_prefix s) -> validate_seal E d' s m = validate_seal E d s m.
  Proof. intros H. unfold validate_seal. now rewrite (event_at_ext _ _ _ _ H). Qed.
  (** An event is judged by the logs of its identifier and of the delegator. *)
  Lemma event_ext d d' se :
    let id := em_prefix (sem_msg se) in
    get_kel d' id = get_kel d id ->
    (forall dl, named_delegator (sem_msg se) = Some dl -> get_kel d' dl = get_kel d dl) ->
    (forall s dl, compute_state E d id = Ok (Some s) -> st_delegator s = Some dl -> get_kel d' dl = get_kel d dl) ->
    snd (process_event E d' se) = snd (process_event E d se)
    /\ get_kel (fst (process_event E d' se)) id = get_kel (fst (process_event E d se)) id.
  Proof.
    intros id H Hn Hs.
    assert (Hc : check_delegation E d' se = check_delegation E d se).
    { unfold check_delegation. unfold named_delegator in Hn. destruct (em_data (sem_msg se)); try reflexivity.
      - destruct (sem_seal se); [|reflexivity]. cbn [ok_or obind]. apply validate_seal_ext. cbn. now apply Hn.
      - fold id. rewrite (compute_state_ext E d d' id H). destruct (compute_state E d id) as [[s|]| |]; try reflexivity. cbn [ok_or obind].
        destruct (st_delegator s) as [dl|] eqn:Hd; [|reflexivity]. cbn [ok_or obind]. destruct (sem_seal se); [|reflexivity]. cbn [ok_or obind].
        apply validate_seal_ext. cbn. eapply Hs; eauto. }
    assert (Ha : apply_to_state E d' (sem_msg se) = apply_to_state E d (sem_msg se)).
    { unfold apply_to_state. fold id. now rewrite (compute_state_ext E d d' id H). }
    unfold process_event. rewrite Hc, Ha. fold id.
    destruct (check_delegation E d se); [|split; [reflexivity|exact H]..].
    destruct (apply_to_state E d (sem_msg se)) as [ns| |]; [|split; [reflexivity|exact H]..].
    assert (K : get_kel (add_kel d' se id) id = get_kel (add_kel d se id) id) by (rewrite !get_kel_add, H; reflexivity).
    destruct (e_ser_event E (sem_msg se)) as [ser| |]; [|split; [reflexivity|exact K]..].
    destruct (verify_signatures E ns ser se) as [s|e|]; [split; [reflexivity|exact K]| |split; [reflexivity|exact K]].
    split; [reflexivity|]. cbn [fst]. rewrite !get_kel_remove. destruct (IdentifierPrefix_eq_dec id id); [|congruence]. f_equal.
    destruct e; exact K.
  Qed.

  Section Projection.
    Variable S : IdentifierPrefix -> bool.
    Hypothesis HS : forall id, S id = true -> id <> id_default.

    Definition delegators_in (d : Db) : Prop :=
      forall id e dl, S id = true -> In e (log d id) -> named_delegator (sem_msg e) = Some dl -> S dl = true.
    Lemma delegators_kel d d' : db_kel d' = db_kel d -> delegators_in d -> delegators_in d'.
    Proof. intros H G id e dl. unfold log, get_kel. rewrite H. apply G. Qed.
    Lemma delegators_event d se :
      (S (em_prefix (sem_msg se)) = true -> forall dl, named_delegator (sem_msg se) = Some dl -> S dl = true) ->
      delegators_in d -> delegators_in (fst (process_event E d se)).
    Proof.
      intros H G.
      assert (A : delegators_in (add_kel d se (em_prefix (sem_msg se)))).
      { intros id e dl Hid He. unfold log in He. rewrite get_kel_add in He. destruct (IdentifierPrefix_eq_dec _ _) as [->|_]; [|now apply (G id)].
        cbn [olist] in He. apply in_app_iff in He as [He|[<-|[]]]; [now apply (G (em_prefix (sem_msg se)))|]. cbn [sem_msg stored]. now apply H. }
      destruct (process_event_cases E d se) as [(r & -> & _)|(ns & _ & _ & [(ser & _ & _ & ->)|[(r & -> & _)|(e & ser & _ & -> & _)]])]; cbn [fst]; try assumption.
      intros id e0 dl Hid He. apply (A id); [assumption|]. unfold log in *. rewrite get_kel_remove in He. destruct (IdentifierPrefix_eq_dec _ _) as [->|_]; [|exact He].
      destruct (get_kel (add_kel d se _) _); cbn in *; [|contradiction]. now apply filter_In in He.
    Qed.
    Lemma delegators_call d c :
      (forall se dl, c = CProcess (MEvent se) -> S (em_prefix (sem_msg se)) = true -> named_delegator (sem_msg se) = Some dl -> S dl = true) ->
      delegators_in d -> delegators_in (call E d c).
    Proof.
      intros H G. destruct c as [m|]; cbn [call].
      - destruct m as [e|r|r|r|q]; [cbn [process]; apply delegators_event; [|exact G]; intros; eapply H; eauto|..];
          (eapply delegators_kel; [|exact G]); apply process_other_kel; discriminate.
      - eapply delegators_kel; [|exact G]. apply process_escrow_kel.
    Qed.

    Definition alike (d d' : Db) : Prop := forall id, S id = true -> get_kel d' id = get_kel d id.
    Lemma state_delegator d id s dl :
      Inv E d -> delegators_in d -> S id = true -> compute_state E d id = Ok (Some s) -> st_delegator s = Some dl -> S dl = true.
    Proof.
      intros HI G Hid Hs Hd. destruct (get_kel d id) as [l|] eqn:Hl; [|unfold compute_state in Hs; rewrite Hl in Hs; discriminate Hs].
      destruct (HI id l (HS _ Hid) Hl) as (s' & Hg). rewrite (compute_state_good E d id l s' (HS _ Hid) Hl Hg) in Hs. injection Hs as ->.
      destruct l as [|e0 l]; [apply good_log_nil in Hg; subst s; discriminate Hd|].
      destruct (good_deleg E id _ s e0 (HS _ Hid) Hg eq_refl) as [A _]. rewrite Hd in A. symmetry in A.
      apply (G id e0 dl Hid); [|exact A]. unfold log. rewrite Hl. now left.
    Qed.
    Lemma alike_event d d' se :
      Inv E d -> delegators_in d -> alike d d' -> S (em_prefix (sem_msg se)) = true ->
      (forall dl, named_delegator (sem_msg se) = Some dl -> S dl = true) ->
      snd (process_event E d' se) = snd (process_event E d se) /\ alike (fst (process_event E d se)) (fst (process_event E d' se)).
    Proof.
      intros HI G A Hid Hd.
      destruct (event_ext d d' se (A _ Hid)) as [H1 H2].
      - intros dl Hdl. apply A. now apply Hd.
      - intros s dl Hs Hdl. apply A. eapply state_delegator; eassumption.
      - split; [exact H1|]. intros id Hi. destruct (IdentifierPrefix_eq_dec id (em_prefix (sem_msg se))) as [->|Hne]; [exact H2|].
        assert (K : forall d0, get_kel (fst (process_event E d0 se)) id = get_kel d0 id).
        { intros d0. destruct (c23 E d0 (MEvent se) id) as (K & _); [cbn; congruence|]. exact K. }
        rewrite !K. now apply A.
    Qed.
    Lemma alike_other d c : concerns S c = false -> alike (call E d c) d.
    Proof.
      intros H id Hi. destruct c as [m|]; cbn [call].
      - destruct m as [e|r|r|r|q].
        + cbn in H. destruct (c23 E d (MEvent e) id) as (K & _); [cbn; intros Hc; congruence|]. symmetry. exact K.
        + unfold get_kel. rewrite process_other_kel by discriminate. reflexivity.
        + unfold get_kel. rewrite process_other_kel by discriminate. reflexivity.
        + unfold get_kel. rewrite process_other_kel by discriminate. reflexivity.
        + reflexivity.
      - unfold get_kel. rewrite process_escrow_kel. reflexivity.
    Qed.
    Lemma projection cs : forall d d',
      Inv E d -> delegators_in d -> with_delegators S cs -> alike d d' -> alike (run E d cs) (run E d' (filter (concerns S) cs)).
    Proof.
      induction cs as [|c cs IH]; intros d d' HI G Hc A; [exact A|]. cbn [run fold_left filter].
      assert (Hcs : with_delegators S cs) by (intros se dl Hin; apply Hc; now right).
      assert (G1 : delegators_in (call E d c)) by (apply delegators_call; [|exact G]; intros se dl ->; apply Hc; now left).
      assert (I1 : Inv E (call E d c)) by (now apply Inv_call).
      destruct (concerns S c) eqn:Hcc.
      - cbn [run fold_left]. apply IH; try assumption. destruct c as [[se|r|r|r|q]|]; try discriminate Hcc. cbn [call process]. cbn in Hcc.
        apply alike_event; try assumption. intros dl. apply Hc; [now left|exact Hcc].
      - apply IH; try assumption. intros id Hi. rewrite (A id Hi). now apply (alike_other d c Hcc).
    Qed.
    Lemma delegators_run cs : forall d, with_delegators S cs -> delegators_in d -> delegators_in (run E d cs).
    Proof.
      induction cs as [|c cs IH]; intros d Hc G; [exact G|]. cbn [run fold_left]. apply IH; [intros se dl Hin; apply Hc; now right|].
      apply delegators_call; [|exact G]. intros se dl ->. apply Hc. now left.
    Qed.
  End Projection.
End WithEnv.
