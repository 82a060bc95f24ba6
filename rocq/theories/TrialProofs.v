(** * TrialProofs: see [Prop_Trial.v]. *)
From Verif Require Import Base Base64 Codes NumFmt Types KeyConf SpecSig State Db Processor Spec SpecProc SpecRules
  StateProofs LogProofs LogTheorems LogTheorems2 SigProofs ProcProofs ProcProofs2 AcceptProofs Trial SpecTrial.

Section WithEnv.
  Context (E : Env).

  Lemma apply_msg_iff_any id l s m :
    id <> id_default -> good_log E id l s -> em_prefix m <> id_default ->
    (exists x, e_deriv_data E m = Ok x) ->
    ((exists s', apply_msg E m s = Ok s') <->
     if is_inception m then begins E (log_of l) m else em_prefix m = id /\ continues E (log_of l) m).
  Proof.
    intros Hid Hg Hp Hx. destruct (good_log_shape _ _ _ _ Hid Hg) as (Hsn & Hsh & Hinc).
    destruct (is_inception m) eqn:Hi.
    - destruct l as [|f l].
      + cbn in Hsh. subst s.
        pose proof (apply_msg_iff E (em_prefix m) [] state_default m Hp ltac:(now apply good_log_nil) eq_refl Hx) as H.
        now rewrite Hi in H.
      + split.
        * intros (s' & Ha). destruct (apply_msg_incept _ _ _ _ Hi Ha) as (P1 & _).
          destruct (rev (f :: l)) eqn:Hr; [now apply rev_nil_inv in Hr|]. destruct Hsh as (Q & _). congruence.
        * intros (H & _). discriminate H.
    - split.
      + intros (s' & Ha). destruct (apply_msg_next _ _ _ _ Hi Ha) as (P1 & _).
        assert (Hq : em_prefix m = id).
        { destruct (rev l) eqn:Hr; [subst s; cbn in P1; congruence|]. destruct Hsh as (Q & _). congruence. }
        split; [exact Hq|].
        pose proof (apply_msg_iff E id l s m Hid Hg Hq Hx) as H. rewrite Hi in H. apply H. eauto.
      + intros [Hq Hc].
        pose proof (apply_msg_iff E id l s m Hid Hg Hq Hx) as H. rewrite Hi in H. now apply H.
  Qed.

  Lemma verify_next_opens id l s k m kc :
    id <> id_default -> good_log E id l s -> st_current k = st_current s -> is_rotation m = true -> est_keys m = Some kc ->
    (verify_next E (st_current k) kc = Ok true <-> exists est, last_establishment (log_of l) = Some est /\ commits_to E est m).
  Proof.
    intros Hid Hg Hk Hr He. rewrite Hk. rewrite verify_next_iff.
    destruct l as [|f l].
    - apply good_log_nil in Hg. subst s. split.
      + intros (n & H & _). discriminate H.
      + intros (est & H & _). discriminate H.
    - destruct (good_keys E id _ _ Hid Hg ltac:(discriminate)) as (e0 & He0 & Hk0). split.
      + intros (n & H1 & H2 & H3). exists e0. split; [exact He0|]. exists (st_current s), n, kc. auto.
      + intros (est & H1 & kc0 & n & kc' & C1 & C2 & C3 & C4 & C5). rewrite He0 in H1. injection H1 as <-.
        rewrite Hk0 in C1. injection C1 as <-. rewrite He in C3. injection C3 as <-. eauto.
  Qed.

  Lemma apply_data_iff id l s k m :
    id <> id_default -> good_log E id l s -> st_current k = st_current s ->
    ((exists s', apply_data E (em_data m) k = Ok s') <-> opens E (log_of l) m).
  Proof.
    intros Hid Hg Hk. unfold opens.
    assert (R : forall r, em_data m = Rot r \/ em_data m = Drt r ->
       ((exists s', apply_rot E r k = Ok s') <-> (is_rotation m = true -> exists est, last_establishment (log_of l) = Some est /\ commits_to E est m))).
    { intros r Hr.
      assert (H1 : is_rotation m = true) by (unfold is_rotation; destruct Hr as [->| ->]; reflexivity).
      assert (H2 : est_keys m = Some (rot_kc r)) by (unfold est_keys; destruct Hr as [->| ->]; reflexivity).
      pose proof (verify_next_opens id l s k m _ Hid Hg Hk H1 H2) as V.
      unfold apply_rot. split.
      - intros (s' & H) _. apply V. apply obind_ok in H. destruct H as ([|] & Hv & H); [exact Hv|discriminate H].
      - intros H. apply V in H; [|exact H1]. rewrite H. cbn [obind]. eauto. }
    unfold is_rotation in *. destruct (em_data m) as [i|r|i|dp|r] eqn:Hd; cbn [apply_data].
    - split; [discriminate|]. intros _. unfold apply_icp. eauto.
    - apply R. auto.
    - split; [discriminate|]. intros _. unfold apply_ixn. eauto.
    - split; [discriminate|]. intros _. unfold apply_dip, apply_icp. cbn [obind]. eauto.
    - apply R. auto.
  Qed.

  Lemma apply_event_iff id l s m :
    id <> id_default -> good_log E id l s -> em_prefix m <> id_default ->
    ((exists s', apply_event E m s = Ok s') <-> trial_rule E id (log_of l) FEvent m).
  Proof.
    intros Hid Hg Hp. destruct (good_log_shape _ _ _ _ Hid Hg) as (Hsn & Hsh & Hinc).
    pose proof (apply_data_iff id l s (st_set_sn_prefix s (em_sn m) (em_prefix m)) m Hid Hg eq_refl) as D.
    unfold trial_rule. destruct (is_inception m) eqn:Hi.
    - assert (Hop : opens E (log_of l) m).
      { unfold opens, is_rotation, is_inception in *. destruct (em_data m); discriminate. }
      assert (He : apply_event E m s = (let? _ := if IdentifierPrefix_eq_dec (st_prefix s) id_default then
            if (em_sn m =? 0)%N then Ok tt else Err (ESemantic "SN is not correct") else Err EDuplicate in
            apply_data E (em_data m) (st_set_sn_prefix s (em_sn m) (em_prefix m)))).
      { unfold apply_event, is_inception in *. destruct (em_data m); try discriminate Hi; reflexivity. }
      rewrite He. split.
      + intros (s' & H). destruct (IdentifierPrefix_eq_dec _ _) as [Hz|]; [|discriminate H].
        destruct (N.eqb_spec (em_sn m) 0); [|discriminate H]. split; [|assumption].
        destruct l as [|f l]; [reflexivity|].
        destruct (rev (f :: l)) eqn:Hr; [now apply rev_nil_inv in Hr|]. destruct Hsh as (Q & _). congruence.
      + intros [Hl H0]. destruct l; [|discriminate Hl]. cbn in Hsh.
        destruct (IdentifierPrefix_eq_dec _ _) as [_|Hz]; [|exfalso; apply Hz; subst s; reflexivity].
        rewrite H0. cbn [N.eqb obind]. rewrite H0 in D. now apply D.
    - assert (He : apply_event E m s = (let? _ :=
                   if IdentifierPrefix_eq_dec (em_prefix m) (st_prefix s) then
                     if (em_sn m <? st_sn s + 1)%N then Err EDuplicate
                     else if (st_sn s + 1 <? em_sn m)%N then Err EOutOfOrder
                     else Ok tt
                   else Err (ESemantic "Prefix does not match") in
                 apply_data E (em_data m) (st_set_sn_prefix s (em_sn m) (em_prefix m)))).
      { unfold apply_event, is_inception in *. destruct (em_data m); try discriminate Hi; reflexivity. }
      rewrite He. split.
      + intros (s' & H). destruct (IdentifierPrefix_eq_dec _ _) as [Hz|]; [|discriminate H].
        destruct (N.ltb_spec (em_sn m) (st_sn s + 1)); [discriminate H|].
        destruct (N.ltb_spec (st_sn s + 1) (em_sn m)); [discriminate H|]. cbn [obind] in H.
        destruct l as [|f l]; [cbn in Hsh; subst s; cbn in Hz; congruence|].
        destruct (rev (f :: l)) eqn:Hr; [now apply rev_nil_inv in Hr|]. destruct Hsh as (Q1 & Q2 & _).
        split; [congruence|]. split; [discriminate|]. split; [unfold log_of; rewrite map_length; lia|]. apply D. eauto.
      + intros (H1 & H2 & H3 & H4). destruct l as [|f l]; [exfalso; apply H2; reflexivity|].
        destruct (rev (f :: l)) eqn:Hr; [now apply rev_nil_inv in Hr|]. destruct Hsh as (Q1 & Q2 & _).
        unfold log_of in H3. rewrite map_length in H3.
        destruct (IdentifierPrefix_eq_dec _ _) as [_|Hz]; [|congruence].
        destruct (N.ltb_spec (em_sn m) (st_sn s + 1)); [lia|].
        destruct (N.ltb_spec (st_sn s + 1) (em_sn m)); [lia|]. cbn [obind]. now apply D.
  Qed.

  Lemma trial_iff cs id f se :
    let d := run E db_empty cs in let m := sem_msg se in
    id <> id_default -> em_prefix m <> id_default -> (exists x, e_deriv_data E m = Ok x) ->
    (keri_process E d id f se = Ok tt <-> known E d id /\ trial_rule E id (log_of (log d id)) f m).
  Proof.
    cbv zeta. intros Hid Hp Hx.
    destruct (reach_log_good E cs id Hid) as (s & Hg & Hc).
    assert (A : (exists s', apply_form E f se s = Ok s') <-> trial_rule E id (log_of (log (run E db_empty cs) id)) f (sem_msg se)).
    { destruct f; cbn [apply_form].
      - now apply apply_msg_iff_any.
      - now apply apply_msg_iff_any.
      - now apply apply_event_iff.
      - now apply (apply_data_iff id _ s). }
    unfold keri_process, try_out, known.
    destruct (compute_state E (run E db_empty cs) id) as [[s'|]|e|]; try contradiction; cbn [obind].
    - subst s'. rewrite <- A. destruct (apply_form E f se s) as [s'|e|]; cbn [obind].
      + split; [intros _; split; eauto|auto].
      + split; [discriminate|]. intros (_ & s' & H). discriminate H.
      + split; [discriminate|]. intros (_ & s' & H). discriminate H.
    - split; [discriminate|]. intros ((s' & H) & _). discriminate H.
  Qed.

  Lemma trial_unknown d id f se :
    compute_state E d id = Ok None -> keri_process E d id f se = Err (ESemantic "Unknown identifier.").
  Proof. intros H. unfold keri_process, try_out. now rewrite H. Qed.

  (** The forms ask for less and less. *)
  Lemma rule_forms id l m :
    (trial_rule E id l FMessage m -> trial_rule E id l FEvent m)
    /\ (trial_rule E id l FEvent m -> trial_rule E id l FData m).
  Proof.
    unfold trial_rule. split.
    - destruct (is_inception m).
      + intros (H1 & H2 & _). auto.
      + intros (H1 & first & last & H2 & H3 & H4 & H5 & H6 & _). split; [exact H1|].
        split; [intros ->; discriminate H2|]. split; [exact H4|exact H6].
    - destruct (is_inception m) eqn:Hi.
      + intros _. unfold opens, is_rotation, is_inception in *. destruct (em_data m); discriminate.
      + intros (_ & _ & _ & H). exact H.
  Qed.

  (** An event that is accepted tries out, with the same answer. *)
  Lemma trial_accepted cs f se d' s :
    let d := run E db_empty cs in let id := em_prefix (sem_msg se) in
    id <> id_default -> (exists x, e_deriv_data E (sem_msg se) = Ok x) ->
    known E d id -> process E d (MEvent se) = (d', Ok (Some s)) ->
    keri_process E d id f se = Ok tt
    /\ match f with FSigned | FMessage => try_out E d id f se = Ok (Some s) | _ => True end.
  Proof.
    cbv zeta. intros Hid Hx Hk H. cbn in H.
    destruct (process_event_ok _ _ _ _ _ H) as (s1 & Hs & _ & Ha & _). injection Hs as <-.
    assert (T : try_out E (run E db_empty cs) (em_prefix (sem_msg se)) FMessage se = Ok (Some s)).
    { unfold try_out. unfold apply_to_state in Ha. destruct Hk as (s0 & Hk). rewrite Hk in Ha |- *.
      cbn [obind] in Ha |- *. cbn [apply_form]. now rewrite Ha. }
    split; [|destruct f; auto].
    assert (R : trial_rule E (em_prefix (sem_msg se)) (log_of (log (run E db_empty cs) (em_prefix (sem_msg se)))) FMessage (sem_msg se)).
    { apply (trial_iff cs _ FMessage se Hid Hid Hx). unfold keri_process. now rewrite T. }
    apply (trial_iff cs _ f se Hid Hid Hx). split; [exact Hk|].
    destruct (rule_forms (em_prefix (sem_msg se)) (log_of (log (run E db_empty cs) (em_prefix (sem_msg se)))) (sem_msg se)) as [F1 F2].
    destruct f; auto.
  Qed.

  (** A refused inception makes the identifier known. *)
  Lemma trial_after_refusal cs se :
    let d := run E db_empty cs in let m := sem_msg se in let id := em_prefix m in
    id <> id_default -> (exists x, e_deriv_data E m = Ok x) -> (exists ser, e_ser_event E m = Ok ser) ->
    is_inception m = true -> is_delegated m = false -> begins E (log_of (log d id)) m ->
    forall e, snd (process E d (MEvent se)) = Err e ->
    log (fst (process E d (MEvent se))) id = []
    /\ keri_process E (fst (process E d (MEvent se))) id FMessage se = Ok tt.
  Proof.
    cbv zeta. intros Hid Hx (ser & Hser) Hi Hdel Hb e He.
    pose proof (Inv_reachable E cs) as HI.
    destruct (reach_log_good E cs (em_prefix (sem_msg se)) Hid) as (s & Hg & Hc).
    assert (Hm : exists s', apply_msg E (sem_msg se) s = Ok s').
    { pose proof (apply_msg_iff E _ _ _ _ Hid Hg eq_refl Hx) as X. rewrite Hi in X. now apply X. }
    destruct Hm as (s' & Hm).
    assert (Ha : apply_to_state E (run E db_empty cs) (sem_msg se) = Ok s').
    { unfold apply_to_state. destruct (compute_state E (run E db_empty cs) (em_prefix (sem_msg se))) as [[s0|]| |]; try contradiction;
        subst; cbn [obind]; exact Hm. }
    assert (Hcd : check_delegation E (run E db_empty cs) se = Ok tt).
    { unfold check_delegation. unfold is_delegated in Hdel. unfold is_inception in Hi. destruct (em_data (sem_msg se)); try discriminate; reflexivity. }
    cbn [process] in *.
    assert (K : get_kel (fst (process_event E (run E db_empty cs) se)) (em_prefix (sem_msg se)) = Some []).
    { unfold process_event in He |- *. rewrite Hcd, Ha, Hser in He |- *.
      destruct (verify_signatures E s' ser se) as [z|e'|]; cbn [snd] in He; try discriminate He.
      cbn [fst]. rewrite get_kel_remove. destruct (IdentifierPrefix_eq_dec _ _) as [_|Hn]; [|congruence].
      assert (Q : forall d0, d0 = add_kel (run E db_empty cs) se (em_prefix (sem_msg se)) \/
                        d0 = add_dup (add_kel (run E db_empty cs) se (em_prefix (sem_msg se))) se (em_prefix (sem_msg se)) ->
                   get_kel d0 (em_prefix (sem_msg se)) = get_kel (add_kel (run E db_empty cs) se (em_prefix (sem_msg se))) (em_prefix (sem_msg se))).
      { intros d0 [->| ->]; reflexivity. }
      rewrite Q by (destruct e'; auto). rewrite get_kel_add.
      destruct (IdentifierPrefix_eq_dec _ _) as [_|Hn]; [|congruence]. cbn [option_map].
      rewrite (remove_added E _ _ _ HI Hid Ha). destruct Hb as (Hb & _). unfold log, log_of in Hb.
      destruct (olist (get_kel (run E db_empty cs) (em_prefix (sem_msg se)))); [reflexivity|discriminate Hb]. }
    split; [unfold log; rewrite K; reflexivity|].
    assert (Hs : s = state_default).
    { destruct Hb as (Hb & _). unfold log_of in Hb. destruct (log _ _) in Hb, Hg; [now apply good_log_nil in Hg|discriminate Hb]. }
    unfold keri_process, try_out, compute_state. rewrite K. cbn [sort_by_sn fold_right replay obind apply_form].
    subst s. change (sort_by_sn []) with (@nil SignedEventMessage). cbn [replay obind]. now rewrite Hm.
  Qed.
End WithEnv.
