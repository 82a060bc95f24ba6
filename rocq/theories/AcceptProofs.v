(** * AcceptProofs: an event is accepted exactly when the rules of SpecRules allow it. *)
From Verif Require Import Base Base64 Codes NumFmt Types KeyConf SpecSig State Db Processor Spec SpecProc SpecRules
  StateProofs LogProofs LogTheorems LogTheorems2 SigProofs ProcProofs ProcProofs2.

Section WithEnv.
  Context (E : Env).

  Lemma check_digest_iff m g :
    (exists data, e_deriv_data E m = Ok data) ->
    (check_digest E m g = Ok true <-> digest_of_event E m g)
    /\ (check_digest E m g = Ok false <-> checkable m g /\ ~ digest_of_event E m g)
    /\ (check_digest E m g = Panic <-> ~ checkable m g)
    /\ (forall e, check_digest E m g <> Err e).
  Proof.
    intros (data & Hd). unfold check_digest, digest_of_event, checkable.
    destruct (SelfAddressing_eq_dec _ _) as [He|Hne].
    - refine (conj _ (conj _ (conj _ _))); [| | |discriminate].
      + destruct (SAP_eq_dec _ _) as [H|H]; split; auto; try discriminate. intros [H'|[H' _]]; congruence.
      + destruct (SAP_eq_dec _ _) as [H|H]; split; auto; try discriminate.
        * intros [_ Q]. exfalso. apply Q. now left.
        * intros _. split; [now left|]. intros [H'|[H' _]]; congruence.
      + split; [discriminate|]. intros H. exfalso. apply H. now left.
    - rewrite Hd. cbn [obind]. unfold verify_binding.
      destruct (digest_aborts (sap_code g)) eqn:Hab.
      + assert (Hn : ~ computable (sap_code g)) by (intros H; apply aborts_computable in H; congruence).
        refine (conj _ (conj _ (conj _ _))); [split|split|split|]; try discriminate.
        * intros [H|[_ [H _]]]; [rewrite H in Hne; congruence|contradiction].
        * intros [[H|H] _]; congruence.
        * intros _ [H|H]; congruence.
        * reflexivity.
      + apply aborts_computable in Hab.
        assert (X : forall b : bool, Ok b = Ok true <-> b = true) by (intros b; split; congruence).
        assert (X' : forall b : bool, Ok b = Ok false <-> b <> true) by (intros [|]; split; congruence).
        assert (Y : bytes_eqb (e_digest E (sap_code g) data) (sap_digest g) = true
                    <-> em_digest m = g \/ sap_code (em_digest m) <> sap_code g /\ computable (sap_code g)
                         /\ (exists data0, Ok data = Ok data0 /\ e_digest E (sap_code g) data0 = sap_digest g)).
        { split.
          - intros H. apply bytes_eqb_eq in H. right. eauto.
          - intros [H|[_ [_ (data' & Hd' & H)]]]; [rewrite H in Hne; congruence|]. apply bytes_eqb_eq. congruence. }
        rewrite X, X', Y. refine (conj _ (conj _ (conj _ _))); [reflexivity| | |discriminate].
        * split; [intros H; split; auto|intros [_ H]; exact H].
        * split; [discriminate|]. intros H. exfalso. apply H. now right.
  Qed.

  Lemma any_anchor_iff m data :
    (exists x, e_deriv_data E m = Ok x) ->
    (any_anchor E m data = Ok true <->
     exists before es after, data = before ++ SealEvent es :: after
       /\ (forall es', In (SealEvent es') before -> checkable m (es_digest es'))
       /\ digest_of_event E m (es_digest es)).
  Proof.
    intros Hx. induction data as [|s data IH].
    - split; [discriminate|]. intros ([|? ?] & es & after & H & _); discriminate H.
    - assert (Hskip : (forall es, s = SealEvent es -> checkable m (es_digest es) /\ ~ digest_of_event E m (es_digest es)) ->
        ((exists before es after, data = before ++ SealEvent es :: after
           /\ (forall es', In (SealEvent es') before -> checkable m (es_digest es')) /\ digest_of_event E m (es_digest es)) <->
         (exists before es after, s :: data = before ++ SealEvent es :: after
           /\ (forall es', In (SealEvent es') before -> checkable m (es_digest es')) /\ digest_of_event E m (es_digest es)))).
      { intros Hs. split.
        - intros (be & es & af & -> & H1 & H2). exists (s :: be), es, af. split; [reflexivity|]. split; [|exact H2].
          intros es' [H|H]; [now apply Hs|now apply H1].
        - intros ([|s' be] & es & af & H & H1 & H2); injection H as H3 H4.
          + subst. exfalso. now apply (Hs es eq_refl).
          + subst. exists be, es, af. split; [reflexivity|]. split; [|exact H2]. intros es' H. apply H1. now right. }
      destruct s as [l|es|g|g]; try (cbn [any_anchor]; rewrite IH; apply Hskip; discriminate).
      cbn [any_anchor]. destruct (check_digest_iff m (es_digest es) Hx) as (C1 & C2 & C3 & C4).
      destruct (check_digest E m (es_digest es)) as [[|]|e|] eqn:Hc.
      + split; [|reflexivity]. intros _. exists [], es, data. split; [reflexivity|]. split; [intros ? []|now apply C1].
      + rewrite IH. apply Hskip. intros es' H. injection H as <-. now apply C2.
      + exfalso. now apply (C4 e).
      + split; [discriminate|]. intros ([|s' be] & es' & af & H & H1 & H2); exfalso; injection H as H3 H4.
        * subst. apply C1 in H2. discriminate H2.
        * subst. apply (proj1 C3 eq_refl). apply H1. now left.
  Qed.

  Lemma reach_log_good cs id : id <> id_default -> exists s, good_log E id (log (run E db_empty cs) id) s
     /\ match compute_state E (run E db_empty cs) id with
        | Ok (Some s') => s' = s | Ok None => s = state_default | _ => False end.
  Proof.
    intros Hid. unfold log. destruct (get_kel (run E db_empty cs) id) as [l|] eqn:Hk; cbn.
    - destruct (reach_good E cs _ _ Hid Hk) as (s & Hg & Hc). exists s. rewrite Hc. auto.
    - exists state_default. split; [now apply good_log_nil|]. unfold compute_state. now rewrite Hk.
  Qed.

  Lemma validate_seal_iff cs p sn dg m :
    let d := run E db_empty cs in
    (exists x, e_deriv_data E m = Ok x) -> p <> id_default ->
    (validate_seal E d (mkES p sn dg) m = Ok tt <->
     exists x before es after, In x (log_of (log d p)) /\ em_sn x = sn
       /\ anchor_data x = Some (before ++ SealEvent es :: after)
       /\ (forall es', In (SealEvent es') before -> checkable m (es_digest es')) /\ digest_of_event E m (es_digest es)).
  Proof.
    cbv zeta. intros Hx Hp.
    destruct (reach_log_good cs p Hp) as (s & Hg & _).
    destruct (good_log_shape _ _ _ _ Hp Hg) as (Hsn & _).
    assert (Hf : forall e, In e (log (run E db_empty cs) p) -> em_sn (sem_msg e) = sn -> get_event_at_sn (run E db_empty cs) p sn = Some e).
    { intros e H1 H2. rewrite get_event_log. destruct (find _ _) as [e'|] eqn:Hf.
      - apply find_some in Hf. destruct Hf as [Hi He]. apply N.eqb_eq in He.
        apply In_nth_error in Hi. destruct Hi as [j Hj]. apply In_nth_error in H1. destruct H1 as [k Hk].
        pose proof (Hsn _ _ Hj). pose proof (Hsn _ _ Hk). assert (j = k) by lia. subst k. congruence.
      - exfalso. pose proof (find_none _ _ Hf _ H1) as Hn. cbv beta in Hn. apply N.eqb_neq in Hn. congruence. }
    assert (Hv : forall e data, get_event_at_sn (run E db_empty cs) p sn = Some e -> anchor_data (sem_msg e) = Some data ->
                  (validate_seal E (run E db_empty cs) (mkES p sn dg) m = Ok tt <-> any_anchor E m data = Ok true)).
    { intros e data He Ha. unfold validate_seal. cbn [es_prefix es_sn]. rewrite He. unfold anchor_data in Ha.
      destruct (em_data (sem_msg e)); try discriminate Ha; injection Ha as ->; cbn [obind];
        destruct (any_anchor E m data) as [[|]| |]; cbn [obind]; split; congruence. }
    split.
    - intros H. pose proof H as H'. apply validate_seal_spec in H. destruct H as (e & data & _ & H1 & H2 & H3 & _).
      cbn in H1, H2. apply (Hv e data (Hf _ H1 H2) H3) in H'. apply any_anchor_iff in H'; [|exact Hx].
      destruct H' as (be & es & af & -> & H4 & H5).
      exists (sem_msg e), be, es, af. split; [now apply in_map|auto].
    - intros (x & be & es & af & H1 & H2 & H3 & H4 & H5). apply in_map_iff in H1. destruct H1 as (e & <- & H1).
      apply (Hv e _ (Hf _ H1 H2) H3). apply any_anchor_iff; [exact Hx|]. exists be, es, af. auto.
  Qed.

  (** Binding of the identifier of an inception *)
  Lemma binding_iff m :
    (exists x, e_deriv_data E m = Ok x) -> is_inception m = true ->
    (verify_identifier_binding E m = Ok true <-> names_itself E m).
  Proof.
    intros Hx Hi. unfold verify_identifier_binding, names_itself. unfold is_inception in Hi.
    destruct (em_data m) as [i| | |dp|]; try discriminate Hi.
    - destruct (em_prefix m) as [k|g|sg].
      + destruct (kc_keys (icp_kc i)) as [|k' [|k2 r]].
        * split; intros H; discriminate H.
        * destruct (BasicPrefix_eq_dec k k') as [->|Hn]; split; intros H; try reflexivity; try discriminate H.
          injection H as ->. congruence.
        * split; intros H; discriminate H.
      + destruct (check_digest_iff m g Hx) as (Hbi & _).
        destruct (SAP_eq_dec (em_digest m) g) as [He|Hn].
        * split; [auto|]. intros _. rewrite (proj2 Hbi (or_introl He)). reflexivity.
        * split; [|congruence]. intros H. exfalso. destruct (check_digest E m g) as [b| |]; try discriminate H.
          cbn [obind] in H. rewrite andb_false_r in H. discriminate H.
      + split; [discriminate|intros []].
    - destruct (em_prefix m) as [k|g|sg]; try (split; [discriminate|intros []]).
      destruct (check_digest_iff m g Hx) as (Hbi & _). exact Hbi.
  Qed.

  Lemma last_event_rev l : last_event l = match rev l with [] => None | e :: _ => Some e end.
  Proof.
    destruct l as [|x l _] using rev_ind; [reflexivity|]. rewrite last_event_snoc, rev_app_distr. reflexivity.
  Qed.
  Lemma rev_log_of l : rev (log_of l) = log_of (rev l).
  Proof. unfold log_of. now rewrite map_rev. Qed.

  (** When the state machine takes an event after a good log. *)
  Lemma apply_msg_iff id l s m :
    id <> id_default -> good_log E id l s -> em_prefix m = id ->
    (exists x, e_deriv_data E m = Ok x) ->
    ((exists s', apply_msg E m s = Ok s') <->
     if is_inception m then begins E (log_of l) m else continues E (log_of l) m).
  Proof.
    intros Hid Hg Hp Hx. destruct (good_log_shape _ _ _ _ Hid Hg) as (Hsn & Hsh & Hinc).
    destruct (is_inception m) eqn:Hi.
    - split.
      + intros (s' & Ha). destruct (apply_msg_incept _ _ _ _ Hi Ha) as (P1 & P2 & P3 & _).
        assert (Hl : l = []).
        { destruct (rev l) eqn:Hr; [now apply rev_nil_inv|]. destruct Hsh as (Q & _). congruence. }
        subst l. split; [reflexivity|]. split; [exact P2|]. now apply binding_iff.
      + intros (Hl & H0 & Hn). destruct l; [|discriminate Hl]. cbn in Hsh. subst s.
        apply binding_iff in Hn; auto.
        assert (Hae : exists s', apply_event E m (st_set_last_digest state_default (em_digest m)) = Ok s').
        { unfold apply_event. unfold is_inception in Hi. destruct (em_data m) eqn:Hd; try discriminate Hi;
            cbn [st_set_last_digest st_prefix]; rewrite H0;
            (destruct (IdentifierPrefix_eq_dec _ _) as [_|Hc]; [cbn; unfold apply_icp; eauto|exfalso; apply Hc; reflexivity]). }
        destruct Hae as (s' & Hae). exists s'. unfold apply_msg. unfold is_inception in Hi.
        destruct (em_data m) eqn:Hd; try discriminate Hi; rewrite Hn; cbn; exact Hae.
    - assert (Hne : forall s', apply_msg E m s = Ok s' -> l <> []).
      { intros s' Ha Hl. subst l. cbn in Hsh. subst s. destruct (apply_msg_next _ _ _ _ Hi Ha) as (Q & _).
        cbn in Q. congruence. }
      split.
      + intros (s' & Ha). pose proof (Hne _ Ha) as Hl.
        destruct (apply_msg_next _ _ _ _ Hi Ha) as (P1 & P2 & P3 & _).
        destruct l as [|f l]; [congruence|].
        destruct (rev (f :: l)) as [|y r] eqn:Hr; [now apply rev_nil_inv in Hr|]. destruct Hsh as (Q1 & Q2 & Q3).
        destruct (good_deleg E id _ _ f Hid Hg eq_refl) as (Hdel & _).
        exists (sem_msg f), (sem_msg y). split; [reflexivity|]. split.
        { rewrite last_event_rev, rev_log_of, Hr. reflexivity. }
        split; [unfold log_of; rewrite map_length; lia|]. split; [congruence|]. split.
        * intros Hrot. destruct (apply_msg_rotate _ _ _ _ Hrot Ha) as (_ & _ & _ & _ & kc & Hk & Hv & _).
          apply verify_next_iff in Hv. destruct Hv as (n & Hn & Hcm & Hd).
          destruct (good_keys E id _ _ Hid Hg Hl) as (e0 & He0 & Hk0).
          exists e0. split; [exact He0|]. exists (st_current s), n, kc. auto.
        * destruct (em_data m) eqn:Hd; auto; apply apply_msg_rotate in Ha;
            try (unfold is_rotation; now rewrite Hd); rewrite Hd in Ha;
            destruct Ha as (_ & _ & _ & Ha & _); rewrite Hdel in Ha; exact Ha.
      + intros (first & last & H1 & H2 & H3 & H4 & H5 & H6).
        destruct l as [|f l]; [discriminate H1|]. cbn in H1. injection H1 as <-.
        rewrite last_event_rev, rev_log_of in H2.
        destruct (rev (f :: l)) as [|y r] eqn:Hr; [discriminate H2|]. cbn in H2. injection H2 as <-.
        destruct Hsh as (Q1 & Q2 & Q3).
        destruct (good_deleg E id _ _ f Hid Hg eq_refl) as (Hdel & _).
        unfold log_of in H3. rewrite map_length in H3.
        assert (Hsn1 : em_sn m = (st_sn s + 1)%N) by lia.
        assert (Hae : forall k, apply_event E m k = (let? _ :=
                   if IdentifierPrefix_eq_dec (em_prefix m) (st_prefix k) then
                     if (em_sn m <? st_sn k + 1)%N then Err EDuplicate
                     else if (st_sn k + 1 <? em_sn m)%N then Err EOutOfOrder
                     else Ok tt
                   else Err (ESemantic "Prefix does not match") in
                 apply_data E (em_data m) (st_set_sn_prefix k (em_sn m) (em_prefix m)))).
        { intros k. unfold apply_event. unfold is_inception in Hi. destruct (em_data m); try discriminate Hi; reflexivity. }
        specialize (Hae s). destruct (IdentifierPrefix_eq_dec (em_prefix m) (st_prefix s)) as [_|Hc]; [|congruence].
        destruct (N.ltb_spec (em_sn m) (st_sn s + 1)); [lia|].
        destruct (N.ltb_spec (st_sn s + 1) (em_sn m)); [lia|]. cbn [obind] in Hae.
        assert (Hrot : is_rotation m = true -> forall kc, est_keys m = Some kc -> verify_next E (st_current s) kc = Ok true).
        { intros Hrot kc Hk. destruct (H5 Hrot) as (est & He & kc0 & n & kc' & C1 & C2 & C3 & C0 & C4).
          destruct (good_keys E id _ _ Hid Hg ltac:(discriminate)) as (e0 & He0 & Hk0).
          rewrite He0 in He. injection He as <-. rewrite Hk0 in C1. injection C1 as <-.
          apply verify_next_iff. exists n. split; [exact C2|]. split; [exact C0|]. rewrite Hk in C3. now injection C3 as <-. }
        unfold apply_msg. rewrite check_event_digest_vacuous. unfold prev_digest in H4.
        unfold is_inception in Hi. unfold is_rotation in Hrot. unfold est_keys in Hrot.
        destruct (em_data m) as [i|rr|i|dp|rr] eqn:Hd; try discriminate Hi; cbn [obind].
        * rewrite Hdel, H6, Hae. cbn [apply_data]. unfold apply_rot. cbn [st_current st_set_sn_prefix].
          rewrite (Hrot eq_refl _ eq_refl). cbn [obind]. unfold chain_to. injection H4 as ->.
          destruct (SAP_eq_dec _ _) as [_|Hc]; [eauto|congruence].
        * rewrite Hae. cbn [apply_data apply_ixn obind]. unfold chain_to. injection H4 as ->.
          destruct (SAP_eq_dec _ _) as [_|Hc]; [eauto|congruence].
        * rewrite Hae. cbn [apply_data]. unfold apply_rot. cbn [st_current st_set_sn_prefix].
          rewrite (Hrot eq_refl _ eq_refl). cbn [obind]. rewrite Hdel.
          destruct (named_delegator (sem_msg f)); [|congruence]. unfold chain_to. injection H4 as ->.
          destruct (SAP_eq_dec _ _) as [_|Hc]; [eauto|congruence].
  Qed.

  Lemma in_single_dec t sigs : {in_single t sigs} + {~ in_single t sigs}.
  Proof.
    destruct t as [n|[c|cs]]; cbn; [left; exact I| |left; exact I].
    apply Forall_dec. intros s. apply lt_dec.
  Qed.
  Lemma verify_iff kc msg sigs :
    rational_threshold (kc_threshold kc) ->
    (kc_verify E kc msg sigs = Ok true <-> in_single (kc_threshold kc) sigs /\ satisfies E kc msg sigs).
  Proof.
    intros Hr. destruct (in_single_dec (kc_threshold kc) sigs) as [Hs|Hs].
    - rewrite (verify_sound_complete E kc msg sigs Hr Hs). split; [auto|intros [_ H]; exact H].
    - split; [|intros [H _]; contradiction]. intros H.
      assert (Hp : kc_verify E kc msg sigs = Panic) by (apply verify_panics_iff; auto). congruence.
  Qed.

  Lemma accept_iff cs se :
    let d := run E db_empty cs in let m := sem_msg se in
    let logs := fun id => log_of (log d id) in
    em_prefix m <> id_default ->
    (forall p, delegator_of (logs (em_prefix m)) m = Some p -> p <> id_default) ->
    (exists x, e_deriv_data E m = Ok x) ->
    (forall kc, keys_in_force (logs (em_prefix m)) m = Some kc -> rational_threshold (kc_threshold kc)) ->
    ((exists d' s, process E d (MEvent se) = (d', Ok (Some s))) <-> acceptable E logs se).
  Proof.
    cbv zeta. intros Hid Hdg Hx Hrat.
    set (d := run E db_empty cs) in *. set (m := sem_msg se) in *. set (id := em_prefix m) in *.
    destruct (reach_log_good cs id Hid) as (s & Hg & Hcs). fold d in Hg, Hcs.
    pose proof (apply_msg_iff id (log d id) s m Hid Hg eq_refl Hx) as Hai.
    assert (Has : apply_to_state E d m = apply_msg E m s).
    { unfold apply_to_state. fold id. destruct (compute_state E d id) as [[s'|]| |]; try contradiction; cbn; now subst. }
    assert (Hkeys : forall s', apply_msg E m s = Ok s' -> keys_in_force (log_of (log d id)) m = Some (st_current s')).
    { intros s' Ha.
      assert (Hg' : good_log E id (log d id ++ [se]) s') by (apply good_log_snoc; exists s; auto).
      destruct (good_keys E id _ _ Hid Hg' ltac:(now destruct (log d id))) as (e0 & He & Hk).
      rewrite log_of_app in He. cbn in He. unfold keys_in_force. fold m in He. now rewrite He. }
    assert (Hdel : (if is_inception m then begins E (log_of (log d id)) m else continues E (log_of (log d id)) m) ->
                   (check_delegation E d se = Ok tt <->
                    (is_delegated m = true -> anchored E (fun i => log_of (log d i)) (log_of (log d id)) se))).
    { intros Hstep. unfold check_delegation, is_delegated. fold m.
      destruct (em_data m) as [i|r|i|dip|r] eqn:Hd; try (split; [intros _ Hc; discriminate Hc|reflexivity]).
      - assert (Hl : log_of (log d id) = []).
        { unfold is_inception in Hstep. rewrite Hd in Hstep. apply Hstep. }
        assert (Hdo : delegator_of (log_of (log d id)) m = Some (dip_delegator dip)).
        { rewrite Hl. cbn. unfold named_delegator. now rewrite Hd. }
        pose proof (Hdg _ Hdo) as Hdn.
        split.
        + intros H _. apply obind_ok in H. destruct H as (src & Hs & Hv). unfold ok_or in Hs.
          destruct (sem_seal se) as [src'|] eqn:Hse; [|discriminate Hs]. injection Hs as ->.
          apply (validate_seal_iff cs) in Hv; auto. destruct Hv as (x & be & es & af & H1 & H2 & H3 & H4 & H5).
          exists (dip_delegator dip), src, x, be, es, af. fold m. repeat (apply conj); auto.
        + intros H. destruct (H eq_refl) as (p & src & x & be & es & af & H0 & H0' & H1 & H2 & H3 & H4 & H5).
          fold m in H0. rewrite Hdo in H0. injection H0 as <-. rewrite H0'. cbn [ok_or obind].
          apply (validate_seal_iff cs); auto. exists x, be, es, af. repeat (apply conj); auto.
      - unfold is_inception in Hstep. rewrite Hd in Hstep.
        destruct Hstep as (first & last & F1 & F2 & F3 & F4 & F5 & F6). rewrite Hd in F6.
        destruct (log d id) as [|f l] eqn:Hl; [discriminate F1|]. cbn in F1. injection F1 as <-.
        destruct (named_delegator (sem_msg f)) as [p|] eqn:Hnd; [|congruence].
        assert (Hdo : delegator_of (log_of (f :: l)) m = Some p) by exact Hnd.
        assert (Hdn : p <> id_default) by (apply Hdg; cbv beta; rewrite Hl; exact Hdo).
        destruct (good_deleg E id _ _ f Hid Hg eq_refl) as (Hsd & _). rewrite Hnd in Hsd.
        assert (Hc1 : compute_state E d id = Ok (Some s)).
        { unfold log in Hl. destruct (get_kel d id) eqn:Hk; [|discriminate Hl].
          unfold compute_state in *. rewrite Hk in *.
          destruct (replay E (sort_by_sn l0) state_default); cbn in *; try contradiction. now subst. }
        fold id. rewrite Hc1. cbn [ok_or obind]. rewrite Hsd. cbn [ok_or obind].
        split.
        + intros H _. apply obind_ok in H. destruct H as (src & Hs & Hv). unfold ok_or in Hs.
          destruct (sem_seal se) as [src'|] eqn:Hse; [|discriminate Hs]. injection Hs as ->.
          apply (validate_seal_iff cs) in Hv; auto. destruct Hv as (x & be & es & af & H1 & H2 & H3 & H4 & H5).
          exists p, src, x, be, es, af. fold m. repeat (apply conj); auto.
        + intros H. destruct (H eq_refl) as (p' & src & x & be & es & af & H0 & H0' & H1 & H2 & H3 & H4 & H5).
          fold m in H0. rewrite Hdo in H0. injection H0 as <-. rewrite H0'. cbn [ok_or obind].
          apply (validate_seal_iff cs); auto. exists x, be, es, af. repeat (apply conj); auto. }
    unfold acceptable. cbv zeta. fold m. fold id. split.
    - intros (d' & s' & H). cbn in H. apply process_event_ok in H.
      destruct H as (s2 & Hs2 & Hcd & Ha & _ & ser & Hser & Hv). fold m in Ha, Hser. rewrite Has in Ha.
      assert (Hst := proj1 Hai (ex_intro _ s2 Ha)).
      split; [exact Hst|]. split; [now apply (Hdel Hst)|].
      exists (st_current s2), ser. split; [now apply Hkeys|]. split; [exact Hser|].
      apply verify_iff; [|exact Hv]. apply Hrat. now apply Hkeys.
    - intros (Hst & Hanc & kc & ser & Hk & Hser & Hsat).
      destruct (proj2 Hai Hst) as (s2 & Ha). exists (add_kel d se id), s2. cbn. unfold process_event.
      rewrite (proj2 (Hdel Hst) Hanc). fold m in Hser, Hk. fold m. rewrite Has, Ha, Hser. fold id.
      rewrite (Hkeys _ Ha) in Hk. injection Hk as <-.
      apply verify_iff in Hsat; [|apply Hrat; now apply Hkeys].
      unfold verify_signatures. rewrite Hsat. reflexivity.
  Qed.
End WithEnv.
