(** * C142: every chain of delegators ends, and every delegated event held is anchored. *)
From Verif Require Import Base Base64 Codes NumFmt Types KeyConf SpecSig State Db Processor Spec SpecProc SpecAncestry
  StateProofs LogProofs LogTheorems LogTheorems2 SigProofs ProcProofs ProcProofs2 Demo.

Section S.
  Context (E : Env).
  Lemma run_last cs c : run E db_empty (cs ++ [c]) = call E (run E db_empty cs) c.
  Proof. unfold run. rewrite fold_left_app. reflexivity. Qed.
  (** What one more call does to a log, whatever its outcome. *)
  Lemma growth cs c id : id <> id_default ->
    let d := run E db_empty cs in let d' := run E db_empty (cs ++ [c]) in
    log d' id = log d id
    \/ exists se ns, c = CProcess (MEvent se) /\ em_prefix (sem_msg se) = id /\ log d' id = log d id ++ [stored se]
         /\ check_delegation E d se = Ok tt /\ apply_to_state E d (sem_msg se) = Ok ns.
  Proof.
    cbv zeta. intros Hid. rewrite run_last. set (d := run E db_empty cs). pose proof (Inv_reachable E cs) as HI. fold d in HI.
    destruct c as [m|]; cbn [call].
    2:{ left. unfold log, get_kel. now rewrite process_escrow_kel. }
    destruct m as [se|r|r|r|q]; try (left; unfold log, get_kel; rewrite process_other_kel; [reflexivity|discriminate]).
    destruct (IdentifierPrefix_eq_dec (em_prefix (sem_msg se)) id) as [He|Hne].
    2:{ left. assert (Hs : same_for id d (fst (process E d (MEvent se)))) by (apply c23; cbn; congruence).
        destruct Hs as (Hs & _). unfold log. now rewrite Hs. }
    assert (A : log (add_kel d se (em_prefix (sem_msg se))) id = log d id ++ [stored se]).
    { unfold log. rewrite get_kel_add. destruct (IdentifierPrefix_eq_dec id (em_prefix (sem_msg se))); [|congruence]. cbn [olist]. now rewrite He. }
    cbn [process]. destruct (process_event_cases E d se) as [(r & Hr & _)|(ns & Hc & Ha & H)].
    - left. now rewrite Hr.
    - destruct H as [(ser & _ & _ & Hr)|[(r & Hr & _)|(e & ser & _ & Hr & _)]]; rewrite Hr; cbn [fst].
      + right. exists se, ns. auto.
      + right. exists se, ns. auto.
      + left. subst id. unfold log. rewrite get_kel_remove, get_kel_add.
        destruct (IdentifierPrefix_eq_dec (em_prefix (sem_msg se)) (em_prefix (sem_msg se))); [|congruence].
        cbn [olist option_map]. exact (remove_added E d se ns HI Hid Ha).
  Qed.
  Lemma first_kept cs c id x : id <> id_default ->
    hd_error (log_of (log (run E db_empty cs) id)) = Some x -> hd_error (log_of (log (run E db_empty (cs ++ [c])) id)) = Some x.
  Proof.
    intros Hid H. destruct (c22_append E cs [c] id Hid) as (ext & He). rewrite He.
    destruct (log (run E db_empty cs) id) as [|a l]; [discriminate H|]. exact H.
  Qed.
  (** The delegation check, for the event that is about to be stored: what it says of the logs. *)
  Lemma check_anchored cs se ns : let d := run E db_empty cs in let id := em_prefix (sem_msg se) in
    id <> id_default -> is_delegated (sem_msg se) = true -> check_delegation E d se = Ok tt -> apply_to_state E d (sem_msg se) = Ok ns ->
    exists p e data s, (exists e0, hd_error (log d id ++ [stored se]) = Some e0 /\ named_delegator (sem_msg e0) = Some p)
      /\ In e (log d p) /\ anchor_data (sem_msg e) = Some data /\ In (SealEvent s) data
      /\ digest_of_event E (sem_msg se) (es_digest s).
  Proof.
    cbv zeta. intros Hid Hdel Hcd Ha. unfold check_delegation in Hcd. unfold is_delegated in Hdel.
    destruct (em_data (sem_msg se)) as [i|r|x|dip|r] eqn:Hd; try discriminate Hdel.
    - apply obind_ok in Hcd. destruct Hcd as (src & Hsrc & Hv). unfold ok_or in Hsrc.
      destruct (sem_seal se) as [src'|]; [|discriminate Hsrc]. injection Hsrc as ->.
      apply validate_seal_spec in Hv. destruct Hv as (e & data & s & H1 & H2 & H3 & H4 & H5). cbn in H1, H2.
      exists (dip_delegator dip), e, data, s. split; [|auto].
      assert (Hempty : log (run E db_empty cs) (em_prefix (sem_msg se)) = []).
      { destruct (apply_to_state_good E _ _ _ (Inv_reachable E cs) Hid Ha) as (sb & Hsb & Hap).
        destruct (apply_msg_incept E _ _ _ ltac:(unfold is_inception; now rewrite Hd) Hap) as (Hpre & _).
        unfold log. destruct (olist (get_kel (run E db_empty cs) (em_prefix (sem_msg se)))) as [|y l] eqn:Hl; [reflexivity|].
        destruct (good_log_shape _ _ _ _ Hid Hsb) as (_ & Hsh & _).
        destruct (rev (y :: l)) eqn:Hr; [now apply rev_nil_inv in Hr|]. destruct Hsh as (Hx & _). congruence. }
      exists (stored se). rewrite Hempty. split; [reflexivity|].
      unfold named_delegator. cbn [stored sem_msg]. now rewrite Hd.
    - apply obind_ok in Hcd. destruct Hcd as (os' & Hos & Hcd). apply obind_ok in Hcd. destruct Hcd as (sb & Hsb & Hcd).
      destruct os' as [sb'|]; [|discriminate Hsb]. injection Hsb as ->.
      apply obind_ok in Hcd. destruct Hcd as (dl & Hdl & Hcd). apply obind_ok in Hcd. destruct Hcd as (src & Hsrc & Hv).
      destruct (st_delegator sb) as [dl'|] eqn:Hsd; [|discriminate Hdl]. injection Hdl as ->.
      unfold ok_or in Hsrc. destruct (sem_seal se) as [src'|]; [|discriminate Hsrc]. injection Hsrc as ->.
      apply validate_seal_spec in Hv. destruct Hv as (e & data & s & H1 & H2 & H3 & H4 & H5). cbn in H1, H2.
      exists dl, e, data, s. split; [|auto].
      unfold compute_state in Hos. destruct (get_kel (run E db_empty cs) (em_prefix (sem_msg se))) as [l|] eqn:Hl; [|discriminate Hos].
      destruct (reach_good E _ _ _ Hid Hl) as (sb2 & Hg2 & Hc2).
      assert (Hx : Ok (Some sb2) = Ok (Some sb)).
      { rewrite <- Hc2. unfold compute_state. now rewrite Hl. }
      injection Hx as ->.
      destruct l as [|e0 l]. { apply good_log_nil in Hg2. subst sb. discriminate Hsd. }
      exists e0. unfold log. rewrite Hl. split; [reflexivity|].
      destruct (good_deleg E _ _ _ e0 Hid Hg2 eq_refl) as [Hx2 _]. congruence.
  Qed.
  Lemma hd_log l e : hd_error l = Some e -> hd_error (log_of l) = Some (sem_msg e).
  Proof. destruct l; [discriminate|]. cbn. congruence. Qed.
  Lemma named_last cs c : delegators_named (cs ++ [c]) -> delegators_named cs.
  Proof. intros H se p Hin. apply (H se p). apply in_or_app. now left. Qed.

  (** the chain, with none of its members the default identifier *)
  Lemma chain_kept cs c id l : ancestry (run E db_empty cs) id l -> Forall (fun x => x <> id_default) l ->
    ancestry (run E db_empty (cs ++ [c])) id l.
  Proof.
    intros H. induction H as [id x Hx Hn|id p l (x & Hx & Hn) _ IH]; intros Hf.
    - apply Forall_inv in Hf. econstructor; [eapply first_kept; eassumption|exact Hn].
    - apply Forall_cons_iff in Hf as [H0 Hf]. econstructor; [|apply IH; exact Hf]. exists x. split; [eapply first_kept; eassumption|exact Hn].
  Qed.
  Lemma chain_exists cs : delegators_named cs -> forall id, id <> id_default -> log (run E db_empty cs) id <> [] ->
    exists l, ancestry (run E db_empty cs) id l /\ Forall (fun x => x <> id_default) l.
  Proof.
    induction cs as [|c cs IH] using rev_ind; intros Hn id Hid Hne; [now contradiction Hne|].
    specialize (IH (named_last _ _ Hn)).
    destruct (growth cs c id Hid) as [He|(se & ns & -> & He & Hl & Hc & Ha)].
    - rewrite He in Hne. destruct (IH id Hid Hne) as (l & Hl & Hf). exists l. split; [now apply chain_kept|exact Hf].
    - destruct (log (run E db_empty cs) id) as [|y r] eqn:Hlog.
      + cbn [app] in Hl. destruct (named_delegator (sem_msg se)) as [p|] eqn:Hp.
        * assert (Hdel : is_delegated (sem_msg se) = true) by (unfold is_delegated; unfold named_delegator in Hp; destruct (em_data (sem_msg se)); try discriminate Hp; reflexivity).
          assert (Hpd : p <> id_default) by (eapply Hn; [apply in_or_app; right; left; reflexivity|exact Hp]).
          destruct (check_anchored cs se ns ltac:(congruence) Hdel Hc Ha) as (q & e & data & s & (e0 & H0 & Hq) & Hin & _).
          rewrite He, Hlog in H0. assert (e0 = stored se) by (cbn in H0; congruence). subst e0. cbn [stored sem_msg] in Hq.
          assert (q = p) by congruence. subst q.
          destruct (IH p Hpd) as (l & Hch & Hf); [intros Q; rewrite Q in Hin; exact Hin|].
          exists (id :: l). split; [|constructor; assumption].
          econstructor; [|apply chain_kept; eassumption]. exists (sem_msg se). rewrite Hl. split; [reflexivity|exact Hp].
        * exists [id]. split; [|constructor; [exact Hid|constructor]]. econstructor; [rewrite Hl; reflexivity|exact Hp].
      + destruct (IH id Hid) as (l & Hch & Hf); [rewrite Hlog; discriminate|]. exists l. split; [now apply chain_kept|exact Hf].
  Qed.
  Lemma chain_unique d id l : ancestry d id l -> forall l', ancestry d id l' -> l = l'.
  Proof.
    intros H. induction H as [id x Hx Hn|id p l (x & Hx & Hn) _ IH]; intros l' H'; inversion H' as [? y Hy Hm|? q r (y & Hy & Hm) Hr]; subst.
    - reflexivity.
    - congruence.
    - congruence.
    - assert (q = p) by congruence. subst q. f_equal. now apply IH.
  Qed.
  Lemma chain_suffix d id l : ancestry d id l -> forall x, In x l -> exists l', ancestry d x l' /\ List.length l' <= List.length l.
  Proof.
    intros H. induction H as [id y Hy Hn|id p l Hp H IH]; intros x Hx.
    - destruct Hx as [<-|[]]. exists [id]. split; [econstructor; eassumption|reflexivity].
    - destruct Hx as [<-|Hx]; [exists (id :: l); split; [econstructor; eassumption|reflexivity]|].
      destruct (IH x Hx) as (l' & H1 & H2). exists l'. split; [exact H1|]. cbn [List.length]. lia.
  Qed.
  Lemma chain_nodup d id l : ancestry d id l -> NoDup l.
  Proof.
    intros H. induction H as [id x Hx Hn|id p l Hp H IH]; [constructor; [intros []|constructor]|].
    constructor; [|exact IH]. intros Hin. destruct (chain_suffix _ _ _ H _ Hin) as (l' & H1 & H2).
    assert (id :: l = l') by (eapply chain_unique; [econstructor; eassumption|exact H1]). subst l'. cbn [List.length] in H2. lia.
  Qed.

  Lemma sealed_kept cs c id m : id <> id_default -> delegators_named cs ->
    (forall p, parent (run E db_empty cs) id p -> p <> id_default) ->
    sealed_by_parent E (run E db_empty cs) id m -> sealed_by_parent E (run E db_empty (cs ++ [c])) id m.
  Proof.
    intros Hid Hn Hpd (p & x & data & s & Hp & Hin & H1 & H2 & H3). exists p, x, data, s.
    split; [destruct Hp as (f & Hf & Hfp); exists f; split; [eapply first_kept; eassumption|exact Hfp]|]. split; [|auto].
    destruct (c22_append E cs [c] p (Hpd p Hp)) as (ext & ->). unfold log_of in *. rewrite map_app. apply in_or_app. now left.
  Qed.
  Lemma parent_named cs id p : id <> id_default -> delegators_named cs -> parent (run E db_empty cs) id p -> p <> id_default.
  Proof.
    intros Hid Hn (f & Hf & Hp). revert f Hf Hp. induction cs as [|c cs IH] using rev_ind; intros f Hf Hp; [discriminate Hf|].
    destruct (growth cs c id Hid) as [He|(se & ns & -> & He & Hl & _)].
    - rewrite He in Hf. eapply IH; [eapply named_last; exact Hn|exact Hf|exact Hp].
    - destruct (log (run E db_empty cs) id) as [|y r] eqn:Hlog; rewrite Hl in Hf.
      + cbn in Hf. assert (f = sem_msg se) by congruence. subst f. eapply Hn; [apply in_or_app; right; left; reflexivity|exact Hp].
      + eapply IH; [eapply named_last; exact Hn| |exact Hp]. exact Hf.
  Qed.
  Lemma all_sealed cs id e : id <> id_default -> delegators_named cs -> In e (log_of (log (run E db_empty cs) id)) ->
    is_delegated e = true -> sealed_by_parent E (run E db_empty cs) id e.
  Proof.
    intros Hid Hn. induction cs as [|c cs IH] using rev_ind; intros Hin Hdel; [destruct Hin|].
    specialize (IH (named_last _ _ Hn)). pose proof (named_last _ _ Hn) as Hn'.
    destruct (growth cs c id Hid) as [He|(se & ns & -> & He & Hl & Hc & Ha)].
    - rewrite He in Hin. apply sealed_kept; [assumption..|intros p; now apply parent_named|auto].
    - rewrite Hl in Hin. unfold log_of in Hin. rewrite map_app in Hin. apply in_app_or in Hin as [Hin|[<-|[]]].
      + apply sealed_kept; [assumption..|intros p; now apply parent_named|auto].
      + cbn [stored sem_msg] in *. destruct (check_anchored cs se ns ltac:(congruence) Hdel Hc Ha) as (p & e & data & s & (e0 & H0 & Hp) & Hx & H1 & H2 & H3).
        rewrite He in H0. assert (Hpar : parent (run E db_empty (cs ++ [CProcess (MEvent se)])) id p).
        { exists (sem_msg e0). split; [|exact Hp]. rewrite Hl. now apply hd_log. }
        pose proof (parent_named _ _ _ Hid Hn Hpar) as Hpd.
        exists p, (sem_msg e), data, s. split; [exact Hpar|]. split; [|auto].
        destruct (c22_append E cs [CProcess (MEvent se)] p Hpd) as (ext & ->). unfold log_of. rewrite map_app. apply in_or_app. left. now apply in_map.
  Qed.
End S.

(** Whatever was handed in and whatever became of it (panics included): every identifier with
    events has one chain of delegators, it ends with an identifier that nobody delegated, and no
    identifier is in it twice. *)
Theorem C142_chains_end :
  forall E cs id, let d := run E db_empty cs in
    id <> id_default -> delegators_named cs -> log d id <> [] ->
    exists chain, ancestry d id chain /\ NoDup chain /\ (forall chain', ancestry d id chain' -> chain' = chain).
Proof.
  cbv zeta. intros E cs id Hid Hn Hne. destruct (chain_exists E cs Hn id Hid Hne) as (l & H & _). exists l.
  split; [exact H|]. split; [eapply chain_nodup; exact H|]. intros l' H'. symmetry. eapply chain_unique; eassumption.
Qed.
Print Assumptions C142_chains_end.
(** The chain never changes. *)
Theorem C142_chains_stay :
  forall E cs cs' id chain,
    id <> id_default -> delegators_named cs -> ancestry (run E db_empty cs) id chain -> ancestry (run E db_empty (cs ++ cs')) id chain.
Proof.
  intros E cs cs' id chain Hid Hn H.
  assert (Hf : Forall (fun x => x <> id_default) chain).
  { assert (Hne : log (run E db_empty cs) id <> []).
    { inversion H as [? y Hy Hm|? q r (y & Hy & Hm) Hr]; subst; intros Q; rewrite Q in Hy; discriminate Hy. }
    destruct (chain_exists E cs Hn id Hid Hne) as (l & Hl & Hf). now rewrite (chain_unique _ _ _ H _ Hl). }
  induction cs' as [|c cs' IH] using rev_ind; [now rewrite app_nil_r|]. rewrite app_assoc. now apply chain_kept.
Qed.
Print Assumptions C142_chains_stay.
(** Every delegated event in a log is sealed by an event in the log of the delegator. *)
Theorem C142_every_delegated_event_is_sealed :
  forall E cs id e, let d := run E db_empty cs in
    id <> id_default -> delegators_named cs -> In e (log_of (log d id)) -> is_delegated e = true -> sealed_by_parent E d id e.
Proof. cbv zeta. intros E cs id e. apply all_sealed. Qed.
Print Assumptions C142_every_delegated_event_is_sealed.

(** Hypotheses met: Bob, whom Alice delegated, with a delegated inception and rotation. *)
Example C142_example :
  bob <> id_default /\ log demo bob <> [] /\ ancestry demo bob [bob; alice] /\ map is_delegated (log_of (log demo bob)) = [true; true].
Proof.
  apply conj; [vm_compute; discriminate|]. apply conj; [vm_compute; discriminate|]. apply conj; [|vm_compute; reflexivity].
  apply delegated_by with alice; [exists b_dip; apply conj; vm_compute; reflexivity|].
  apply self_governed with a_icp; vm_compute; reflexivity.
Qed.
Example C142_example_named : delegators_named demo_calls.
Proof.
  intros se p Hin Hp. assert (alice <> id_default) by (vm_compute; discriminate).
  unfold demo_calls, demo_events in Hin. cbn [map app In] in Hin.
  repeat (destruct Hin as [Hin|Hin]; [first [discriminate Hin | assert (X : named_delegator (sem_msg se) = None \/ named_delegator (sem_msg se) = Some alice)
    by (first [left; replace se with s_icp by congruence; exact eq_refl | left; replace se with s_rot by congruence; exact eq_refl
      | left; replace se with s_ixn by congruence; exact eq_refl | right; replace se with s_dip by congruence; exact eq_refl
      | left; replace se with s_ixn2 by congruence; exact eq_refl | left; replace se with s_drt by congruence; exact eq_refl]);
    destruct X; congruence]|]). contradiction.
Qed.
