(** * ProcProofs2: replaying logs elsewhere (C25), receipts (C29-C32), data signatures (C33). *)
From Verif Require Import Base Base64 Codes NumFmt Types KeyConf SpecSig State Db Processor Spec SpecProc
  StateProofs LogProofs LogTheorems LogTheorems2 SigProofs ProcProofs.

Lemma option_dec {A} (o : option A) : {x | o = Some x} + {o = None}.
Proof. destruct o; eauto. Qed.

Section WithEnv.
  Context (E : Env).

  (** One call of [process_event], on the logs. *)
  Lemma event_step d se :
    Inv E d ->
    (forall id, id <> id_default -> log (fst (process_event E d se)) id = log d id)
    \/ (check_delegation E d se = Ok tt /\ exists ns, apply_to_state E d (sem_msg se) = Ok ns
        /\ forall id, id <> id_default ->
             log (fst (process_event E d se)) id
             = log d id ++ (if IdentifierPrefix_eq_dec id (em_prefix (sem_msg se)) then [stored se] else [])).
  Proof.
    intros HI. destruct (process_event_cases E d se) as [(r & -> & _)|(ns & Hd & Ha & H)]; [left; auto|].
    assert (Hadd : forall id, log (add_kel d se (em_prefix (sem_msg se))) id
             = log d id ++ (if IdentifierPrefix_eq_dec id (em_prefix (sem_msg se)) then [stored se] else [])).
    { intros id. unfold log. rewrite get_kel_add. destruct (IdentifierPrefix_eq_dec id _) as [->|]; [reflexivity|].
      now rewrite app_nil_r. }
    destruct H as [(ser & Hs & Hv & ->)|[(r & -> & Hn & _ & He)|(e & ser & _ & -> & _)]].
    - right. split; [exact Hd|]. exists ns. split; [exact Ha|]. intros id _. apply Hadd.
    - right. split; [exact Hd|]. exists ns. split; [exact Ha|]. intros id _. apply Hadd.
    - left. intros id Hid. unfold log, fst. rewrite get_kel_remove, get_kel_add.
      destruct (IdentifierPrefix_eq_dec id (em_prefix (sem_msg se))) as [->|Hne].
      + destruct (IdentifierPrefix_eq_dec _ _); [|congruence]. exact (remove_added E _ _ _ HI Hid Ha).
      + rewrite get_kel_add. destruct (IdentifierPrefix_eq_dec id _); [congruence|reflexivity].
  Qed.

  (** ** The delegation check persists: the delegator's log only grows. *)
  Lemma find_app_some {A} (f : A -> bool) l ext x : find f l = Some x -> find f (l ++ ext) = Some x.
  Proof. induction l as [|y l IH]; cbn; [discriminate|]. destruct (f y); auto. Qed.
  Lemma get_event_log d id sn : get_event_at_sn d id sn = find (fun e => em_sn (sem_msg e) =? sn)%N (log d id).
  Proof. unfold get_event_at_sn, log. destruct (get_kel d id); reflexivity. Qed.
  Lemma validate_seal_extends d d' es m ext :
    log d' (es_prefix es) = log d (es_prefix es) ++ ext ->
    validate_seal E d es m = Ok tt -> validate_seal E d' es m = Ok tt.
  Proof.
    intros Hl. unfold validate_seal. rewrite !get_event_log, Hl.
    destruct (find _ (log d (es_prefix es))) as [e|] eqn:He; [|discriminate].
    now rewrite (find_app_some _ _ _ _ He).
  Qed.
  Definition DelInv (d : Db) : Prop :=
    forall id k e e0 dl, id <> id_default -> nth_error (log d id) k = Some e -> is_delegated (sem_msg e) = true ->
      nth_error (log d id) 0 = Some e0 -> named_delegator (sem_msg e0) = Some dl -> dl <> id_default ->
      exists q, validate_seal E d (mkES dl (src_sn q) (src_digest q)) (sem_msg e) = Ok tt.
  Lemma DelInv_event d se : Inv E d -> DelInv d -> DelInv (fst (process_event E d se)).
  Proof.
    intros HI HD. destruct (event_step d se HI) as [H|(Hd & ns & Ha & H)].
    - intros id k e e0 dl Hid Hk Hdel H0 Hdl Hdd. rewrite H in Hk, H0 by assumption.
      destruct (HD id k e e0 dl Hid Hk Hdel H0 Hdl Hdd) as [q Hq]. exists q.
      eapply validate_seal_extends; [|exact Hq]. cbn. rewrite (H dl Hdd). symmetry. apply app_nil_r.
    - intros id k e e0 dl Hid Hk Hdel H0 Hdl Hdd.
      assert (Hext : exists ext, log (fst (process_event E d se)) dl = log d dl ++ ext) by eauto.
      destruct Hext as [ext Hext].
      assert (Hold : nth_error (log d id) k = Some e -> nth_error (log d id) 0 = Some e0 ->
                exists q, validate_seal E (fst (process_event E d se)) (mkES dl (src_sn q) (src_digest q)) (sem_msg e) = Ok tt).
      { intros H1 H2. destruct (HD id k e e0 dl Hid H1 Hdel H2 Hdl Hdd) as [q Hq]. exists q.
        eapply validate_seal_extends; [|exact Hq]. exact Hext. }
      assert (Hz : log d id <> [] -> nth_error (log d id) 0 = Some e0).
      { intros Hne. rewrite (H id Hid) in H0. destruct (log d id); [congruence|exact H0]. }
      destruct (Nat.lt_ge_cases k (List.length (log d id))) as [Hlt|Hge].
      { apply Hold; [|apply Hz; intros Hn; rewrite Hn in Hlt; cbn in Hlt; lia].
        rewrite (H id Hid), nth_error_app1 in Hk by assumption. exact Hk. }
      rewrite (H id Hid), nth_error_app2 in Hk by assumption.
      destruct (IdentifierPrefix_eq_dec id (em_prefix (sem_msg se))) as [->|Hne]; [|destruct (k - _); discriminate Hk].
      destruct (k - _) as [|j] eqn:Hj; [|destruct j; discriminate Hk]. cbn in Hk. injection Hk as <-. cbn [stored sem_msg] in *.
      destruct (apply_to_state_good E _ _ _ HI Hid Ha) as (sb & Hsb & Hap). fold (log d (em_prefix (sem_msg se))) in Hsb.
      unfold check_delegation in Hd. unfold is_delegated in Hdel.
      destruct (em_data (sem_msg se)) as [i|r|x|dip|r] eqn:Hdat; try discriminate Hdel.
      + assert (Hempty : log d (em_prefix (sem_msg se)) = []).
        { destruct (apply_msg_incept E _ _ _ ltac:(unfold is_inception; now rewrite Hdat) Hap) as (Hpre & _).
          destruct (log d (em_prefix (sem_msg se))) as [|y l] eqn:Hl; [reflexivity|].
          destruct (good_log_shape _ _ _ _ Hid Hsb) as (_ & Hsh & _).
          destruct (rev (y :: l)) eqn:Hr; [now apply rev_nil_inv in Hr|]. destruct Hsh as (Hx & _). congruence. }
        rewrite (H _ Hid), Hempty in H0. destruct (IdentifierPrefix_eq_dec _ _); [|congruence]. cbn in H0. injection H0 as <-.
        unfold named_delegator in Hdl. cbn [stored sem_msg] in Hdl. rewrite Hdat in Hdl. injection Hdl as <-.
        apply obind_ok in Hd. destruct Hd as (q & _ & Hv). exists q. eapply validate_seal_extends; [exact Hext|exact Hv].
      + apply obind_ok in Hd. destruct Hd as (os' & Hos & Hcd). apply obind_ok in Hcd. destruct Hcd as (s' & Hs' & Hcd).
        destruct os' as [s2|]; [|discriminate Hs']. injection Hs' as ->.
        apply obind_ok in Hcd. destruct Hcd as (dl2 & Hdl2 & Hcd). apply obind_ok in Hcd. destruct Hcd as (q & _ & Hv).
        destruct (st_delegator s') as [dl'|] eqn:Hsd; [|discriminate Hdl2]. injection Hdl2 as ->.
        assert (Hs : s' = sb).
        { unfold log in Hsb. destruct (get_kel d (em_prefix (sem_msg se))) as [l|] eqn:Hl.
          - pose proof (compute_state_good E _ _ _ _ Hid Hl Hsb) as Hc. congruence.
          - unfold compute_state in Hos. rewrite Hl in Hos. discriminate. }
        subst s'. assert (Hne : log d (em_prefix (sem_msg se)) <> []).
        { intros Hn. rewrite Hn in Hsb. apply good_log_nil in Hsb. subst sb. discriminate Hsd. }
        destruct (good_deleg E _ _ _ e0 Hid Hsb (Hz Hne)) as [Hx _].
        assert (dl2 = dl) by congruence. subst dl2. exists q. eapply validate_seal_extends; [exact Hext|exact Hv].
  Qed.
  Lemma DelInv_kel d d' : db_kel d' = db_kel d -> DelInv d -> DelInv d'.
  Proof.
    intros H HD id k e e0 dl Hid. assert (Hl : forall i, log d' i = log d i) by (intros i; unfold log, get_kel; now rewrite H).
    rewrite !Hl. intros Hk Hdel H0 Hdl Hdd. destruct (HD id k e e0 dl Hid Hk Hdel H0 Hdl Hdd) as [q Hq]. exists q.
    eapply validate_seal_extends; [|exact Hq]. cbn. rewrite Hl. symmetry. apply app_nil_r.
  Qed.
  Lemma DelInv_reachable cs : DelInv (run E db_empty cs).
  Proof.
    assert (G : forall cs d, Inv E d -> DelInv d -> DelInv (run E d cs)).
    { clear cs. induction cs as [|c cs IH]; intros d HI HD; [exact HD|]. cbn. apply IH; [now apply Inv_call|].
      destruct c as [m|]; cbn.
      - destruct m as [e|r|r|r|q]; [now apply DelInv_event|..];
          (eapply DelInv_kel; [|exact HD]); apply process_other_kel; discriminate.
      - eapply DelInv_kel; [|exact HD]. apply process_escrow_kel. }
    apply G; [apply Inv_empty|]. intros id k e e0 dl _ H. destruct k; discriminate H.
  Qed.

  (** ** C25 *)
  Lemma c25_step d id l0 s0 s1 se ser :
    id <> id_default -> log d id = l0 -> good_log E id l0 s0 -> em_prefix (sem_msg se) = id ->
    apply_msg E (sem_msg se) s0 = Ok s1 -> e_ser_event E (sem_msg se) = Ok ser ->
    kc_verify E (st_current s1) ser (sem_sigs se) = Ok true ->
    (is_delegated (sem_msg se) = true ->
       exists q dl, sem_seal se = Some q
         /\ match em_data (sem_msg se) with Dip x => dl = dip_delegator x | _ => st_delegator s0 = Some dl end
         /\ validate_seal E d (mkES dl (src_sn q) (src_digest q)) (sem_msg se) = Ok tt) ->
    process_event E d se = (add_kel d se id, Ok (Some s1)).
  Proof.
    intros Hid Hl Hg Hp Ha Hs Hv Hdel.
    assert (Hcs : (get_kel d id = None /\ s0 = state_default) \/ compute_state E d id = Ok (Some s0)).
    { unfold log in Hl. destruct (get_kel d id) as [l|] eqn:Hk.
      - right. cbn in Hl. subst l. eapply compute_state_good; eauto.
      - left. cbn in Hl. subst l0. split; [reflexivity|]. now apply good_log_nil in Hg. }
    assert (Hats : apply_to_state E d (sem_msg se) = Ok s1).
    { unfold apply_to_state. rewrite Hp. destruct Hcs as [[Hn ->]|Hc].
      - unfold compute_state. rewrite Hn. exact Ha.
      - rewrite Hc. exact Ha. }
    assert (Hcd : check_delegation E d se = Ok tt).
    { unfold check_delegation. unfold is_delegated in Hdel.
      destruct (em_data (sem_msg se)) as [i|r|x|dip|r] eqn:Hdat; try reflexivity.
      - destruct (Hdel eq_refl) as (q & dl & -> & -> & Hvs). exact Hvs.
      - destruct (Hdel eq_refl) as (q & dl & -> & Hdl & Hvs). rewrite Hp.
        destruct Hcs as [[_ ->]|Hc]; [discriminate Hdl|]. rewrite Hc. cbn [obind ok_or]. rewrite Hdl. exact Hvs. }
    unfold process_event. rewrite Hcd, Hats, Hs. unfold verify_signatures. rewrite Hv, Hp. reflexivity.
  Qed.
  Lemma run_snoc d cs c : run E d (cs ++ [c]) = call E (run E d cs) c.
  Proof. unfold run. now rewrite fold_left_app. Qed.
  Definition submit (msgs : list SignedEventMessage) : list Call := map (fun m => CProcess (MEvent m)) msgs.
  Lemma c25_core cs id l d2 msgs :
    (forall m x, e_ser_event E m <> Err x) -> quiet E db_empty cs = true ->
    id <> id_default -> get_kel (run E db_empty cs) id = Some l ->
    log d2 id = [] -> map stored msgs = l ->
    (forall se e0 dl, In se msgs -> is_delegated (sem_msg se) = true -> nth_error l 0 = Some e0 ->
        named_delegator (sem_msg e0) = Some dl ->
        dl <> id /\ exists q, sem_seal se = Some q
        /\ validate_seal E d2 (mkES dl (src_sn q) (src_digest q)) (sem_msg se) = Ok tt) ->
    forall pre post, msgs = pre ++ post ->
      exists s, replay_strict E (map stored pre) state_default = Ok s
        /\ log (run E d2 (submit pre)) id = map stored pre
        /\ (forall i, i <> id -> get_kel (run E d2 (submit pre)) i = get_kel d2 i)
        /\ (forall se post', post = se :: post' -> exists s',
              apply_msg E (sem_msg se) s = Ok s' /\
              process E (run E d2 (submit pre)) (MEvent se) = (add_kel (run E d2 (submit pre)) se id, Ok (Some s'))).
  Proof.
    intros Hser Hq Hid Hl Hd2 Hmsgs Hdel.
    pose proof (SigInv_reachable E cs Hser Hq) as HS.
    destruct (reach_good E _ _ _ Hid Hl) as (sfin & [Hpre Hrep] & _).
    assert (Hstep : forall pre post s, msgs = pre ++ post -> replay_strict E (map stored pre) state_default = Ok s ->
              log (run E d2 (submit pre)) id = map stored pre ->
              (forall i, i <> id -> get_kel (run E d2 (submit pre)) i = get_kel d2 i) ->
              forall se post', post = se :: post' -> exists s',
              apply_msg E (sem_msg se) s = Ok s' /\
              process E (run E d2 (submit pre)) (MEvent se) = (add_kel (run E d2 (submit pre)) se id, Ok (Some s'))).
    { intros pre post s Hm Hr Hlog Hoth se post' ->.
      assert (Hnth : nth_error l (List.length (map stored pre)) = Some (stored se)).
      { rewrite <- Hmsgs, Hm, map_app, nth_error_app2, Nat.sub_diag by lia. reflexivity. }
      destruct (HS id l _ _ Hid Hl Hnth) as (s1 & ser & Hg1 & Hs1 & Hv1). cbn [stored sem_msg sem_sigs] in Hs1, Hv1.
      assert (Hfirst : firstn (S (List.length (map stored pre))) l = map stored pre ++ [stored se]).
      { rewrite (firstn_S_nth _ _ _ Hnth). f_equal. rewrite <- Hmsgs, Hm, map_app.
        rewrite firstn_app, Nat.sub_diag, firstn_all. apply app_nil_r. }
      rewrite Hfirst in Hg1. apply good_log_snoc in Hg1. destruct Hg1 as (s0 & Hg0 & Hp0 & Ha0).
      assert (s0 = s) by (destruct Hg0 as [_ Hr0]; congruence). subst s0. cbn [stored sem_msg] in Hp0, Ha0.
      exists s1. split; [exact Ha0|]. cbn [process].
      eapply c25_step with (l0 := map stored pre) (s0 := s) (ser := ser);
        [exact Hid|exact Hlog|exact Hg0|exact Hp0|exact Ha0|exact Hs1|exact Hv1|].
      intros Hdg. assert (Hin : In se msgs) by (rewrite Hm; apply in_or_app; right; now left).
      assert (Hl0 : exists e0, nth_error l 0 = Some e0).
      { destruct l as [|e0 l]; [destruct (List.length _) in Hnth; discriminate Hnth|]. exists e0; reflexivity. }
      destruct Hl0 as [e0 He0].
      assert (Hdl : exists dl, named_delegator (sem_msg e0) = Some dl
                 /\ match em_data (sem_msg se) with Dip x => dl = dip_delegator x | _ => st_delegator s = Some dl end).
      { unfold is_delegated in Hdg. destruct (em_data (sem_msg se)) as [i|r|x|dip|r] eqn:Hdat; try discriminate Hdg.
        - exists (dip_delegator dip). split; [|reflexivity].
          destruct (c03_inception E _ _ _ _ _ Hid Hl Hnth) as (Hinc & _). cbn [stored sem_msg] in Hinc.
          assert (Hz : List.length (map stored pre) = 0).
          { apply Hinc. unfold is_inception. now rewrite Hdat. }
          rewrite Hz in Hnth. rewrite Hnth in He0. injection He0 as <-. unfold named_delegator. cbn. now rewrite Hdat.
        - assert (Hrot : exists dl, st_delegator s = Some dl).
          { unfold apply_msg in Ha0. rewrite Hdat in Ha0. apply obind_ok in Ha0. destruct Ha0 as (x & _ & Ha0).
            apply obind_ok in Ha0. destruct Ha0 as (y & _ & Ha0). destruct (st_delegator s) as [dl|]; [eauto|discriminate]. }
          destruct Hrot as [dl Hsd]. exists dl. split; [|exact Hsd].
          assert (Hpn : map stored pre <> []).
          { intros Hn. rewrite Hn in Hg0. apply good_log_nil in Hg0. subst s. discriminate Hsd. }
          assert (He0' : nth_error (map stored pre) 0 = Some e0).
          { rewrite <- Hmsgs, Hm, map_app in He0. destruct (map stored pre); [congruence|exact He0]. }
          destruct (good_deleg E _ _ _ e0 Hid Hg0 He0') as [Hx _]. congruence. }
      destruct Hdl as (dl & Hdl & Hmatch).
      destruct (Hdel se e0 dl Hin Hdg He0 Hdl) as (Hneq & q & Hq1 & Hvs). exists q, dl.
      split; [exact Hq1|]. split; [exact Hmatch|].
      eapply validate_seal_extends with (ext := []); [|exact Hvs]. cbn. unfold log. rewrite Hoth by exact Hneq. symmetry. apply app_nil_r. }
    intros pre. induction pre as [|x pre IH] using rev_ind; intros post Hm.
    - exists state_default. split; [reflexivity|]. split; [exact Hd2|]. split; [reflexivity|].
      eapply Hstep; eauto.
    - rewrite <- app_assoc in Hm. cbn in Hm. destruct (IH _ Hm) as (s & Hr & Hlog & Hoth & Hnext).
      destruct (Hnext x post eq_refl) as (s' & Ha & Hp).
      assert (Hrun : run E d2 (submit (pre ++ [x])) = add_kel (run E d2 (submit pre)) x id).
      { unfold submit. rewrite map_app. cbn [map]. rewrite run_snoc. cbn [call].
        change (map (fun m => CProcess (MEvent m)) pre) with (submit pre). now rewrite Hp. }
      assert (Hr' : replay_strict E (map stored (pre ++ [x])) state_default = Ok s').
      { rewrite map_app, replay_strict_app, Hr. cbn. now rewrite Ha. }
      assert (Hlog' : log (run E d2 (submit (pre ++ [x]))) id = map stored (pre ++ [x])).
      { rewrite Hrun. unfold log. rewrite get_kel_add. destruct (IdentifierPrefix_eq_dec id id); [|congruence].
        cbn [olist]. fold (log (run E d2 (submit pre)) id). now rewrite Hlog, map_app. }
      assert (Hoth' : forall i, i <> id -> get_kel (run E d2 (submit (pre ++ [x]))) i = get_kel d2 i).
      { intros i Hi. rewrite Hrun, get_kel_add. destruct (IdentifierPrefix_eq_dec i id); [congruence|now apply Hoth]. }
      exists s'. split; [exact Hr'|]. split; [exact Hlog'|]. split; [exact Hoth'|].
      eapply Hstep with (pre := pre ++ [x]); eauto. now rewrite <- app_assoc.
  Qed.
  (** consequences, in the form used by the theorems *)
  Definition accepts_each (d : Db) (msgs : list SignedEventMessage) : Prop :=
    forall pre se post, msgs = pre ++ se :: post ->
      exists d' s, process E (run E d (submit pre)) (MEvent se) = (d', Ok (Some s)).
  Lemma c25_finish cs id l d2 msgs :
    (forall m x, e_ser_event E m <> Err x) -> quiet E db_empty cs = true ->
    id <> id_default -> get_kel (run E db_empty cs) id = Some l -> l <> [] ->
    log d2 id = [] -> map stored msgs = l ->
    (forall se e0 dl, In se msgs -> is_delegated (sem_msg se) = true -> nth_error l 0 = Some e0 ->
        named_delegator (sem_msg e0) = Some dl ->
        dl <> id /\ exists q, sem_seal se = Some q
        /\ validate_seal E d2 (mkES dl (src_sn q) (src_digest q)) (sem_msg se) = Ok tt) ->
    accepts_each d2 msgs /\ log (run E d2 (submit msgs)) id = l
    /\ compute_state E (run E d2 (submit msgs)) id = compute_state E (run E db_empty cs) id.
  Proof.
    intros Hser Hq Hid Hl Hne Hd2 Hmsgs Hdel.
    pose proof (c25_core cs id l d2 msgs Hser Hq Hid Hl Hd2 Hmsgs Hdel) as G.
    split.
    - intros pre se post Hm. destruct (G _ _ Hm) as (s & _ & _ & _ & Hnext).
      destruct (Hnext se post eq_refl) as (s' & _ & Hp). eauto.
    - destruct (G msgs [] (eq_sym (app_nil_r _))) as (s & Hr & Hlog & _). rewrite Hmsgs in Hlog, Hr.
      split; [exact Hlog|].
      destruct (reach_good E _ _ _ Hid Hl) as (s2 & [Hf Hg2] & Hc2). rewrite Hc2.
      unfold log in Hlog. destruct (get_kel (run E d2 (submit msgs)) id) as [l2|] eqn:Hl2; [|cbn in Hlog; congruence].
      cbn in Hlog. subst l2. eapply compute_state_good; [exact Hid|exact Hl2|]. now split.
  Qed.
  (** without delegated events: the stored messages themselves *)
  Lemma stored_idem l d id : Inv E d -> get_kel d id = Some l -> forall cs, d = run E db_empty cs -> map stored l = l.
  Proof.
    intros _ Hl cs ->. 
    assert (G : forall cs d, (forall i l, get_kel d i = Some l -> map stored l = l) ->
                forall i l, get_kel (run E d cs) i = Some l -> map stored l = l).
    { clear. induction cs as [|c cs IH]; intros d H; [exact H|]. cbn. apply IH. clear IH.
      assert (Hk : forall d', db_kel d' = db_kel d -> forall i l, get_kel d' i = Some l -> map stored l = l).
      { intros d' Hd i l Hl. unfold get_kel in Hl. rewrite Hd in Hl. now apply (H i). }
      assert (Hadd : forall se i l, get_kel (add_kel d se (em_prefix (sem_msg se))) i = Some l -> map stored l = l).
      { intros se i l. rewrite get_kel_add. destruct (IdentifierPrefix_eq_dec i _) as [->|]; [|apply H].
        intros Hl. injection Hl as <-. rewrite map_app. cbn. f_equal.
        destruct (get_kel d (em_prefix (sem_msg se))) as [l0|] eqn:Hl0; [|reflexivity]. now apply (H _ l0 Hl0). }
      destruct c as [m|]; cbn; [|apply Hk, process_escrow_kel].
      destruct m as [se|r|r|r|q]; cbn; [|apply Hk; apply (process_other_kel E d (MNontransferableRct r)); discriminate
        |apply Hk; apply (process_other_kel E d (MTransferableRct r)); discriminate
        |apply Hk; apply (process_other_kel E d (MKeyStateNotice r)); discriminate|apply H].
      destruct (process_event_cases E d se) as [(r & -> & _)|(ns & _ & _ & Hc)]; [exact H|].
      destruct Hc as [(ser & Hs & Hv & ->)|[(r & -> & _)|(e & ser & _ & -> & _)]]; [apply Hadd|apply Hadd|].
      intros i l. cbn [fst]. rewrite get_kel_remove. destruct (IdentifierPrefix_eq_dec i _) as [->|]; [|apply Hadd].
      destruct (get_kel (add_kel d se (em_prefix (sem_msg se))) (em_prefix (sem_msg se))) as [l0|] eqn:Hl0; [|discriminate].
      cbn. intros Hl. injection Hl as <-. apply Hadd in Hl0. clear -Hl0.
      induction l0 as [|x l0 IH]; [reflexivity|]. cbn [map filter] in *.
      assert (Hx : stored x = x) by congruence. assert (Hr : map stored l0 = l0) by congruence.
      destruct (sem_eqb x se); cbn [negb map]; [now apply IH|]. f_equal; [exact Hx|now apply IH]. }
    eapply G; [|exact Hl]. intros i l0 H. discriminate H.
  Qed.
  Lemma c25_plain cs id l d2 :
    (forall m x, e_ser_event E m <> Err x) -> quiet E db_empty cs = true ->
    id <> id_default -> get_kel (run E db_empty cs) id = Some l -> l <> [] ->
    (forall e, In e l -> is_delegated (sem_msg e) = false) -> log d2 id = [] ->
    accepts_each d2 l /\ log (run E d2 (submit l)) id = l
    /\ compute_state E (run E d2 (submit l)) id = compute_state E (run E db_empty cs) id.
  Proof.
    intros Hser Hq Hid Hl Hne Hnd Hd2. eapply c25_finish; eauto.
    - eapply stored_idem; [apply Inv_reachable|exact Hl|reflexivity].
    - intros se e0 dl Hin Hdg. rewrite (Hnd _ Hin) in Hdg. discriminate.
  Qed.
  (** with delegated events: the stored messages with source seals attached again *)
  Lemma forall_exists_list {A B} (P : A -> B -> Prop) (l : list A) :
    (forall a, In a l -> exists b, P a b) -> exists bs, Forall2 P l bs.
  Proof.
    induction l as [|a l IH]; intros H; [exists []; constructor|].
    destruct (H a (or_introl eq_refl)) as [b Hb]. destruct IH as [bs Hbs]; [intros x Hx; apply H; now right|].
    exists (b :: bs). now constructor.
  Qed.
  Lemma c25_sealed cs id l d2 :
    (forall m x, e_ser_event E m <> Err x) -> quiet E db_empty cs = true ->
    id <> id_default -> get_kel (run E db_empty cs) id = Some l -> l <> [] ->
    (forall e0 dl, nth_error l 0 = Some e0 -> named_delegator (sem_msg e0) = Some dl ->
        dl <> id_default /\ log d2 dl = log (run E db_empty cs) dl) -> log d2 id = [] ->
    exists msgs, map sem_msg msgs = map sem_msg l /\ map sem_sigs msgs = map sem_sigs l
      /\ accepts_each d2 msgs /\ log (run E d2 (submit msgs)) id = l
      /\ compute_state E (run E d2 (submit msgs)) id = compute_state E (run E db_empty cs) id.
  Proof.
    intros Hser Hq Hid Hl Hne Hdls Hd2.
    assert (Hst : map stored l = l) by (eapply stored_idem; [apply Inv_reachable|exact Hl|reflexivity]).
    destruct l as [|e0 l0] eqn:El; [congruence|]. rewrite <- El in *. assert (He0 : nth_error l 0 = Some e0) by now rewrite El.
    assert (Hlog : log (run E db_empty cs) id = l) by (unfold log; now rewrite Hl).
    destruct (forall_exists_list (fun e m => sem_msg m = sem_msg e /\ sem_sigs m = sem_sigs e /\ stored m = e
        /\ (is_delegated (sem_msg m) = true -> forall dl, named_delegator (sem_msg e0) = Some dl ->
              dl <> id /\ exists q, sem_seal m = Some q
              /\ validate_seal E d2 (mkES dl (src_sn q) (src_digest q)) (sem_msg m) = Ok tt)) l) as [msgs Hmsgs].
    { intros e Hin. assert (Hse : stored e = e).
      { rewrite <- Hst in Hin. apply in_map_iff in Hin. destruct Hin as (y & <- & _). reflexivity. }
      destruct (option_dec (named_delegator (sem_msg e0))) as [[dl Hdl]|Hn].
      - destruct (Hdls e0 dl He0 Hdl) as [Hdd Hdlog].
        destruct (is_delegated (sem_msg e)) eqn:Hdg.
        + apply In_nth_error in Hin. destruct Hin as [k Hk].
          destruct (DelInv_reachable cs id k e e0 dl Hid) as [q Hq2]; [now rewrite Hlog|exact Hdg|now rewrite Hlog|exact Hdl|exact Hdd|].
          exists (mkSEM (sem_msg e) (sem_sigs e) (Some q)). split; [reflexivity|]. split; [reflexivity|].
          split; [rewrite <- Hse; reflexivity|]. cbn [sem_msg sem_seal]. intros _ dl' Hdl'.
          assert (dl' = dl) by congruence. subst dl'. split.
          * intros ->. rewrite Hd2, Hlog in Hdlog. congruence.
          * exists q. split; [reflexivity|]. eapply validate_seal_extends with (ext := []); [|exact Hq2].
            cbn. rewrite Hdlog. symmetry. apply app_nil_r.
        + exists e. split; [reflexivity|]. split; [reflexivity|]. split; [exact Hse|]. congruence.
      - exists e. split; [reflexivity|]. split; [reflexivity|]. split; [exact Hse|]. intros _ dl Hdl. congruence. }
    exists msgs.
    assert (H1 : map sem_msg msgs = map sem_msg l) by (clear -Hmsgs; induction Hmsgs as [|? ? ? ? H]; cbn; [reflexivity|]; f_equal; [apply H|exact IHHmsgs]).
    assert (H2 : map sem_sigs msgs = map sem_sigs l) by (clear -Hmsgs; induction Hmsgs as [|? ? ? ? H]; cbn; [reflexivity|]; f_equal; [apply H|exact IHHmsgs]).
    assert (H3 : map stored msgs = l) by (clear -Hmsgs; induction Hmsgs as [|? ? ? ? H]; cbn; [reflexivity|]; f_equal; [apply H|exact IHHmsgs]).
    split; [exact H1|]. split; [exact H2|].
    eapply c25_finish; eauto.
    intros se e0' dl Hin Hdg He0' Hdl. assert (e0' = e0) by congruence. subst e0'.
    assert (Hse : exists e, sem_msg se = sem_msg e /\ sem_sigs se = sem_sigs e /\ stored se = e
        /\ (is_delegated (sem_msg se) = true -> forall dl, named_delegator (sem_msg e0) = Some dl ->
              dl <> id /\ exists q, sem_seal se = Some q
              /\ validate_seal E d2 (mkES dl (src_sn q) (src_digest q)) (sem_msg se) = Ok tt)).
    { clear -Hmsgs Hin. induction Hmsgs as [|? ? ? ? H]; [destruct Hin|]. destruct Hin as [<-|Hin]; [eauto|auto]. }
    destruct Hse as (e & _ & _ & _ & Hx). now apply Hx.
  Qed.
End WithEnv.
