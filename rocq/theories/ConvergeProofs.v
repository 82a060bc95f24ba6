(** * ConvergeProofs: nodes that are offered the same events agree (C81); disagreement needs
    two signed events (C82). *)
From Verif Require Import Base Base64 Codes NumFmt Types KeyConf SpecSig State Db Processor Spec SpecProc
  StateProofs LogProofs LogTheorems LogTheorems2 SigProofs ProcProofs ProcProofs2.

Inductive subsequence {A} : list A -> list A -> Prop :=
| sub_nil : subsequence [] []
| sub_skip x l l' : subsequence l l' -> subsequence l (x :: l')
| sub_take x l l' : subsequence l l' -> subsequence (x :: l) (x :: l').

Section WithEnv.
  Context (E : Env).
  Lemma replay_events l1 : forall l2 s, log_of l1 = log_of l2 -> replay_strict E l1 s = replay_strict E l2 s.
  Proof.
    induction l1 as [|a l1 IH]; intros [|b l2] s H; try discriminate H; [reflexivity|].
    cbn [log_of map] in H. assert (sem_msg a = sem_msg b) as Hab by congruence. assert (log_of l1 = log_of l2) as Hl by (unfold log_of; congruence).
    cbn [replay_strict]. rewrite Hab. destruct (apply_msg E (sem_msg b) s); cbn [obind]; auto.
  Qed.
  Lemma good_events id l1 l2 s : log_of l1 = log_of l2 -> good_log E id l1 s -> good_log E id l2 s.
  Proof.
    intros H [H1 H2]. split; [|now rewrite <- (replay_events _ _ _ H)].
    revert l2 H. clear H2. induction H1 as [|a l1 Ha _ IH]; intros [|b l2] H; try discriminate H; [constructor|].
    cbn [log_of map] in H. constructor; [congruence|apply IH; unfold log_of; congruence].
  Qed.
  Lemma stored_log l : log_of (map stored l) = log_of l.
  Proof. unfold log_of. rewrite map_map. reflexivity. Qed.
  Lemma good_state d id s : id <> id_default -> good_log E id (log d id) s -> log d id <> [] -> compute_state E d id = Ok (Some s).
  Proof. intros Hid Hg Hn. unfold log in *. destruct (get_kel d id) as [l|] eqn:Hk; [|now destruct Hn]. eapply compute_state_good; eauto. Qed.

  (** An event accepted in one store is accepted in every store in which its identifier has the
      same events and the other logs are extensions. *)
  Lemma accept_mono d d' se d1 os :
    Inv E d -> Inv E d' -> em_prefix (sem_msg se) <> id_default ->
    log_of (log d' (em_prefix (sem_msg se))) = log_of (log d (em_prefix (sem_msg se))) ->
    (forall i, i <> id_default -> i <> em_prefix (sem_msg se) -> exists ext, log d' i = log d i ++ ext) ->
    (forall dl, named_delegator (sem_msg se) = Some dl -> dl <> id_default) ->
    (forall e0 dl, nth_error (log d (em_prefix (sem_msg se))) 0 = Some e0 -> named_delegator (sem_msg e0) = Some dl -> dl <> id_default) ->
    process_event E d se = (d1, Ok os) ->
    process_event E d' se = (add_kel d' se (em_prefix (sem_msg se)), Ok os).
  Proof.
    set (id := em_prefix (sem_msg se)). intros HI HI' Hid Hl Hx Hdl Hdl0 H.
    destruct (process_event_ok _ _ _ _ _ H) as (s1 & -> & Hcd & Ha & _ & ser & Hser & Hv).
    destruct (apply_to_state_good E _ _ _ HI Hid Ha) as (s0 & Hg & Happ). fold id in Hg.
    change (olist (get_kel d id)) with (log d id) in Hg.
    assert (V : forall es, validate_seal E d es (sem_msg se) = Ok tt -> es_prefix es <> id_default -> validate_seal E d' es (sem_msg se) = Ok tt).
    { intros es Hvs Hne. destruct (IdentifierPrefix_eq_dec (es_prefix es) id) as [Heq|Hneq].
      - (* the identifier delegates to itself: only the events matter *)
        unfold validate_seal in *. rewrite get_event_log in *. rewrite Heq in *.
        assert (F : forall l l', log_of l' = log_of l -> option_map sem_msg (find (fun e => em_sn (sem_msg e) =? es_sn es)%N l')
                     = option_map sem_msg (find (fun e => em_sn (sem_msg e) =? es_sn es)%N l)).
        { clear. induction l as [|a l IH]; intros [|b l'] Q; try discriminate Q; [reflexivity|]. cbn [log_of map] in Q.
          assert (Qa : sem_msg b = sem_msg a) by congruence. cbn [find]. rewrite Qa. destruct (_ =? _)%N; [cbn; now rewrite Qa|].
          apply IH. unfold log_of. congruence. }
        specialize (F _ _ Hl). destruct (find _ (log d id)) as [e|]; [|discriminate]. destruct (find _ (log d' id)) as [e'|]; [|discriminate].
        cbn [option_map] in F. assert (Q : sem_msg e' = sem_msg e) by congruence. rewrite Q. exact Hvs.
      - destruct (Hx _ Hne Hneq) as [ext He]. eapply validate_seal_extends; eauto. }
    eapply c25_step with (l0 := log d' id) (s0 := s0) (ser := ser); auto.
    - eapply good_events; [|exact Hg]. now rewrite Hl.
    - intros Hdg. unfold check_delegation in Hcd. unfold is_delegated in Hdg. unfold named_delegator in Hdl.
      destruct (em_data (sem_msg se)) as [i|r|x|dip|r] eqn:Hdat; try discriminate Hdg.
      + destruct (sem_seal se) as [q|]; [|discriminate Hcd]. cbn [obind ok_or] in Hcd. exists q, (dip_delegator dip).
        split; [reflexivity|]. split; [reflexivity|]. apply V; [exact Hcd|]. cbn. now apply Hdl.
      + assert (Hd : exists dl, st_delegator s0 = Some dl).
        { unfold apply_msg in Happ. rewrite Hdat in Happ. apply obind_ok in Happ. destruct Happ as (x & _ & Ha0).
          apply obind_ok in Ha0. destruct Ha0 as (y & _ & Ha0). destruct (st_delegator s0) as [dl|]; [eauto|discriminate]. }
        destruct Hd as [dl Hd].
        assert (Hne : log d id <> []). { intros Q. rewrite Q in Hg. apply good_log_nil in Hg. subst s0. discriminate Hd. }
        fold id in Hcd. rewrite (good_state _ _ _ Hid Hg Hne) in Hcd. cbn [obind ok_or] in Hcd. rewrite Hd in Hcd. cbn [obind ok_or] in Hcd.
        destruct (sem_seal se) as [q|]; [|discriminate Hcd]. cbn [obind ok_or] in Hcd. exists q, dl. split; [reflexivity|]. split; [exact Hd|]. apply V; [exact Hcd|]. cbn.
        destruct (log d id) as [|e0 l] eqn:Hlog; [congruence|]. destruct (good_deleg E _ _ _ e0 Hid Hg eq_refl) as [Hn _]. apply (Hdl0 e0); [reflexivity|congruence].
  Qed.

  Section Offer.
    Context (d0 : Db) (HI0 : Inv E d0) (id : IdentifierPrefix) (Hid : id <> id_default) (msgs : list SignedEventMessage)
      (H0 : log d0 id = []) (Hpre : Forall (fun se => em_prefix (sem_msg se) = id) msgs)
      (Hdel : forall se dl, In se msgs -> named_delegator (sem_msg se) = Some dl -> dl <> id_default)
      (Hacc : accepts_each E d0 msgs).
    (** where the store would be after the first events *)
    Lemma in_order pre post : msgs = pre ++ post ->
      log (run E d0 (submit pre)) id = map stored pre /\ (forall i, i <> id -> log (run E d0 (submit pre)) i = log d0 i).
    Proof.
      revert post. induction pre as [|x pre IH] using rev_ind; intros post Hm; [now split|]. rewrite <- app_assoc in Hm. cbn in Hm.
      destruct (IH _ Hm) as [A B]. destruct (Hacc _ _ _ Hm) as (d' & s & Hp). cbn [process] in Hp.
      destruct (process_event_ok _ _ _ _ _ Hp) as (_ & _ & _ & _ & Hd' & _).
      assert (Hx : em_prefix (sem_msg x) = id). { rewrite Hm in Hpre. apply Forall_app in Hpre as [_ Q]. now inversion Q. }
      assert (R : run E d0 (submit (pre ++ [x])) = add_kel (run E d0 (submit pre)) x id).
      { unfold submit. rewrite map_app. cbn [map]. rewrite run_snoc. cbn [call process].
        change (map (fun m => CProcess (MEvent m)) pre) with (submit pre). rewrite Hp. cbn [fst]. now rewrite Hd', Hx. }
      rewrite R. split.
      - unfold log. rewrite get_kel_add. destruct (IdentifierPrefix_eq_dec id id); [|congruence]. cbn [olist].
        change (olist (get_kel (run E d0 (submit pre)) id)) with (log (run E d0 (submit pre)) id). now rewrite A, map_app.
      - intros i Hi. unfold log. rewrite get_kel_add. destruct (IdentifierPrefix_eq_dec i id); [congruence|]. now apply B.
    Qed.
    Lemma msgs_good : exists s, good_log E id (map stored msgs) s.
    Proof.
      destruct (in_order msgs [] (eq_sym (app_nil_r _))) as [A _]. pose proof (Inv_run E d0 (submit msgs) HI0) as HI. unfold log in A.
      destruct (get_kel (run E d0 (submit msgs)) id) as [l|] eqn:Hk; cbn in A.
      - destruct (HI _ _ Hid Hk) as [s Hs]. exists s. now rewrite <- A.
      - exists state_default. rewrite <- A. split; [constructor|reflexivity].
    Qed.
    Lemma msgs_sn k se : nth_error msgs k = Some se -> em_sn (sem_msg se) = N.of_nat k.
    Proof.
      intros H. destruct msgs_good as [s Hg]. destruct (good_log_shape _ _ _ _ Hid Hg) as (Hs & _).
      apply (Hs k (stored se)). now rewrite nth_error_map, H.
    Qed.
    (** the store reached in some other way: the events so far are the first [k] *)
    Definition at_step (k : nat) (d : Db) : Prop :=
      Inv E d /\ log_of (log d id) = firstn k (log_of msgs) /\ k <= List.length msgs
      /\ forall i, i <> id_default -> i <> id -> exists ext, log d i = log d0 i ++ ext.
    Lemma step_same k d d' : at_step k d -> Inv E d' -> log_of (log d' id) = log_of (log d id) ->
      (forall i, i <> id_default -> exists ext, log d' i = log d i ++ ext) -> at_step k d'.
    Proof.
      intros (_ & A & B & C) HI Hl Hx. split; [exact HI|]. split; [congruence|]. split; [exact B|].
      intros i Hi Hn. destruct (C i Hi Hn) as [x Hx1]. destruct (Hx i Hi) as [y Hy]. exists (x ++ y). now rewrite Hy, Hx1, app_assoc.
    Qed.
    Lemma log_length k d : at_step k d -> List.length (log d id) = k.
    Proof. intros (_ & A & B & _). rewrite <- (map_length sem_msg). fold (log_of (log d id)). rewrite A, firstn_length. unfold log_of. rewrite map_length. lia. Qed.
    (** the next event is accepted *)
    Lemma step_next k d se : at_step k d -> nth_error msgs k = Some se -> at_step (S k) (call E d (CProcess (MEvent se)))
      /\ exists os, snd (process E d (MEvent se)) = Ok os.
    Proof.
      intros HS Hk. pose proof HS as (HI & A & B & C). apply nth_error_split in Hk as Q. destruct Q as (pre & post & Hm & Hlen).
      destruct (in_order pre (se :: post) Hm) as [Hlog Hoth]. destruct (Hacc _ _ _ Hm) as (d1 & s & Hp). cbn [process] in Hp.
      assert (Hx : em_prefix (sem_msg se) = id). { rewrite Hm in Hpre. apply Forall_app in Hpre as [_ Q]. now inversion Q. }
      assert (F : firstn k (log_of msgs) = log_of pre).
      { rewrite Hm. unfold log_of. rewrite map_app, firstn_app, map_length, Hlen, Nat.sub_diag, <- Hlen, <- (map_length sem_msg pre), firstn_all. apply app_nil_r. }
      assert (G : process_event E d se = (add_kel d se (em_prefix (sem_msg se)), Ok (Some s))).
      { eapply accept_mono with (d := run E d0 (submit pre)); [now apply Inv_run|exact HI|now rewrite Hx| | | | |exact Hp]; rewrite ?Hx.
        - now rewrite Hlog, stored_log, A, F.
        - intros i Hi Hn. rewrite (Hoth i Hn). now apply C.
        - intros dl. apply (Hdel se). rewrite Hm. apply in_or_app. right. now left.
        - intros e0 dl. rewrite Hlog. intros H. destruct pre as [|p0 pre]; [discriminate|]. cbn in H. injection H as <-. apply (Hdel p0). rewrite Hm. now left. }
      cbn [call process]. rewrite G, Hx. cbn [fst snd]. split; [|eauto].
      split. { pose proof (Inv_process_event E d se HI) as Q. rewrite G, Hx in Q. exact Q. }
      split; [|split].
      - unfold log. rewrite get_kel_add. destruct (IdentifierPrefix_eq_dec id id); [|congruence]. cbn [olist].
        change (olist (get_kel d id)) with (log d id). rewrite log_of_app, A. cbn [log_of map stored sem_msg].
        assert (N : nth_error (log_of msgs) k = Some (sem_msg se)) by (unfold log_of; now rewrite nth_error_map, Hk).
        symmetry. now apply firstn_S_nth.
      - apply (nth_error_Some msgs k). congruence.
      - intros i Hi Hn. unfold log. rewrite get_kel_add. destruct (IdentifierPrefix_eq_dec i id); [congruence|]. now apply C.
    Qed.
    (** any other offer of one of the events: refused, or the next event *)
    Lemma step_offer k d se : at_step k d -> em_prefix (sem_msg se) = id -> In (sem_msg se) (log_of msgs) ->
      at_step k (call E d (CProcess (MEvent se))) \/ (at_step (S k) (call E d (CProcess (MEvent se)))).
    Proof.
      intros HS Hp Hin. pose proof HS as (HI & A & B & C). cbn [call process].
      pose proof (Inv_process_event E d se HI) as HI'.
      destruct (event_step E d se HI) as [Hs|(_ & ns & Ha & Hs)].
      - left. apply (step_same k d); auto; [now rewrite Hs|]. intros i Hi. exists []. now rewrite app_nil_r, Hs.
      - right. apply In_nth_error in Hin as [j Hj]. unfold log_of in Hj. rewrite nth_error_map in Hj.
        destruct (nth_error msgs j) as [mj|] eqn:Hmj; [|discriminate]. injection Hj as Hj.
        assert (Hjk : j = k).
        { assert (Hid' : em_prefix (sem_msg se) <> id_default) by now rewrite Hp.
          pose proof (good_log_extend E _ _ _ HI Hid' Ha) as Hg. rewrite Hp in Hg. destruct (good_log_shape _ _ _ _ Hid Hg) as (Hsn & _).
          specialize (Hsn (List.length (log d id)) (stored se)). unfold log in Hsn. rewrite nth_error_app2, Nat.sub_diag in Hsn by lia.
          specialize (Hsn eq_refl). cbn [stored sem_msg] in Hsn. fold (log d id) in Hsn. rewrite (log_length k d HS), <- Hj, (msgs_sn _ _ Hmj) in Hsn. lia. }
        subst j. split; [exact HI'|]. split; [|split].
        + rewrite (Hs id Hid), Hp. destruct (IdentifierPrefix_eq_dec id id); [|congruence]. rewrite log_of_app, A. cbn [log_of map stored sem_msg].
          symmetry. apply firstn_S_nth. unfold log_of. rewrite nth_error_map, Hmj. cbn. now rewrite Hj.
        + apply (nth_error_Some msgs k). congruence.
        + intros i Hi Hn. rewrite (Hs i Hi), Hp. destruct (IdentifierPrefix_eq_dec i id); [congruence|]. rewrite app_nil_r. now apply C.
    Qed.
    Definition offers (cs : list Call) : Prop :=
      forall se, In (CProcess (MEvent se)) cs -> em_prefix (sem_msg se) = id -> In (sem_msg se) (log_of msgs).
    Lemma step_other k d c : at_step k d -> (forall se, c = CProcess (MEvent se) -> em_prefix (sem_msg se) <> id) -> at_step k (call E d c).
    Proof.
      intros HS Hc. pose proof HS as (HI & _). apply (step_same k d); [exact HS|now apply Inv_call| |intros i Hi; now apply call_extends].
      destruct c as [m|]; cbn [call]; [|unfold log, get_kel; now rewrite process_escrow_kel].
      destruct (match m with MEvent _ => true | _ => false end) eqn:Em.
      - destruct m as [se|r|r|r|q]; try discriminate. destruct (c23 E d (MEvent se) id) as [K _]; [cbn; intros Q; apply (Hc se eq_refl); congruence|]. unfold log. now rewrite K.
      - unfold log, get_kel. rewrite process_other_kel; [reflexivity|]. intros se ->. discriminate.
    Qed.
    Lemma step_any k d c : at_step k d -> offers [c] -> at_step k (call E d c) \/ at_step (S k) (call E d c).
    Proof.
      intros HS Ho. destruct c as [m|]; [|left; now apply step_other]. destruct m as [se|r|r|r|q]; try (left; now apply step_other).
      destruct (IdentifierPrefix_eq_dec (em_prefix (sem_msg se)) id) as [Hp|Hp].
      - apply step_offer; auto. apply Ho; [now left|exact Hp].
      - left. apply step_other; [exact HS|]. intros se' Q. now injection Q as <-.
    Qed.
    Lemma offers_cons c cs : offers (c :: cs) -> offers [c] /\ offers cs.
    Proof. intros H. split; intros se Q; apply H; [destruct Q as [->|[]]; now left|now right]. Qed.
    Lemma run_prefix cs : forall k d, at_step k d -> offers cs -> exists k', at_step k' (run E d cs).
    Proof.
      induction cs as [|c cs IH]; intros k d HS Ho; [eauto|]. apply offers_cons in Ho as [Ho1 Ho2]. change (run E d (c :: cs)) with (run E (call E d c) cs).
      destruct (step_any k d c HS Ho1) as [H|H]; eapply IH; eauto.
    Qed.
    Lemma run_whole cs : forall k d, at_step k d -> offers cs ->
      forall pre post, msgs = pre ++ post -> List.length pre <= k -> subsequence (submit post) cs -> at_step (List.length msgs) (run E d cs).
    Proof.
      induction cs as [|c cs IH]; intros k d HS Ho pre post Hm Hlen Hsub.
      - inversion Hsub as [Q| |]. destruct post as [|p post]; [|discriminate Q]. rewrite app_nil_r in Hm. subst pre. pose proof HS as (_ & _ & B & _).
        replace (List.length msgs) with k by lia. exact HS.
      - apply offers_cons in Ho as [Ho1 Ho2]. change (run E d (c :: cs)) with (run E (call E d c) cs).
        inversion Hsub as [|x l l' Hs|x l l' Hs Q]; subst.
        + destruct (step_any k d c HS Ho1) as [H|H]; (eapply IH with (pre := pre) (post := post); [exact H|exact Ho2|exact Hm|lia|exact Hs]).
        + destruct post as [|p post]; [discriminate Q|]. cbn [submit map] in Q. injection Q as Qc Ql.
          assert (Hm' : msgs = (pre ++ [p]) ++ post) by now rewrite <- app_assoc.
          assert (Hs' : subsequence (submit post) cs) by (unfold submit; first [rewrite Ql | rewrite <- Ql]; exact Hs).
          assert (Hl' : List.length (pre ++ [p]) = S (List.length pre)) by (rewrite app_length; cbn; lia).
          destruct (Nat.eq_dec (List.length pre) k) as [Heq|Hneq].
          * assert (Hnk : nth_error msgs k = Some p) by (rewrite Hm, nth_error_app2, Heq, Nat.sub_diag by lia; reflexivity).
            destruct (step_next k d p HS Hnk) as [H _]. first [rewrite Qc in H | rewrite <- Qc in H].
            eapply IH with (pre := pre ++ [p]) (post := post); [exact H|exact Ho2|exact Hm'|lia|exact Hs'].
          * destruct (step_any k d c HS Ho1) as [H|H]; (eapply IH with (pre := pre ++ [p]) (post := post); [exact H|exact Ho2|exact Hm'|lia|exact Hs']).
    Qed.
    Lemma start : at_step 0 d0.
    Proof. split; [exact HI0|]. split; [now rewrite H0|]. split; [lia|]. intros i _ _. exists []. now rewrite app_nil_r. Qed.
    Lemma c81_prefix cs : offers cs -> exists k, log_of (log (run E d0 cs) id) = firstn k (log_of msgs).
    Proof. intros Ho. destruct (run_prefix cs 0 d0 start Ho) as (k & _ & A & _). eauto. Qed.
    Lemma c81_whole cs : msgs <> [] -> offers cs -> subsequence (submit msgs) cs ->
      log_of (log (run E d0 cs) id) = log_of msgs /\ compute_state E (run E d0 cs) id = compute_state E (run E d0 (submit msgs)) id.
    Proof.
      intros Hne Ho Hs. pose proof (run_whole cs 0 d0 start Ho [] msgs eq_refl (le_n 0) Hs) as (HI & A & _).
      assert (L : log_of (log (run E d0 cs) id) = log_of msgs).
      { rewrite A. unfold log_of. rewrite <- (map_length sem_msg). apply firstn_all. }
      split; [exact L|]. destruct msgs_good as [s Hg]. destruct (in_order msgs [] (eq_sym (app_nil_r _))) as [B _].
      rewrite (good_state (run E d0 cs) id s), (good_state (run E d0 (submit msgs)) id s); auto.
      - now rewrite B.
      - rewrite B. destruct msgs; [congruence|discriminate].
      - eapply good_events; [|exact Hg]. now rewrite stored_log.
      - intros Q. rewrite Q in L. destruct msgs; [congruence|discriminate L].
    Qed.
  End Offer.
End WithEnv.
