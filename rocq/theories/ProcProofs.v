(** * ProcProofs: what the processor does to the store (C19-C28, C34, C35). *)
From Verif Require Import Base Base64 Codes NumFmt Types KeyConf SpecSig State Db Processor Spec SpecProc
  StateProofs LogProofs LogTheorems LogTheorems2 SigProofs.

Lemma same_but_logs_add d se id : same_but_logs d (add_kel d se id).
Proof. intros i. repeat split. Qed.
Lemma same_but_logs_remove d se id : same_but_logs d (remove_kel d id se).
Proof. intros i. repeat split. Qed.
Lemma same_but_logs_trans a b c : same_but_logs a b -> same_but_logs b c -> same_but_logs a c.
Proof.
  intros H1 H2 i. specialize (H1 i). specialize (H2 i).
  destruct H1 as (A1 & A2 & A3 & A4 & A5 & A6 & A7). destruct H2 as (B1 & B2 & B3 & B4 & B5 & B6 & B7).
  split; [congruence|]. split; [congruence|]. split; [congruence|]. split; [congruence|].
  split; [congruence|]. split; congruence.
Qed.
Lemma same_but_logs_refl d : same_but_logs d d.
Proof. intros i. repeat split. Qed.

Section WithEnv.
  Context (E : Env).

  Lemma process_event_ok d se d' os :
    process_event E d se = (d', Ok os) ->
    exists s, os = Some s /\ check_delegation E d se = Ok tt /\ apply_to_state E d (sem_msg se) = Ok s
      /\ d' = add_kel d se (em_prefix (sem_msg se))
      /\ exists ser, e_ser_event E (sem_msg se) = Ok ser /\ kc_verify E (st_current s) ser (sem_sigs se) = Ok true.
  Proof.
    intros H. destruct (process_event_cases E d se) as [(r & Hr & Hn)|(ns & Hd & Ha & Hc)].
    { rewrite Hr in H. injection H as _ H. exfalso. eapply Hn; eauto. }
    destruct Hc as [(ser & Hs & Hv & Hc)|[(r & Hc & Hn & _)|(e & ser & _ & Hc & _)]];
      rewrite Hc in H; injection H as H1 H2; [|exfalso; eapply Hn; eauto|discriminate H2].
    exists ns. split; [congruence|]. split; [exact Hd|]. split; [exact Ha|]. split; [congruence|]. eauto.
  Qed.

  (** C19 *)
  Lemma c19 cs se d' os :
    let d := run E db_empty cs in let id := em_prefix (sem_msg se) in
    id <> id_default -> process E d (MEvent se) = (d', Ok os) ->
    exists s, os = Some s
      /\ get_kel d' id = Some (log d id ++ [mkSEM (sem_msg se) (sem_sigs se) None])
      /\ (forall i, i <> id -> get_kel d' i = get_kel d i)
      /\ compute_state E d' id = Ok (Some s)
      /\ same_but_logs d d'.
  Proof.
    cbv zeta. intros Hid H. cbn in H. destruct (process_event_ok _ _ _ _ H) as (s & -> & _ & Ha & -> & _).
    exists s. split; [reflexivity|].
    assert (Hk : get_kel (add_kel (run E db_empty cs) se (em_prefix (sem_msg se))) (em_prefix (sem_msg se))
                 = Some (log (run E db_empty cs) (em_prefix (sem_msg se)) ++ [stored se])).
    { rewrite get_kel_add. destruct (IdentifierPrefix_eq_dec _ _); [reflexivity|congruence]. }
    split; [exact Hk|]. split.
    { intros i Hi. rewrite get_kel_add. destruct (IdentifierPrefix_eq_dec i _); [congruence|reflexivity]. }
    split; [|apply same_but_logs_add].
    eapply compute_state_good; [exact Hid|exact Hk|]. apply good_log_extend; auto. apply Inv_reachable.
  Qed.

  (** C20 *)
  Lemma reject_log d se d' e :
    Inv E d -> em_prefix (sem_msg se) <> id_default ->
    (forall x, e_ser_event E (sem_msg se) <> Err x) ->
    process_event E d se = (d', Err e) ->
    same_but_logs d d'
    /\ (forall i, i <> em_prefix (sem_msg se) -> get_kel d' i = get_kel d i)
    /\ (get_kel d' (em_prefix (sem_msg se)) = get_kel d (em_prefix (sem_msg se))
        \/ (get_kel d (em_prefix (sem_msg se)) = None /\ get_kel d' (em_prefix (sem_msg se)) = Some []
            /\ is_inception (sem_msg se) = true)).
  Proof.
    intros HI Hid Hser H.
    destruct (process_event_cases E d se) as [(r & Hr & Hn)|(ns & Hd & Ha & Hc)].
    { rewrite Hr in H. injection H as <- H. split; [apply same_but_logs_refl|]. auto. }
    destruct Hc as [(ser & Hs & Hv & Hc)|[(r & Hc & Hn & _ & He)|(e' & ser & _ & Hc & _)]];
      rewrite Hc in H; injection H as H1 H2; [discriminate H2|subst r; exfalso; eapply Hser; eauto|].
    subst d' e'. split.
    { eapply same_but_logs_trans; [apply same_but_logs_add|apply same_but_logs_remove]. }
    split.
    { intros i Hi. rewrite get_kel_remove.
      destruct (IdentifierPrefix_eq_dec i _); [congruence|]. rewrite get_kel_add.
      destruct (IdentifierPrefix_eq_dec i _); [congruence|reflexivity]. }
    rewrite get_kel_remove, get_kel_add. destruct (IdentifierPrefix_eq_dec _ _); [|congruence].
    cbn [option_map]. rewrite (remove_added E _ _ _ HI Hid Ha).
    destruct (get_kel d (em_prefix (sem_msg se))) as [l|] eqn:Hk; [auto|]. right. cbn. repeat split.
    destruct (apply_to_state_good E _ _ _ HI Hid Ha) as (s & Hs & Hap). rewrite Hk in Hs.
    apply good_log_nil in Hs. subst s.
    destruct (is_inception (sem_msg se)) eqn:Hi; [reflexivity|].
    destruct (apply_msg_next _ _ _ _ Hi Hap) as (Hp & _). cbn in Hp. congruence.
  Qed.
  Lemma compute_state_ext d d' id : get_kel d' id = get_kel d id -> compute_state E d' id = compute_state E d id.
  Proof. unfold compute_state. now intros ->. Qed.
  Lemma c20 cs se d' e :
    let d := run E db_empty cs in let id := em_prefix (sem_msg se) in
    id <> id_default -> (forall x, e_ser_event E (sem_msg se) <> Err x) ->
    process E d (MEvent se) = (d', Err e) ->
    same_but_logs d d' /\ (forall i, log d' i = log d i)
    /\ (forall i, i <> id \/ get_kel d id <> None \/ is_inception (sem_msg se) = false ->
          get_kel d' i = get_kel d i /\ compute_state E d' i = compute_state E d i).
  Proof.
    cbv zeta. intros Hid Hser H. cbn in H.
    destruct (reject_log _ _ _ _ (Inv_reachable E cs) Hid Hser H) as (H1 & H2 & H3).
    split; [exact H1|]. split.
    - intros i. unfold log. destruct (IdentifierPrefix_eq_dec i (em_prefix (sem_msg se))) as [->|Hi].
      + destruct H3 as [->|(-> & -> & _)]; reflexivity.
      + now rewrite H2.
    - intros i Hi.
      assert (Hg : get_kel d' i = get_kel (run E db_empty cs) i).
      { destruct (IdentifierPrefix_eq_dec i (em_prefix (sem_msg se))) as [->|Hne]; [|now apply H2].
        destruct H3 as [H3|(H3 & _ & H4)]; [exact H3|]. destruct Hi as [Hi|[Hi|Hi]]; congruence. }
      split; [exact Hg|]. now apply compute_state_ext.
  Qed.

  (** C21 *)
  Definition SigInv (d : Db) : Prop :=
    forall id l k e, id <> id_default -> get_kel d id = Some l -> nth_error l k = Some e ->
      exists s ser, good_log E id (firstn (S k) l) s /\ e_ser_event E (sem_msg e) = Ok ser
        /\ kc_verify E (st_current s) ser (sem_sigs e) = Ok true.
  Lemma SigInv_kel d d' : db_kel d' = db_kel d -> SigInv d -> SigInv d'.
  Proof. intros H HI id l k e Hid Hl. unfold get_kel in Hl. rewrite H in Hl. now apply HI. Qed.
  Lemma SigInv_event d se :
    Inv E d -> SigInv d -> (forall m x, e_ser_event E m <> Err x) ->
    is_panic (snd (process_event E d se)) = false -> SigInv (fst (process_event E d se)).
  Proof.
    intros HI HS Hser Hp.
    destruct (process_event_cases E d se) as [(r & -> & _)|(ns & _ & Ha & H)]; [exact HS|].
    destruct H as [(ser & Hs & Hv & ->)|[(r & Hr & Hn & _ & He)|(e & ser & _ & Hr & _)]].
    - cbn. intros id l k e Hid Hl Hk. rewrite get_kel_add in Hl.
      destruct (IdentifierPrefix_eq_dec id (em_prefix (sem_msg se))) as [->|Hne]; [|now apply HS with (id := id)].
      injection Hl as <-.
      destruct (Nat.lt_ge_cases k (List.length (olist (get_kel d (em_prefix (sem_msg se)))))) as [Hlt|Hge].
      + rewrite nth_error_app1 in Hk by assumption.
        destruct (get_kel d (em_prefix (sem_msg se))) as [l0|] eqn:Hl0; [|cbn in Hlt; lia].
        destruct (HS _ _ _ _ Hid Hl0 Hk) as (s & ser' & H1 & H2 & H3). exists s, ser'.
        rewrite firstn_app. cbn [olist] in *. replace (S k - List.length l0) with 0 by lia. cbn. rewrite app_nil_r. auto.
      + rewrite nth_error_app2 in Hk by assumption.
        destruct (k - _) as [|j] eqn:Hj; [|destruct j; discriminate Hk]. cbn in Hk. injection Hk as <-.
        exists ns, ser. split; [|auto].
        rewrite firstn_all2 by (rewrite app_length; cbn; lia). now apply good_log_extend.
    - rewrite Hr in Hp. cbn in Hp. destruct r as [o|x|]; [exfalso; eapply Hn; eauto|exfalso; eapply Hser; eauto|discriminate].
    - rewrite Hr. cbn. intros id l k x Hid Hl Hk. rewrite get_kel_remove in Hl.
      destruct (IdentifierPrefix_eq_dec id (em_prefix (sem_msg se))) as [->|Hne].
      + rewrite get_kel_add in Hl. destruct (IdentifierPrefix_eq_dec _ _); [|congruence]. cbn [option_map] in Hl.
        rewrite (remove_added E _ _ _ HI Hid Ha) in Hl. injection Hl as <-.
        destruct (get_kel d (em_prefix (sem_msg se))) as [l0|] eqn:Hl0; [|destruct k; discriminate Hk].
        now apply HS with (id := em_prefix (sem_msg se)).
      + rewrite get_kel_add in Hl. destruct (IdentifierPrefix_eq_dec id _); [congruence|]. now apply HS with (id := id).
  Qed.
  Lemma SigInv_call d c :
    Inv E d -> SigInv d -> (forall m x, e_ser_event E m <> Err x) ->
    panics E d c = false -> SigInv (call E d c).
  Proof.
    intros HI HS Hser Hp. destruct c as [m|]; cbn in *.
    - destruct m as [e|r|r|r|q]; [now apply SigInv_event|..];
        (eapply SigInv_kel; [|exact HS]); apply process_other_kel; discriminate.
    - eapply SigInv_kel; [|exact HS]. apply process_escrow_kel.
  Qed.
  Lemma SigInv_run cs d :
    Inv E d -> SigInv d -> (forall m x, e_ser_event E m <> Err x) -> quiet E d cs = true -> SigInv (run E d cs).
  Proof.
    revert d; induction cs as [|c cs IH]; intros d HI HS Hser Hq; [exact HS|]. cbn in *.
    apply andb_true_iff in Hq. destruct Hq as [Hp Hq]. apply negb_true_iff in Hp.
    apply IH; auto; [now apply Inv_call|now apply SigInv_call].
  Qed.
  Lemma SigInv_reachable cs :
    (forall m x, e_ser_event E m <> Err x) -> quiet E db_empty cs = true -> SigInv (run E db_empty cs).
  Proof.
    intros Hser Hq. apply SigInv_run; auto; [apply Inv_empty|].
    intros id l k e _ H. discriminate H.
  Qed.
  Lemma c21 cs id l k e :
    (forall m x, e_ser_event E m <> Err x) -> quiet E db_empty cs = true ->
    id <> id_default -> get_kel (run E db_empty cs) id = Some l -> nth_error l k = Some e ->
    exists e0 kc ser,
      last_establishment (log_of (firstn (S k) l)) = Some e0 /\ est_keys e0 = Some kc
      /\ e_ser_event E (sem_msg e) = Ok ser
      /\ enough_signatures (kc_threshold kc) (sem_sigs e) = Ok true
      /\ (rational_threshold (kc_threshold kc) -> satisfies E kc ser (sem_sigs e)).
  Proof.
    intros Hser Hq Hid Hl Hk.
    destruct (SigInv_reachable cs Hser Hq _ _ _ _ Hid Hl Hk) as (s & ser & Hg & Hs & Hv).
    destruct (good_keys E _ _ _ Hid Hg) as (e0 & H1 & H2).
    { rewrite (firstn_S_nth _ _ _ Hk). destruct (firstn k l); discriminate. }
    exists e0, (st_current s), ser. split; [exact H1|]. split; [exact H2|]. split; [exact Hs|].
    split; [now apply verify_ok_parts in Hv|]. intros Hr. now apply verify_sound.
  Qed.
  Lemma c21_replay cs id l :
    id <> id_default -> get_kel (run E db_empty cs) id = Some l ->
    exists s, replay_strict E l state_default = Ok s /\ compute_state E (run E db_empty cs) id = Ok (Some s).
  Proof.
    intros Hid Hl. destruct (reach_good E _ _ _ Hid Hl) as (s & [_ Hg] & Hc). eauto.
  Qed.

  (** C22 *)
  Lemma event_extends d se id :
    Inv E d -> id <> id_default -> exists ext, log (fst (process_event E d se)) id = log d id ++ ext.
  Proof.
    intros HI Hid. unfold log.
    destruct (process_event_cases E d se) as [(r & -> & _)|(ns & _ & Ha & H)]; [exists []; now rewrite app_nil_r|].
    assert (Hadd : exists ext, olist (get_kel (add_kel d se (em_prefix (sem_msg se))) id) = olist (get_kel d id) ++ ext).
    { rewrite get_kel_add. destruct (IdentifierPrefix_eq_dec id _) as [->|]; [eexists; reflexivity|].
      exists []. now rewrite app_nil_r. }
    destruct H as [(ser & Hs & Hv & ->)|[(r & -> & Hn & _ & He)|(e & ser & _ & -> & _)]]; [exact Hadd|exact Hadd|].
    cbn [fst]. exists []. rewrite app_nil_r. rewrite get_kel_remove.
    destruct (IdentifierPrefix_eq_dec id (em_prefix (sem_msg se))) as [->|Hne].
    - rewrite get_kel_add. destruct (IdentifierPrefix_eq_dec _ _); [|congruence]. cbn [option_map olist].
      exact (remove_added E _ _ _ HI Hid Ha).
    - rewrite get_kel_add. destruct (IdentifierPrefix_eq_dec id _); [congruence|reflexivity].
  Qed.
  Lemma call_extends d c id :
    Inv E d -> id <> id_default -> exists ext, log (call E d c) id = log d id ++ ext.
  Proof.
    intros HI Hid.
    assert (Hk : forall d', db_kel d' = db_kel d -> exists ext, log d' id = log d id ++ ext).
    { intros d' H. exists []. unfold log, get_kel. now rewrite H, app_nil_r. }
    destruct c as [m|]; cbn; [|apply Hk, process_escrow_kel].
    destruct m as [e|r|r|r|q]; [now apply event_extends|..]; apply Hk; apply process_other_kel; discriminate.
  Qed.
  Lemma run_extends cs d id :
    Inv E d -> id <> id_default -> exists ext, log (run E d cs) id = log d id ++ ext.
  Proof.
    revert d; induction cs as [|c cs IH]; intros d HI Hid; [exists []; now rewrite app_nil_r|].
    cbn. destruct (IH _ (Inv_call E _ c HI) Hid) as [x Hx]. destruct (call_extends d c id HI Hid) as [y Hy].
    exists (y ++ x). unfold run in Hx. now rewrite Hx, Hy, app_assoc.
  Qed.
  Lemma run_app d cs1 cs2 : run E d (cs1 ++ cs2) = run E (run E d cs1) cs2.
  Proof. apply fold_left_app. Qed.
  Lemma c22_append cs cs' id :
    id <> id_default ->
    exists ext, log (run E db_empty (cs ++ cs')) id = log (run E db_empty cs) id ++ ext.
  Proof. intros Hid. rewrite run_app. apply run_extends; [apply Inv_reachable|exact Hid]. Qed.
  Lemma c22_first_seen cs cs' id e e' :
    id <> id_default ->
    In e (log (run E db_empty cs) id) -> In e' (log (run E db_empty (cs ++ cs')) id) ->
    em_sn (sem_msg e) = em_sn (sem_msg e') -> e = e'.
  Proof.
    intros Hid He He' Hsn. destruct (c22_append cs cs' id Hid) as [ext Hx].
    assert (Hin : In e (log (run E db_empty (cs ++ cs')) id)) by (rewrite Hx; apply in_or_app; auto).
    unfold log in *. destruct (get_kel (run E db_empty (cs ++ cs')) id) as [l|] eqn:Hl; [|destruct He'].
    cbn in Hin, He'. apply In_nth_error in Hin, He'. destruct Hin as [i Hi], He' as [j Hj].
    pose proof (c01_sns E _ _ _ _ _ Hid Hl Hi). pose proof (c01_sns E _ _ _ _ _ Hid Hl Hj).
    assert (i = j) by lia. congruence.
  Qed.

  (** C23 *)
  Lemma same_for_refl id d : same_for id d d.
  Proof. repeat split. Qed.
  Lemma tpush_other {T} (t : table T) id x i : i <> id -> tget (tpush t id x) i = tget t i.
  Proof. intros H. rewrite tget_tpush. destruct (IdentifierPrefix_eq_dec i id); congruence. Qed.
  Lemma tput_other {T} (t : table T) id x i : i <> id -> tget (tput t id x) i = tget t i.
  Proof. intros H. rewrite tget_tput. destruct (IdentifierPrefix_eq_dec i id); congruence. Qed.
  Lemma tremove_other {T} eqb (t : table T) id x i : i <> id -> tget (tremove eqb t id x) i = tget t i.
  Proof. intros H. rewrite tget_tremove. destruct (IdentifierPrefix_eq_dec i id); congruence. Qed.

  Lemma reply_isolated d r id : id <> sr_prefix r -> same_for id d (fst (process_signed_reply E d r)).
  Proof.
    intros Hne. unfold process_signed_reply.
    destruct (rp_route _); try apply same_for_refl.
    destruct (IdentifierPrefix_eq_dec _ _); [|apply same_for_refl].
    destruct (e_ser_reply _ _); try apply same_for_refl.
    assert (Hesc : same_for id d (escrow_reply d r)).
    { repeat split. unfold escrow_reply, get_escrowed_replys, add_escrowed_reply. cbn. now apply tpush_other. }
    assert (Hup : same_for id d (update_accepted_reply d r (sr_prefix r))).
    { unfold update_accepted_reply. destruct (tget _ _); repeat split; unfold get_accepted_replys; cbn;
        [now apply tput_other|now apply tpush_other]. }
    destruct (proc_verify _ _ _ _) as [|[]|]; try apply same_for_refl; try exact Hesc.
    destruct (obind _ _); try apply same_for_refl.
    destruct (check_ksn _ _ _ _) as [|[]|]; try apply same_for_refl; [exact Hup|].
    destruct q; try apply same_for_refl. exact Hesc.
  Qed.
  Lemma c23 d m id :
    subject m <> Some id -> same_for id d (fst (process E d m)).
  Proof.
    intros Hs. destruct m as [se|r|r|r|q]; cbn in *.
    - assert (Hne : id <> em_prefix (sem_msg se)) by congruence.
      assert (Hadd : same_for id d (add_kel d se (em_prefix (sem_msg se)))).
      { repeat split. unfold get_kel, add_kel; cbn. now apply tpush_other. }
      destruct (process_event_cases E d se) as [(x & -> & _)|(ns & _ & _ & H)]; [apply same_for_refl|].
      destruct H as [(ser & Hs' & Hv & ->)|[(x & -> & Hn & _ & He)|(e & ser & _ & -> & _)]]; [exact Hadd|exact Hadd|].
      unfold fst. split; [|repeat split]. rewrite get_kel_remove. destruct (IdentifierPrefix_eq_dec id _); [congruence|]. apply Hadd.
    - assert (Hne : id <> rct_prefix (nr_body r)) by congruence. unfold process_witness_receipt.
      destruct (get_event_at_sn _ _ _).
      + destruct (e_ser_signed E s); try apply same_for_refl. destruct (rev _); [|apply same_for_refl].
        repeat split. unfold get_receipts_nt, add_receipt_nt; cbn. now apply tpush_other.
      + repeat split. unfold get_escrow_nt, add_escrow_nt; cbn. now apply tpush_other.
    - assert (Hne : id <> rct_prefix (tr_body r)) by congruence. unfold process_validator_receipt.
      destruct (get_event_at_sn _ _ _).
      + destruct (obind _ _) as [[|]| |]; try apply same_for_refl.
        repeat split. unfold get_receipts_t, add_receipt_t; cbn. now apply tpush_other.
      + repeat split. unfold get_escrow_t, add_escrow_t; cbn. now apply tpush_other.
    - apply reply_isolated. congruence.
    - apply same_for_refl.
  Qed.
  Lemma c23_state d m id :
    subject m <> Some id -> compute_state E (fst (process E d m)) id = compute_state E d id.
  Proof. intros H. apply compute_state_ext. now apply c23. Qed.

  (** C24 *)
  Lemma reach_state cs id l :
    id <> id_default -> get_kel (run E db_empty cs) id = Some l -> l <> [] ->
    exists s, compute_state E (run E db_empty cs) id = Ok (Some s) /\ st_prefix s = id
      /\ (st_sn s + 1)%N = N.of_nat (List.length l).
  Proof.
    intros Hid Hl Hne. destruct (reach_good E _ _ _ Hid Hl) as (s & Hg & Hc). exists s. split; [exact Hc|].
    split; [eapply c03_prefix; eauto|eapply c01_state; eauto].
  Qed.
  Lemma c24_refused cs se :
    let d := run E db_empty cs in let id := em_prefix (sem_msg se) in
    id <> id_default -> em_sn (sem_msg se) <> N.of_nat (List.length (log d id)) ->
    fst (process E d (MEvent se)) = d /\ forall os, snd (process E d (MEvent se)) <> Ok os.
  Proof.
    cbv zeta. intros Hid Hsn. cbn.
    destruct (process_event_cases E (run E db_empty cs) se) as [(r & -> & Hn)|(ns & _ & Ha & _)]; [auto|].
    exfalso. apply Hsn.
    pose proof (good_log_extend E _ _ _ (Inv_reachable E cs) Hid Ha) as Hg.
    destruct (good_log_shape _ _ _ _ Hid Hg) as (Hs & _).
    specialize (Hs (List.length (log (run E db_empty cs) (em_prefix (sem_msg se)))) (stored se)).
    unfold log in *. rewrite nth_error_app2, Nat.sub_diag in Hs by lia. specialize (Hs eq_refl). cbn in Hs. lia.
  Qed.
  Lemma apply_event_sn m s :
    is_inception m = false -> em_prefix m = st_prefix s ->
    ((em_sn m < st_sn s + 1)%N -> apply_event E m s = Err EDuplicate)
    /\ ((st_sn s + 1 < em_sn m)%N -> apply_event E m s = Err EOutOfOrder).
  Proof.
    intros Hi Hp. unfold is_inception in Hi. unfold apply_event.
    destruct (em_data m); try discriminate Hi; (destruct (IdentifierPrefix_eq_dec _ _); [|congruence]);
      (split; intros H; [apply N.ltb_lt in H; now rewrite H|]);
      (destruct (N.ltb_spec (em_sn m) (st_sn s + 1)); [lia|]); apply N.ltb_lt in H; now rewrite H.
  Qed.
  Lemma c24_error cs se l :
    let d := run E db_empty cs in let m := sem_msg se in let id := em_prefix m in
    id <> id_default -> get_kel d id = Some l -> l <> [] ->
    (match em_data m with
     | Ixn _ => True
     | Rot _ => forall e, nth_error l 0 = Some e -> named_delegator (sem_msg e) = None
     | _ => False end) ->
    ((N.of_nat (List.length l) < em_sn m)%N -> process E d (MEvent se) = (d, Err EOutOfOrder))
    /\ ((em_sn m < N.of_nat (List.length l))%N -> process E d (MEvent se) = (d, Err EDuplicate)).
  Proof.
    cbv zeta. intros Hid Hl Hne Hk. destruct (reach_state _ _ _ Hid Hl Hne) as (s & Hs & Hp & Hsn).
    assert (Hi : is_inception (sem_msg se) = false) by (unfold is_inception; destruct (em_data (sem_msg se)); tauto).
    destruct (apply_event_sn (sem_msg se) s Hi (eq_sym Hp)) as [H1 H2].
    assert (Hdeleg : match em_data (sem_msg se) with Rot _ => st_delegator s = None | _ => True end).
    { destruct (em_data (sem_msg se)) eqn:Hd; auto. destruct l as [|e0 l0]; [congruence|].
      destruct (c05 E _ _ _ e0 s Hid Hl eq_refl Hs) as [-> _]. now apply Hk. }
    assert (Hpe : forall er, apply_event E (sem_msg se) s = Err er ->
              process_event E (run E db_empty cs) se = (run E db_empty cs, Err er)).
    { intros er Her. unfold process_event, check_delegation, apply_to_state. rewrite Hs. cbn [obind].
      unfold apply_msg. rewrite check_event_digest_vacuous, Her.
      destruct (em_data (sem_msg se)) eqn:Hd; try contradiction; cbn [obind]; [rewrite Hdeleg|]; reflexivity. }
    cbn [process]. split; intros H; apply Hpe; [apply H2|apply H1]; lia.
  Qed.

  (** C26 *)
  Lemma filter_sns l n :
    sns_from 0 l -> filter (fun e => em_sn (sem_msg e) <=? n)%N l = firstn (S (N.to_nat n)) l.
  Proof.
    assert (G : forall l b, sns_from b l -> (b <= n + 1)%N ->
             filter (fun e => em_sn (sem_msg e) <=? n)%N l = firstn (N.to_nat (n + 1 - b)) l).
    { induction l0 as [|e l0 IH]; intros b Hs Hb; [now rewrite firstn_nil|].
      apply sns_from_cons in Hs. destruct Hs as [He Hs]. cbn [filter]. rewrite He.
      destruct (N.leb_spec b n) as [Hle|Hgt].
      - replace (N.to_nat (n + 1 - b)) with (S (N.to_nat (n + 1 - (b + 1)))) by lia. cbn [firstn].
        f_equal. apply IH; [exact Hs|lia].
      - replace (N.to_nat (n + 1 - b)) with 0 by lia. cbn [firstn].
        assert (Hall : Forall (fun x => (n < em_sn (sem_msg x))%N) l0).
        { apply sns_from_Forall in Hs. eapply Forall_impl; [|exact Hs]. cbn. intros; lia. }
        clear -Hall. induction Hall as [|x l0 Hx _ IHl]; [reflexivity|]. cbn.
        destruct (N.leb_spec (em_sn (sem_msg x)) n); [lia|exact IHl]. }
    intros Hs. rewrite (G l 0%N Hs) by lia. f_equal. lia.
  Qed.
  Lemma c26 cs id l n :
    id <> id_default -> get_kel (run E db_empty cs) id = Some l ->
    exists s, compute_state_at_sn E (run E db_empty cs) id n = Ok (Some s)
      /\ replay_strict E (firstn (S (N.to_nat n)) l) state_default = Ok s.
  Proof.
    intros Hid Hl. destruct (reach_good E _ _ _ Hid Hl) as (s & Hg & Hc).
    destruct (good_log_shape _ _ _ _ Hid Hg) as (Hs & _).
    destruct (good_log_prefix E id (firstn (S (N.to_nat n)) l) (skipn (S (N.to_nat n)) l) s) as [s1 [_ H1]].
    { now rewrite firstn_skipn. }
    exists s1. split; [|exact H1]. unfold compute_state_at_sn. rewrite Hl, (sort_sns _ _ Hs), (filter_sns _ _ Hs), H1.
    reflexivity.
  Qed.
  Lemma c26_last cs id l n :
    id <> id_default -> get_kel (run E db_empty cs) id = Some l ->
    (N.of_nat (List.length l) <= n + 1)%N ->
    compute_state_at_sn E (run E db_empty cs) id n = compute_state E (run E db_empty cs) id.
  Proof.
    intros Hid Hl Hn. destruct (c26 _ _ _ n Hid Hl) as (s & -> & Hr).
    destruct (reach_good E _ _ _ Hid Hl) as (s' & [_ Hg] & ->).
    rewrite firstn_all2 in Hr by lia. congruence.
  Qed.
  (** the state at sn n was the current state when the n-th event had just been accepted *)
  Lemma c26_history cs cs' id l n :
    id <> id_default -> get_kel (run E db_empty cs) id = Some l -> List.length l = S (N.to_nat n) ->
    compute_state_at_sn E (run E db_empty (cs ++ cs')) id n = compute_state E (run E db_empty cs) id.
  Proof.
    intros Hid Hl Hn. destruct (c22_append cs cs' id Hid) as [ext Hx]. unfold log in Hx. rewrite Hl in Hx. cbn in Hx.
    destruct (get_kel (run E db_empty (cs ++ cs')) id) as [l2|] eqn:Hl2;
      [|destruct l; cbn in *; [lia|discriminate Hx]].
    cbn in Hx. subst l2. destruct (c26 _ _ _ n Hid Hl2) as (s & -> & Hr).
    destruct (reach_good E _ _ _ Hid Hl) as (s' & [_ Hg] & ->).
    rewrite firstn_app, Hn, Nat.sub_diag, firstn_all2 in Hr by lia. cbn in Hr. rewrite app_nil_r in Hr. congruence.
  Qed.

  (** C27 *)
  Lemma check_digest_spec m g : check_digest E m g = Ok true -> digest_of_event E m g.
  Proof.
    unfold check_digest, digest_of_event. destruct (SelfAddressing_eq_dec _ _) as [He|Hne].
    - destruct (SAP_eq_dec _ _); [auto|discriminate].
    - intros H. apply obind_ok in H. destruct H as (data & Hd & H).
      unfold verify_binding in H. destruct (digest_aborts (sap_code g)) eqn:Hab; [discriminate H|]. injection H as H.
      apply aborts_computable in Hab. apply bytes_eqb_eq in H. right. split; [exact Hne|]. split; [exact Hab|]. eauto.
  Qed.
  Lemma any_anchor_spec m data :
    any_anchor E m data = Ok true -> exists es, In (SealEvent es) data /\ digest_of_event E m (es_digest es).
  Proof.
    induction data as [|s data IH]; cbn; [discriminate|]. destruct s as [l|es|g|g].
    - intros H. apply IH in H. destruct H as (es & H1 & H2). eauto.
    - destruct (check_digest E m (es_digest es)) as [[|]| |] eqn:Hc; try discriminate.
      + intros _. exists es. split; [auto|]. now apply check_digest_spec.
      + intros H. apply IH in H. destruct H as (es' & H1 & H2). eauto.
    - intros H. apply IH in H. destruct H as (es & H1 & H2). eauto.
    - intros H. apply IH in H. destruct H as (es & H1 & H2). eauto.
  Qed.
  Lemma get_event_spec d id sn e : get_event_at_sn d id sn = Some e -> In e (log d id) /\ em_sn (sem_msg e) = sn.
  Proof.
    unfold get_event_at_sn, log. destruct (get_kel d id) as [l|]; [|discriminate]. intros H.
    apply find_some in H. destruct H as [H1 H2]. apply N.eqb_eq in H2. auto.
  Qed.
  Lemma validate_seal_spec d es m :
    validate_seal E d es m = Ok tt ->
    exists e data s, In e (log d (es_prefix es)) /\ em_sn (sem_msg e) = es_sn es
      /\ anchor_data (sem_msg e) = Some data /\ In (SealEvent s) data /\ digest_of_event E m (es_digest s).
  Proof.
    unfold validate_seal. destruct (get_event_at_sn d (es_prefix es) (es_sn es)) as [e|] eqn:He; [|discriminate].
    intros H. apply obind_ok in H. destruct H as (data & Hd & H). apply obind_ok in H. destruct H as (b & Hb & H).
    destruct b; [|discriminate H]. destruct (any_anchor_spec _ _ Hb) as (s & H1 & H2).
    destruct (get_event_spec _ _ _ _ He) as (H3 & H4). exists e, data, s.
    split; [exact H3|]. split; [exact H4|]. split; [|auto].
    unfold anchor_data. destruct (em_data (sem_msg e)); inversion Hd; reflexivity.
  Qed.
  Lemma c27 cs se d' os :
    let d := run E db_empty cs in let m := sem_msg se in
    em_prefix m <> id_default -> is_delegated m = true -> process E d (MEvent se) = (d', Ok os) ->
    exists src delegator e data s,
      sem_seal se = Some src
      /\ (exists e0, nth_error (log d' (em_prefix m)) 0 = Some e0 /\ named_delegator (sem_msg e0) = Some delegator)
      /\ In e (log d delegator) /\ em_sn (sem_msg e) = src_sn src
      /\ anchor_data (sem_msg e) = Some data /\ In (SealEvent s) data /\ digest_of_event E m (es_digest s).
  Proof.
    cbv zeta. intros Hid Hdel H.
    destruct (c19 cs se d' os Hid H) as (s0 & _ & Hk & _).
    cbn in H. destruct (process_event_ok _ _ _ _ H) as (ns & _ & Hcd & Ha & _ & _).
    unfold check_delegation in Hcd. unfold is_delegated in Hdel.
    pose proof (good_log_extend E _ _ _ (Inv_reachable E cs) Hid Ha) as Hg.
    destruct (em_data (sem_msg se)) as [i|r|x|dip|r] eqn:Hd; try discriminate Hdel.
    - apply obind_ok in Hcd. destruct Hcd as (src & Hsrc & Hv). unfold ok_or in Hsrc.
      destruct (sem_seal se) as [src'|]; [|discriminate Hsrc]. injection Hsrc as ->.
      apply validate_seal_spec in Hv. destruct Hv as (e & data & s & H1 & H2 & H3 & H4 & H5). cbn in H1, H2.
      exists src, (dip_delegator dip), e, data, s. split; [reflexivity|]. split; [|auto].
      assert (Hempty : log (run E db_empty cs) (em_prefix (sem_msg se)) = []).
      { destruct (apply_to_state_good E _ _ _ (Inv_reachable E cs) Hid Ha) as (sb & Hsb & Hap).
        destruct (apply_msg_incept E _ _ _ ltac:(unfold is_inception; now rewrite Hd) Hap) as (Hpre & _).
        unfold log. destruct (olist (get_kel (run E db_empty cs) (em_prefix (sem_msg se)))) as [|y l] eqn:Hl; [reflexivity|].
        destruct (good_log_shape _ _ _ _ Hid Hsb) as (_ & Hsh & _).
        destruct (rev (y :: l)) eqn:Hr; [now apply rev_nil_inv in Hr|]. destruct Hsh as (Hx & _). congruence. }
      exists (stored se). unfold log at 1. rewrite Hk, Hempty. cbn. split; [reflexivity|].
      unfold named_delegator. now rewrite Hd.
    - apply obind_ok in Hcd. destruct Hcd as (os' & Hos & Hcd). apply obind_ok in Hcd. destruct Hcd as (sb & Hsb & Hcd).
      destruct os' as [sb'|]; [|discriminate Hsb]. injection Hsb as ->.
      apply obind_ok in Hcd. destruct Hcd as (dl & Hdl & Hcd). apply obind_ok in Hcd. destruct Hcd as (src & Hsrc & Hv).
      destruct (st_delegator sb) as [dl'|] eqn:Hsd; [|discriminate Hdl]. injection Hdl as ->.
      unfold ok_or in Hsrc. destruct (sem_seal se) as [src'|]; [|discriminate Hsrc]. injection Hsrc as ->.
      apply validate_seal_spec in Hv. destruct Hv as (e & data & s & H1 & H2 & H3 & H4 & H5). cbn in H1, H2.
      exists src, dl, e, data, s. split; [reflexivity|]. split; [|auto].
      unfold compute_state in Hos. destruct (get_kel (run E db_empty cs) (em_prefix (sem_msg se))) as [l|] eqn:Hl; [|discriminate Hos].
      fold (compute_state E (run E db_empty cs) (em_prefix (sem_msg se))) in Hos || idtac.
      destruct (reach_good E _ _ _ Hid Hl) as (sb2 & Hg2 & Hc2).
      assert (Hx : Ok (Some sb2) = Ok (Some sb)).
      { rewrite <- Hc2. unfold compute_state. now rewrite Hl. }
      injection Hx as ->.
      destruct l as [|e0 l]. { apply good_log_nil in Hg2. subst sb. discriminate Hsd. }
      exists e0. unfold log at 1. rewrite Hk. unfold log. rewrite Hl. cbn. split; [reflexivity|].
      destruct (good_deleg E _ _ _ e0 Hid Hg2 eq_refl) as [Hx2 _]. congruence.
  Qed.

  (** C34 *)
  Definition alike (s s' : IdentifierState) : Prop :=
    st_prefix s = st_prefix s' /\ st_sn s = st_sn s' /\ st_current s = st_current s'.
  Lemma apply_event_alike m s s' r :
    alike s s' -> apply_msg E m s = Ok r -> exists r', apply_event E m s' = Ok r' /\ alike r r'.
  Proof.
    intros (A1 & A2 & A3) H.
    destruct (is_inception m) eqn:Hi.
    - destruct (apply_msg_incept E _ _ _ Hi H) as (P1 & P2 & _ & kc & Hk & ->).
      unfold apply_event, is_inception in *. destruct (em_data m) eqn:Hd; try discriminate Hi.
      + rewrite <- A1, P1. destruct (IdentifierPrefix_eq_dec _ _); [|congruence]. rewrite P2. cbn.
        eexists; split; [reflexivity|]. unfold alike; cbn. unfold est_keys in Hk. rewrite Hd in Hk.
        injection Hk as <-. auto.
      + rewrite <- A1, P1. destruct (IdentifierPrefix_eq_dec _ _); [|congruence]. rewrite P2. cbn.
        eexists; split; [reflexivity|]. unfold alike; cbn. unfold est_keys in Hk. rewrite Hd in Hk.
        injection Hk as <-. auto.
    - destruct (apply_msg_next E _ _ _ Hi H) as (P1 & P2 & _).
      destruct (is_rotation m) eqn:Hr.
      + destruct (apply_msg_rotate E _ _ _ Hr H) as (_ & _ & _ & _ & kc & Hk & Hv & ->).
        unfold apply_event, is_inception, is_rotation in *. destruct (em_data m) eqn:Hd; try discriminate.
        * rewrite <- A1, P1. destruct (IdentifierPrefix_eq_dec _ _); [|congruence]. rewrite <- A2, P2.
          rewrite N.ltb_irrefl. cbn. unfold est_keys in Hk. rewrite Hd in Hk. injection Hk as <-.
          unfold apply_rot. cbn. rewrite <- A3, Hv. eexists; split; [reflexivity|]. unfold alike; cbn. auto.
        * rewrite <- A1, P1. destruct (IdentifierPrefix_eq_dec _ _); [|congruence]. rewrite <- A2, P2.
          rewrite N.ltb_irrefl. cbn. unfold est_keys in Hk. rewrite Hd in Hk. injection Hk as <-.
          unfold apply_rot. cbn. rewrite <- A3, Hv. eexists; split; [reflexivity|]. unfold alike; cbn. auto.
      + unfold apply_event, is_inception, is_rotation in *. destruct (em_data m) eqn:Hd; try discriminate.
        destruct (apply_msg_ixn E _ _ _ _ Hd H) as (_ & _ & _ & ->).
        rewrite <- A1, P1. destruct (IdentifierPrefix_eq_dec _ _); [|congruence]. rewrite <- A2, P2.
        rewrite N.ltb_irrefl. cbn. eexists; split; [reflexivity|]. unfold alike; cbn. auto.
  Qed.
  Definition seal_counts (m : EventMessage) : bool := match em_data m with Icp _ | Rot _ => true | _ => false end.
  Lemma last_est_loop_spec l s s' r last :
    alike s s' -> replay_strict E l s = Ok r ->
    exists x, last_est_loop E l s' last = Ok x
      /\ option_map sem_msg x = match last_such seal_counts (log_of l) with
                                | Some e => Some e | None => option_map sem_msg last end.
  Proof.
    revert s s' last. induction l as [|e l IH]; intros s s' last Ha H; [exists last; auto|]. cbn in H.
    apply obind_ok in H. destruct H as (s1 & H1 & H).
    destruct (apply_event_alike _ _ _ _ Ha H1) as (s1' & H1' & Ha').
    cbn [last_est_loop]. rewrite H1'. cbn [obind].
    destruct (IH s1 s1' (match em_data (sem_msg e) with Icp _ | Rot _ => Some e | _ => last end) Ha' H) as (x & Hx & Hl).
    exists x. split; [exact Hx|]. rewrite Hl. cbn [log_of map last_such].
    fold (log_of l). destruct (last_such seal_counts (log_of l)); [reflexivity|].
    unfold seal_counts. destruct (em_data (sem_msg e)); reflexivity.
  Qed.
  Lemma c34_general cs id l :
    id <> id_default -> get_kel (run E db_empty cs) id = Some l ->
    get_last_establishment_event_seal E (run E db_empty cs) id
    = Ok (option_map (fun e => mkES (em_prefix e) (em_sn e) (em_digest e)) (last_such seal_counts (log_of l))).
  Proof.
    intros Hid Hl. destruct (reach_good E _ _ _ Hid Hl) as (s & [_ Hg] & _).
    unfold get_last_establishment_event_seal. rewrite Hl.
    destruct (last_est_loop_spec l state_default state_default s None) as (x & -> & Hx); [repeat split|exact Hg|].
    cbn. f_equal. destruct (last_such seal_counts (log_of l)) as [e|]; destruct x as [y|]; cbn in *; congruence.
  Qed.
  Lemma c34 cs id l :
    id <> id_default -> get_kel (run E db_empty cs) id = Some l -> l <> [] ->
    (forall e, In e l -> is_delegated (sem_msg e) = false) ->
    exists e, last_establishment (log_of l) = Some e
      /\ get_last_establishment_event_seal E (run E db_empty cs) id = Ok (Some (mkES id (em_sn e) (em_digest e))).
  Proof.
    intros Hid Hl Hne Hnd. destruct (reach_good E _ _ _ Hid Hl) as (s & Hg & Hc).
    destruct (c04_keys E _ _ _ _ Hid Hl Hne Hc) as (e & He & _). exists e. split; [exact He|].
    rewrite (c34_general _ _ _ Hid Hl).
    assert (Hsame : last_such seal_counts (log_of l) = last_establishment (log_of l)).
    { clear -Hnd. unfold last_establishment. induction l as [|x l IH]; [reflexivity|]. cbn.
      fold (log_of l). rewrite IH by (intros y Hy; apply Hnd; now right).
      destruct (last_such is_establishment (log_of l)); [reflexivity|].
      specialize (Hnd x (or_introl eq_refl)). unfold is_delegated, seal_counts, is_establishment, is_inception, is_rotation in *.
      destruct (em_data (sem_msg x)); try discriminate; reflexivity. }
    rewrite Hsame, He. cbn. do 3 f_equal.
    assert (Hin : In e (log_of l)).
    { clear -He. unfold last_establishment in He. induction l as [|x l IH]; [discriminate|]. cbn in *. fold (log_of l) in *.
      destruct (last_such is_establishment (log_of l)); [injection He as ->; right; apply IH; reflexivity|].
      destruct (is_establishment (sem_msg x)); [injection He as ->; now left|discriminate]. }
    apply in_map_iff in Hin. destruct Hin as (x & <- & Hx). apply In_nth_error in Hx. destruct Hx as [k Hk].
    now destruct (c03_inception E _ _ _ _ _ Hid Hl Hk).
  Qed.

  (** C35 *)
  Lemma call_unknown d c id :
    (forall se, c = CProcess (MEvent se) -> em_prefix (sem_msg se) <> id) ->
    get_kel (call E d c) id = get_kel d id.
  Proof.
    intros H. destruct c as [m|]; cbn.
    - destruct m as [e|r|r|r|q].
      + cbn. assert (Hs : subject (MEvent e) <> Some id) by (cbn; intros Hx; injection Hx as Hx; eapply H; eauto).
        apply (c23 d (MEvent e) id Hs).
      + unfold get_kel. now rewrite (process_other_kel E d (MNontransferableRct r)) by discriminate.
      + unfold get_kel. now rewrite (process_other_kel E d (MTransferableRct r)) by discriminate.
      + unfold get_kel. now rewrite (process_other_kel E d (MKeyStateNotice r)) by discriminate.
      + reflexivity.
    - unfold get_kel. now rewrite process_escrow_kel.
  Qed.
  Lemma c35 cs id :
    (forall se, In (CProcess (MEvent se)) cs -> em_prefix (sem_msg se) <> id) ->
    compute_state E (run E db_empty cs) id = Ok None.
  Proof.
    intros H. unfold compute_state.
    assert (Hk : forall cs d, (forall se, In (CProcess (MEvent se)) cs -> em_prefix (sem_msg se) <> id) ->
                 get_kel (run E d cs) id = get_kel d id).
    { clear. induction cs as [|c cs IH]; intros d H; [reflexivity|]. cbn. unfold run in IH. rewrite IH.
      - apply call_unknown. intros se ->. apply H. now left.
      - intros se Hs. apply H. now right. }
    now rewrite Hk.
  Qed.
  (** rejected events leave at most an entry without events *)
  Lemma c35_empty cs id s :
    id <> id_default -> log (run E db_empty cs) id = [] ->
    compute_state E (run E db_empty cs) id = Ok (Some s) -> s = state_default.
  Proof.
    intros Hid Hl Hc. unfold compute_state, log in *. destruct (get_kel _ id) as [l|]; [|discriminate].
    cbn in Hl. subst l. cbn in Hc. congruence.
  Qed.
End WithEnv.
