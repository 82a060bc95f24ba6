(** * LogProofs: invariants of the logs of every reachable store. *)
From Verif Require Import Base Base64 Codes NumFmt Types KeyConf State Db Processor Spec StateProofs.

Lemma sem_eqb_refl e : sem_eqb e e = true.
Proof.
  unfold sem_eqb. destruct (EM_eq_dec (sem_msg e) (sem_msg e)); [|congruence].
  destruct (sigs_eq_dec (sem_sigs e) (sem_sigs e)); [reflexivity|congruence].
Qed.
Lemma sem_eqb_true a b : sem_eqb a b = true -> sem_msg a = sem_msg b /\ sem_sigs a = sem_sigs b.
Proof.
  unfold sem_eqb. destruct (EM_eq_dec (sem_msg a) (sem_msg b)); [|discriminate].
  destruct (sigs_eq_dec (sem_sigs a) (sem_sigs b)); [auto|discriminate].
Qed.
Lemma sem_eqb_stored_l a b : sem_eqb (stored a) b = sem_eqb a b.
Proof. reflexivity. Qed.

(** ** Tables *)
Lemma tget_tput {T} (t : table T) id l i :
  tget (tput t id l) i = if IdentifierPrefix_eq_dec i id then Some l else tget t i.
Proof. apply aget_aput. Qed.
Lemma tget_tpush {T} (t : table T) id x i :
  tget (tpush t id x) i = if IdentifierPrefix_eq_dec i id then Some (olist (tget t id) ++ [x]) else tget t i.
Proof. unfold tpush. destruct (tget t id) eqn:H; rewrite tget_tput; reflexivity. Qed.
Lemma tget_tremove {T} (eqb : T -> T -> bool) (t : table T) id x i :
  tget (tremove eqb t id x) i =
  if IdentifierPrefix_eq_dec i id then option_map (filter (fun e => negb (eqb e x))) (tget t id) else tget t i.
Proof.
  unfold tremove. destruct (tget t id) eqn:H.
  - rewrite tget_tput. reflexivity.
  - destruct (IdentifierPrefix_eq_dec i id); subst; auto.
Qed.

Lemma get_kel_add d se id i :
  get_kel (add_kel d se id) i =
  if IdentifierPrefix_eq_dec i id then Some (olist (get_kel d id) ++ [stored se]) else get_kel d i.
Proof. apply (tget_tpush (db_kel d)). Qed.
Lemma get_kel_remove d se id i :
  get_kel (remove_kel d id se) i =
  if IdentifierPrefix_eq_dec i id
  then option_map (filter (fun e => negb (sem_eqb e se))) (get_kel d id) else get_kel d i.
Proof. apply (tget_tremove sem_eqb (db_kel d)). Qed.

(** ** Sorting *)
Lemma insert_le e l :
  Forall (fun x => (em_sn (sem_msg e) <= em_sn (sem_msg x))%N) l -> insert_by_sn e l = e :: l.
Proof.
  destruct l as [|x l]; [reflexivity|]. intros H. inversion H; subst. cbn.
  destruct (N.leb_spec (em_sn (sem_msg e)) (em_sn (sem_msg x))); [reflexivity|lia].
Qed.
Definition sns_from (n : N) (l : list SignedEventMessage) : Prop :=
  forall k e, nth_error l k = Some e -> em_sn (sem_msg e) = (n + N.of_nat k)%N.
Lemma sns_from_cons n e l : sns_from n (e :: l) <-> em_sn (sem_msg e) = n /\ sns_from (n + 1) l.
Proof.
  split.
  - intros H. split; [specialize (H 0 e eq_refl); lia|].
    intros k x Hx. specialize (H (S k) x Hx). lia.
  - intros [H1 H2] [|k] x Hx; cbn in Hx; [injection Hx as <-; lia|].
    apply H2 in Hx. lia.
Qed.
Lemma sns_from_Forall n l : sns_from n l -> Forall (fun x => (n <= em_sn (sem_msg x))%N) l.
Proof.
  intros H. apply Forall_forall. intros x Hx. apply In_nth_error in Hx. destruct Hx as [k Hk].
  apply H in Hk. lia.
Qed.
Lemma sort_sns n l : sns_from n l -> sort_by_sn l = l.
Proof.
  revert n; induction l as [|e l IH]; intros n H; [reflexivity|].
  apply sns_from_cons in H. destruct H as [H1 H2]. cbn. rewrite (IH _ H2).
  apply insert_le. apply sns_from_Forall in H2. eapply Forall_impl; [|exact H2]. cbn. intros; lia.
Qed.

Section WithEnv.
  Context (E : Env).

  Lemma replay_strict_app l1 l2 s :
    replay_strict E (l1 ++ l2) s = (let? s' := replay_strict E l1 s in replay_strict E l2 s').
  Proof.
    revert s; induction l1 as [|e l1 IH]; intros s; [reflexivity|]. cbn.
    destruct (apply_msg E (sem_msg e) s); cbn; auto.
  Qed.
  Lemma replay_of_strict l s s' : replay_strict E l s = Ok s' -> replay E l s = Ok s'.
  Proof.
    revert s; induction l as [|e l IH]; intros s H; [exact H|]. cbn in *.
    destruct (apply_msg E (sem_msg e) s); cbn in *; try discriminate. now apply IH.
  Qed.

  (** A log of [id] that replays completely to [s]. *)
  Definition good_log (id : IdentifierPrefix) (l : list SignedEventMessage) (s : IdentifierState) : Prop :=
    Forall (fun e => em_prefix (sem_msg e) = id) l /\ replay_strict E l state_default = Ok s.

  Lemma good_log_snoc id l e s' :
    good_log id (l ++ [e]) s' <->
    exists s, good_log id l s /\ em_prefix (sem_msg e) = id /\ apply_msg E (sem_msg e) s = Ok s'.
  Proof.
    unfold good_log. rewrite Forall_app, replay_strict_app. split.
    - intros [[H1 H2] H]. apply obind_ok in H. destruct H as (s & Hs & H). inversion H2; subst.
      exists s. repeat split; auto. cbn in H. apply obind_ok in H. destruct H as (x & Hx & H).
      cbn in H. now injection H as <-.
    - intros (s & (H1 & H2) & H3 & H4). repeat split; auto. rewrite H2. cbn. rewrite H4. reflexivity.
  Qed.

  Lemma good_log_nil id s : good_log id [] s <-> s = state_default.
  Proof. unfold good_log; cbn. split; [intros [_ H]; congruence | intros ->; auto]. Qed.

  (** The shape of a good log: sequence numbers, prefix. *)
  Lemma good_log_shape id l s :
    id <> id_default -> good_log id l s ->
    sns_from 0 l /\
    match rev l with
    | [] => s = state_default
    | e :: _ => st_prefix s = id /\ (st_sn s + 1)%N = N.of_nat (List.length l)
                /\ st_last_digest s = em_digest (sem_msg e)
    end /\ (forall k e, nth_error l k = Some e -> is_inception (sem_msg e) = (k =? 0)).
  Proof.
    intros Hid. revert s. induction l as [|e l IH] using rev_ind; intros s H.
    - apply good_log_nil in H. split; [intros [|k] e He; discriminate He|]. split; [exact H|].
      intros [|k] e He; discriminate He.
    - apply good_log_snoc in H. destruct H as (s0 & H0 & Hp & Ha).
      destruct (IH _ H0) as (Hsn & Hsh & Hinc). clear IH.
      destruct (apply_msg_result _ _ _ _ Ha) as (R1 & R2 & R3).
      assert (Hcur : em_sn (sem_msg e) = N.of_nat (List.length l)
                     /\ is_inception (sem_msg e) = (List.length l =? 0)).
      { destruct (is_inception (sem_msg e)) eqn:Hi.
        - destruct (apply_msg_incept _ _ _ _ Hi Ha) as (P1 & P2 & _).
          destruct (rev l) as [|x r] eqn:Hr.
          + apply (f_equal (@rev _)) in Hr. rewrite rev_involutive in Hr. subst l. cbn. split; [exact P2|reflexivity].
          + destruct Hsh as (Q & _). congruence.
        - destruct (apply_msg_next _ _ _ _ Hi Ha) as (P1 & P2 & _).
          destruct (rev l) as [|x r] eqn:Hr.
          + subst s0. cbn in P1. congruence.
          + destruct Hsh as (Q1 & Q2 & _).
            assert (List.length l <> 0) by (intros Hz; destruct l; [discriminate Hr|discriminate Hz]).
            split; [lia|]. symmetry. now apply Nat.eqb_neq. }
      destruct Hcur as [Hc1 Hc2].
      split; [|split].
      + intros k x Hx. destruct (Nat.lt_ge_cases k (List.length l)).
        * rewrite nth_error_app1 in Hx by assumption. now apply Hsn.
        * rewrite nth_error_app2 in Hx by assumption.
          destruct (k - List.length l) as [|j] eqn:Hk; [|destruct j; discriminate Hx].
          cbn in Hx. injection Hx as <-. rewrite Hc1. lia.
      + rewrite rev_app_distr. cbn. repeat split; [congruence| |exact R3].
        rewrite R2, Hc1, app_length. cbn. lia.
      + intros k x Hx. destruct (Nat.lt_ge_cases k (List.length l)).
        * rewrite nth_error_app1 in Hx by assumption. now apply Hinc.
        * rewrite nth_error_app2 in Hx by assumption.
          destruct (k - List.length l) as [|j] eqn:Hk; [|destruct j; discriminate Hx].
          cbn in Hx. injection Hx as <-. rewrite Hc2. f_equal. lia.
  Qed.

  Lemma compute_state_good d id l s :
    id <> id_default -> get_kel d id = Some l -> good_log id l s -> compute_state E d id = Ok (Some s).
  Proof.
    intros Hid Hk Hg. unfold compute_state. rewrite Hk.
    destruct (good_log_shape _ _ _ Hid Hg) as (Hs & _).
    rewrite (sort_sns _ _ Hs), (replay_of_strict l _ s); [reflexivity|apply Hg].
  Qed.

  (** ** The store invariant *)
  Definition Inv (d : Db) : Prop :=
    forall id l, id <> id_default -> get_kel d id = Some l -> exists s, good_log id l s.

  (** Errors of signature verification *)
  Lemma kc_verify_err kc msg sigs e : kc_verify E kc msg sigs = Err e -> e = ENotEnoughSigs \/ exists m, e = ESemantic m.
  Proof.
    assert (Hk : forall k s e, key_verify E k msg s = Err e -> exists m, e = ESemantic m).
    { intros k s e0. unfold key_verify. destruct (bp_code k), (ssp_code s); intros H; inversion H; eauto. }
    assert (Hsum : forall c st ss e0, clause_sum c st ss <> Err e0).
    { intros c st ss e0. unfold clause_sum.
      assert (G : forall ss a, (forall e1, a <> Err e1) ->
        fold_left (fun acc sig => let? a := acc in
          if (asp_index sig <? st)%N then Panic
          else match nth_error c (N.to_nat (asp_index sig - st)) with
               | Some w => Ok (frac_add a w) | None => Panic end) ss a <> Err e0).
      { induction ss0 as [|x ss0 IH]; intros a Ha; cbn; [apply Ha|]. apply IH. intros e1.
        destruct a as [a|e2|]; cbn; [|exfalso; eapply Ha; reflexivity|discriminate].
        destruct (asp_index x <? st)%N; [discriminate|].
        destruct (nth_error c _); discriminate. }
      apply G. discriminate. }
    assert (Hcl : forall c st ss e0, clause_enough c st ss <> Err e0).
    { intros c st ss e0. unfold clause_enough. destruct (clause_sum c st ss) eqn:Hx; cbn; try discriminate.
      exfalso; eapply Hsum; eauto. }
    assert (Hen : forall e0, enough_signatures (kc_threshold kc) sigs <> Err e0).
    { intros e0. unfold enough_signatures. destruct (kc_threshold kc) as [t|[c|cs]]; [discriminate|apply Hcl|].
      cbn. unfold multi_enough.
      assert (G : forall cs a, (forall e1, a <> Err e1) -> forall e1, fold_left (multi_step sigs) cs a <> Err e1).
      { induction cs0 as [|c cs0 IH]; intros a Ha; [exact Ha|]. cbn. apply IH. intros e1. unfold multi_step.
        destruct a as [[st en]|e2|]; cbn; [|exfalso; eapply Ha; reflexivity|discriminate].
        destruct en; [|discriminate].
        destruct (clause_enough c st _) eqn:Hx; cbn; try discriminate. exfalso; eapply Hcl; eauto. }
      destruct (fold_left (multi_step sigs) cs (Ok (0%N, true))) eqn:Hx; cbn; try discriminate.
      exfalso; eapply G; [|exact Hx]. discriminate. }
    unfold kc_verify. destruct (enough_signatures (kc_threshold kc) sigs) as [en|e0|] eqn:He; cbn; [| |discriminate].
    2:{ exfalso; eapply Hen; reflexivity. }
    destruct en; cbn; [|intros H; injection H as <-; auto].
    destruct (_ <=? _); [|intros H; injection H as <-; eauto].
    destruct (count_indices _ sigs) as [cnt|e0|] eqn:Hc; cbn; [| |discriminate].
    2:{ exfalso. revert Hc. unfold count_indices.
        assert (G : forall ss a, (forall e1, a <> Err e1) ->
          fold_left (fun acc sig => let? a := acc in
            match bump (N.to_nat (asp_index sig)) a with Some a' => Ok a' | None => Panic end) ss a <> Err e0).
        { induction ss as [|x ss IH]; intros a Ha; cbn; [apply Ha|]. apply IH. intros e1.
          destruct a as [a|e2|]; cbn; [|exfalso; eapply Ha; reflexivity|discriminate].
          destruct (bump _ a); discriminate. }
        apply G. discriminate. }
    destruct (forallb _ cnt); [|intros H; injection H as <-; eauto].
    unfold verify_each.
    assert (G : forall ss a, (forall e1, a = Err e1 -> exists m, e1 = ESemantic m) ->
      forall e1,
      fold_left (fun acc sig => let? a := acc in
        if (a : bool) then
          match nth_error (kc_keys kc) (N.to_nat (asp_index sig)) with
          | None => Err (ESemantic "Key index not present in set")
          | Some key => key_verify E key msg (asp_sig sig)
          end
        else Ok false) ss a = Err e1 -> exists m, e1 = ESemantic m).
    { induction ss as [|x ss IH]; intros a Ha; cbn; [exact Ha|]. apply IH. intros e1.
      destruct a as [[|]|e2|]; cbn; try discriminate; [|apply Ha].
      destruct (nth_error _ _); [apply Hk|intros Hz; injection Hz as <-; eauto]. }
    intros H. right. eapply G; [|exact H]. discriminate.
  Qed.

  (** What one call of [process_event] does. *)
  Lemma process_event_cases d se :
    let m := sem_msg se in let id := em_prefix m in
    (exists r, process_event E d se = (d, r) /\ forall os, r <> Ok os)
    \/ exists ns, check_delegation E d se = Ok tt /\ apply_to_state E d m = Ok ns /\
       ((exists ser, e_ser_event E m = Ok ser /\ kc_verify E (st_current ns) ser (sem_sigs se) = Ok true
           /\ process_event E d se = (add_kel d se id, Ok (Some ns)))
        \/ (exists r, process_event E d se = (add_kel d se id, r) /\ (forall os, r <> Ok os)
             /\ (forall ser, e_ser_event E m = Ok ser -> r = Panic /\ kc_verify E (st_current ns) ser (sem_sigs se) = Panic)
             /\ (forall e, r = Err e -> e_ser_event E m = Err e))
        \/ (exists e ser, e_ser_event E m = Ok ser /\
             process_event E d se = (remove_kel (add_kel d se id) id se, Err e)
             /\ verify_signatures E ns ser se = Err e)).
  Proof.
    cbv zeta. unfold process_event.
    destruct (check_delegation E d se) as [[]|e|] eqn:Hdel;
      [|left; eexists; split; [reflexivity|discriminate]..].
    destruct (apply_to_state E d (sem_msg se)) as [ns|e|] eqn:Happ;
      [|left; eexists; split; [reflexivity|discriminate]..].
    right. exists ns. split; [reflexivity|]. split; [reflexivity|].
    destruct (e_ser_event E (sem_msg se)) as [ser|e|] eqn:Hser.
    - destruct (verify_signatures E ns ser se) as [s|e|] eqn:Hv.
      + left. exists ser. unfold verify_signatures in Hv. apply obind_ok in Hv.
        destruct Hv as ([|] & Hv & Hs); [|discriminate Hs]. injection Hs as <-. auto.
      + right; right. exists e, ser. split; [reflexivity|]. split; [|exact Hv].
        unfold verify_signatures in Hv. destruct (kc_verify E (st_current ns) ser (sem_sigs se)) as [[|]|e'|] eqn:Hk;
          cbn in Hv; inversion Hv; subst; [reflexivity|].
        apply kc_verify_err in Hk. destruct Hk as [->|[? ->]]; reflexivity.
      + right; left. exists Panic. split; [reflexivity|]. split; [discriminate|]. split; [|discriminate].
        intros ser' Hs'. injection Hs' as <-. unfold verify_signatures in Hv.
        destruct (kc_verify E (st_current ns) ser (sem_sigs se)) as [[|]|e'|] eqn:Hk; cbn in Hv; try discriminate. auto.
    - right; left. exists (Err e). split; [reflexivity|]. split; [discriminate|]. split; [discriminate|].
      intros e' H; now injection H as <-.
    - right; left. exists Panic. split; [reflexivity|]. split; [discriminate|]. split; discriminate.
  Qed.

  (** The state used to judge an event is the state of its log. *)
  Lemma apply_to_state_good d m ns :
    Inv d -> em_prefix m <> id_default -> apply_to_state E d m = Ok ns ->
    exists s, good_log (em_prefix m) (olist (get_kel d (em_prefix m))) s /\ apply_msg E m s = Ok ns.
  Proof.
    intros HI Hid H. unfold apply_to_state in H.
    destruct (get_kel d (em_prefix m)) as [l|] eqn:Hk.
    - destruct (HI _ _ Hid Hk) as [s Hs].
      rewrite (compute_state_good _ _ _ _ Hid Hk Hs) in H. cbn in H. exists s. auto.
    - unfold compute_state in H. rewrite Hk in H. cbn in H. exists state_default. split; [|exact H].
      apply good_log_nil. reflexivity.
  Qed.

  Lemma good_log_extend d se ns :
    Inv d -> em_prefix (sem_msg se) <> id_default -> apply_to_state E d (sem_msg se) = Ok ns ->
    good_log (em_prefix (sem_msg se)) (olist (get_kel d (em_prefix (sem_msg se))) ++ [stored se]) ns.
  Proof.
    intros HI Hid Ha. destruct (apply_to_state_good _ _ _ HI Hid Ha) as (s & Hs & H).
    apply good_log_snoc. exists s. auto.
  Qed.

  (** Removing the event just added restores the log. *)
  Lemma filter_id {A} (f : A -> bool) l : Forall (fun x => f x = true) l -> filter f l = l.
  Proof. induction 1; cbn; [reflexivity|]. now rewrite H, IHForall. Qed.
  Lemma remove_added d se ns :
    Inv d -> em_prefix (sem_msg se) <> id_default -> apply_to_state E d (sem_msg se) = Ok ns ->
    filter (fun e => negb (sem_eqb e se)) (olist (get_kel d (em_prefix (sem_msg se))) ++ [stored se])
    = olist (get_kel d (em_prefix (sem_msg se))).
  Proof.
    intros HI Hid Ha. pose proof (good_log_extend _ _ _ HI Hid Ha) as Hg.
    destruct (good_log_shape _ _ _ Hid Hg) as (Hsn & _).
    rewrite filter_app. cbn. rewrite sem_eqb_stored_l, sem_eqb_refl. cbn. rewrite app_nil_r.
    apply filter_id. apply Forall_forall. intros x Hx. apply In_nth_error in Hx. destruct Hx as [k Hk].
    destruct (sem_eqb x se) eqn:He; [|reflexivity]. exfalso. apply sem_eqb_true in He. destruct He as [He _].
    set (l := olist (get_kel d (em_prefix (sem_msg se)))) in *.
    assert (Hlt : k < List.length l) by (apply nth_error_Some; congruence).
    pose proof (Hsn k x) as H1. rewrite nth_error_app1 in H1 by assumption. specialize (H1 Hk).
    pose proof (Hsn (List.length l) (stored se)) as H2. rewrite nth_error_app2, Nat.sub_diag in H2 by lia.
    specialize (H2 eq_refl). cbn in H2. rewrite <- He in H2. lia.
  Qed.

  Lemma Inv_empty : Inv db_empty.
  Proof. intros id l _ H. discriminate H. Qed.

  Lemma Inv_add d se ns :
    Inv d -> apply_to_state E d (sem_msg se) = Ok ns -> Inv (add_kel d se (em_prefix (sem_msg se))).
  Proof.
    intros HI Ha id l Hid Hl. rewrite get_kel_add in Hl.
    destruct (IdentifierPrefix_eq_dec id (em_prefix (sem_msg se))) as [->|Hne].
    - injection Hl as <-. exists ns. now apply good_log_extend.
    - now apply HI.
  Qed.
  Lemma Inv_remove d se ns :
    Inv d -> apply_to_state E d (sem_msg se) = Ok ns ->
    Inv (remove_kel (add_kel d se (em_prefix (sem_msg se))) (em_prefix (sem_msg se)) se).
  Proof.
    intros HI Ha id l Hid Hl. rewrite get_kel_remove in Hl.
    destruct (IdentifierPrefix_eq_dec id (em_prefix (sem_msg se))) as [->|Hne].
    - rewrite get_kel_add in Hl. destruct (IdentifierPrefix_eq_dec _ _) as [_|]; [|congruence].
      cbn in Hl. rewrite (remove_added _ _ _ HI Hid Ha) in Hl. injection Hl as <-.
      destruct (apply_to_state_good _ _ _ HI Hid Ha) as (s & Hs & _). eauto.
    - rewrite get_kel_add in Hl. destruct (IdentifierPrefix_eq_dec id _); [congruence|]. now apply HI.
  Qed.

  Lemma Inv_process_event d se : Inv d -> Inv (fst (process_event E d se)).
  Proof.
    intros HI. destruct (process_event_cases d se) as [(r & -> & _)|(ns & _ & Ha & H)]; [exact HI|].
    destruct H as [(ser & _ & _ & ->)|[(r & -> & _)|(e & ser & _ & -> & _)]]; cbn.
    - eapply Inv_add; eauto.
    - eapply Inv_add; eauto.
    - eapply Inv_remove; eauto.
  Qed.

  (** Calls other than processing a key event leave the logs alone. *)
  Lemma process_other_kel d m :
    (forall e, m <> MEvent e) -> db_kel (fst (process E d m)) = db_kel d.
  Proof.
    intros Hm. destruct m as [e|r|r|r|q]; cbn; [now destruct (Hm e)| | | |reflexivity].
    - unfold process_witness_receipt. destruct (get_event_at_sn _ _ _); [|reflexivity].
      destruct (e_ser_signed E s); [|reflexivity..].
      destruct (rev _); reflexivity.
    - unfold process_validator_receipt. destruct (get_event_at_sn _ _ _); [|reflexivity].
      destruct (obind _ _) as [[|]| |]; reflexivity.
    - unfold process_signed_reply.
      destruct (rp_route _); try reflexivity.
      destruct (IdentifierPrefix_eq_dec _ _); [|reflexivity].
      destruct (e_ser_reply _ _); [|reflexivity..].
      destruct (proc_verify _ _ _ _) as [|[]|]; try reflexivity.
      destruct (obind _ _); [|reflexivity..].
      assert (Hu : forall a b c, db_kel (update_accepted_reply a b c) = db_kel a)
        by (intros x y z; unfold update_accepted_reply; destruct (tget _ _); reflexivity).
      destruct (check_ksn _ _ _ _) as [|[]|]; cbn; try reflexivity; [apply Hu|].
      destruct q; reflexivity.
  Qed.
  Lemma process_escrow_kel d : db_kel (fst (process_escrow E d)) = db_kel d.
  Proof.
    unfold process_escrow. generalize (get_all_escrowed_replys d); intros l.
    revert d; induction l as [|r l IH]; intros d; [reflexivity|]. cbn.
    pose proof (process_other_kel d (MKeyStateNotice r)) as Hp. cbn in Hp.
    destruct (process_signed_reply E d r) as [d1 [o|e|]]; cbn in Hp; specialize (Hp ltac:(discriminate)).
    - rewrite IH. exact Hp.
    - destruct e as [ | | | | | | | | | | | | |q]; rewrite ?IH; try exact Hp.
      destruct q; rewrite IH; exact Hp.
    - exact Hp.
  Qed.

  Lemma Inv_kel d d' : db_kel d' = db_kel d -> Inv d -> Inv d'.
  Proof. intros H HI id l Hid Hl. unfold get_kel in Hl. rewrite H in Hl. now apply HI. Qed.

  Lemma Inv_call d c : Inv d -> Inv (call E d c).
  Proof.
    intros HI. destruct c as [m|]; cbn.
    - destruct m as [e|r|r|r|q]; [cbn; now apply Inv_process_event|..];
        (eapply Inv_kel; [|exact HI]); apply process_other_kel; discriminate.
    - eapply Inv_kel; [|exact HI]. apply process_escrow_kel.
  Qed.
  Lemma Inv_run d cs : Inv d -> Inv (run E d cs).
  Proof. revert d; induction cs as [|c cs IH]; intros d HI; [exact HI|]. cbn. apply IH. now apply Inv_call. Qed.
  Lemma Inv_reachable cs : Inv (run E db_empty cs).
  Proof. apply Inv_run, Inv_empty. Qed.
End WithEnv.
