(** * QueryProofs: key-state replies (C52-C55). *)
From Coq Require Import Permutation.
From Verif Require Import Base Base64 Codes NumFmt Types KeyConf SpecSig State Db Processor Spec SpecProc SpecQuery
  StateProofs LogProofs LogTheorems LogTheorems2 SigProofs ProcProofs ProcProofs2 ProcProofs3.

Section WithEnv.
  Context (E : Env).

  Lemma unit_ok (u : unit) : u = tt. Proof. now destruct u. Qed.

  (** what an acceptance implies, and what every other outcome leaves alone *)
  Definition acceptable (d : Db) (r : SignedReply) : Prop :=
    reply_route r = RReplyKsn (replier r)
    /\ (exists ser, e_ser_reply E (sr_reply r) = Ok ser /\ proc_verify E d ser (sr_sig r) = Ok tt)
    /\ reply_check_digest E (sr_reply r) = Ok tt
    /\ (bada_logic d r = Ok tt \/ bada_logic d r = Err (EQuery QNoSavedReply))
    /\ check_ksn E d (rp_ksn (sr_reply r)) (replier r) = Ok tt.
  Lemma signer_replier r : get_signer (sr_sig r) = replier r.
  Proof. unfold get_signer, replier. now destruct (sr_sig r). Qed.
  Lemma reply_outcome d r d' res :
    process_signed_reply E d r = (d', res) ->
    (acceptable d r /\ d' = update_accepted_reply d r (sr_prefix r)
      /\ res = Ok (Some (ksn_state (rp_ksn (sr_reply r)))))
    \/ (d' = escrow_reply d r /\ res = Err (EQuery QOutOfOrder) /\ reply_route r = RReplyKsn (replier r))
    \/ (d' = d /\ (res = Panic \/ exists e, res = Err e)).
  Proof.
    unfold process_signed_reply.
    destruct (rp_route (sr_reply r)) as [| |aid] eqn:Hroute;
      try (intros H; injection H as <- <-; right; right; eauto).
    destruct (IdentifierPrefix_eq_dec _ _) as [Hs|Hs];
      [|intros H; injection H as <- <-; right; right; eauto].
    rewrite signer_replier in Hs. subst aid.
    assert (Hrt : reply_route r = RReplyKsn (replier r)) by exact Hroute.
    destruct (e_ser_reply E (sr_reply r)) as [ser|e|] eqn:Hser;
      [|intros H; injection H as <- <-; right; right; eauto..].
    destruct (proc_verify E d ser (sr_sig r)) as [u|e|] eqn:Hv.
    2:{ destruct e; intros H; injection H as <- <-; eauto 7. }
    2:{ intros H; injection H as <- <-; right; right; eauto. }
    destruct u.
    destruct (reply_check_digest E (sr_reply r)) as [u|e|] eqn:Hd; cbn [obind];
      [|intros H; injection H as <- <-; right; right; eauto..].
    destruct u.
    assert (Hb : forall x : Db * out (option IdentifierState),
      (match (match bada_logic d r with Err (EQuery QNoSavedReply) => Ok tt | x => x end) with
       | Ok _ => x | Err e => (d, Err e) | Panic => (d, Panic) end) = (d', res) ->
      ((bada_logic d r = Ok tt \/ bada_logic d r = Err (EQuery QNoSavedReply)) /\ x = (d', res))
      \/ (d' = d /\ (res = Panic \/ exists e, res = Err e))).
    { intros x. destruct (bada_logic d r) as [u|e|]; [destruct u; auto| |].
      - destruct e as [ | | | | | | | | | | | | |q]; try (intros H; injection H as <- <-; right; eauto).
        destruct q; try (intros H; injection H as <- <-; right; eauto). auto.
      - intros H; injection H as <- <-; right; eauto. }
    intros H. apply Hb in H. destruct H as [[Hbd H]|H]; [|auto]. clear Hb.
    destruct (check_ksn E d (rp_ksn (sr_reply r)) (replier r)) as [u|e|] eqn:Hk.
    - destruct u. injection H as <- <-. left. unfold acceptable. eauto 9.
    - destruct e as [ | | | | | | | | | | | | |q]; try (injection H as <- <-; right; right; eauto).
      destruct q; injection H as <- <-; eauto 7.
    - injection H as <- <-. right; right; eauto.
  Qed.
  Lemma reply_accepted d r d' res :
    process_signed_reply E d r = (d', Ok res) ->
    acceptable d r /\ d' = update_accepted_reply d r (sr_prefix r)
    /\ res = Some (ksn_state (rp_ksn (sr_reply r))).
  Proof.
    intros H. apply reply_outcome in H. destruct H as [(H1 & H2 & H3)|[(_ & H & _)|(_ & [H|[e H]])]]; try discriminate H.
    injection H3 as ->. auto.
  Qed.

  (** the accepted table after an acceptance *)
  Definition other_route (r s : SignedReply) : bool :=
    if Route_eq_dec (reply_route s) (reply_route r) then false else true.
  Lemma accepted_update d r id :
    accepted (update_accepted_reply d r (sr_prefix r)) id
    = if IdentifierPrefix_eq_dec id (sr_prefix r) then filter (other_route r) (accepted d id) ++ [r] else accepted d id.
  Proof.
    unfold accepted, get_accepted_replys, update_accepted_reply.
    destruct (tget (db_rpy d) (sr_prefix r)) as [l|] eqn:Hl; cbn [db_rpy set_rpy].
    - rewrite tget_tput. destruct (IdentifierPrefix_eq_dec id (sr_prefix r)) as [->|]; [|reflexivity].
      rewrite Hl. reflexivity.
    - rewrite tget_tpush. destruct (IdentifierPrefix_eq_dec id (sr_prefix r)) as [->|]; [|reflexivity].
      rewrite Hl. reflexivity.
  Qed.
  Lemma accepted_escrow d r id : accepted (escrow_reply d r) id = accepted d id.
  Proof. reflexivity. Qed.

  (** ** Invariant of the accepted tables *)
  Definition RpyInv (d : Db) : Prop :=
    forall id, NoDup (map reply_route (accepted d id))
      /\ Forall (fun r => reply_route r = RReplyKsn (replier r) /\ sr_prefix r = id) (accepted d id).
  Lemma map_filter_route r l :
    map reply_route (filter (other_route r) l)
    = filter (fun x => if Route_eq_dec x (reply_route r) then false else true) (map reply_route l).
  Proof.
    induction l as [|s l IH]; [reflexivity|]. cbn [filter map]. unfold other_route at 1.
    destruct (Route_eq_dec (reply_route s) (reply_route r)); [exact IH|]. cbn. now rewrite IH.
  Qed.
  Lemma RpyInv_reply d r : RpyInv d -> RpyInv (fst (process_signed_reply E d r)).
  Proof.
    intros HI. destruct (process_signed_reply E d r) as [d' res] eqn:Hp. cbn [fst].
    apply reply_outcome in Hp. destruct Hp as [(Ha & -> & _)|[(-> & _)|(-> & _)]]; [|exact HI|exact HI].
    intros id. rewrite accepted_update. destruct (IdentifierPrefix_eq_dec id (sr_prefix r)) as [->|]; [|apply HI].
    destruct (HI (sr_prefix r)) as [H1 H2]. split.
    - rewrite map_app, map_filter_route. cbn [map]. apply NoDup_app_intro.
      + now apply NoDup_filter_keep.
      + constructor; [intros []|constructor].
      + intros x Hx [<-|[]]. apply filter_In in Hx. destruct Hx as [_ Hx].
        destruct (Route_eq_dec (reply_route r) (reply_route r)); [discriminate Hx|congruence].
    - apply Forall_app. split.
      + apply Forall_forall. intros x Hx. apply filter_In in Hx. destruct Hx as [Hx _].
        rewrite Forall_forall in H2. now apply H2.
      + constructor; [|constructor]. split; [apply Ha|reflexivity].
  Qed.
  Lemma accepted_frame d d' : db_rpy d' = db_rpy d -> forall id, accepted d' id = accepted d id.
  Proof. intros H id. unfold accepted, get_accepted_replys. now rewrite H. Qed.
  (** every call is a sequence of steps that process a reply or leave the accepted table alone *)
  Lemma call_ind (P : Db -> Prop) :
    (forall d d', db_rpy d' = db_rpy d -> P d -> P d') ->
    (forall d r, P d -> P (fst (process_signed_reply E d r))) ->
    forall d c, P d -> P (call E d c).
  Proof.
    intros H1 H2 d c HP. destruct c as [m|]; [destruct m as [se|r|r|r|q]|]; cbn [call process].
    - eapply H1; [|exact HP]. apply (event_frame E db_rpy); reflexivity.
    - eapply H1; [|exact HP]. apply (witness_frame E db_rpy); reflexivity.
    - eapply H1; [|exact HP]. apply (validator_frame E db_rpy); reflexivity.
    - now apply H2.
    - exact HP.
    - apply escrow_ind; [exact H2| |exact HP]. intros x r Hx. eapply H1; [|exact Hx]. reflexivity.
  Qed.
  Lemma run_ind (P : Db -> Prop) :
    (forall d d', db_rpy d' = db_rpy d -> P d -> P d') ->
    (forall d r, P d -> P (fst (process_signed_reply E d r))) ->
    forall cs d, P d -> P (run E d cs).
  Proof.
    intros H1 H2. induction cs as [|c cs IH]; intros d HP; [exact HP|]. cbn. apply IH. now apply call_ind.
  Qed.
  Lemma RpyInv_reachable cs : RpyInv (run E db_empty cs).
  Proof.
    apply run_ind.
    - intros d d' H HI id. rewrite (accepted_frame _ _ H). apply HI.
    - apply RpyInv_reply.
    - intros id. cbn. split; [constructor|constructor].
  Qed.

  (** ** C52 *)
  Definition later (old new : SignedReply) : Prop :=
    not_before old new \/ (by_bare_key old = false /\ by_bare_key new = true).
  Lemma not_before_refl r : not_before r r.
  Proof. right. split; [reflexivity|lia]. Qed.
  Lemma not_before_trans a b c : not_before a b -> not_before b c -> not_before a c.
  Proof. unfold not_before. lia. Qed.
  Lemma find_route_spec x l r : find_route x l = Some r -> In r l /\ reply_route r = x.
  Proof.
    unfold find_route. intros H. apply find_some in H. destruct H as [H1 H2]. split; [exact H1|].
    unfold reply_route. destruct (Route_eq_dec _ _); [assumption|discriminate].
  Qed.
  Lemma nodup_route l r s :
    NoDup (map reply_route l) -> In r l -> In s l -> reply_route r = reply_route s -> r = s.
  Proof.
    induction l as [|a l IH]; [intros _ []|]. intros Hn Hr Hs He. inversion Hn as [|? ? Hna Hnl]; subst.
    destruct Hr as [<-|Hr], Hs as [<-|Hs]; [reflexivity| | |now apply IH].
    - exfalso. apply Hna. rewrite He. now apply in_map.
    - exfalso. apply Hna. rewrite <- He. now apply in_map.
  Qed.
  Lemma find_route_in l r :
    NoDup (map reply_route l) -> In r l -> find_route (reply_route r) l = Some r.
  Proof.
    intros Hn Hr. destruct (find_route (reply_route r) l) as [s|] eqn:Hf.
    - apply find_route_spec in Hf. destruct Hf as [H1 H2]. f_equal. eapply nodup_route; eauto.
    - exfalso. unfold find_route in Hf. pose proof (find_none _ _ Hf r Hr) as H. cbn in H.
      unfold reply_route in H. destruct (Route_eq_dec _ _); [discriminate|congruence].
  Qed.
  (** an accepted reply comes after the one it replaces *)
  Lemma bada_order d r old :
    RpyInv d -> acceptable d r -> In old (accepted d (sr_prefix r)) -> replier old = replier r ->
    (not_before old r \/ (by_bare_key old = false /\ by_bare_key r = true /\ (reply_time old <= reply_time r)%Z))
    /\ ~ (by_bare_key old = true /\ by_bare_key r = false).
  Proof.
    intros HI Ha Hin Hrep. destruct (HI (sr_prefix r)) as [Hn Hf]. rewrite Forall_forall in Hf.
    destruct (Hf old Hin) as [Hro _].
    assert (Hfind : find_route (RReplyKsn (replier r)) (accepted d (sr_prefix r)) = Some old).
    { rewrite <- Hrep, <- Hro. now apply find_route_in. }
    destruct Ha as (_ & _ & _ & Hb & _). unfold bada_logic in Hb. unfold accepted in Hfind.
    unfold replier in Hfind at 1. unfold not_before, key_sn, by_bare_key.
    unfold check_dts in Hb. unfold reply_time.
    destruct (sr_sig r) as [seal sigs|bp sg]; rewrite Hfind in Hb.
    - destruct (sr_sig old) as [oseal osigs|obp osg];
        [|destruct Hb as [Hb|Hb]; discriminate Hb].
      destruct (N.ltb_spec (es_sn oseal) (es_sn seal)); [split; [left; left; assumption|intros [HH _]; discriminate HH]|].
      destruct (N.eqb_spec (es_sn oseal) (es_sn seal)) as [He|];
        [|destruct Hb as [Hb|Hb]; discriminate Hb].
      destruct (Z.leb_spec (rp_timestamp (sr_reply old)) (rp_timestamp (sr_reply r))); [|destruct Hb as [Hb|Hb]; discriminate Hb].
      split; [left; right; auto|intros [HH _]; discriminate HH].
    - destruct (Z.leb_spec (rp_timestamp (sr_reply old)) (rp_timestamp (sr_reply r))); [|destruct Hb as [Hb|Hb]; discriminate Hb].
      destruct (sr_sig old) as [oseal osigs|obp osg].
      + split; [right; auto|intros [HH _]; discriminate HH].
      + split; [left; right; auto|intros [_ HH]; discriminate HH].
  Qed.

  (** over a history: what happened to an accepted reply *)
  Definition Succ (id : IdentifierPrefix) (r : SignedReply) (d : Db) : Prop :=
    RpyInv d /\ exists r', In r' (accepted d id) /\ replier r' = replier r /\ later r r'
      /\ (by_bare_key r = true -> by_bare_key r' = true)
      /\ (by_bare_key r' = by_bare_key r -> not_before r r').
  Lemma Succ_step id r d x : Succ id r d -> Succ id r (fst (process_signed_reply E d x)).
  Proof.
    intros [HI (r1 & Hin & Hrep & Hlat & Hmono & Hsame)]. split; [now apply RpyInv_reply|].
    destruct (process_signed_reply E d x) as [d' res] eqn:Hp. cbn [fst].
    apply reply_outcome in Hp. destruct Hp as [(Ha & -> & _)|[(-> & _)|(-> & _)]]; [|exists r1; auto..].
    rewrite accepted_update. destruct (IdentifierPrefix_eq_dec id (sr_prefix x)) as [->|Hne]; [|exists r1; auto].
    destruct (HI (sr_prefix x)) as [Hn Hf]. rewrite Forall_forall in Hf. destruct (Hf r1 Hin) as [Hro _].
    destruct (Route_eq_dec (reply_route r1) (reply_route x)) as [He|Hne].
    - assert (Hrx : replier r1 = replier x).
      { destruct Ha as (Hrx & _). rewrite Hro, Hrx in He. now injection He. }
      destruct (bada_order _ _ _ HI Ha Hin Hrx) as [Hord Hnot].
      exists x. split; [apply in_or_app; right; now left|]. split; [congruence|].
      assert (Hcase : (by_bare_key r = by_bare_key x /\ by_bare_key r1 = by_bare_key x) \/ (by_bare_key r = false /\ by_bare_key x = true)).
      { destruct (by_bare_key r), (by_bare_key r1), (by_bare_key x); auto; try (now specialize (Hmono eq_refl));
          exfalso; now apply Hnot. }
      destruct Hcase as [[C1 C2]|[C1 C2]].
      + destruct Hord as [Hord|(H1 & H2 & _)]; [|congruence].
        assert (not_before r x) by (eapply not_before_trans; [apply Hsame; congruence|exact Hord]).
        split; [now left|]. split; [congruence|auto].
      + split; [right; auto|]. split; congruence.
    - exists r1. split; [|auto]. apply in_or_app. left. apply filter_In. split; [exact Hin|].
      unfold other_route. now destruct (Route_eq_dec (reply_route r1) (reply_route x)).
  Qed.
  Lemma c52_succ cs cs' id r :
    In r (accepted (run E db_empty cs) id) -> Succ id r (run E (run E db_empty cs) cs').
  Proof.
    intros Hin. apply run_ind.
    - intros d d' H [HI (r' & H1 & H2)]. split; [intros i; rewrite (accepted_frame _ _ H); apply HI|].
      exists r'. rewrite (accepted_frame _ _ H). auto.
    - intros d x. apply Succ_step.
    - split; [apply RpyInv_reachable|]. exists r. split; [exact Hin|]. split; [reflexivity|].
      split; [left; apply not_before_refl|]. split; [auto|]. intros _. apply not_before_refl.
  Qed.
  Lemma c52 cs cs' id r r' :
    In r (accepted (run E db_empty cs) id) -> In r' (accepted (run E db_empty (cs ++ cs')) id) ->
    replier r = replier r' ->
    (not_before r r' \/ (by_bare_key r = false /\ by_bare_key r' = true))
    /\ ~ (by_bare_key r = true /\ by_bare_key r' = false).
  Proof.
    rewrite run_app. intros Hin Hin' Hrep. destruct (c52_succ cs cs' id r Hin) as [HI (r2 & H2 & Hr2 & Hl & Hm & Hs)].
    destruct (HI id) as [Hn Hf]. rewrite Forall_forall in Hf.
    assert (r2 = r').
    { eapply nodup_route; eauto. destruct (Hf r2 H2) as [-> _], (Hf r' Hin') as [-> _]. congruence. }
    subst r2. split; [exact Hl|]. intros [H0 H1]. specialize (Hm H0). congruence.
  Qed.
  (** an accepted reply is never dropped, only replaced *)
  Lemma c52_kept cs cs' id r :
    In r (accepted (run E db_empty cs) id) ->
    exists r', In r' (accepted (run E db_empty (cs ++ cs')) id) /\ replier r' = replier r.
  Proof. rewrite run_app. intros Hin. destruct (c52_succ cs cs' id r Hin) as [_ (r' & H1 & H2 & _)]. eauto. Qed.

  (** ** C53 *)
  Lemma c53_latest d r d' res :
    process E d (MKeyStateNotice r) = (d', Ok res) ->
    In r (accepted d' (sr_prefix r))
    /\ (forall r', In r' (accepted d' (sr_prefix r)) <->
          r' = r \/ (In r' (accepted d (sr_prefix r)) /\ reply_route r' <> reply_route r))
    /\ (forall id, id <> sr_prefix r -> accepted d' id = accepted d id).
  Proof.
    intros H. apply reply_accepted in H. destruct H as (_ & -> & _).
    assert (Hiff : forall r', In r' (accepted (update_accepted_reply d r (sr_prefix r)) (sr_prefix r)) <->
          r' = r \/ (In r' (accepted d (sr_prefix r)) /\ reply_route r' <> reply_route r)).
    { intros r'. rewrite accepted_update. destruct (IdentifierPrefix_eq_dec _ _) as [_|]; [|congruence].
      rewrite in_app_iff, filter_In. unfold other_route. cbn [In].
      destruct (Route_eq_dec (reply_route r') (reply_route r)); intuition congruence. }
    split; [apply Hiff; now left|]. split; [exact Hiff|]. intros id Hid. rewrite accepted_update.
    destruct (IdentifierPrefix_eq_dec _ _); congruence.
  Qed.
  Lemma c53_refused d r d' res :
    process E d (MKeyStateNotice r) = (d', res) -> (forall s, res <> Ok s) ->
    forall id, accepted d' id = accepted d id.
  Proof.
    intros H Hn. apply reply_outcome in H. destruct H as [(_ & _ & ->)|[(-> & _)|(-> & _)]]; try reflexivity.
    exfalso. eapply Hn. reflexivity.
  Qed.

  (** ** C54 *)
  Lemma verified_signed d ser r :
    e_ser_reply E (sr_reply r) = Ok ser -> proc_verify E d ser (sr_sig r) = Ok tt -> reply_signed E d r.
  Proof.
    intros H1 H2. exists ser. split; [exact H1|]. destruct (sr_sig r) as [seal sigs|bp sg].
    - now apply c33_transferable.
    - now apply c33_nontransferable in H2.
  Qed.
  Lemma check_digest_bound r : reply_check_digest E (sr_reply r) = Ok tt -> reply_bound E r.
  Proof.
    unfold reply_check_digest. intros H. apply obind_ok in H. destruct H as (data & Hd & H).
    exists data. split; [exact Hd|].
    destruct (verify_binding E (rp_digest (sr_reply r)) data) as [[|]| |] eqn:Hv; try discriminate H.
    unfold verify_binding in Hv. destruct (digest_aborts (sap_code (rp_digest (sr_reply r)))) eqn:Hab; [discriminate Hv|].
    injection Hv as Hv. apply aborts_computable in Hab. apply bytes_eqb_eq in Hv. auto.
  Qed.
  Lemma check_ksn_spec d r aid :
    Inv E d -> sr_prefix r <> id_default ->
    check_ksn E d (rp_ksn (sr_reply r)) aid = Ok tt ->
    exists e, last_event (log_of (log d (sr_prefix r))) = Some e /\ notice_names E r e.
  Proof.
    intros HI Hid H. unfold check_ksn in H. fold (sr_prefix r) in H.
    set (sn := st_sn (ksn_state (rp_ksn (sr_reply r)))) in *.
    apply obind_ok in H. destruct H as (ev & Hev & H).
    destruct (get_event_at_sn d (sr_prefix r) sn) as [ev'|] eqn:Hg; [|discriminate Hev].
    injection Hev as ->. destruct (get_event_spec _ _ _ _ Hg) as [Hin Hsn].
    apply obind_ok in H. destruct H as (b & Hb & H). apply obind_ok in H. destruct H as (u & Hu & H).
    destruct b; [|discriminate Hu]. apply check_digest_spec in Hb.
    apply obind_ok in H. destruct H as (u2 & _ & H).
    apply obind_ok in H. destruct H as (os & Hos & H). apply obind_ok in H. destruct H as (s & Hs & H).
    destruct os as [s'|]; [|discriminate Hs]. injection Hs as ->.
    destruct (N.ltb_spec (st_sn s) sn); [discriminate H|].
    destruct (N.eqb_spec (st_sn s) sn) as [Heq|]; [|discriminate H].
    unfold log in *. destruct (get_kel d (sr_prefix r)) as [l|] eqn:Hl; [|destruct Hin]. cbn [olist] in *.
    destruct (HI _ _ Hid Hl) as [s2 Hgood]. rewrite (compute_state_good E d _ l s2 Hid Hl Hgood) in Hos. injection Hos as ->.
    destruct (good_log_shape E _ _ _ Hid Hgood) as (Hsns & Hsh & _).
    destruct (rev l) as [|e0 l0] eqn:Hrev; [apply rev_nil_inv in Hrev; subst l; destruct Hin|].
    assert (Hl0 : l = rev l0 ++ [e0]) by (rewrite <- (rev_involutive l), Hrev; reflexivity).
    exists (sem_msg e0). rewrite Hl0, log_of_app. cbn. rewrite last_event_snoc. split; [reflexivity|].
    destruct Hsh as (_ & Hlen & _).
    assert (ev = e0).
    { assert (Hnth : nth_error l (List.length l0) = Some e0).
      { rewrite Hl0, nth_error_app2; rewrite rev_length; [|lia]. now rewrite Nat.sub_diag. }
      assert (Hlenl : List.length l = S (List.length l0)).
      { rewrite Hl0, app_length, rev_length. cbn. lia. }
      apply In_nth_error in Hin. destruct Hin as [k Hk].
      assert (em_sn (sem_msg ev) = N.of_nat k) by (pose proof (Hsns k ev Hk); lia).
      assert (k = List.length l0) by lia. subst k. congruence. }
    subst ev. split; assumption.
  Qed.
  Lemma c54 cs r d' res :
    sr_prefix r <> id_default ->
    process E (run E db_empty cs) (MKeyStateNotice r) = (d', Ok res) ->
    reply_route r = RReplyKsn (replier r)
    /\ reply_signed E (run E db_empty cs) r /\ reply_bound E r
    /\ exists e, last_event (log_of (log (run E db_empty cs) (sr_prefix r))) = Some e /\ notice_names E r e.
  Proof.
    intros Hid H. apply reply_accepted in H. destruct H as ((H1 & (ser & Hser & Hv) & Hd & _ & Hk) & _).
    split; [exact H1|]. split; [eapply verified_signed; eauto|]. split; [now apply check_digest_bound|].
    eapply check_ksn_spec; eauto. apply Inv_reachable.
  Qed.
  (** what the table holds stays justified *)
  Definition Justified (d : Db) (r : SignedReply) : Prop :=
    reply_signed E d r /\ reply_bound E r
    /\ exists e, In e (log_of (log d (sr_prefix r))) /\ notice_names E r e.
  Definition JInv (d : Db) : Prop :=
    Inv E d /\ RpyInv d /\ forall id r, id <> id_default -> In r (accepted d id) -> replier r <> id_default -> Justified d r.
  Lemma justified_extend d d' r :
    sr_prefix r <> id_default -> replier r <> id_default ->
    (forall id, id <> id_default -> exists ext, log d' id = log d id ++ ext) ->
    Justified d r -> Justified d' r.
  Proof.
    intros Hid Hrep Hx (Hs & Hb & e & He & Hn). split; [|split; [exact Hb|]].
    - destruct Hs as (ser & Hser & Hs). exists ser. split; [exact Hser|].
      unfold replier in Hrep. destruct (sr_sig r) as [seal sigs|bp sg]; [|exact Hs].
      destruct Hs as (ev & kc & Hin & Hrest). exists ev, kc. split; [|exact Hrest].
      destruct (Hx _ Hrep) as [ext ->]. apply in_or_app. now left.
    - exists e. split; [|exact Hn]. destruct (Hx _ Hid) as [ext ->]. rewrite log_of_app. apply in_or_app. now left.
  Qed.
  Lemma last_event_in l e : last_event l = Some e -> In e l.
  Proof.
    induction l as [|a l IH]; [discriminate|]. unfold last_event in *. cbn [last_such].
    destruct (last_such (fun _ => true) l); [intros H; right; now apply IH|]. intros H. injection H as <-. now left.
  Qed.
  Lemma kel_log d d' : db_kel d' = db_kel d -> forall id, log d' id = log d id.
  Proof. intros H id. unfold log, get_kel. now rewrite H. Qed.
  Lemma same_log_ext d d' : db_kel d' = db_kel d -> forall id, id <> id_default -> exists ext, log d' id = log d id ++ ext.
  Proof. intros H id _. exists []. rewrite app_nil_r. now apply kel_log. Qed.
  Lemma JInv_reply d r : JInv d -> JInv (fst (process_signed_reply E d r)).
  Proof.
    intros (HI & HR & HJ). pose proof (reply_frame E db_kel (fun _ _ => eq_refl) (fun _ _ => eq_refl) d r) as Hkel.
    split; [eapply Inv_kel; eauto|]. split; [now apply RpyInv_reply|].
    pose proof (same_log_ext _ _ Hkel) as Hext.
    assert (Hpi : forall id x, In x (accepted (fst (process_signed_reply E d r)) id) -> sr_prefix x = id).
    { intros id x Hx. destruct (RpyInv_reply d r HR id) as [_ Hf]. rewrite Forall_forall in Hf. now apply Hf. }
    intros id x Hid Hx Hrep. pose proof (Hpi _ _ Hx) as Hpx.
    eapply justified_extend; [congruence|exact Hrep|exact Hext|]. clear Hext Hpi Hkel.
    destruct (process_signed_reply E d r) as [d' res] eqn:Hp. cbn [fst] in *.
    apply reply_outcome in Hp. destruct Hp as [(Ha & -> & _)|[(-> & _)|(-> & _)]]; [|eauto..].
    rewrite accepted_update in Hx. destruct (IdentifierPrefix_eq_dec id (sr_prefix r)) as [He|]; [|eauto].
    apply in_app_or in Hx. destruct Hx as [Hx|[<-|[]]]; [apply filter_In in Hx; destruct Hx as [Hx _]; now apply (HJ id)|].
    destruct Ha as (H1 & (ser & Hser & Hv) & Hd & _ & Hk).
    split; [eapply verified_signed; eauto|]. split; [now apply check_digest_bound|].
    destruct (check_ksn_spec _ _ _ HI (fun h => Hid (eq_trans He h)) Hk) as (e & He' & Hn). exists e. split; [now apply last_event_in|exact Hn].
  Qed.
  Lemma JInv_call d c : JInv d -> JInv (call E d c).
  Proof.
    intros HJ. destruct c as [m|].
    - destruct m as [se|r|r|r|q]; cbn [call process];
        [| | |now apply JInv_reply|exact HJ].
      + destruct HJ as (HI & HR & HJ).
        assert (Hf : db_rpy (fst (process_event E d se)) = db_rpy d) by (apply (event_frame E db_rpy); reflexivity).
        split; [now apply Inv_process_event|]. split; [intros i; rewrite (accepted_frame _ _ Hf); apply HR|].
        intros id x Hid Hx Hrep. rewrite (accepted_frame _ _ Hf) in Hx.
        assert (sr_prefix x = id) by (destruct (HR id) as [_ HF]; rewrite Forall_forall in HF; now apply HF).
        eapply justified_extend; [congruence|exact Hrep| |now apply (HJ id)].
        intros i Hi. apply (call_extends E d (CProcess (MEvent se)) i HI Hi).
      + destruct HJ as (HI & HR & HJ).
        assert (Hf : db_rpy (fst (process_witness_receipt E d r)) = db_rpy d) by (apply (witness_frame E db_rpy); reflexivity).
        assert (Hk : db_kel (fst (process_witness_receipt E d r)) = db_kel d) by (apply (witness_frame E db_kel); reflexivity).
        split; [eapply Inv_kel; eauto|]. split; [intros i; rewrite (accepted_frame _ _ Hf); apply HR|].
        intros id x Hid Hx Hrep. rewrite (accepted_frame _ _ Hf) in Hx.
        assert (sr_prefix x = id) by (destruct (HR id) as [_ HF]; rewrite Forall_forall in HF; now apply HF).
        apply (justified_extend d); [congruence|exact Hrep|now apply same_log_ext|now apply (HJ id)].
      + destruct HJ as (HI & HR & HJ).
        assert (Hf : db_rpy (fst (process_validator_receipt E d r)) = db_rpy d) by (apply (validator_frame E db_rpy); reflexivity).
        assert (Hk : db_kel (fst (process_validator_receipt E d r)) = db_kel d) by (apply (validator_frame E db_kel); reflexivity).
        split; [eapply Inv_kel; eauto|]. split; [intros i; rewrite (accepted_frame _ _ Hf); apply HR|].
        intros id x Hid Hx Hrep. rewrite (accepted_frame _ _ Hf) in Hx.
        assert (sr_prefix x = id) by (destruct (HR id) as [_ HF]; rewrite Forall_forall in HF; now apply HF).
        apply (justified_extend d); [congruence|exact Hrep|now apply same_log_ext|now apply (HJ id)].
    - cbn [call]. apply escrow_ind; [apply JInv_reply| |exact HJ].
      intros x r (HI & HR & HJx). split; [eapply Inv_kel; [|exact HI]; reflexivity|].
      split; [exact HR|]. intros id y Hid Hy Hrep.
      assert (sr_prefix y = id) by (destruct (HR id) as [_ HF]; rewrite Forall_forall in HF; now apply HF).
      apply (justified_extend x); [congruence|exact Hrep|now apply same_log_ext|now apply (HJx id)].
  Qed.
  Lemma JInv_reachable cs : JInv (run E db_empty cs).
  Proof.
    assert (G : forall cs d, JInv d -> JInv (run E d cs)).
    { clear cs. induction cs as [|c cs IH]; intros d H; [exact H|]. cbn. apply IH. now apply JInv_call. }
    apply G. split; [apply Inv_empty|]. split; [intros id; cbn; split; constructor|]. intros id r _ [].
  Qed.

  (** ** C55: the reply escrow *)
  Definition removal (res : out (option IdentifierState)) : bool :=
    match res with
    | Ok _ | Err ESignatureVerification | Err (EQuery QStaleRpy) => true
    | _ => false
    end.
  (** the answer does not depend on the escrow *)
  Lemma answer_escrow d d' r :
    db_kel d' = db_kel d -> db_rpy d' = db_rpy d ->
    snd (process_signed_reply E d' r) = snd (process_signed_reply E d r).
  Proof.
    intros Hk Hr. destruct d as [a1 a2 a3 a4 a5 a6 a7 a8 a9], d' as [b1 b2 b3 b4 b5 b6 b7 b8 b9].
    cbn in Hk, Hr. subst b1 b8. unfold process_signed_reply.
    destruct (rp_route (sr_reply r)); try reflexivity. destruct (IdentifierPrefix_eq_dec _ _); [|reflexivity].
    destruct (e_ser_reply E (sr_reply r)) as [ser| |]; try reflexivity.
    change (proc_verify E (mkDb a1 b2 b3 b4 b5 b6 b7 a8 b9) ser (sr_sig r))
      with (proc_verify E (mkDb a1 a2 a3 a4 a5 a6 a7 a8 a9) ser (sr_sig r)).
    destruct (proc_verify _ _ _ _) as [|er|]; try reflexivity; [|destruct er; reflexivity].
    change (bada_logic (mkDb a1 b2 b3 b4 b5 b6 b7 a8 b9) r) with (bada_logic (mkDb a1 a2 a3 a4 a5 a6 a7 a8 a9) r).
    destruct (obind _ _) as [| |]; try reflexivity.
    change (check_ksn E (mkDb a1 b2 b3 b4 b5 b6 b7 a8 b9) (rp_ksn (sr_reply r)) id)
      with (check_ksn E (mkDb a1 a2 a3 a4 a5 a6 a7 a8 a9) (rp_ksn (sr_reply r)) id).
    destruct (check_ksn _ _ _ _) as [|er|]; try reflexivity. destruct er as [ | | | | | | | | | | | | |q]; try reflexivity.
    now destruct q.
  Qed.

  Lemma push_perm {T} (t : table T) id x : Permutation (flat_map snd (tpush t id x)) (x :: flat_map snd t).
  Proof.
    unfold tpush, tget, tput. induction t as [|[k l] t IH]; cbn; [constructor; constructor|].
    destruct (IdentifierPrefix_eq_dec id k) as [->|Hne]; cbn.
    - rewrite <- app_assoc. cbn. symmetry. apply Permutation_middle.
    - destruct (aget IdentifierPrefix_eq_dec t id) as [l'|]; cbn; rewrite IH; symmetry; apply Permutation_middle.
  Qed.
  Lemma in_tremove {T} (eqb : T -> T -> bool) (t : table T) id x y :
    In y (flat_map snd (tremove eqb t id x)) -> In y (flat_map snd t).
  Proof.
    unfold tremove, tget, tput. destruct (aget IdentifierPrefix_eq_dec t id) as [l|] eqn:Hg; [|auto].
    revert l Hg. induction t as [|[k l'] t IH]; cbn; intros l Hg; [discriminate|].
    destruct (IdentifierPrefix_eq_dec id k) as [->|Hne]; cbn; rewrite !in_app_iff.
    - injection Hg as ->. rewrite filter_In. intuition.
    - intros [H|H]; [now left|right; eauto].
  Qed.
  Lemma kept_tremove {T} (eqb : T -> T -> bool) (t : table T) id x y :
    (forall a b, eqb a b = true -> a = b) -> y <> x ->
    In y (flat_map snd t) -> In y (flat_map snd (tremove eqb t id x)).
  Proof.
    intros He Hne. unfold tremove, tget, tput. destruct (aget IdentifierPrefix_eq_dec t id) as [l|] eqn:Hg; [|auto].
    revert l Hg. induction t as [|[k l'] t IH]; cbn; intros l Hg; [discriminate|].
    destruct (IdentifierPrefix_eq_dec id k) as [->|Hk]; cbn; rewrite !in_app_iff.
    - injection Hg as ->. rewrite filter_In. intros [H|H]; [left|now right]. split; [exact H|].
      destruct (eqb y x) eqn:Hy; [apply He in Hy; congruence|reflexivity].
    - intros [H|H]; [now left|right; eauto].
  Qed.
  Lemma srpy_eqb_eq a b : srpy_eqb a b = true -> a = b.
  Proof. unfold srpy_eqb. destruct (SRpy_eq_dec a b); congruence. Qed.
  Lemma escrow_all d r : Permutation (get_all_escrowed_replys (escrow_reply d r)) (r :: get_all_escrowed_replys d).
  Proof. apply push_perm. Qed.

  Lemma escrow_loop_cons r l d :
    process_escrow_loop E (r :: l) d
    = match snd (process_signed_reply E d r) with
      | Panic => (fst (process_signed_reply E d r), Panic)
      | res => process_escrow_loop E l
                 (if removal res then remove_escrowed_reply (fst (process_signed_reply E d r)) (sr_prefix r) r
                  else fst (process_signed_reply E d r))
      end.
  Proof.
    cbn [process_escrow_loop]. destruct (process_signed_reply E d r) as [d1 res]. cbn [fst snd].
    destruct res as [|e|]; [reflexivity| |reflexivity]. destruct e as [ | | | | | | | | | | | | |q]; try reflexivity.
    now destruct q.
  Qed.
  (** one step of the pass keeps the logs, adds at most the reply itself, removes only it *)
  Lemma step_escrow d r :
    db_kel (fst (process_signed_reply E d r)) = db_kel d
    /\ (forall x, In x (get_all_escrowed_replys (fst (process_signed_reply E d r))) -> x = r \/ In x (get_all_escrowed_replys d))
    /\ (forall x, In x (get_all_escrowed_replys d) -> In x (get_all_escrowed_replys (fst (process_signed_reply E d r)))).
  Proof.
    split; [apply (reply_frame E db_kel); reflexivity|].
    destruct (process_signed_reply E d r) as [d' res] eqn:Hp. cbn [fst]. apply reply_outcome in Hp.
    destruct Hp as [(_ & -> & _)|[(-> & _)|(-> & _)]]; [| |auto].
    - assert (Hf : db_esc_rpy (update_accepted_reply d r (sr_prefix r)) = db_esc_rpy d)
        by (apply (upd_frame db_esc_rpy); reflexivity).
      unfold get_all_escrowed_replys. rewrite Hf. auto.
    - split; intros x Hx.
      + apply (Permutation_in _ (escrow_all d r)) in Hx. destruct Hx as [<-|Hx]; auto.
      + apply (Permutation_in _ (Permutation_sym (escrow_all d r))). now right.
  Qed.
  Lemma escrow_loop_kel l d : db_kel (fst (process_escrow_loop E l d)) = db_kel d.
  Proof.
    revert d. induction l as [|r l IH]; intros d; [reflexivity|]. rewrite escrow_loop_cons.
    destruct (step_escrow d r) as (Hk & _).
    destruct (snd (process_signed_reply E d r)) as [a|e|]; [rewrite IH|rewrite IH|exact Hk].
    - destruct (removal (Ok a)); exact Hk.
    - destruct (removal (Err e)); exact Hk.
  Qed.
  Lemma in_all_remove d id r y : In y (get_all_escrowed_replys (remove_escrowed_reply d id r)) -> In y (get_all_escrowed_replys d).
  Proof. apply in_tremove. Qed.
  Lemma escrow_loop_in l d x :
    In x (get_all_escrowed_replys (fst (process_escrow_loop E l d))) -> In x l \/ In x (get_all_escrowed_replys d).
  Proof.
    revert d. induction l as [|r l IH]; intros d; [auto|]. rewrite escrow_loop_cons.
    destruct (step_escrow d r) as (_ & Hadd & _).
    assert (G : In x (get_all_escrowed_replys (fst (process_signed_reply E d r))) -> In x (r :: l) \/ In x (get_all_escrowed_replys d)).
    { intros H. apply Hadd in H. destruct H as [->|H]; [left; now left|now right]. }
    destruct (snd (process_signed_reply E d r)) as [a|e|]; [| |exact G].
    - intros H. apply IH in H. destruct H as [H|H]; [left; now right|]. apply G. revert H.
      cbn [removal]. apply in_all_remove.
    - intros H. apply IH in H. destruct H as [H|H]; [left; now right|]. apply G. revert H.
      destruct (removal (Err e)); [apply in_all_remove|auto].
  Qed.
  Lemma c55_nothing_new d x :
    In x (get_all_escrowed_replys (fst (process_escrow E d))) -> In x (get_all_escrowed_replys d).
  Proof. intros H. apply escrow_loop_in in H. now destruct H. Qed.
  Lemma c55_removed_loop l d x :
    In x (get_all_escrowed_replys d) -> ~ In x (get_all_escrowed_replys (fst (process_escrow_loop E l d))) ->
    In x l /\ exists d1, db_kel d1 = db_kel d /\ removal (snd (process_signed_reply E d1 x)) = true.
  Proof.
    revert d. induction l as [|r l IH]; intros d Hin; [intros H; now destruct H|]. rewrite escrow_loop_cons.
    destruct (step_escrow d r) as (Hk & _ & Hkeep). specialize (Hkeep x Hin).
    intros Hgone.
    assert (G : forall d2, db_kel d2 = db_kel d -> In x (get_all_escrowed_replys d2) ->
       ~ In x (get_all_escrowed_replys (fst (process_escrow_loop E l d2))) ->
       In x (r :: l) /\ exists d1, db_kel d1 = db_kel d /\ removal (snd (process_signed_reply E d1 x)) = true).
    { intros d2 Hk2 H1 H2. destruct (IH d2 H1 H2) as [H3 (d1 & H4 & H5)]. split; [now right|]. exists d1. split; congruence. }
    destruct (SRpy_eq_dec x r) as [->|Hne].
    - destruct (removal (snd (process_signed_reply E d r))) eqn:Hr; [split; [now left|]; exists d; auto|].
      destruct (snd (process_signed_reply E d r)) as [a|e|] eqn:Hs; [discriminate Hr| |contradiction].
      rewrite Hr in Hgone. eapply G; eauto.
    - destruct (snd (process_signed_reply E d r)) as [a|e|] eqn:Hs; [| |contradiction].
      + cbn [removal] in Hgone. apply G in Hgone; [exact Hgone|exact Hk|]. apply kept_tremove; [apply srpy_eqb_eq|exact Hne|exact Hkeep].
      + destruct (removal (Err e)).
        * apply G in Hgone; [exact Hgone|exact Hk|]. apply kept_tremove; [apply srpy_eqb_eq|exact Hne|exact Hkeep].
        * eapply G; eauto.
  Qed.
  Lemma c55_removed d x :
    In x (get_all_escrowed_replys d) -> ~ In x (get_all_escrowed_replys (fst (process_escrow E d))) ->
    exists d1, db_kel d1 = db_kel d /\ removal (snd (process_signed_reply E d1 x)) = true.
  Proof. intros H1 H2. destruct (c55_removed_loop _ _ _ H1 H2) as [_ H]. exact H. Qed.

  Lemma escrow_ne d r : d <> escrow_reply d r.
  Proof.
    intros H. pose proof (Permutation_length (escrow_all d r)) as Hp. rewrite <- H in Hp. cbn [List.length] in Hp. lia.
  Qed.
  Definition put_off (d : Db) (r : SignedReply) : Prop :=
    process_signed_reply E d r = (escrow_reply d r, Err (EQuery QOutOfOrder)).
  Lemma put_off_same d d' r : db_kel d' = db_kel d -> db_rpy d' = db_rpy d -> put_off d r -> put_off d' r.
  Proof.
    unfold put_off. intros Hk Hr. pose proof (escrow_ne d r) as Hn.
    destruct d as [a1 a2 a3 a4 a5 a6 a7 a8 a9], d' as [b1 b2 b3 b4 b5 b6 b7 b8 b9].
    cbn in Hk, Hr. subst b1 b8. unfold process_signed_reply.
    destruct (rp_route (sr_reply r)); [congruence|congruence|]. destruct (IdentifierPrefix_eq_dec _ _); [|congruence].
    destruct (e_ser_reply E (sr_reply r)) as [ser| |]; [|congruence|congruence].
    change (proc_verify E (mkDb a1 b2 b3 b4 b5 b6 b7 a8 b9) ser (sr_sig r))
      with (proc_verify E (mkDb a1 a2 a3 a4 a5 a6 a7 a8 a9) ser (sr_sig r)).
    destruct (proc_verify _ _ _ _) as [|er|]; [|destruct er; congruence|congruence].
    change (bada_logic (mkDb a1 b2 b3 b4 b5 b6 b7 a8 b9) r) with (bada_logic (mkDb a1 a2 a3 a4 a5 a6 a7 a8 a9) r).
    destruct (obind _ _) as [| |]; [|congruence|congruence].
    change (check_ksn E (mkDb a1 b2 b3 b4 b5 b6 b7 a8 b9) (rp_ksn (sr_reply r)) id)
      with (check_ksn E (mkDb a1 a2 a3 a4 a5 a6 a7 a8 a9) (rp_ksn (sr_reply r)) id).
    destruct (check_ksn _ _ _ _) as [|er|]; [congruence| |congruence].
    destruct er as [ | | | | | | | | | | | | |q]; try congruence. now destruct q; try congruence.
  Qed.
  (** a pass over replies that are all out of order writes every one of them again *)
  Lemma double_loop l d :
    (forall r, In r l -> put_off d r) ->
    snd (process_escrow_loop E l d) = Ok tt
    /\ Permutation (get_all_escrowed_replys (fst (process_escrow_loop E l d))) (l ++ get_all_escrowed_replys d)
    /\ db_kel (fst (process_escrow_loop E l d)) = db_kel d /\ db_rpy (fst (process_escrow_loop E l d)) = db_rpy d.
  Proof.
    revert d. induction l as [|r l IH]; intros d H; [cbn; auto|]. rewrite escrow_loop_cons.
    pose proof (H r (or_introl eq_refl)) as Hr. unfold put_off in Hr. rewrite !Hr. cbn [removal fst snd].
    destruct (IH (escrow_reply d r)) as (I1 & I2 & I3 & I4).
    { intros y Hy. apply (put_off_same d); [reflexivity|reflexivity|]. apply H. now right. }
    split; [exact I1|]. split; [|split; [exact I3|exact I4]].
    rewrite I2, (escrow_all d r). cbn. symmetry. apply Permutation_middle.
  Qed.
  Lemma c55_double d :
    (forall r, In r (get_all_escrowed_replys d) -> put_off d r) ->
    let d' := fst (process_escrow E d) in
    Permutation (get_all_escrowed_replys d') (get_all_escrowed_replys d ++ get_all_escrowed_replys d)
    /\ (forall r, In r (get_all_escrowed_replys d') -> put_off d' r).
  Proof.
    intros H. destruct (double_loop _ _ H) as (_ & H2 & H3 & H4). cbv zeta. split; [exact H2|].
    intros r Hr. apply (put_off_same d); [exact H3|exact H4|]. apply H. now apply c55_nothing_new.
  Qed.
  Lemma c55_power d n :
    (forall r, In r (get_all_escrowed_replys d) -> put_off d r) ->
    List.length (get_all_escrowed_replys (run E d (repeat CEscrow n))) = 2 ^ n * List.length (get_all_escrowed_replys d).
  Proof.
    revert d. induction n as [|n IH]; intros d H; [cbn; lia|]. cbn [repeat run fold_left call].
    destruct (c55_double d H) as [H1 H2]. unfold run in IH. rewrite IH by exact H2.
    rewrite (Permutation_length H1), app_length. cbn [Nat.pow]. lia.
  Qed.
  (** a pass never shrinks below what is removed: a stale notice alone in escrow stays *)
  Lemma c55_kept d r e :
    get_all_escrowed_replys d = [r] -> process_signed_reply E d r = (d, Err e) -> removal (Err e) = false ->
    process_escrow E d = (d, Ok tt).
  Proof.
    intros Hd Hp He. unfold process_escrow. rewrite Hd, escrow_loop_cons, Hp. cbn [snd fst]. rewrite He. reflexivity.
  Qed.
  (** a notice about an event that is no longer the last one is never accepted again *)
  Lemma c55_dead cs cs' r e :
    sr_prefix r <> id_default ->
    last_event (log_of (log (run E db_empty cs) (sr_prefix r))) = Some e ->
    (st_sn (ksn_state (rp_ksn (sr_reply r))) < em_sn e)%N ->
    forall res, snd (process E (run E db_empty (cs ++ cs')) (MKeyStateNotice r)) <> Ok res.
  Proof.
    intros Hid Hlast Hlt res H. destruct (process E (run E db_empty (cs ++ cs')) (MKeyStateNotice r)) as [d' x] eqn:Hp.
    cbn in H. subst x. destruct (c54 _ _ _ _ Hid Hp) as (_ & _ & _ & e' & Hl' & Hsn & _).
    destruct (c22_append E cs cs' (sr_prefix r) Hid) as [ext Hx].
    assert (Hsns : forall cs0 k x, nth_error (log (run E db_empty cs0) (sr_prefix r)) k = Some x -> em_sn (sem_msg x) = N.of_nat k).
    { intros cs0 k x. unfold log. destruct (get_kel (run E db_empty cs0) (sr_prefix r)) as [l|] eqn:Hl; [|now destruct k].
      intros Hk. now apply (c01_sns E cs0 _ _ k x Hid Hl). }
    assert (Hnth : forall l x, last_event (log_of l) = Some x -> exists k y, nth_error l k = Some y /\ sem_msg y = x /\ S k = List.length l).
    { intros l x Hx'. destruct (rev l) as [|y l0] eqn:Hr; [apply rev_nil_inv in Hr; subst l; discriminate Hx'|].
      assert (Hl : l = rev l0 ++ [y]) by (rewrite <- (rev_involutive l), Hr; reflexivity).
      subst l. rewrite log_of_app in Hx'. cbn in Hx'. rewrite last_event_snoc in Hx'. injection Hx' as <-.
      exists (List.length l0), y. rewrite app_length, nth_error_app2, rev_length, Nat.sub_diag by (rewrite rev_length; lia).
      cbn. split; [reflexivity|]. split; [reflexivity|lia]. }
    destruct (Hnth _ _ Hlast) as (k & y & Hk & <- & Hlen). destruct (Hnth _ _ Hl') as (k' & y' & Hk' & <- & Hlen').
    rewrite (Hsns _ _ _ Hk) in Hlt. rewrite (Hsns _ _ _ Hk') in Hsn.
    assert (List.length (log (run E db_empty cs) (sr_prefix r)) <= List.length (log (run E db_empty (cs ++ cs')) (sr_prefix r))).
    { rewrite Hx, app_length. lia. }
    lia.
  Qed.

  (** ** C69 *)
  Lemma check_digest_same m g : check_digest E m g = Ok true -> sap_code g = sap_code (em_digest m) -> g = em_digest m.
  Proof.
    intros H Hc. apply check_digest_spec in H. destruct H as [H|[H _]]; congruence.
  Qed.
  Lemma c69 cs r d' s :
    sr_prefix r <> id_default ->
    process E (run E db_empty cs) (MKeyStateNotice r) = (d', Ok (Some s)) ->
    s = ksn_state (rp_ksn (sr_reply r))
    /\ exists s0, compute_state E (run E db_empty cs) (sr_prefix r) = Ok (Some s0)
      /\ st_prefix s = st_prefix s0 /\ st_sn s = st_sn s0
      /\ (sap_code (st_last_digest s) = sap_code (st_last_digest s0) -> st_last_digest s = st_last_digest s0).
  Proof.
    intros Hid H. destruct (c54 _ _ _ _ Hid H) as (_ & _ & _ & e & He & Hsn & Hdig).
    apply reply_accepted in H. destruct H as (_ & _ & Hs). injection Hs as ->. split; [reflexivity|].
    unfold log in He. destruct (get_kel (run E db_empty cs) (sr_prefix r)) as [l|] eqn:Hl; [|discriminate He].
    cbn [olist] in He. destruct (reach_good E _ _ _ Hid Hl) as (s0 & Hg & Hc). exists s0. split; [exact Hc|].
    destruct (good_log_shape E _ _ _ Hid Hg) as (Hsns & Hsh & _).
    destruct (rev l) as [|e0 l0] eqn:Hr; [apply rev_nil_inv in Hr; subst l; discriminate He|].
    assert (Hl0 : l = rev l0 ++ [e0]) by (rewrite <- (rev_involutive l), Hr; reflexivity).
    rewrite Hl0, log_of_app in He. cbn in He. rewrite last_event_snoc in He. injection He as <-.
    destruct Hsh as (Hp & Hlen & Hd). split; [symmetry; exact Hp|].
    assert (Hnth : nth_error l (List.length l0) = Some e0).
    { rewrite Hl0, nth_error_app2; rewrite rev_length; [|lia]. now rewrite Nat.sub_diag. }
    pose proof (Hsns _ _ Hnth). assert (List.length l = S (List.length l0)) by (rewrite Hl0, app_length, rev_length; cbn; lia).
    split; [lia|]. rewrite Hd. intros Hcode. destruct Hdig as [Hdig|[Hdig _]]; congruence.
  Qed.
End WithEnv.
