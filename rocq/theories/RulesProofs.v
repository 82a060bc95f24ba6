(** * RulesProofs: receipts and replies are taken exactly by the rules of [SpecRules2]. *)
From Verif Require Import Base Base64 Codes NumFmt Types KeyConf SpecSig State Db Processor Spec SpecProc SpecQuery SpecRules2
  StateProofs LogProofs LogTheorems LogTheorems2 SigProofs ProcProofs ProcProofs2 ProcProofs3 QueryProofs AcceptProofs.
Local Open Scope nat_scope.

Section S.
  Context (E : Env) (cs : list Call).
  Notation d := (run E db_empty cs).
  Notation logs := (fun id => log_of (log (run E db_empty cs) id)).

  Lemma event_at_iff id sn e :
    id <> id_default -> (get_event_at_sn d id sn = Some e <-> In e (log d id) /\ em_sn (sem_msg e) = sn).
  Proof.
    intros Hid. split; [apply get_event_spec|]. intros (Hin & Hsn).
    rewrite get_event_log. destruct (find _ (log d id)) as [e'|] eqn:Hf.
    - apply find_some in Hf as (Hin' & Hsn'). apply N.eqb_eq in Hsn'. f_equal.
      apply (c22_first_seen E cs [] id e' e Hid); [exact Hin'|rewrite app_nil_r; exact Hin|congruence].
    - exfalso. pose proof (find_none _ _ Hf e Hin) as H. cbn in H. apply N.eqb_neq in H. contradiction.
  Qed.
  Lemma event_at_msg id sn m :
    id <> id_default -> In m (log_of (log d id)) -> em_sn m = sn ->
    exists e, get_event_at_sn d id sn = Some e /\ sem_msg e = m.
  Proof.
    intros Hid Hin Hsn. unfold log_of in Hin. apply in_map_iff in Hin as (e & <- & Hin).
    exists e. split; [|reflexivity]. now apply event_at_iff.
  Qed.
  Lemma keys_at_iff id sn g kc :
    id <> id_default -> (forall m, In m (log_of (log d id)) -> exists x, e_deriv_data E m = Ok x) ->
    (get_keys_at_event E d id sn g = Ok kc <->
     exists m, In m (log_of (log d id)) /\ em_sn m = sn /\ digest_of_event E m g /\ est_keys m = Some kc).
  Proof.
    intros Hid Hx. split.
    - intros H. destruct (keys_at_event_spec _ _ _ _ _ _ H) as (e & H1 & H2 & H3 & H4). exists (sem_msg e).
      split; [unfold log_of; now apply in_map|auto].
    - intros (m & H1 & H2 & H3 & H4). destruct (event_at_msg id sn m Hid H1 H2) as (e & He & <-).
      unfold get_keys_at_event. rewrite He. destruct (check_digest_iff E (sem_msg e) g (Hx _ H1)) as (Hb & _).
      apply Hb in H3. rewrite H3. cbn. unfold est_keys in H4. destruct (em_data (sem_msg e)); congruence.
  Qed.
  Definition readable (id : IdentifierPrefix) : Prop :=
    forall m, In m (log_of (log d id)) ->
      (exists x, e_deriv_data E m = Ok x) /\ forall kc, est_keys m = Some kc -> rational_threshold (kc_threshold kc).
  Lemma sealed_iff seal data sigs :
    es_prefix seal <> id_default -> readable (es_prefix seal) ->
    ((let? kc := get_keys_at_event E d (es_prefix seal) (es_sn seal) (es_digest seal) in kc_verify E kc data sigs) = Ok true
     <-> signed_by_sealed_keys E logs seal data sigs).
  Proof.
    intros Hid Hr. assert (Hx : forall m, In m (log_of (log d (es_prefix seal))) -> exists x, e_deriv_data E m = Ok x)
      by (intros m Hm; apply (Hr m Hm)).
    split.
    - intros H. apply obind_ok in H as (kc & Hk & Hv). apply keys_at_iff in Hk as (m & H1 & H2 & H3 & H4); auto.
      apply verify_iff in Hv as (H5 & H6); [|eapply Hr; eauto]. exists m, kc. auto 7.
    - intros (m & kc & H1 & H2 & H3 & H4 & H5 & H6).
      assert (Hk : get_keys_at_event E d (es_prefix seal) (es_sn seal) (es_digest seal) = Ok kc) by (apply keys_at_iff; auto; eauto 7).
      rewrite Hk. cbn. apply verify_iff; [eapply Hr; eauto|auto].
  Qed.

  Lemma receipt_iff r :
    rct_prefix (tr_body r) <> id_default -> es_prefix (tr_seal r) <> id_default -> readable (es_prefix (tr_seal r)) ->
    ((exists d' s, process E d (MTransferableRct r) = (d', Ok s)) <-> receiptable E logs r).
  Proof.
    intros Hid Hv Hr. cbn [process]. unfold process_validator_receipt. split.
    - intros (d' & s & H). destruct (get_event_at_sn d _ _) as [ev|] eqn:Hev; [|discriminate H].
      destruct (get_keys_at_event E d (es_prefix (tr_seal r)) (es_sn (tr_seal r)) (es_digest (tr_seal r))) as [kc| |] eqn:Hk;
        cbn [obind] in H; [|discriminate H..].
      destruct (e_ser_event E (sem_msg ev)) as [ser| |] eqn:Hser; cbn [obind] in H; [|discriminate H..].
      destruct (kc_verify E kc ser (tr_sigs r)) as [[|]| |] eqn:Hkv; try discriminate H.
      apply event_at_iff in Hev as (Hin & Hsn); [|exact Hid].
      exists (sem_msg ev), ser. split; [unfold log_of; now apply in_map|]. split; [exact Hsn|]. split; [exact Hser|].
      apply sealed_iff; auto. rewrite Hk. exact Hkv.
    - intros (m & ser & H1 & H2 & H3 & H4). destruct (event_at_msg _ _ m Hid H1 H2) as (ev & Hev & <-). rewrite Hev.
      apply sealed_iff in H4; auto. apply obind_ok in H4 as (kc & Hk & Hkv). rewrite Hk. cbn [obind]. rewrite H3. cbn [obind]. rewrite Hkv.
      set (d1 := add_receipt_t d r _).
      assert (Hc : exists s, compute_state E d1 (rct_prefix (tr_body r)) = Ok s).
      { assert (Hsame : compute_state E d1 (rct_prefix (tr_body r)) = compute_state E d (rct_prefix (tr_body r))) by reflexivity.
        rewrite Hsame. destruct (reach_log_good E cs _ Hid) as (s & _ & Hs). destruct (compute_state _ _ _); try contradiction. eauto. }
      destruct Hc as (s & ->). eauto.
  Qed.

  Lemma find_route_iff rt l o :
    NoDup (map reply_route l) -> (find_route rt l = Some o <-> In o l /\ reply_route o = rt).
  Proof.
    intros Hn. split; [apply find_route_spec|]. intros (H1 & <-). now apply find_route_in.
  Qed.
  Lemma find_route_none rt l : find_route rt l = None <-> forall o, In o l -> reply_route o <> rt.
  Proof.
    unfold find_route. split.
    - intros H o Ho Hr. pose proof (find_none _ _ H o Ho) as Hx. cbn in Hx. unfold reply_route in Hr.
      destruct (Route_eq_dec _ _); [discriminate|contradiction].
    - intros H. destruct (find _ l) as [o|] eqn:Hf; [|reflexivity]. apply find_some in Hf as (H1 & H2).
      destruct (Route_eq_dec _ _) as [He|]; [|discriminate]. exfalso. now apply (H o H1).
  Qed.
  Definition bada_part (old new : SignedReply) : Prop :=
    match sr_sig new with
    | Transferable seal _ =>
        exists seal' sigs', sr_sig old = Transferable seal' sigs'
          /\ ((es_sn seal' < es_sn seal)%N \/ (es_sn seal' = es_sn seal /\ (reply_time old <= reply_time new)%Z))
    | NonTransferable _ _ => (reply_time old <= reply_time new)%Z
    end.
  Lemma bada_iff r :
    (bada_logic d r = Ok tt \/ bada_logic d r = Err (EQuery QNoSavedReply)) <->
    (forall old, In old (accepted d (sr_prefix r)) -> reply_route old = RReplyKsn (replier r) -> bada_part old r).
  Proof.
    destruct (RpyInv_reachable E cs (sr_prefix r)) as (Hn & _).
    set (acc := accepted d (sr_prefix r)) in *.
    assert (Hf : forall X : Prop, (find_route (RReplyKsn (replier r)) acc = None -> X) ->
                 (forall o, find_route (RReplyKsn (replier r)) acc = Some o -> X) -> X).
    { intros X H1 H2. destruct (find_route (RReplyKsn (replier r)) acc) as [o|]; [now apply (H2 o)|now apply H1]. }
    apply Hf; clear Hf.
    - intros Hf. pose proof Hf as Hf'. rewrite find_route_none in Hf'. split; [intros _ o Ho Hr; exfalso; now apply (Hf' o)|]. intros _.
      unfold bada_logic. fold (accepted d (sr_prefix r)). fold acc. unfold replier in Hf.
      destruct (sr_sig r); rewrite Hf; auto.
    - intros o Hf. assert (Ho : forall x, In x acc -> reply_route x = RReplyKsn (replier r) -> x = o).
      { intros x H1 H2. assert (Hx : find_route (RReplyKsn (replier r)) acc = Some x) by now apply find_route_iff. congruence. }
      assert (Hio : In o acc /\ reply_route o = RReplyKsn (replier r)) by now apply find_route_iff.
      assert (Hall : (forall old, In old acc -> reply_route old = RReplyKsn (replier r) -> bada_part old r) <-> bada_part o r).
      { split; [intros H; now apply H|]. intros H x H1 H2. now rewrite (Ho x H1 H2). }
      rewrite Hall. unfold bada_logic. fold (accepted d (sr_prefix r)). fold acc. unfold replier in Hf. unfold bada_part, check_dts, reply_time.
      destruct (sr_sig r) as [seal sigs|bp sg]; rewrite Hf.
      + destruct (sr_sig o) as [os oss|]; [|split; [intros [H|H]; discriminate H|intros (a & b & H & _); discriminate H]].
        destruct (N.ltb_spec (es_sn os) (es_sn seal)) as [Hlt|Hge].
        { split; [intros _; exists os, oss; auto|auto]. }
        destruct (N.eqb_spec (es_sn os) (es_sn seal)) as [He|Hne].
        * destruct (Z.leb_spec (rp_timestamp (sr_reply o)) (rp_timestamp (sr_reply r))) as [Hle|Hgt].
          { split; [intros _; exists os, oss; auto|auto]. }
          split; [intros [H|H]; discriminate H|]. intros (a & b & H & [H'|(_ & H')]); injection H as <- <-; lia.
        * split; [intros [H|H]; discriminate H|]. intros (a & b & H & [H'|(H' & _)]); injection H as <- <-; lia.
      + destruct (Z.leb_spec (rp_timestamp (sr_reply o)) (rp_timestamp (sr_reply r))) as [Hle|Hgt].
        { split; auto. }
        split; [intros [H|H]; discriminate H|]. lia.
  Qed.
  Lemma stamp_iff r aid :
    (match check_timestamp_with_last_ksn d (ksn_timestamp (rp_ksn (sr_reply r))) (sr_prefix r) aid with
     | Err (EQuery QOutOfOrder) => Ok tt | x => x end) = Ok tt <->
    (forall old, In old (accepted d (sr_prefix r)) -> reply_route old = RReplyKsn aid -> (reply_time old <= ksn_timestamp (rp_ksn (sr_reply r)))%Z).
  Proof.
    destruct (RpyInv_reachable E cs (sr_prefix r)) as (Hn & _).
    unfold check_timestamp_with_last_ksn, accepted in *.
    destruct (get_accepted_replys d (sr_prefix r)) as [l|]; cbn [olist] in *; [|split; [intros _ o []|auto]].
    destruct (find_route (RReplyKsn aid) l) as [o|] eqn:Hf.
    - pose proof Hf as Hf'. apply find_route_iff in Hf' as (H1 & H2); [|exact Hn]. unfold reply_time.
      destruct (Z.ltb_spec (ksn_timestamp (rp_ksn (sr_reply r))) (rp_timestamp (sr_reply o))) as [Hlt|Hge].
      + split; [discriminate|]. intros H. specialize (H o H1 H2). lia.
      + split; [|auto]. intros _ x H3 H4. assert (Hx : find_route (RReplyKsn aid) l = Some x) by now apply find_route_iff.
        rewrite Hf in Hx. injection Hx as <-. exact Hge.
    - rewrite find_route_none in Hf. split; [|auto]. intros _ x H3 H4. exfalso. now apply (Hf x).
  Qed.
  Lemma ksn_iff r aid :
    sr_prefix r <> id_default -> (forall m, In m (logs (sr_prefix r)) -> exists x, e_deriv_data E m = Ok x) ->
    (check_ksn E d (rp_ksn (sr_reply r)) aid = Ok tt <->
     (exists e, last_event (logs (sr_prefix r)) = Some e /\ notice_names E r e)
     /\ (forall old, In old (accepted d (sr_prefix r)) -> reply_route old = RReplyKsn aid -> (reply_time old <= ksn_timestamp (rp_ksn (sr_reply r)))%Z)).
  Proof.
    intros Hid Hx. split.
    - intros H. split; [eapply check_ksn_spec; eauto; apply Inv_reachable|].
      apply stamp_iff. unfold check_ksn in H. fold (sr_prefix r) in H.
      apply obind_ok in H as (ev & _ & H). apply obind_ok in H as (b & _ & H). apply obind_ok in H as (u & _ & H).
      apply obind_ok in H as (u2 & H2 & _). destruct u2. exact H2.
    - intros ((e & Hl & Hn1 & Hn2) & Hts). apply stamp_iff in Hts. unfold check_ksn. fold (sr_prefix r).
      assert (Hin : In e (logs (sr_prefix r))) by now apply last_event_in.
      destruct (event_at_msg (sr_prefix r) _ e Hid Hin Hn1) as (ev & Hev & Hm). rewrite Hev. cbn [ok_or obind].
      rewrite Hm. destruct (check_digest_iff E e (st_last_digest (ksn_state (rp_ksn (sr_reply r)))) (Hx e Hin)) as (Hb & _).
      apply Hb in Hn2. rewrite Hn2. cbn [ok_if obind]. rewrite Hts. cbn [obind].
      destruct (reach_log_good E cs _ Hid) as (s & Hg & Hs).
      destruct (good_log_shape _ _ _ _ Hid Hg) as (_ & Hsh & _). cbv beta in Hl. rewrite last_event_rev, rev_log_of in Hl.
      assert (Hne : log d (sr_prefix r) <> []) by (intros Hz; rewrite Hz in Hl; discriminate Hl).
      assert (Hc : compute_state E d (sr_prefix r) = Ok (Some s)).
      { destruct (compute_state E d (sr_prefix r)) as [[s'|]| |] eqn:Hc; try contradiction; [now subst|].
        exfalso. unfold compute_state in Hc. unfold log in Hne. destruct (get_kel d (sr_prefix r)) as [l|] eqn:Hk; [|now apply Hne].
        destruct (reach_good E cs _ _ Hid Hk) as (s2 & _ & Hc2). unfold compute_state in Hc2. rewrite Hk in Hc2. congruence. }
      rewrite Hc. cbn [ok_or obind].
      destruct (log d (sr_prefix r)) as [|f kl] eqn:Hlog; [congruence|].
      destruct (rev (f :: kl)) as [|y rr] eqn:Hr; [discriminate Hl|]. destruct Hsh as (Q1 & Q2 & Q3).
      cbn [log_of map] in Hl. injection Hl as Hl.
      assert (Hy : nth_error (f :: kl) (List.length kl) = Some y).
      { assert (Hl0 : f :: kl = rev rr ++ [y]) by (rewrite <- (rev_involutive (f :: kl)), Hr; reflexivity).
        assert (Hlen : List.length (f :: kl) = List.length (rev rr ++ [y])) by now rewrite <- Hl0.
        rewrite app_length in Hlen. cbn in Hlen. rewrite Hl0, nth_error_app2 by lia.
        replace (List.length kl - List.length (rev rr)) with 0 by lia. reflexivity. }
      destruct (get_kel d (sr_prefix r)) as [l0|] eqn:Hk; [|unfold log in Hlog; rewrite Hk in Hlog; discriminate Hlog].
      assert (l0 = f :: kl) by (unfold log in Hlog; rewrite Hk in Hlog; exact Hlog). subst l0.
      pose proof (c01_sns E cs _ _ _ _ Hid Hk Hy) as Hsn. rewrite Hl in Hsn. cbn [List.length] in Q2.
      assert (Heq : st_sn s = st_sn (ksn_state (rp_ksn (sr_reply r)))) by lia.
      rewrite Heq, N.ltb_irrefl, N.eqb_refl. reflexivity.
  Qed.
  Lemma reply_iff r :
    sr_prefix r <> id_default -> (forall seal sigs, sr_sig r = Transferable seal sigs -> replier r <> id_default /\ readable (replier r)) ->
    (forall m, In m (logs (sr_prefix r)) -> exists x, e_deriv_data E m = Ok x) ->
    ((exists d' s, process E d (MKeyStateNotice r) = (d', Ok s)) <-> reply_allowed E logs (accepted d (sr_prefix r)) r).
  Proof.
    intros Hid Hrr Hx. cbn [process].
    assert (Ha : (exists d' s, process_signed_reply E d r = (d', Ok s)) <-> acceptable E d r).
    { split; [intros (d' & s & H); now apply reply_accepted in H|].
      intros (H1 & (ser & H2 & H3) & H4 & H5 & H6). unfold process_signed_reply.
      unfold reply_route in H1. rewrite H1. destruct (IdentifierPrefix_eq_dec _ _) as [_|Hne]; [|now rewrite signer_replier in Hne].
      rewrite H2, H3, H4. cbn [obind]. destruct H5 as [-> | ->]; rewrite H6; eauto. }
    rewrite Ha. unfold acceptable, reply_allowed.
    rewrite bada_iff, ksn_iff by assumption.
    assert (Hsig : (exists ser, e_ser_reply E (sr_reply r) = Ok ser /\ proc_verify E d ser (sr_sig r) = Ok tt) <->
      (exists ser, e_ser_reply E (sr_reply r) = Ok ser
        /\ match sr_sig r with
           | Transferable seal sigs => signed_by_sealed_keys E logs seal ser sigs
           | NonTransferable k sg => sig_ok E k ser sg
           end)).
    { assert (Hp : forall ser, proc_verify E d ser (sr_sig r) = Ok tt <-> match sr_sig r with
           | Transferable seal sigs => signed_by_sealed_keys E logs seal ser sigs
           | NonTransferable k sg => sig_ok E k ser sg end).
      { intros ser. unfold replier in Hrr. destruct (sr_sig r) as [seal sigs|k sg]; [|apply c33_nontransferable].
        destruct (Hrr seal sigs eq_refl) as [Hrep Hr].
        rewrite <- sealed_iff by assumption. unfold proc_verify. destruct (get_keys_at_event _ _ _ _ _) as [kc| |]; cbn [obind]; [|split; discriminate..].
        destruct (kc_verify E kc ser sigs) as [[|]| |]; cbn; split; try discriminate; auto. }
      split; intros (ser & H1 & H2); exists ser; (split; [exact H1|]); now apply Hp. }
    rewrite Hsig.
    assert (Hdig : reply_check_digest E (sr_reply r) = Ok tt <-> (exists data, e_deriv_reply E (sr_reply r) = Ok data
        /\ computable (sap_code (rp_digest (sr_reply r)))
        /\ e_digest E (sap_code (rp_digest (sr_reply r))) data = sap_digest (rp_digest (sr_reply r)))).
    { split; [apply check_digest_bound|]. intros (data & H1 & Hcm & H2). unfold reply_check_digest. rewrite H1. cbn [obind].
      unfold verify_binding. apply aborts_computable in Hcm. rewrite Hcm. cbn [obind]. rewrite H2, bytes_eqb_refl. reflexivity. }
    rewrite Hdig. unfold supersedes, notice_names.
    split.
    - intros (A1 & A2 & A3 & A4 & A5 & A6). repeat apply conj; auto. intros old Ho Hrt. rewrite A1 in Hrt. split; [now apply A4|now apply A6].
    - intros (A1 & A2 & A3 & A4 & A5). repeat apply conj; auto; intros old Ho Hrt; rewrite <- A1 in Hrt; now apply (A4 old Ho Hrt).
  Qed.
End S.
