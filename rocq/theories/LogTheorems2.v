(** * LogTheorems2: further state-machine lemmas (C07, C10, C11, identifiers). *)
From Verif Require Import Base Base64 Base64Proofs Codes NumFmt Types KeyConf State Db Processor Spec
  StateProofs LogProofs LogTheorems.

Lemma NoDup_app_intro {A} (l1 l2 : list A) :
  NoDup l1 -> NoDup l2 -> (forall x, In x l1 -> ~ In x l2) -> NoDup (l1 ++ l2).
Proof.
  induction l1 as [|a l1 IH]; intros H1 H2 Hd; [exact H2|]. cbn. inversion H1; subst. constructor.
  - rewrite in_app_iff. intros [H|H]; [contradiction|]. eapply Hd; [now left|exact H].
  - apply IH; auto. intros x Hx. apply Hd. now right.
Qed.
Lemma NoDup_filter_keep {A} (f : A -> bool) l : NoDup l -> NoDup (filter f l).
Proof.
  induction 1 as [|x l Hx Hl IH]; cbn; [constructor|]. destruct (f x); [|exact IH].
  constructor; [|exact IH]. rewrite filter_In. tauto.
Qed.

Section WithEnv.
  Context (E : Env).

  (** C07: what holds *)
  Lemma c07_nodup cs id l s :
    id <> id_default -> get_kel (run E db_empty cs) id = Some l ->
    compute_state E (run E db_empty cs) id = Ok (Some s) ->
    (forall e, nth_error l 0 = Some e -> NoDup (spec_witnesses [] (sem_msg e))) ->
    (forall k e, nth_error l k = Some e ->
       NoDup (added_witnesses (sem_msg e))
       /\ forall w, In w (added_witnesses (sem_msg e)) ->
          In w (fold_left spec_witnesses (log_of (firstn k l)) []) -> In w (removed_witnesses (sem_msg e))) ->
    NoDup (st_witnesses s).
  Proof.
    intros Hid Hl Hs H0 Hk. destruct (c06 E _ _ _ _ Hid Hl Hs) as [-> _].
    assert (G : forall n, n <= List.length l -> NoDup (fold_left spec_witnesses (log_of (firstn n l)) [])).
    { induction n as [|n IH]; intros Hn; [constructor|].
      destruct (nth_error l n) as [e|] eqn:He; [|apply nth_error_None in He; lia].
      rewrite (firstn_S_nth _ _ _ He), log_of_app, fold_left_app. cbn.
      destruct (Hk _ _ He) as [Hnd Hdis]. specialize (IH ltac:(lia)).
      pose proof (proj1 (c03_inception E _ _ _ _ _ Hid Hl He)) as Hinc. unfold is_inception in Hinc.
      unfold spec_witnesses, added_witnesses, removed_witnesses in *.
      destruct (em_data (sem_msg e)) as [i|r|x|i|r] eqn:Hd.
      - assert (n = 0) as -> by now apply Hinc. specialize (H0 _ He). now rewrite Hd in H0.
      - apply NoDup_app_intro; [now apply NoDup_filter_keep|exact Hnd|].
        intros w Hw1 Hw2. apply filter_In in Hw1. destruct Hw1 as [Hw1 Hw3].
        destruct (in_dec BasicPrefix_eq_dec w (wc_prune (rot_wc r))) as [|Hni]; [discriminate|].
        apply Hni. now apply Hdis.
      - exact IH.
      - assert (n = 0) as -> by now apply Hinc. specialize (H0 _ He). now rewrite Hd in H0.
      - apply NoDup_app_intro; [now apply NoDup_filter_keep|exact Hnd|].
        intros w Hw1 Hw2. apply filter_In in Hw1. destruct Hw1 as [Hw1 Hw3].
        destruct (in_dec BasicPrefix_eq_dec w (wc_prune (rot_wc r))) as [|Hni]; [discriminate|].
        apply Hni. now apply Hdis. }
    specialize (G (List.length l) (le_n _)). now rewrite firstn_all in G.
  Qed.

  (** C11 *)
  (** the prefix names an algorithm the library aborts on, and is compared by hashing *)
  Definition unhashable (m : EventMessage) (p : SelfAddressingPrefix) : Prop :=
    sap_code (em_digest m) <> sap_code p /\ ~ computable (sap_code p) /\ exists data, e_deriv_data E m = Ok data.
  (** it is the turn of this event, and the commitment it has to meet cannot be recomputed *)
  Definition unmeetable (m : EventMessage) (s : IdentifierState) : Prop :=
    em_prefix m = st_prefix s /\ em_sn m = (st_sn s + 1)%N
    /\ exists n, kc_next (st_current s) = Some n /\ ~ computable (sap_code n).
  Lemma not_computable g : digest_aborts g = true <-> ~ computable g.
  Proof. rewrite <- aborts_computable. destruct (digest_aborts g); split; congruence. Qed.
  Lemma check_digest_panic m sai : e_deriv_data E m <> Panic -> (check_digest E m sai = Panic <-> unhashable m sai).
  Proof.
    intros HE. unfold check_digest, unhashable. destruct (SelfAddressing_eq_dec _ _) as [He|He].
    { split; [discriminate|]. intros (H & _). contradiction. }
    destruct (e_deriv_data E m) as [data|e|] eqn:Hd; cbn [obind]; [| |congruence].
    - unfold verify_binding. rewrite <- not_computable. destruct (digest_aborts _); split; try discriminate.
      + intros _. split; [exact He|]. split; [reflexivity|]. now exists data.
      + reflexivity.
      + intros (_ & Hx & _). discriminate.
    - split; [discriminate|]. intros (_ & _ & x & Hx). discriminate.
  Qed.
  Lemma check_event_digest_ok m : check_event_digest E m = Ok tt.
  Proof.
    unfold check_event_digest, check_digest. destruct (SelfAddressing_eq_dec _ _); [|congruence].
    cbn [obind]. destruct (SAP_eq_dec _ _); [reflexivity|congruence].
  Qed.
  Lemma apply_event_panic m s :
    apply_event E m s = Panic <->
    match em_data m with Rot _ | Drt _ => unmeetable m s | _ => False end.
  Proof.
    unfold apply_event.
    assert (Hv : forall s0 kc, verify_next E (st_current s0) kc = Panic
      <-> exists n, kc_next (st_current s0) = Some n /\ ~ computable (sap_code n)).
    { intros s0 kc. unfold verify_next. destruct (kc_next (st_current s0)) as [n|].
      - rewrite <- not_computable || idtac. destruct (digest_aborts (sap_code n)) eqn:Hab; split; try discriminate.
        + intros _. exists n. split; [reflexivity|]. now apply not_computable.
        + reflexivity.
        + intros (n' & Hn & Hc). injection Hn as <-. apply not_computable in Hc. congruence.
      - split; [discriminate|]. intros (n & Hn & _). discriminate. }
    assert (Hr : forall r s0, apply_rot E r s0 = Panic
      <-> exists n, kc_next (st_current s0) = Some n /\ ~ computable (sap_code n)).
    { intros r s0. rewrite <- (Hv s0 (rot_kc r)). unfold apply_rot.
      destruct (verify_next _ _ _) as [[|]| |]; cbn; split; congruence. }
    assert (Hturn : forall r,
      (let? _ := (if IdentifierPrefix_eq_dec (em_prefix m) (st_prefix s)
                  then if (em_sn m <? st_sn s + 1)%N then Err EDuplicate
                       else if (st_sn s + 1 <? em_sn m)%N then Err EOutOfOrder else Ok tt
                  else Err (ESemantic "Prefix does not match")) in
       apply_rot E r (st_set_sn_prefix s (em_sn m) (em_prefix m))) = Panic <-> unmeetable m s).
    { intros r. unfold unmeetable. destruct (IdentifierPrefix_eq_dec _ _) as [Hp|Hp]; cbn [obind].
      - destruct (em_sn m <? st_sn s + 1)%N eqn:H1; cbn [obind];
          [apply N.ltb_lt in H1; split; [discriminate|intros (_ & H & _); lia]|].
        destruct (st_sn s + 1 <? em_sn m)%N eqn:H2; cbn [obind];
          [apply N.ltb_lt in H2; split; [discriminate|intros (_ & H & _); lia]|].
        apply N.ltb_ge in H1. apply N.ltb_ge in H2. rewrite Hr. cbn [st_set_sn_prefix st_current].
        split; [intros H; split; [exact Hp|split; [lia|exact H]]|intros (_ & _ & H); exact H].
      - split; [discriminate|]. intros (H & _). contradiction. }
    destruct (em_data m) as [i|r|x|i|r]; cbn [apply_data].
    - split; [|contradiction]. unfold apply_data, apply_icp, apply_dip. destruct (IdentifierPrefix_eq_dec (st_prefix s) id_default); [destruct (em_sn m =? 0)%N|]; cbn [obind]; intros H; discriminate H.
    - apply Hturn.
    - split; [|contradiction]. destruct (IdentifierPrefix_eq_dec _ _); [destruct (_ <? _)%N; [|destruct (_ <? _)%N]|];
        cbn; intros H; inversion H.
    - split; [|contradiction]. unfold apply_data, apply_icp, apply_dip. destruct (IdentifierPrefix_eq_dec (st_prefix s) id_default); [destruct (em_sn m =? 0)%N|]; cbn [obind]; intros H; discriminate H.
    - apply Hturn.
  Qed.
  Lemma c11_panic m s :
    e_deriv_data E m <> Panic ->
    (apply_msg E m s = Panic <->
     match em_data m, em_prefix m with
     | Icp _, IdSelfSigning _ => True
     | Dip _, IdBasic _ | Dip _, IdSelfSigning _ => True
     | Icp _, IdSelfAddressing p | Dip _, IdSelfAddressing p => unhashable m p
     | Rot _, _ => st_delegator s = None /\ unmeetable m s
     | Drt _, _ => unmeetable m s
     | _, _ => False
     end).
  Proof.
    intros HE. unfold apply_msg.
    assert (Hc : forall p n, chain_to m p s n <> Panic).
    { intros p n. unfold chain_to. destruct (SAP_eq_dec _ _); discriminate. }
    pose proof (apply_event_panic m) as Hap.
    destruct (em_data m) as [i|r|x|i|r] eqn:Hd; rewrite ?check_event_digest_ok; cbn [obind].
    - unfold verify_identifier_binding. rewrite Hd.
      specialize (Hap (st_set_last_digest s (em_digest m))).
      destruct (em_prefix m) as [p|p|p]; cbn [obind].
      + split; [|contradiction]. destruct (match kc_keys (icp_kc i) with [] => _ | _ => _ end); [|discriminate]. tauto.
      + rewrite <- (check_digest_panic m p HE).
        destruct (check_digest E m p) as [[|]| |]; cbn [obind andb]; try (destruct (SAP_eq_dec _ _)); split; try congruence; try tauto; intros H; exfalso; apply Hap in H; exact H.
      + split; auto.
    - specialize (Hap s). destruct (st_delegator s) as [dl|].
      + split; [discriminate|]. intros (H & _). discriminate.
      + destruct (apply_event E m s) as [n| |] eqn:Ha; cbn [obind].
        * split; [intros H; now apply Hc in H|]. intros (_ & H). apply Hap in H. discriminate.
        * split; [discriminate|]. intros (_ & H). apply Hap in H. discriminate.
        * split; auto. intros _. split; [reflexivity|]. now apply Hap.
    - specialize (Hap s). split.
      + destruct (apply_event E m s) as [n| |] eqn:Ha; cbn [obind]; [intros H; now apply Hc in H|discriminate|].
        intros _. now apply Hap.
      + destruct (em_prefix m); contradiction.
    - unfold verify_identifier_binding. rewrite Hd.
      specialize (Hap (st_set_last_digest s (em_digest m))).
      destruct (em_prefix m) as [p|p|p]; cbn [obind].
      + split; auto.
      + rewrite <- (check_digest_panic m p HE).
        destruct (check_digest E m p) as [[|]| |]; cbn [obind andb]; try (destruct (SAP_eq_dec _ _)); split; try congruence; try tauto; intros H; exfalso; apply Hap in H; exact H.
      + split; auto.
    - specialize (Hap s).
      destruct (apply_event E m s) as [n| |] eqn:Ha; cbn [obind].
      + destruct (st_delegator s); (split; [intros H; try discriminate; now apply Hc in H|intros H; apply Hap in H; discriminate]).
      + split; [discriminate|]. intros H. apply Hap in H. discriminate.
      + split; auto. intros _. now apply Hap.
  Qed.
End WithEnv.

(** No text reads as the default identifier, so an event that came over the wire
    never has it. *)
Lemma decode_nil s : b64_decode s = Some [] -> s = [].
Proof.
  revert s. assert (G : forall s, s <> [] -> b64_decode s <> Some []).
  { intros [|c1 [|c2 [|c3 [|c4 r]]]] Hne; [congruence| | | |]; cbn -[dec_group2 dec_group3 dec_group4];
      try discriminate.
    - unfold dec_group2. destruct (dec6 c1), (dec6 c2); try discriminate. destruct (_ =? 0)%N; discriminate.
    - destruct (is_pad c3); unfold dec_group2, dec_group3; destruct (dec6 c1), (dec6 c2); try discriminate;
        try destruct (dec6 c3); try discriminate; destruct (_ =? 0)%N; discriminate.
    - assert (G4 : forall y, match dec_group4 c1 c2 c3 c4 with Some x => Some (x ++ y) | None => None end <> Some []).
      { intros y. unfold dec_group4. destruct (dec6 c1), (dec6 c2), (dec6 c3), (dec6 c4); discriminate. }
      destruct r as [|c5 r].
      + destruct (is_pad c4); [destruct (is_pad c3); unfold dec_group2, dec_group3;
          destruct (dec6 c1), (dec6 c2); try discriminate; try destruct (dec6 c3); try discriminate;
          destruct (_ =? 0)%N; discriminate|].
        unfold dec_group4. destruct (dec6 c1), (dec6 c2), (dec6 c3), (dec6 c4); discriminate.
      + destruct (b64_decode (c5 :: r)) as [y|].
        * apply G4.
        * destruct (dec_group4 _ _ _ _); discriminate. }
  intros s Hs. destruct s; [reflexivity|]. now apply G in Hs.
Qed.
Lemma str_slice_len a b s x : str_slice a b s = Ok x -> List.length x = b - a.
Proof.
  unfold str_slice. destruct (_ && _ && _ && _) eqn:H; [|discriminate]. intros Hx. injection Hx as <-.
  apply andb_true_iff in H. destruct H as [H _]. apply andb_true_iff in H. destruct H as [H _].
  apply andb_true_iff in H. destruct H as [H1 H2]. apply Nat.leb_le in H1, H2.
  rewrite firstn_length, skipn_length. lia.
Qed.
Lemma sap_from_nonempty s p : sap_from s = Ok p -> sap_digest p <> [].
Proof.
  unfold sap_from. intros H. apply obind_ok in H. destruct H as (c & _ & H).
  destruct (_ =? _); [|discriminate H].
  apply obind_ok in H. destruct H as (sub & Hs & H). apply obind_ok in H. destruct H as (dg & Hd & H).
  injection H as <-. cbn. intros ->. unfold decode in Hd. destruct (b64_decode sub) eqn:Hb; [|discriminate Hd].
  cbn in Hd. injection Hd as ->. apply decode_nil in Hb. subst sub. apply str_slice_len in Hs. cbn in Hs.
  destruct c; cbn in Hs; lia.
Qed.
Lemma id_from_not_default s p : id_from s = Ok p -> p <> id_default.
Proof.
  unfold id_from. destruct (bp_from s) as [b|e|]; [intros H; injection H as <-; discriminate| |discriminate].
  destruct (sap_from s) as [b|e2|] eqn:Hs; [|destruct (ssp_from s); cbn; try discriminate;
    intros H; injection H as <-; discriminate|discriminate].
  intros H; injection H as <-. apply sap_from_nonempty in Hs. intros Hd. injection Hd as ->. now apply Hs.
Qed.

Lemma check_event_digest_vacuous E m : check_event_digest E m = Ok tt.
Proof.
  unfold check_event_digest, check_digest. destruct (SelfAddressing_eq_dec _ _); [|congruence]. cbn.
  destruct (SAP_eq_dec _ _); [reflexivity|congruence].
Qed.
Lemma c08_full E cs id l s :
  id <> id_default -> get_kel (run E db_empty cs) id = Some l -> l <> [] ->
  compute_state E (run E db_empty cs) id = Ok (Some s) ->
  exists e, last_establishment (log_of l) = Some e /\ le_sn (st_last_est s) = em_sn e
    /\ (is_inception e = true -> le_digest (st_last_est s) = em_digest e
          /\ le_br (st_last_est s) = [] /\ le_ba (st_last_est s) = [])
    /\ (is_rotation e = true -> prev_digest e = Some (le_digest (st_last_est s))
          /\ le_br (st_last_est s) = added_witnesses e /\ le_ba (st_last_est s) = removed_witnesses e).
Proof.
  intros Hid Hl Hne Hs. destruct (reach_good E _ _ _ Hid Hl) as (s' & Hg & Hc).
  rewrite Hc in Hs. injection Hs as <-. destruct (good_last_est E _ _ _ Hid Hg Hne) as (e & H1 & H2 & H3 & H4).
  exists e. split; [exact H1|]. split; [exact H2|]. split; intros H.
  - now rewrite H3.
  - destruct (H4 H) as (? & ? & ?). auto.
Qed.

(** For every event but an inception the transition ignores the digest field. *)
Lemma c10_any_digest E m s s' g :
  is_inception m = false -> apply_msg E m s = Ok s' ->
  apply_msg E (mkEM (em_info m) g (em_prefix m) (em_sn m) (em_data m)) s = Ok (st_set_last_digest s' g).
Proof.
  intros Hi H. unfold apply_msg in *. cbn [em_data]. unfold is_inception in Hi.
  set (m' := mkEM _ g _ _ _).
  assert (Hc : forall p n n', chain_to m p s n = Ok n' -> chain_to m' p s n = Ok (st_set_last_digest n' g)).
  { intros p n n'. unfold chain_to. destruct (SAP_eq_dec _ _); [|discriminate]. intros Hn. now injection Hn as <-. }
  assert (Ha : apply_event E m' s = apply_event E m s) by reflexivity.
  rewrite !check_event_digest_vacuous in *. rewrite Ha.
  destruct (em_data m) as [i|r|x|i|r]; try discriminate Hi; cbn [obind] in *.
  - destruct (st_delegator s); [discriminate H|].
    apply obind_ok in H. destruct H as (n & -> & H). cbn. now apply Hc.
  - apply obind_ok in H. destruct H as (n & -> & H). cbn. now apply Hc.
  - apply obind_ok in H. destruct H as (n & -> & H). cbn in *.
    destruct (st_delegator s); [|discriminate H]. now apply Hc.
Qed.
