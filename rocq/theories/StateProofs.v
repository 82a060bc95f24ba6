(** * StateProofs: inversion lemmas of the event semantics. *)
From Verif Require Import Base Base64 Codes NumFmt Types KeyConf State Spec.

Lemma obind_ok {A B} (x : out A) (f : A -> out B) b :
  obind x f = Ok b -> exists a, x = Ok a /\ f a = Ok b.
Proof. destruct x as [a| |]; cbn; intros H; try discriminate; eauto. Qed.

Ltac oinv :=
  repeat match goal with
  | H : obind _ _ = Ok _ |- _ =>
      apply obind_ok in H; let a := fresh "a" in let Ha := fresh "Ha" in destruct H as (a & Ha & H)
  | H : Ok _ = Ok _ |- _ => injection H as H; subst
  | H : Err _ = Ok _ |- _ => discriminate H
  | H : Panic = Ok _ |- _ => discriminate H
  | H : ok_if ?b _ = Ok _ |- _ => unfold ok_if in H; destruct b eqn:?; [|discriminate H]
  end.

Section WithEnv.
  Context (E : Env).

  Lemma apply_event_incept m s s' :
    is_inception m = true -> apply_event E m s = Ok s' ->
    st_prefix s = id_default /\ em_sn m = 0%N
    /\ apply_data E (em_data m) (st_set_sn_prefix s (em_sn m) (em_prefix m)) = Ok s'.
  Proof.
    unfold is_inception, apply_event; intros Hi H.
    destruct (em_data m) eqn:Hd; try discriminate Hi;
      apply obind_ok in H; destruct H as (? & H1 & H);
      (destruct (IdentifierPrefix_eq_dec (st_prefix s) id_default); [|discriminate H1]);
      (destruct (N.eqb_spec (em_sn m) 0); [|discriminate H1]); auto.
  Qed.
  Lemma apply_event_next m s s' :
    is_inception m = false -> apply_event E m s = Ok s' ->
    em_prefix m = st_prefix s /\ em_sn m = (st_sn s + 1)%N
    /\ apply_data E (em_data m) (st_set_sn_prefix s (em_sn m) (em_prefix m)) = Ok s'.
  Proof.
    unfold is_inception, apply_event; intros Hi H.
    destruct (em_data m) eqn:Hd; try discriminate Hi;
      apply obind_ok in H; destruct H as (? & H1 & H);
      (destruct (IdentifierPrefix_eq_dec (em_prefix m) (st_prefix s)); [|discriminate H1]);
      (destruct (N.ltb_spec (em_sn m) (st_sn s + 1)); [discriminate H1|]);
      (destruct (N.ltb_spec (st_sn s + 1) (em_sn m)); [discriminate H1|]);
      repeat split; auto; lia.
  Qed.

  (** What an accepted inception does. *)
  Lemma apply_msg_incept m s s' :
    is_inception m = true -> apply_msg E m s = Ok s' ->
    st_prefix s = id_default /\ em_sn m = 0%N
    /\ verify_identifier_binding E m = Ok true
    /\ exists kc, est_keys m = Some kc
    /\ s' = mkState (em_prefix m) 0 (em_digest m) (st_last_previous s) (st_last_type s) kc
              (spec_tally 0 m) (spec_witnesses [] m)
              (match named_delegator m with Some d => Some d | None => st_delegator s end)
              (mkLE 0 (em_digest m) [] []).
  Proof.
    unfold apply_msg; intros Hi H.
    assert (Hb : exists b, verify_identifier_binding E m = Ok b /\
                 (if b then apply_event E m (st_set_last_digest s (em_digest m))
                  else Err (ESemantic "Invalid Identifier Prefix Binding")) = Ok s').
    { unfold is_inception in Hi; destruct (em_data m); try discriminate Hi; now apply obind_ok. }
    clear H; destruct Hb as ([|] & Hv & H); [|discriminate H].
    apply apply_event_incept in H; [|exact Hi]. destruct H as (Hp & Hsn & H).
    cbn in Hp. repeat split; auto.
    unfold is_inception, est_keys, named_delegator, spec_tally, spec_witnesses in *.
    destruct (em_data m) eqn:Hd; try discriminate Hi; cbn in H; injection H as H; subst s';
      eexists; (split; [reflexivity|]); cbn; rewrite Hsn; reflexivity.
  Qed.

  Lemma spec_rotate ws r :
    filter (fun w => if in_dec BasicPrefix_eq_dec w (wc_prune r) then false else true) ws ++ wc_graft r
    = rotate_witnesses r ws.
  Proof.
    unfold rotate_witnesses.
    assert (Hf : forall l, filter (fun w => negb (bp_mem w l)) ws
                 = filter (fun w => if in_dec BasicPrefix_eq_dec w l then false else true) ws).
    { intros l. apply filter_ext. intros w. unfold bp_mem. destruct (in_dec BasicPrefix_eq_dec w l); reflexivity. }
    destruct (wc_prune r) as [|p ps] eqn:Hp; destruct (wc_graft r) as [|g gs] eqn:Hg;
      rewrite <- ?Hf; try reflexivity.
    clear Hf. cbn. rewrite app_nil_r. induction ws as [|w ws' IH]; [reflexivity|]. cbn. now rewrite IH.
  Qed.

  (** What an accepted rotation does. *)
  Lemma apply_msg_rotate m s s' :
    is_rotation m = true -> apply_msg E m s = Ok s' ->
    em_prefix m = st_prefix s /\ em_sn m = (st_sn s + 1)%N
    /\ prev_digest m = Some (st_last_digest s)
    /\ (match em_data m with Rot _ => st_delegator s = None | _ => st_delegator s <> None end)
    /\ exists kc, est_keys m = Some kc
    /\ verify_next E (st_current s) kc = Ok true
    /\ s' = mkState (em_prefix m) (em_sn m) (em_digest m) (st_last_previous s) (st_last_type s) kc
              (spec_tally (st_tally s) m) (spec_witnesses (st_witnesses s) m) (st_delegator s)
              (mkLE (em_sn m) (st_last_digest s) (added_witnesses m) (removed_witnesses m)).
  Proof.
    unfold apply_msg, is_rotation, prev_digest, est_keys, added_witnesses, removed_witnesses,
      spec_tally, spec_witnesses; intros Hr H.
    destruct (em_data m) as [|r| | |r] eqn:Hd; try discriminate Hr.
    - apply obind_ok in H; destruct H as (? & Hc & H).
      destruct (st_delegator s) eqn:Hdel; [discriminate H|].
      apply obind_ok in H; destruct H as (n & Hn & H).
      assert (Hi : is_inception m = false) by (unfold is_inception; now rewrite Hd).
      apply apply_event_next in Hn; [|exact Hi]. destruct Hn as (Hp & Hsn & Hn).
      rewrite Hd in Hn. cbn in Hn. unfold apply_rot in Hn. cbn in Hn.
      destruct (verify_next E (st_current s) (rot_kc r)) as [[|]| |] eqn:Hv; try discriminate Hn. cbn [obind] in Hn.
      injection Hn as Hn. subst n. unfold chain_to in H.
      destruct (SAP_eq_dec (rot_prev r) (st_last_digest s)) as [He|]; [|discriminate H].
      injection H as H. subst s'. rewrite He, spec_rotate. repeat split; auto.
      eexists; repeat split; auto. unfold st_set_last_digest, st_set_est; cbn; rewrite ?Hdel; reflexivity.
    - apply obind_ok in H; destruct H as (n & Hn & H).
      apply obind_ok in H; destruct H as (? & Hc & H).
      destruct (st_delegator s) eqn:Hdel; [|discriminate H].
      assert (Hi : is_inception m = false) by (unfold is_inception; now rewrite Hd).
      apply apply_event_next in Hn; [|exact Hi]. destruct Hn as (Hp & Hsn & Hn).
      rewrite Hd in Hn. cbn in Hn. unfold apply_rot in Hn. cbn in Hn.
      destruct (verify_next E (st_current s) (rot_kc r)) as [[|]| |] eqn:Hv; try discriminate Hn. cbn [obind] in Hn.
      injection Hn as Hn. subst n. unfold chain_to in H.
      destruct (SAP_eq_dec (rot_prev r) (st_last_digest s)) as [He|]; [|discriminate H].
      injection H as H. subst s'. rewrite He, spec_rotate. repeat split; auto; try discriminate.
      eexists; repeat split; auto. unfold st_set_last_digest, st_set_est; cbn; rewrite ?Hdel; reflexivity.
  Qed.

  (** What an accepted interaction does. *)
  Lemma apply_msg_ixn m i s s' :
    em_data m = Ixn i -> apply_msg E m s = Ok s' ->
    em_prefix m = st_prefix s /\ em_sn m = (st_sn s + 1)%N
    /\ ixn_prev i = st_last_digest s
    /\ s' = mkState (st_prefix s) (st_sn s + 1) (em_digest m) (st_last_previous s) (st_last_type s)
              (st_current s) (st_tally s) (st_witnesses s) (st_delegator s) (st_last_est s).
  Proof.
    unfold apply_msg; intros Hd H. rewrite Hd in H.
    apply obind_ok in H; destruct H as (? & Hc & H).
    apply obind_ok in H; destruct H as (n & Hn & H).
    assert (Hi : is_inception m = false) by (unfold is_inception; now rewrite Hd).
    apply apply_event_next in Hn; [|exact Hi]. destruct Hn as (Hp & Hsn & Hn).
    rewrite Hd in Hn. cbn in Hn. injection Hn as Hn. subst n. unfold chain_to in H.
    destruct (SAP_eq_dec (ixn_prev i) (st_last_digest s)) as [He|]; [|discriminate H].
    injection H as H. subst s'. repeat split; auto. cbn. now rewrite Hsn, Hp.
  Qed.

  (** Common facts of every accepted event that is not an inception. *)
  Lemma apply_msg_next m s s' :
    is_inception m = false -> apply_msg E m s = Ok s' ->
    em_prefix m = st_prefix s /\ em_sn m = (st_sn s + 1)%N
    /\ prev_digest m = Some (st_last_digest s)
    /\ st_delegator s' = st_delegator s
    /\ st_witnesses s' = spec_witnesses (st_witnesses s) m
    /\ st_tally s' = spec_tally (st_tally s) m.
  Proof.
    intros Hi H. destruct (em_data m) as [e|r|i|e|r] eqn:Hd;
      try (unfold is_inception in Hi; rewrite Hd in Hi; discriminate Hi).
    - apply apply_msg_rotate in H; [|unfold is_rotation; now rewrite Hd].
      destruct H as (? & ? & ? & ? & kc & ? & ? & ->). cbn; repeat split; auto.
    - destruct (apply_msg_ixn _ _ _ _ Hd H) as (? & ? & ? & ->).
      unfold prev_digest, spec_witnesses, spec_tally; rewrite Hd. cbn; repeat split; congruence.
    - apply apply_msg_rotate in H; [|unfold is_rotation; now rewrite Hd].
      destruct H as (? & ? & ? & ? & kc & ? & ? & ->). cbn; repeat split; auto.
  Qed.

  Lemma apply_msg_result m s s' :
    apply_msg E m s = Ok s' ->
    st_prefix s' = em_prefix m /\ st_sn s' = em_sn m /\ st_last_digest s' = em_digest m.
  Proof.
    intros H. destruct (em_data m) as [e|r|i|e|r] eqn:Hd.
    - apply apply_msg_incept in H; [|unfold is_inception; now rewrite Hd].
      destruct H as (? & ? & ? & kc & ? & ->). cbn; repeat split; auto.
    - apply apply_msg_rotate in H; [|unfold is_rotation; now rewrite Hd].
      destruct H as (? & ? & ? & ? & kc & ? & ? & ->). cbn; repeat split; auto.
    - destruct (apply_msg_ixn _ _ _ _ Hd H) as (? & ? & ? & ->). cbn; repeat split; congruence.
    - apply apply_msg_incept in H; [|unfold is_inception; now rewrite Hd].
      destruct H as (? & ? & ? & kc & ? & ->). cbn; repeat split; auto.
    - apply apply_msg_rotate in H; [|unfold is_rotation; now rewrite Hd].
      destruct H as (? & ? & ? & ? & kc & ? & ? & ->). cbn; repeat split; auto.
  Qed.
End WithEnv.
