(** * LogTheorems: proofs of the state-machine properties (C01-C06, C08, C09). *)
From Verif Require Import Base Base64 Codes NumFmt Types KeyConf State Db Processor Spec StateProofs LogProofs.

Lemma last_such_app p l1 l2 :
  last_such p (l1 ++ l2) = match last_such p l2 with Some x => Some x | None => last_such p l1 end.
Proof.
  induction l1 as [|e l1 IH]; cbn; [now destruct (last_such p l2)|]. rewrite IH.
  destruct (last_such p l2); reflexivity.
Qed.
Lemma log_of_app l1 l2 : log_of (l1 ++ l2) = log_of l1 ++ log_of l2.
Proof. apply map_app. Qed.
Lemma last_event_snoc l e : last_event (l ++ [e]) = Some e.
Proof. unfold last_event. rewrite last_such_app. reflexivity. Qed.
Lemma rev_nil_inv {A} (l : list A) : rev l = [] -> l = [].
Proof. intros H. apply (f_equal (@rev _)) in H. now rewrite rev_involutive in H. Qed.

Section WithEnv.
  Context (E : Env).

  Lemma reach_good cs id l :
    id <> id_default -> get_kel (run E db_empty cs) id = Some l ->
    exists s, good_log E id l s /\ compute_state E (run E db_empty cs) id = Ok (Some s).
  Proof.
    intros Hid Hl. destruct (Inv_reachable E cs id l Hid Hl) as [s Hs]. exists s. split; [exact Hs|].
    eapply compute_state_good; eauto.
  Qed.

  (** C01 *)
  Lemma c01_sns cs id l k e :
    id <> id_default -> get_kel (run E db_empty cs) id = Some l ->
    nth_error l k = Some e -> em_sn (sem_msg e) = N.of_nat k.
  Proof.
    intros Hid Hl He. destruct (reach_good _ _ _ Hid Hl) as (s & Hs & _).
    destruct (good_log_shape _ _ _ _ Hid Hs) as (Hsn & _). now apply Hsn in He.
  Qed.
  Lemma c01_state cs id l s :
    id <> id_default -> get_kel (run E db_empty cs) id = Some l -> l <> [] ->
    compute_state E (run E db_empty cs) id = Ok (Some s) ->
    (st_sn s + 1)%N = N.of_nat (List.length l).
  Proof.
    intros Hid Hl Hne Hs. destruct (reach_good _ _ _ Hid Hl) as (s' & Hg & Hc).
    rewrite Hc in Hs. injection Hs as <-.
    destruct (good_log_shape _ _ _ _ Hid Hg) as (_ & Hsh & _).
    destruct (rev l) eqn:Hr; [now apply rev_nil_inv in Hr|]. apply Hsh.
  Qed.
  Lemma c01_accept cs se d' s :
    let d := run E db_empty cs in
    em_prefix (sem_msg se) <> id_default ->
    process_event E d se = (d', Ok (Some s)) ->
    em_sn (sem_msg se) = N.of_nat (List.length (olist (get_kel d (em_prefix (sem_msg se)))))
    /\ st_sn s = em_sn (sem_msg se).
  Proof.
    cbv zeta. intros Hid H.
    destruct (process_event_cases E (run E db_empty cs) se) as [(r & Hr & Hn)|(ns & _ & Ha & Hc)].
    { rewrite Hr in H. injection H as _ H. exfalso. eapply Hn; eauto. }
    assert (Hns : ns = s).
    { destruct Hc as [(ser & _ & _ & Hc)|[(r & Hc & Hn & _)|(e & ser & _ & Hc & _)]];
        rewrite Hc in H; injection H as _ H; [exact H|exfalso; eapply Hn; eauto|discriminate H]. }
    subst ns. pose proof (good_log_extend E _ _ _ (Inv_reachable E cs) Hid Ha) as Hg.
    destruct (good_log_shape _ _ _ _ Hid Hg) as (Hsn & Hsh & _).
    rewrite rev_app_distr in Hsh. cbn in Hsh. destruct Hsh as (_ & H2 & _).
    rewrite app_length in H2. cbn in H2.
    split; [|].
    - pose proof (Hsn (List.length (olist (get_kel (run E db_empty cs) (em_prefix (sem_msg se))))) (stored se)) as Hx.
      rewrite nth_error_app2, Nat.sub_diag in Hx by lia. specialize (Hx eq_refl). cbn in Hx. lia.
    - destruct (apply_to_state_good E _ _ _ (Inv_reachable E cs) Hid Ha) as (s0 & _ & Hap).
      now destruct (apply_msg_result _ _ _ _ Hap) as (_ & ? & _).
  Qed.

  (** Facts about each position of a good log: the event applied to the state of the
      events before it. *)
  Lemma firstn_S_nth {A} (l : list A) k e : nth_error l k = Some e -> firstn (S k) l = firstn k l ++ [e].
  Proof.
    revert k; induction l as [|x l IH]; intros [|k] H; cbn in *; try discriminate.
    - now injection H as ->.
    - now rewrite <- IH by assumption.
  Qed.
  Lemma good_log_prefix id l1 l2 s : good_log E id (l1 ++ l2) s -> exists s1, good_log E id l1 s1.
  Proof.
    revert s; induction l2 as [|x l2 IH] using rev_ind; intros s H; [rewrite app_nil_r in H; eauto|].
    rewrite app_assoc in H. apply good_log_snoc in H. destruct H as (s0 & H & _). eauto.
  Qed.
  Lemma good_log_at id l s k e :
    good_log E id l s -> nth_error l k = Some e ->
    exists s0 s1, good_log E id (firstn k l) s0 /\ apply_msg E (sem_msg e) s0 = Ok s1
                  /\ good_log E id (firstn (S k) l) s1.
  Proof.
    intros Hg He.
    assert (Hp : exists s1, good_log E id (firstn (S k) l) s1).
    { apply (good_log_prefix id (firstn (S k) l) (skipn (S k) l) s). now rewrite firstn_skipn. }
    destruct Hp as [s1 Hp]. pose proof Hp as Hp'. rewrite (firstn_S_nth _ _ _ He) in Hp.
    apply good_log_snoc in Hp. destruct Hp as (s0 & H0 & _ & Ha). eauto 6.
  Qed.

  (** C02 *)
  Lemma good_last_digest id l s e :
    id <> id_default -> good_log E id (l ++ [e]) s -> st_last_digest s = em_digest (sem_msg e).
  Proof.
    intros Hid Hg. destruct (good_log_shape _ _ _ _ Hid Hg) as (_ & Hsh & _).
    rewrite rev_app_distr in Hsh. apply Hsh.
  Qed.
  Lemma c02_chain cs id l k e e' :
    id <> id_default -> get_kel (run E db_empty cs) id = Some l ->
    nth_error l k = Some e -> nth_error l (S k) = Some e' ->
    prev_digest (sem_msg e') = Some (em_digest (sem_msg e)).
  Proof.
    intros Hid Hl He He'. destruct (reach_good _ _ _ Hid Hl) as (s & Hg & _).
    destruct (good_log_shape _ _ _ _ Hid Hg) as (_ & _ & Hinc).
    destruct (good_log_at _ _ _ _ _ Hg He') as (s0 & s1 & H0 & Ha & _).
    apply Hinc in He'. cbn in He'.
    destruct (apply_msg_next _ _ _ _ He' Ha) as (_ & _ & Hp & _).
    rewrite (firstn_S_nth _ _ _ He) in H0. apply good_last_digest in H0; [|exact Hid]. congruence.
  Qed.
  Lemma c02_state cs id l s e :
    id <> id_default -> get_kel (run E db_empty cs) id = Some l ->
    compute_state E (run E db_empty cs) id = Ok (Some s) ->
    last_event (log_of l) = Some e -> st_last_digest s = em_digest e.
  Proof.
    intros Hid Hl Hs He. destruct (reach_good _ _ _ Hid Hl) as (s' & Hg & Hc).
    rewrite Hc in Hs. injection Hs as <-.
    destruct l as [|x l _] using rev_ind; [discriminate He|].
    rewrite log_of_app in He. cbn in He. rewrite last_event_snoc in He. injection He as <-.
    eapply good_last_digest; eauto.
  Qed.

  (** C03 *)
  Lemma c03_inception cs id l k e :
    id <> id_default -> get_kel (run E db_empty cs) id = Some l -> nth_error l k = Some e ->
    (is_inception (sem_msg e) = true <-> k = 0) /\ em_prefix (sem_msg e) = id.
  Proof.
    intros Hid Hl He. destruct (reach_good _ _ _ Hid Hl) as (s & Hg & _).
    destruct (good_log_shape _ _ _ _ Hid Hg) as (_ & _ & Hinc).
    rewrite (Hinc _ _ He). split; [now rewrite Nat.eqb_eq|].
    destruct Hg as [Hf _]. rewrite Forall_forall in Hf. apply Hf. eapply nth_error_In; eauto.
  Qed.
  Lemma c03_prefix cs id l s :
    id <> id_default -> get_kel (run E db_empty cs) id = Some l -> l <> [] ->
    compute_state E (run E db_empty cs) id = Ok (Some s) -> st_prefix s = id.
  Proof.
    intros Hid Hl Hne Hs. destruct (reach_good _ _ _ Hid Hl) as (s' & Hg & Hc).
    rewrite Hc in Hs. injection Hs as <-.
    destruct (good_log_shape _ _ _ _ Hid Hg) as (_ & Hsh & _).
    destruct (rev l) eqn:Hr; [now apply rev_nil_inv in Hr|]. apply Hsh.
  Qed.

  (** C04 *)
  Lemma good_keys id l s :
    id <> id_default -> good_log E id l s -> l <> [] ->
    exists e, last_establishment (log_of l) = Some e /\ est_keys e = Some (st_current s).
  Proof.
    intros Hid. revert s. induction l as [|e l IH] using rev_ind; intros s Hg Hne; [congruence|].
    apply good_log_snoc in Hg. destruct Hg as (s0 & H0 & Hp & Ha). rewrite log_of_app.
    unfold last_establishment. rewrite last_such_app. cbn.
    destruct (is_establishment (sem_msg e)) eqn:He.
    - exists (sem_msg e). split; [reflexivity|]. unfold is_establishment in He. apply orb_true_iff in He.
      destruct He as [He|He].
      + destruct (apply_msg_incept _ _ _ _ He Ha) as (_ & _ & _ & kc & Hk & ->). exact Hk.
      + destruct (apply_msg_rotate _ _ _ _ He Ha) as (_ & _ & _ & _ & kc & Hk & _ & ->). exact Hk.
    - unfold is_establishment in He. apply orb_false_iff in He. destruct He as [Hi Hr].
      destruct (em_data (sem_msg e)) as [x|x|x|x|x] eqn:Hd;
        try (unfold is_inception in Hi; rewrite Hd in Hi; discriminate);
        try (unfold is_rotation in Hr; rewrite Hd in Hr; discriminate).
      destruct (apply_msg_ixn _ _ _ _ _ Hd Ha) as (Hpr & _ & _ & ->). cbn.
      assert (Hl : l <> []).
      { intros ->. apply good_log_nil in H0. subst s0. cbn in Hpr. congruence. }
      destruct (IH _ H0 Hl) as (x0 & Hx & Hk). exists x0. split; [exact Hx|exact Hk].
  Qed.
  Lemma c04_keys cs id l s :
    id <> id_default -> get_kel (run E db_empty cs) id = Some l -> l <> [] ->
    compute_state E (run E db_empty cs) id = Ok (Some s) ->
    exists e, last_establishment (log_of l) = Some e /\ est_keys e = Some (st_current s).
  Proof.
    intros Hid Hl Hne Hs. destruct (reach_good _ _ _ Hid Hl) as (s' & Hg & Hc).
    rewrite Hc in Hs. injection Hs as <-. eapply good_keys; eauto.
  Qed.

  Lemma xor_map a b : map (fun p => n2b (N.lxor (b2n (fst p)) (b2n (snd p)))) (combine a b) = xor_bytes a b.
  Proof. revert b; induction a as [|x a IH]; intros [|y b]; cbn; auto. now rewrite IH. Qed.
  Lemma xor_bytes_comm a b : xor_bytes a b = xor_bytes b a.
  Proof.
    revert b; induction a as [|x a IH]; intros [|y b]; cbn; auto. rewrite IH.
    unfold xor_byte. now rewrite N.lxor_comm.
  Qed.
  Lemma b2n_xor x y : b2n (xor_byte x y) = N.lxor (b2n x) (b2n y).
  Proof.
    unfold xor_byte. apply b2n_n2b.
    pose proof (b2n_lt x). pose proof (b2n_lt y).
    destruct (N.eq_dec (N.lxor (b2n x) (b2n y)) 0) as [->|Hz]; [lia|].
    change 256%N with (2 ^ 8)%N. apply N.log2_lt_pow2; [lia|].
    eapply N.le_lt_trans; [apply N.log2_lxor|].
    assert (G : forall z, (z < 256)%N -> (N.log2 z < 8)%N).
    { intros z Hl. destruct (N.eq_dec z 0) as [->|]; [reflexivity|]. apply N.log2_lt_pow2; [lia|exact Hl]. }
    apply N.max_lub_lt; now apply G.
  Qed.
  Lemma xor_bytes_assoc a b c : xor_bytes (xor_bytes a b) c = xor_bytes a (xor_bytes b c).
  Proof.
    revert b c; induction a as [|x a IH]; intros [|y b] [|z c]; cbn; auto. rewrite IH.
    f_equal. apply b2n_inj. rewrite !b2n_xor. apply N.lxor_assoc.
  Qed.
  Lemma xor_all_cons z d l : xor_all z (d :: l) = xor_bytes (xor_all z l) d.
  Proof. cbn. apply xor_map. Qed.
  Lemma xor_all_fold z l : fold_left xor_bytes l z = xor_all z l.
  Proof.
    revert z; induction l as [|d l IH]; intros z; [reflexivity|]. rewrite xor_all_cons, <- IH. cbn.
    clear IH. revert z; induction l as [|d' l IH]; intros z; [reflexivity|]. cbn. rewrite <- IH.
    f_equal. rewrite !xor_bytes_assoc. f_equal. apply xor_bytes_comm.
  Qed.
  Lemma nxt_commitment_xor t keys d :
    nxt_commitment E t keys d
    = mkSAP d (xor_all (e_digest E d (threshold_str t)) (map (fun k => e_digest E d (bp_str k)) keys)).
  Proof.
    rewrite <- xor_all_fold. unfold nxt_commitment.
    change (derive E d (threshold_str t)) with (mkSAP d (e_digest E d (threshold_str t))).
    generalize (e_digest E d (threshold_str t)).
    induction keys as [|k keys IH]; intros z; [reflexivity|]. cbn. apply IH.
  Qed.
  Lemma aborts_computable g : digest_aborts g = false <-> computable g.
  Proof. destruct g; cbn; split; auto; discriminate || contradiction. Qed.
  Lemma verify_next_iff kc next :
    verify_next E kc next = Ok true <->
    exists n, kc_next kc = Some n /\ computable (sap_code n) /\
      sap_digest n = xor_all (e_digest E (sap_code n) (threshold_str (kc_threshold next)))
                             (map (fun k => e_digest E (sap_code n) (bp_str k)) (kc_keys next)).
  Proof.
    unfold verify_next, commit. destruct (kc_next kc) as [n|].
    - destruct (digest_aborts (sap_code n)) eqn:Hab.
      { split; [discriminate|]. intros (n' & Hn & Hc & _). injection Hn as <-. apply aborts_computable in Hc. congruence. }
      apply aborts_computable in Hab.
      rewrite nxt_commitment_xor. destruct (SAP_eq_dec _ _) as [He|He]; split; try discriminate.
      + intros _. exists n. split; [reflexivity|]. split; [exact Hab|]. rewrite He at 1. reflexivity.
      + reflexivity.
      + intros (n' & Hn & _ & Hd). injection Hn as <-. exfalso. apply He. rewrite <- Hd. now destruct n.
    - split; [discriminate|]. intros (n & Hn & _). discriminate.
  Qed.
  Lemma c04_commit cs id l k e :
    id <> id_default -> get_kel (run E db_empty cs) id = Some l ->
    nth_error l k = Some e -> is_rotation (sem_msg e) = true ->
    exists e0 kc0 n kc,
      last_establishment (log_of (firstn k l)) = Some e0 /\ est_keys e0 = Some kc0 /\
      kc_next kc0 = Some n /\ est_keys (sem_msg e) = Some kc /\
      sap_digest n = xor_all (e_digest E (sap_code n) (threshold_str (kc_threshold kc)))
                             (map (fun key => e_digest E (sap_code n) (bp_str key)) (kc_keys kc)) /\
      computable (sap_code n).
  Proof.
    intros Hid Hl He Hr. destruct (reach_good _ _ _ Hid Hl) as (s & Hg & _).
    destruct (good_log_at _ _ _ _ _ Hg He) as (s0 & s1 & H0 & Ha & _).
    destruct (apply_msg_rotate _ _ _ _ Hr Ha) as (Hp & _ & _ & _ & kc & Hk & Hv & _).
    apply verify_next_iff in Hv. destruct Hv as (n & Hn & Hcm & Hd).
    assert (Hne : firstn k l <> []).
    { intros Hz. rewrite Hz in H0. apply good_log_nil in H0. subst s0. cbn in Hp.
      destruct Hg as [Hf _]. rewrite Forall_forall in Hf.
      rewrite (Hf e) in Hp by (eapply nth_error_In; eauto). congruence. }
    destruct (good_keys _ _ _ Hid H0 Hne) as (e0 & He0 & Hk0).
    exists e0, (st_current s0), n, kc. auto 7.
  Qed.
  Lemma c04_frozen_any cs id l j k e e' kc :
    id <> id_default -> get_kel (run E db_empty cs) id = Some l ->
    nth_error l j = Some e -> est_keys (sem_msg e) = Some kc -> (forall n, kc_next kc = Some n -> ~ computable (sap_code n)) ->
    j < k -> nth_error l k = Some e' -> is_establishment (sem_msg e') = false.
  Proof.
    intros Hid Hl He Hk Hn Hjk He'.
    destruct (is_establishment (sem_msg e')) eqn:Hest; [exfalso|reflexivity].
    assert (Hpre : forall n, forall x, nth_error l (S j + n) = Some x -> is_establishment (sem_msg x) = false).
    { induction n as [n IH] using lt_wf_ind. intros x Hx.
      destruct (is_establishment (sem_msg x)) eqn:Hex; [exfalso|reflexivity].
      unfold is_establishment in Hex. apply orb_true_iff in Hex. destruct Hex as [Hi|Hr].
      - apply (proj1 (c03_inception _ _ _ _ _ Hid Hl Hx)) in Hi. lia.
      - destruct (c04_commit _ _ _ _ _ Hid Hl Hx Hr) as (e0 & kc0 & nn & kc1 & H1 & H2 & H3 & _ & _ & H4).
        (* the last establishment event before is [e] *)
        assert (Hlast : forall n', n' <= n -> last_establishment (log_of (firstn (S j + n') l)) = Some (sem_msg e)).
        { induction n' as [|n' IH']; intros Hle.
          - rewrite Nat.add_0_r, (firstn_S_nth _ _ _ He), log_of_app.
            unfold last_establishment. rewrite last_such_app. cbn.
            destruct (is_establishment (sem_msg e)) eqn:Hee; [reflexivity|].
            unfold is_establishment, is_inception, is_rotation in Hee. unfold est_keys in Hk.
            destruct (em_data (sem_msg e)); discriminate.
          - replace (S j + S n') with (S (S j + n')) by lia.
            destruct (nth_error l (S j + n')) as [y|] eqn:Hy.
            + rewrite (firstn_S_nth _ _ _ Hy), log_of_app. unfold last_establishment.
              rewrite last_such_app. cbn. rewrite (IH n' ltac:(lia) y Hy). apply IH'. lia.
            + exfalso. apply nth_error_None in Hy. assert (nth_error l (S j + n) <> None) by congruence.
              apply nth_error_Some in H. lia. }
        rewrite (Hlast n ltac:(lia)) in H1. injection H1 as <-. rewrite Hk in H2. injection H2 as <-. exact (Hn _ H3 H4). }
    replace k with (S j + (k - S j)) in He' by lia. apply Hpre in He'. congruence.
  Qed.
  Lemma c04_frozen cs id l j k e e' kc :
    id <> id_default -> get_kel (run E db_empty cs) id = Some l ->
    nth_error l j = Some e -> est_keys (sem_msg e) = Some kc -> kc_next kc = None ->
    j < k -> nth_error l k = Some e' -> is_establishment (sem_msg e') = false.
  Proof. intros Hid Hl He Hk Hn. apply c04_frozen_any with (j := j) (e := e) (kc := kc) (cs := cs) (id := id); auto. rewrite Hn. discriminate. Qed.
  Lemma c04_ixn d se i d' s s' :
    em_data (sem_msg se) = Ixn i ->
    compute_state E d (em_prefix (sem_msg se)) = Ok (Some s) ->
    process_event E d se = (d', Ok (Some s')) ->
    s' = mkState (st_prefix s) (st_sn s + 1) (em_digest (sem_msg se)) (st_last_previous s)
           (st_last_type s) (st_current s) (st_tally s) (st_witnesses s) (st_delegator s) (st_last_est s).
  Proof.
    intros Hd Hs H.
    destruct (process_event_cases E d se) as [(r & Hr & Hn)|(ns & _ & Ha & Hc)].
    { rewrite Hr in H. injection H as _ H. exfalso. eapply Hn; eauto. }
    assert (Hns : ns = s').
    { destruct Hc as [(ser & _ & _ & Hc)|[(r & Hc & Hn & _)|(e & ser & _ & Hc & _)]];
        rewrite Hc in H; injection H as _ H; [exact H|exfalso; eapply Hn; eauto|discriminate H]. }
    subst ns. unfold apply_to_state in Ha. rewrite Hs in Ha. cbn in Ha.
    now destruct (apply_msg_ixn _ _ _ _ _ Hd Ha) as (_ & _ & _ & ->).
  Qed.

  (** C05 *)
  Lemma good_deleg id l s e0 :
    id <> id_default -> good_log E id l s -> nth_error l 0 = Some e0 ->
    st_delegator s = named_delegator (sem_msg e0)
    /\ forall e, In e l -> match em_data (sem_msg e) with
                           | Rot _ => named_delegator (sem_msg e0) = None
                           | Drt _ => named_delegator (sem_msg e0) <> None
                           | _ => True end.
  Proof.
    intros Hid. revert s. induction l as [|e l IH] using rev_ind; intros s Hg He0; [discriminate He0|].
    pose proof Hg as Hg'. apply good_log_snoc in Hg. destruct Hg as (s0 & H0 & Hp & Ha).
    destruct (good_log_shape _ _ _ _ Hid Hg') as (_ & _ & Hinc).
    destruct l as [|x l].
    - cbn in He0. injection He0 as <-. apply good_log_nil in H0. subst s0.
      specialize (Hinc 0 e eq_refl). cbn in Hinc.
      destruct (apply_msg_incept _ _ _ _ Hinc Ha) as (_ & _ & _ & kc & Hk & ->). cbn. split.
      + now destruct (named_delegator (sem_msg e)).
      + intros y [<-|[]]. unfold is_inception in Hinc. destruct (em_data (sem_msg e)); auto; discriminate.
    - cbn in He0. injection He0 as ->. destruct (IH _ H0 eq_refl) as [I1 I2].
      assert (Hi : is_inception (sem_msg e) = false).
      { specialize (Hinc (List.length (e0 :: l)) e). rewrite nth_error_app2, Nat.sub_diag in Hinc by lia.
        apply (Hinc eq_refl). }
      destruct (apply_msg_next _ _ _ _ Hi Ha) as (_ & _ & _ & Hdel & _).
      split; [congruence|]. intros y Hy. apply in_app_or in Hy. destruct Hy as [Hy|[<-|[]]]; [now apply I2|].
      destruct (em_data (sem_msg e)) eqn:Hd; auto.
      + apply apply_msg_rotate in Ha; [|unfold is_rotation; now rewrite Hd].
        destruct Ha as (_ & _ & _ & Hx & _). rewrite Hd in Hx. congruence.
      + apply apply_msg_rotate in Ha; [|unfold is_rotation; now rewrite Hd].
        destruct Ha as (_ & _ & _ & Hx & _). rewrite Hd in Hx. congruence.
  Qed.
  Lemma c05 cs id l e0 s :
    id <> id_default -> get_kel (run E db_empty cs) id = Some l -> nth_error l 0 = Some e0 ->
    compute_state E (run E db_empty cs) id = Ok (Some s) ->
    st_delegator s = named_delegator (sem_msg e0)
    /\ forall e, In e l -> match em_data (sem_msg e) with
                           | Rot _ => named_delegator (sem_msg e0) = None
                           | Drt _ => named_delegator (sem_msg e0) <> None
                           | _ => True end.
  Proof.
    intros Hid Hl He Hs. destruct (reach_good _ _ _ Hid Hl) as (s' & Hg & Hc).
    rewrite Hc in Hs. injection Hs as <-. eapply good_deleg; eauto.
  Qed.

  (** C06 *)
  Lemma good_witnesses id l s :
    id <> id_default -> good_log E id l s ->
    st_witnesses s = fold_left spec_witnesses (log_of l) []
    /\ st_tally s = fold_left spec_tally (log_of l) 0%N.
  Proof.
    intros Hid. revert s. induction l as [|e l IH] using rev_ind; intros s Hg.
    - apply good_log_nil in Hg. subst s. auto.
    - pose proof Hg as Hg'. apply good_log_snoc in Hg. destruct Hg as (s0 & H0 & Hp & Ha).
      destruct (IH _ H0) as [I1 I2]. rewrite log_of_app, !fold_left_app. cbn. rewrite <- I1, <- I2.
      destruct (is_inception (sem_msg e)) eqn:Hi.
      + destruct (apply_msg_incept _ _ _ _ Hi Ha) as (_ & _ & _ & kc & Hk & ->). cbn.
        unfold is_inception, spec_witnesses, spec_tally in *. destruct (em_data (sem_msg e)); try discriminate; auto.
      + destruct (apply_msg_next _ _ _ _ Hi Ha) as (_ & _ & _ & _ & Hw & Ht). auto.
  Qed.
  Lemma c06 cs id l s :
    id <> id_default -> get_kel (run E db_empty cs) id = Some l ->
    compute_state E (run E db_empty cs) id = Ok (Some s) ->
    st_witnesses s = fold_left spec_witnesses (log_of l) []
    /\ st_tally s = fold_left spec_tally (log_of l) 0%N.
  Proof.
    intros Hid Hl Hs. destruct (reach_good _ _ _ Hid Hl) as (s' & Hg & Hc).
    rewrite Hc in Hs. injection Hs as <-. eapply good_witnesses; eauto.
  Qed.

  (** C08: what holds *)
  Lemma good_last_est id l s :
    id <> id_default -> good_log E id l s -> l <> [] ->
    exists e, last_establishment (log_of l) = Some e /\ le_sn (st_last_est s) = em_sn e
      /\ (is_inception e = true -> st_last_est s = mkLE 0 (em_digest e) [] [])
      /\ (is_rotation e = true -> le_br (st_last_est s) = added_witnesses e
                                  /\ le_ba (st_last_est s) = removed_witnesses e
                                  /\ prev_digest e = Some (le_digest (st_last_est s))).
  Proof.
    intros Hid. revert s. induction l as [|e l IH] using rev_ind; intros s Hg Hne; [congruence|].
    apply good_log_snoc in Hg. destruct Hg as (s0 & H0 & Hp & Ha). rewrite log_of_app.
    unfold last_establishment. rewrite last_such_app. cbn.
    destruct (is_establishment (sem_msg e)) eqn:He.
    - exists (sem_msg e). split; [reflexivity|]. unfold is_establishment in He. apply orb_true_iff in He.
      destruct He as [He|He].
      + destruct (apply_msg_incept _ _ _ _ He Ha) as (_ & Hsn & _ & kc & Hk & ->). cbn. split; [auto|].
        split; [reflexivity|]. unfold is_inception, is_rotation in *. destruct (em_data (sem_msg e)); discriminate.
      + destruct (apply_msg_rotate _ _ _ _ He Ha) as (_ & _ & Hpd & _ & kc & Hk & _ & ->). cbn. split; [auto|].
        split; [|auto]. unfold is_inception, is_rotation in *. destruct (em_data (sem_msg e)); discriminate.
    - unfold is_establishment in He. apply orb_false_iff in He. destruct He as [Hi Hr].
      destruct (em_data (sem_msg e)) as [x|x|x|x|x] eqn:Hd;
        try (unfold is_inception in Hi; rewrite Hd in Hi; discriminate);
        try (unfold is_rotation in Hr; rewrite Hd in Hr; discriminate).
      destruct (apply_msg_ixn _ _ _ _ _ Hd Ha) as (Hpr & _ & _ & ->). cbn.
      assert (Hl : l <> []).
      { intros ->. apply good_log_nil in H0. subst s0. cbn in Hpr. congruence. }
      exact (IH _ H0 Hl).
  Qed.
  Lemma c08_partial cs id l s :
    id <> id_default -> get_kel (run E db_empty cs) id = Some l -> l <> [] ->
    compute_state E (run E db_empty cs) id = Ok (Some s) ->
    exists e, last_establishment (log_of l) = Some e /\ le_sn (st_last_est s) = em_sn e
      /\ (is_inception e = true -> le_digest (st_last_est s) = em_digest e
            /\ le_br (st_last_est s) = [] /\ le_ba (st_last_est s) = []).
  Proof.
    intros Hid Hl Hne Hs. destruct (reach_good _ _ _ Hid Hl) as (s' & Hg & Hc).
    rewrite Hc in Hs. injection Hs as <-. destruct (good_last_est _ _ _ Hid Hg Hne) as (e & H1 & H2 & H3 & _).
    exists e. repeat split; auto; intros; now rewrite H3.
  Qed.

  (** C09: what holds *)
  Lemma c09_binding cs id l e :
    id <> id_default -> get_kel (run E db_empty cs) id = Some l -> nth_error l 0 = Some e ->
    match id with
    | IdBasic bp => exists i, em_data (sem_msg e) = Icp i /\ kc_keys (icp_kc i) = [bp]
    | IdSelfAddressing sap =>
        em_digest (sem_msg e) = sap
        \/ (is_inception (sem_msg e) = true
            /\ exists data, e_deriv_data E (sem_msg e) = Ok data /\ e_digest E (sap_code sap) data = sap_digest sap)
    | IdSelfSigning _ => False
    end.
  Proof.
    intros Hid Hl He. destruct (reach_good _ _ _ Hid Hl) as (s & Hg & _).
    destruct (good_log_shape _ _ _ _ Hid Hg) as (_ & _ & Hinc).
    destruct (good_log_at _ _ _ _ _ Hg He) as (s0 & s1 & H0 & Ha & _).
    pose proof (proj2 (c03_inception _ _ _ _ _ Hid Hl He)) as Hpre.
    apply Hinc in He. cbn in He.
    destruct (apply_msg_incept _ _ _ _ He Ha) as (_ & _ & Hv & _).
    unfold verify_identifier_binding in Hv. unfold is_inception in He.
    rewrite Hpre in Hv. unfold check_digest in Hv.
    destruct (em_data (sem_msg e)) as [i|r|x|i|r] eqn:Hd; try discriminate He.
    - destruct id as [bp|sap|ssp]; [| |discriminate Hv].
      + injection Hv as Hv. destruct (kc_keys (icp_kc i)) as [|k [|? ?]] eqn:Hk; try discriminate Hv.
        destruct (BasicPrefix_eq_dec bp k); [subst|discriminate Hv]. eauto.
      + apply obind_ok in Hv. destruct Hv as (b & _ & Hv). injection Hv as Hv.
        apply andb_true_iff in Hv. destruct Hv as [_ Hv]. destruct (SAP_eq_dec _ _); [auto|discriminate].
    - destruct id as [bp|sap|ssp]; [discriminate Hv| |discriminate Hv].
      destruct (SelfAddressing_eq_dec _ _).
      + injection Hv as Hv. destruct (SAP_eq_dec _ _); [auto|discriminate].
      + apply obind_ok in Hv. destruct Hv as (data & Hdd & Hv).
        unfold verify_binding in Hv. destruct (digest_aborts (sap_code sap)) eqn:Hab; [discriminate Hv|].
        injection Hv as Hv. apply bytes_eqb_eq in Hv.
        right. split; [unfold is_inception; now rewrite Hd|]. eauto.
  Qed.
End WithEnv.
