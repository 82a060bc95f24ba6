(** * TakeoverProofs: accepted rotations and openings of the commitment. *)
From Coq Require Import Permutation.
From Verif Require Import Base Base64 Codes NumFmt Types KeyConf SpecSig State Db Processor Spec SpecProc SpecRules SpecBind
  StateProofs LogProofs LogTheorems LogTheorems2 SigProofs ProcProofs ProcProofs2 CodecProofs AcceptProofs BindProofs.
Local Open Scope nat_scope.

Lemma run_process E cs m d' o :
  process E (run E db_empty cs) m = (d', o) -> run E db_empty (cs ++ [CProcess m]) = d'.
Proof. intros H. unfold run. rewrite fold_left_app. cbn. unfold run in H. now rewrite H. Qed.

Section S.
  Context (E : Env).
  (** Whoever can open the commitment and sign enough with the keys of the opening rotates. *)
  Lemma rotation_accepted cs id s n m r sigs ser :
    let d := run E db_empty cs in
    id <> id_default -> log d id <> [] -> compute_state E d id = Ok (Some s) -> st_delegator s = None ->
    kc_next (st_current s) = Some n -> computable (sap_code n) ->
    em_data m = Rot r -> em_prefix m = id -> em_sn m = (st_sn s + 1)%N -> rot_prev r = st_last_digest s ->
    sap_digest n = xor_all (e_digest E (sap_code n) (threshold_str (kc_threshold (rot_kc r))))
                           (map (fun k => e_digest E (sap_code n) (bp_str k)) (kc_keys (rot_kc r))) ->
    (exists x, e_deriv_data E m = Ok x) -> e_ser_event E m = Ok ser ->
    rational_threshold (kc_threshold (rot_kc r)) -> in_single (kc_threshold (rot_kc r)) sigs ->
    satisfies E (rot_kc r) ser sigs ->
    exists d' s', process E d (MEvent (mkSEM m sigs None)) = (d', Ok (Some s')) /\ st_current s' = rot_kc r.
  Proof.
    cbv zeta. intros Hid Hne Hs Hdel Hn Hcm Hm Hp Hsn Hpr Hcom Hx Hser Hrat Hin Hsat.
    set (d := run E db_empty cs) in *.
    assert (Hk : exists kl, get_kel d id = Some kl).
    { unfold log in Hne. destruct (get_kel d id); [eauto|]. contradiction Hne. reflexivity. }
    destruct Hk as (kl & Hkl). destruct (reach_good E cs _ _ Hid Hkl) as (s' & Hg & Hc). fold d in Hc. rewrite Hs in Hc. injection Hc as <-.
    assert (Hl : log d id = kl) by (unfold log; now rewrite Hkl). rewrite Hl in *.
    assert (M4 : is_inception m = false) by (unfold is_inception; now rewrite Hm).
    assert (M5 : is_rotation m = true) by (unfold is_rotation; now rewrite Hm).
    assert (M6 : est_keys m = Some (rot_kc r)) by (unfold est_keys; now rewrite Hm).
    assert (M7 : prev_digest m = Some (st_last_digest s)) by (unfold prev_digest; now rewrite Hm, Hpr).
    destruct (good_log_shape _ _ _ _ Hid Hg) as (_ & Hsh & _).
    destruct kl as [|f kl]; [contradiction|].
    destruct (rev (f :: kl)) as [|y rr] eqn:Hr; [now apply rev_nil_inv in Hr|]. destruct Hsh as (Q1 & Q2 & Q3).
    destruct (good_deleg E id _ _ f Hid Hg eq_refl) as (Hdel' & _).
    destruct (good_keys E id _ _ Hid Hg ltac:(discriminate)) as (e0 & He0 & Hk0).
    assert (Hkif : keys_in_force (log_of (f :: kl)) m = Some (rot_kc r)).
    { unfold keys_in_force, last_establishment. rewrite last_such_app.
      change (last_such is_establishment [m]) with (if is_inception m || is_rotation m then Some m else None).
      rewrite M4, M5. cbn [orb]. exact M6. }
    pose proof (accept_iff E cs (mkSEM m sigs None)) as Ha. cbv zeta in Ha. cbn [sem_msg] in Ha. fold d in Ha. rewrite Hp, Hl in Ha.
    assert (Hacc : exists d' s', process E d (MEvent (mkSEM m sigs None)) = (d', Ok (Some s'))).
    { apply Ha; clear Ha; [exact Hid| |exact Hx| |].
      - cbn. rewrite <- Hdel', Hdel. discriminate.
      - intros kc Hkc. rewrite Hkif in Hkc. injection Hkc as <-. exact Hrat.
      - unfold acceptable. cbn [sem_msg]. rewrite Hp, Hl, M4. split; [|split].
        + exists (sem_msg f), (sem_msg y). split; [reflexivity|]. split; [rewrite last_event_rev, rev_log_of, Hr; reflexivity|].
          split; [unfold log_of; rewrite map_length; lia|]. split; [congruence|]. split.
          * intros _. exists e0. split; [exact He0|]. exists (st_current s), n, (rot_kc r). auto 7.
          * rewrite Hm, <- Hdel'. exact Hdel.
        + unfold is_delegated. rewrite Hm. discriminate.
        + exists (rot_kc r), ser. auto. }
    destruct Hacc as (d' & s' & Hpc). exists d', s'. split; [exact Hpc|].
    pose proof (c19 E cs (mkSEM m sigs None) d' (Some s')) as H19. cbv zeta in H19. cbn [sem_msg sem_sigs] in H19.
    rewrite Hp in H19. fold d in H19. destruct (H19 Hid Hpc) as (s2 & E1 & Hkel & _ & Hcs & _). injection E1 as <-.
    pose proof (run_process E cs _ _ _ Hpc) as Hrun.
    destruct (c04_keys E (cs ++ [CProcess (MEvent (mkSEM m sigs None))]) id (log d id ++ [mkSEM m sigs None]) s' Hid) as (e & Hle & Hek).
    - rewrite Hrun. exact Hkel.
    - apply not_eq_sym, app_cons_not_nil.
    - rewrite Hrun. exact Hcs.
    - rewrite Hl in Hle. unfold last_establishment, log_of in Hle. rewrite map_app, last_such_app in Hle.
      change (last_such is_establishment (map sem_msg [mkSEM m sigs None])) with (if is_inception m || is_rotation m then Some m else None) in Hle.
      rewrite M4, M5 in Hle. cbn [orb] in Hle. injection Hle as <-. rewrite M6 in Hek. now injection Hek.
  Qed.
End S.
