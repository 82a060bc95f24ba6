(** * SharedProofs: controllers over one key manager. *)
From Verif Require Import Base Base64 Codes NumFmt Types KeyConf SpecSig State Db Processor Spec SpecProc
  StateProofs LogProofs LogTheorems LogTheorems2 SigProofs ProcProofs ProcProofs2 ProcProofs3
  Cesr Message Keri SpecKeri KeriProofs KeriProofs2 SpecShared.

Section WithEnv.
  Context (E : Env) (K : KEnv).

  Lemma operate_app ops1 : forall ops2 k,
    fst (operate E K k (ops1 ++ ops2)) = fst (operate E K (fst (operate E K k ops1)) ops2).
  Proof.
    induction ops1 as [|o ops1 IH]; intros ops2 k; [reflexivity|].
    destruct o as [fresh|payload pk npk|peer|c]; cbn [app operate].
    - destruct (rotate E K k fresh) as [k1 x]. specialize (IH ops2 k1).
      destruct (operate E K k1 (ops1 ++ ops2)), (operate E K k1 ops1). exact IH.
    - destruct (make_ixn E K k payload pk npk) as [k1 x]. specialize (IH ops2 k1).
      destruct (operate E K k1 (ops1 ++ ops2)), (operate E K k1 ops1). exact IH.
    - destruct (interact E K k peer) as [k1 x]. specialize (IH ops2 k1).
      destruct (operate E K k1 (ops1 ++ ops2)), (operate E K k1 ops1). exact IH.
    - apply IH.
  Qed.
  (** one operation *)
  Lemma operate_rot k fresh : operate E K k [ORotate fresh] = (fst (rotate E K k fresh), [snd (rotate E K k fresh)]).
  Proof. cbn [operate]. now destruct (rotate E K k fresh). Qed.
  Lemma operate_ixn k p pk npk : operate E K k [OIxn p pk npk] = (fst (make_ixn E K k p pk npk), [snd (make_ixn E K k p pk npk)]).
  Proof. cbn [operate]. now destruct (make_ixn E K k p pk npk). Qed.
  Lemma operate_int k p : operate E K k [OInteract p] = (fst (interact E K k p), [snd (interact E K k p)]).
  Proof. cbn [operate]. now destruct (interact E K k p). Qed.

  (** ** What an operation submits *)
  Lemma ixn_outcome (HS : events_serialize E K) k payload pk npk : k_prefix k <> id_default ->
    (fst (make_ixn E K k payload pk npk) = k /\ forall se, snd (make_ixn E K k payload pk npk) <> Ok se)
    \/ exists s m ser sig seals, compute_state E (k_db k) (k_prefix k) = Ok (Some s)
       /\ m = mkEM (em_info m) (em_digest m) (k_prefix k) (st_sn s + 1) (Ixn (mkIxn (st_last_digest s) seals))
       /\ e_ser_event E m = Ok ser /\ k_sign_ed K (kp_priv (cb_cur (k_box k))) ser = Ok sig
       /\ make_ixn E K k payload pk npk = submit E k (mkSEM m [mkASP 0 (mkSSP Ed25519Sha512 sig)] None).
  Proof.
    intros Hid. unfold make_ixn. set (seals := match payload with Some p => _ | None => _ end).
    destruct (compute_state E (k_db k) (k_prefix k)) as [[s|]|e|]; cbn [obind ok_or]; try (left; split; [reflexivity|discriminate]).
    destruct (build_ixn E K HS (k_prefix k) (st_sn s + 1) (st_last_digest s) seals pk npk Hid) as (info & dig & Hb & Hj).
    rewrite Hb. cbn [obind]. set (m := mkEM info dig _ _ _). unfold sign_own, box_sign.
    destruct (proj1 HS m Hj) as [ser Hser]. rewrite Hser. cbn [obind].
    destruct (k_sign_ed K (kp_priv (cb_cur (k_box k))) ser) as [sig|e|] eqn:Hs; cbn [obind];
      try (left; split; [reflexivity|discriminate]).
    right. exists s, m, ser, sig, seals. auto.
  Qed.
  Lemma rotate_outcome (HS : events_serialize E K) k fresh : k_prefix k <> id_default ->
    let k1 := mkKeri (k_prefix k) (box_rotate (k_box k) fresh) (k_db k) in
    (fst (rotate E K k fresh) = k1 /\ forall se, snd (rotate E K k fresh) <> Ok se)
    \/ exists s m sig, compute_state E (k_db k) (k_prefix k) = Ok (Some s)
       /\ m = mkEM (em_info m) (em_digest m) (k_prefix k) (st_sn s + 1)
                (Rot (mkRot (st_last_digest s) (own_kc E (kp_pub (cb_next (k_box k))) [] (kp_pub fresh)) (mkWC 0 [] []) []))
       /\ rotate E K k fresh = submit E k1 (mkSEM m [mkASP 0 (mkSSP Ed25519Sha512 sig)] None).
  Proof.
    intros Hid k1. unfold rotate. fold k1. unfold make_rotation. change (k_db k1) with (k_db k). change (k_prefix k1) with (k_prefix k).
    destruct (compute_state E (k_db k) (k_prefix k)) as [[s|]|e|]; cbn [obind ok_or]; try (left; split; [reflexivity|discriminate]).
    destruct (build_rot E K HS (k_prefix k) (st_sn s + 1) (st_last_digest s) (kp_pub (cb_next (k_box k))) (kp_pub fresh) Hid)
      as (info & dig & Hb & Hj).
    change (cb_cur (k_box k1)) with (cb_next (k_box k)). change (cb_next (k_box k1)) with fresh.
    rewrite Hb. cbn [obind]. set (m := mkEM info dig _ _ _). unfold sign_own, box_sign.
    destruct (proj1 HS m Hj) as [ser Hser]. rewrite Hser. cbn [obind].
    destruct (k_sign_ed K (kp_priv (cb_cur (k_box k1))) ser) as [sig|e|] eqn:Hs; cbn [obind];
      try (left; split; [reflexivity|discriminate]).
    right. exists s, m, sig. auto.
  Qed.
  Lemma submit_answer k se x : snd (submit E k se) = Ok x -> x = se /\ exists d os, process E (k_db k) (MEvent se) = (d, Ok os).
  Proof.
    unfold submit. destruct (process E (k_db k) (MEvent se)) as [d [os|e|]]; cbn [omap obind snd]; intros H; try discriminate H.
    split; [congruence|eauto].
  Qed.

  (** ** A log that the manager has no keys for *)
  Record Held (q : IdentifierPrefix) (d : Db) (l : list SignedEventMessage) (cur next : bytes) : Prop := mkHeld {
    hd_id : q <> id_default;
    hd_log : get_kel d q = Some l;
    hd_ne : l <> [];
    hd_state : exists s more, good_log E q l s /\ st_delegator s = None /\ st_current s = own_kc E cur more next }.
  Lemma held_same q d d' l cur next : get_kel d' q = get_kel d q -> Held q d l cur next -> Held q d' l cur next.
  Proof. intros H [H1 H2 H3 H4]. constructor; auto. congruence. Qed.
  Lemma working_held k l : Working E K k l -> Held (k_prefix k) (k_db k) l (kp_pub (cb_cur (k_box k))) (kp_pub (cb_next (k_box k))).
  Proof. intros [H1 H2 H3 (s & more & H4 & H5 & H6) _ _]. constructor; auto. exists s, more. auto. Qed.

  Lemma kc_verify_wrong pk more n msg sig :
    e_verify_ed E pk msg sig = false ->
    kc_verify E (mkKC (Simple 1) (ed_key pk :: more) n) msg [mkASP 0 (mkSSP Ed25519Sha512 sig)] = Ok false.
  Proof.
    intros H. unfold kc_verify. cbn [kc_threshold enough_signatures kc_keys List.length].
    change (1 <=? N.of_nat 1)%N with true. cbn [obind negb Nat.leb].
    unfold count_indices. cbn [fold_left obind asp_index N.to_nat repeat bump].
    cbn [forallb]. change (0 + 1 <=? 1)%N with true. cbn [andb].
    assert (F : forall n, forallb (fun x => (x <=? 1)%N) (repeat 0%N n) = true) by (induction n0; cbn; auto).
    rewrite F. unfold verify_each. cbn [fold_left obind asp_index N.to_nat nth_error asp_sig].
    unfold key_verify. cbn [bp_code ed_key ssp_code bp_key ssp_sig]. now rewrite H.
  Qed.

  Lemma wrong_ixn (HS : events_serialize E K) q b d l cur next payload pk npk :
    Held q d l cur next -> cannot_sign_for E K cur (cb_cur b) ->
    let x := make_ixn E K (mkKeri q b d) payload pk npk in
    (forall se, snd x <> Ok se) /\ get_kel (k_db (fst x)) q = get_kel d q.
  Proof.
    intros [Hid Hl Hne (s & more & Hg & Hd & Hc)] Hw x. subst x.
    destruct (ixn_outcome HS (mkKeri q b d) payload pk npk Hid) as [[-> H]|(s' & m & ser & sig & seals & Hs & Hm & Hser & Hsig & ->)];
      [split; [exact H|reflexivity]|].
    cbn [k_prefix k_box k_db] in *. rewrite (compute_state_good E d _ _ _ Hid Hl Hg) in Hs. assert (s' = s) by congruence. subst s'.
    pose proof (good_log_prefix E _ _ _ Hid Hne Hg) as Hp.
    destruct (apply_own_ixn E s (em_info m) (em_digest m) q seals Hp) as (ns & Ha & Hnd & Hnc). rewrite <- Hm in Ha.
    assert (Hq : em_prefix m = q) by (now rewrite Hm). assert (Hdata : exists i, em_data m = Ixn i) by (rewrite Hm; cbn; eauto).
    assert (Hsn : em_sn m = (st_sn s + 1)%N) by (now rewrite Hm).
    set (se := mkSEM m _ None).
    assert (Hpr : process E d (MEvent se) = (remove_kel (add_kel d se q) q se, Err ESignatureVerification)).
    { cbn [process]. unfold process_event. cbn [se sem_msg sem_sigs].
      assert (Hcd : check_delegation E d se = Ok tt) by (unfold check_delegation; cbn [se sem_msg]; destruct Hdata as [i ->]; reflexivity).
      fold se. rewrite Hcd. unfold apply_to_state. rewrite Hq, (compute_state_good E d _ _ _ Hid Hl Hg). cbn [obind].
      rewrite Ha, Hser. unfold verify_signatures. cbn [se sem_sigs]. rewrite Hnc, Hc.
      unfold own_kc. rewrite kc_verify_wrong by (apply (Hw ser sig Hsig)). reflexivity. }
    unfold submit. cbn [k_db]. rewrite Hpr. cbn [omap obind fst snd set_db k_db]. split; [discriminate|].
    rewrite get_kel_remove, get_kel_add_same, Hl. destruct (IdentifierPrefix_eq_dec q q) as [_|]; [|congruence].
    cbn [olist option_map]. rewrite filter_app. rewrite (filter_low E q l s se Hid Hg) by (unfold sn_of; cbn [se sem_msg]; lia).
    cbn [filter]. unfold sem_eqb, stored. cbn [sem_msg sem_sigs].
    destruct (EM_eq_dec _ _) as [_|]; [|congruence]. destruct (sigs_eq_dec _ _) as [_|]; [|congruence].
    cbn [andb negb]. now rewrite app_nil_r.
  Qed.
  Lemma wrong_rotate (HS : events_serialize E K) q b d l cur next fresh :
    Held q d l cur next -> does_not_open E next (cb_next b) ->
    let x := rotate E K (mkKeri q b d) fresh in
    (forall se, snd x <> Ok se) /\ get_kel (k_db (fst x)) q = get_kel d q.
  Proof.
    intros [Hid Hl Hne (s & more & Hg & Hd & Hc)] Hw x. subst x.
    destruct (rotate_outcome HS (mkKeri q b d) fresh Hid) as [[-> H]|(s' & m & sig & Hs & Hm & ->)];
      [split; [exact H|reflexivity]|].
    cbn [k_prefix k_box k_db] in *. rewrite (compute_state_good E d _ _ _ Hid Hl Hg) in Hs. assert (s' = s) by congruence. subst s'.
    pose proof (good_log_prefix E _ _ _ Hid Hne Hg) as Hp.
    assert (Ha : exists e, apply_msg E m s = Err e).
    { rewrite Hm. unfold apply_msg. cbn [em_data rot_prev]. unfold check_event_digest.
      rewrite check_digest_self. cbn [obind ok_if]. rewrite Hd. unfold apply_event.
      cbn [em_data em_prefix em_sn]. destruct (IdentifierPrefix_eq_dec q (st_prefix s)) as [_|]; [|congruence].
      rewrite N.ltb_irrefl. cbn [obind apply_data]. unfold apply_rot, verify_next.
      cbn [st_current st_set_sn_prefix rot_kc]. rewrite Hc. cbn [kc_next own_kc].
      unfold commit. cbn [own_kc kc_threshold kc_keys].
      assert (Hcode : sap_code (nxt_commitment E (Simple 1) [ed_key next] Blake3_256) = Blake3_256) by reflexivity.
      rewrite Hcode. change (digest_aborts Blake3_256) with false. cbn iota.
      destruct (SAP_eq_dec _ _) as [Hx|_]; [exfalso; apply Hw; symmetry; exact Hx|]. cbn [obind]. eauto. }
    destruct Ha as [e Ha]. assert (Hq : em_prefix m = q) by (now rewrite Hm).
    assert (Hdata : exists i, em_data m = Rot i) by (rewrite Hm; cbn; eauto).
    set (se := mkSEM m _ None).
    assert (Hpr : process E d (MEvent se) = (d, Err e)).
    { cbn [process]. unfold process_event. cbn [se sem_msg sem_sigs].
      assert (Hcd : check_delegation E d se = Ok tt) by (unfold check_delegation; cbn [se sem_msg]; destruct Hdata as [i ->]; reflexivity).
      fold se. rewrite Hcd. unfold apply_to_state. rewrite Hq, (compute_state_good E d _ _ _ Hid Hl Hg). cbn [obind].
      now rewrite Ha. }
    unfold submit. cbn [k_db]. rewrite Hpr. cbn [omap obind fst snd set_db k_db]. split; [discriminate|reflexivity].
  Qed.

  (** ** Another controller's operation *)
  Lemma other_kel (HS : events_serialize E K) q p b d x : p <> id_default -> p <> q ->
    (forall c, x = OCall c -> foreign q c) ->
    get_kel (k_db (fst (operate E K (mkKeri p b d) [x]))) q = get_kel d q.
  Proof.
    intros Hid Hne Hf. destruct x as [fresh|payload pk npk|peer|c].
    - rewrite operate_rot. cbn [fst].
      destruct (rotate_outcome HS (mkKeri p b d) fresh Hid) as [[-> _]|(s & m & sig & _ & Hm & ->)]; [reflexivity|].
      match goal with |- context [submit E ?k ?se] => destruct (submit_db E k se) as (-> & _); apply foreign_call end.
      cbn [foreign sem_msg]. rewrite Hm. exact Hne.
    - rewrite operate_ixn. cbn [fst].
      destruct (ixn_outcome HS (mkKeri p b d) payload pk npk Hid) as [[-> _]|(s & m & ser & sig & seals & _ & Hm & _ & _ & ->)]; [reflexivity|].
      match goal with |- context [submit E ?k ?se] => destruct (submit_db E k se) as (-> & _); apply foreign_call end.
      cbn [foreign sem_msg]. rewrite Hm. exact Hne.
    - rewrite operate_int. cbn [fst].
      destruct (interact_outcome E K (mkKeri p b d) peer) as [[-> _]|(y & last & m & sig & _ & _ & _ & H4)]; [reflexivity|].
      cbv zeta in H4. rewrite H4. cbn [fst k_db set_db k_prefix]. rewrite get_kel_add.
      destruct (IdentifierPrefix_eq_dec _ _); [congruence|reflexivity].
    - cbn [operate fst set_db k_db]. apply foreign_call. now apply Hf.
  Qed.
  Lemma operate_box (HS : events_serialize E K) p b d x : p <> id_default ->
    k_box (fst (operate E K (mkKeri p b d) [x])) = match x with ORotate f => box_rotate b f | _ => b end.
  Proof.
    intros Hid. destruct x as [fresh|payload pk npk|peer|c].
    - rewrite operate_rot. apply rotate_box.
    - rewrite operate_ixn. cbn [fst].
      destruct (ixn_outcome HS (mkKeri p b d) payload pk npk Hid) as [[-> _]|(s & m & ser & sig & seals & _ & _ & _ & _ & ->)]; [reflexivity|].
      match goal with |- context [submit E ?k ?se] => destruct (submit_db E k se) as (_ & _ & ->) end. reflexivity.
    - rewrite operate_int. cbn [fst].
      destruct (interact_outcome E K (mkKeri p b d) peer) as [[-> _]|(y & last & m & sig & _ & _ & _ & H4)]; [reflexivity|].
      cbv zeta in H4. rewrite H4. reflexivity.
    - reflexivity.
  Qed.

  (** ** Careful controllers stay careful *)
  Lemma careful_more k ops : careful E K k -> Forall (op_ok E K (k_prefix k)) ops -> careful E K (fst (operate E K k ops)).
  Proof.
    intros (cs & b & extra & ws & k0 & se0 & ops0 & HS & Hcur & Hnext & Hdig & Hi & Hno & Hops & ->) Ho.
    exists cs, b, extra, ws, k0, se0, (ops0 ++ ops). do 6 (split; [assumption|]). split.
    - apply Forall_app. split; [exact Hops|].
      destruct (careful_start E K cs b extra ws k0 se0 HS Hcur Hnext Hdig Hi Hno) as (Hw & _).
      destruct (operate_working E K HS ops0 k0 _ Hw Hops) as (evs & _ & Hp & _). now rewrite Hp in Ho.
    - now rewrite operate_app.
  Qed.
End WithEnv.
