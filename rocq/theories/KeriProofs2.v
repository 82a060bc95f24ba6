(** * KeriProofs2: [interact], receipts, [respond], queries. *)
From Verif Require Import Base Base64 Codes NumFmt Types KeyConf SpecSig State Db Processor Spec SpecProc
  StateProofs LogProofs LogTheorems LogTheorems2 SigProofs ProcProofs ProcProofs2 ProcProofs3
  Cesr Message Keri SpecKeri KeriProofs.

Section WithEnv.
  Context (E : Env) (K : KEnv).

  (** ** [interact] *)
  Definition sn_of (e : SignedEventMessage) : N := em_sn (sem_msg e).
  Lemma insert_forall (P : SignedEventMessage -> Prop) e l :
    P e -> Forall P l -> Forall P (insert_by_sn e l).
  Proof.
    intros He. induction 1 as [|x l Hx Hl IH]; cbn; [auto|]. destruct (_ <=? _)%N; auto.
  Qed.
  Lemma sort_forall (P : SignedEventMessage -> Prop) l : Forall P l -> Forall P (sort_by_sn l).
  Proof. induction 1; cbn; [constructor|]. now apply insert_forall. Qed.
  Lemma insert_le e l :
    Forall (fun x => (sn_of e <= sn_of x)%N) l -> insert_by_sn e l = e :: l.
  Proof. exact (insert_le e l). Qed.
  Lemma sort_low n l : forall k, sns_from k l -> (k + N.of_nat (List.length l) <= n)%N ->
    forall r, Forall (fun x => (n <= sn_of x)%N) r -> sort_by_sn (l ++ r) = l ++ sort_by_sn r.
  Proof.
    induction l as [|e l IH]; intros k Hs Hk r Hr; [reflexivity|].
    apply sns_from_cons in Hs. destruct Hs as [H1 H2]. cbn [List.length] in Hk. cbn [app sort_by_sn].
    rewrite (IH (k + 1)%N H2) by (lia || exact Hr). apply insert_le. apply Forall_app. split.
    - apply sns_from_Forall in H2. eapply Forall_impl; [|exact H2]. unfold sn_of. cbn. intros; lia.
    - apply sort_forall. eapply Forall_impl; [|exact Hr]. unfold sn_of in *. cbn. intros; lia.
  Qed.
  Lemma sort_bad n e r :
    sn_of e = n -> Forall (fun x => (n <= sn_of x)%N) r -> sort_by_sn (e :: r) = e :: sort_by_sn r.
  Proof. intros <- Hr. cbn. apply insert_le. now apply sort_forall. Qed.
  Lemma replay_app_strict l r s s' : replay_strict E l s = Ok s' -> replay E (l ++ r) s = replay E r s'.
  Proof.
    revert s. induction l as [|e l IH]; intros s H; cbn in *; [congruence|].
    apply obind_ok in H. destruct H as (s1 & H1 & H). rewrite H1. now apply IH.
  Qed.

  (** a log with an interaction that does not chain after a good part that ends in [s] *)
  Definition Stuck (id : IdentifierPrefix) (s : IdentifierState) (d : Db) : Prop :=
    exists l bad rest i, get_kel d id = Some (l ++ bad :: rest) /\ good_log E id l s /\ l <> []
      /\ em_prefix (sem_msg bad) = id /\ sn_of bad = (st_sn s + 1)%N
      /\ em_data (sem_msg bad) = Ixn i /\ ixn_prev i <> st_last_digest s
      /\ Forall (fun x => (st_sn s + 1 <= sn_of x)%N) rest.
  Lemma bad_fails id s l bad i :
    id <> id_default -> good_log E id l s -> l <> [] ->
    em_prefix (sem_msg bad) = id -> sn_of bad = (st_sn s + 1)%N ->
    em_data (sem_msg bad) = Ixn i -> ixn_prev i <> st_last_digest s ->
    apply_msg E (sem_msg bad) s = Err (ESemantic "Last event does not match previous event").
  Proof.
    intros Hid Hg Hne Hp Hsn Hd Hprev. unfold apply_msg. rewrite Hd. unfold check_event_digest.
    rewrite check_digest_self. cbn [obind ok_if]. unfold apply_event. rewrite Hd.
    rewrite (good_log_prefix E _ _ _ Hid Hne Hg), Hp.
    destruct (IdentifierPrefix_eq_dec _ _) as [_|]; [|congruence]. unfold sn_of in Hsn. rewrite Hsn, N.ltb_irrefl.
    cbn [obind apply_data apply_ixn]. unfold chain_to. destruct (SAP_eq_dec _ _); [congruence|reflexivity].
  Qed.
  Lemma stuck_state id s d : id <> id_default -> Stuck id s d -> compute_state E d id = Ok (Some s).
  Proof.
    intros Hid (l & bad & rest & i & Hl & Hg & Hne & Hp & Hsn & Hd & Hprev & Hr).
    unfold compute_state. rewrite Hl.
    destruct (good_log_shape E _ _ _ Hid Hg) as (Hs & Hsh & _).
    assert (Hlen : (st_sn s + 1)%N = N.of_nat (List.length l)).
    { destruct (rev l) as [|x r] eqn:Hrev; [|now destruct Hsh as (_ & ? & _)].
      apply (f_equal (@rev _)) in Hrev. rewrite rev_involutive in Hrev. contradiction. }
    rewrite (sort_low (st_sn s + 1) l 0 Hs) by first [lia | constructor; [lia|exact Hr]].
    rewrite (sort_bad _ _ _ Hsn Hr), (replay_app_strict _ _ _ _ (proj2 Hg)).
    cbn [replay]. now rewrite (bad_fails _ _ _ _ _ Hid Hg Hne Hp Hsn Hd Hprev).
  Qed.
  Lemma filter_low id l s se : id <> id_default -> good_log E id l s -> (st_sn s < sn_of se)%N ->
    filter (fun e => negb (sem_eqb e se)) l = l.
  Proof.
    intros Hid Hg Hsn. apply filter_id. apply Forall_forall. intros x Hx.
    destruct (sem_eqb x se) eqn:He; [|reflexivity]. exfalso. apply sem_eqb_true in He. destruct He as [He _].
    destruct (good_log_shape E _ _ _ Hid Hg) as (Hs & Hsh & _).
    apply In_nth_error in Hx. destruct Hx as [k Hk]. pose proof (Hs k x Hk) as Hn.
    assert (k < List.length l) by (apply nth_error_Some; congruence).
    destruct (rev l) as [|y r] eqn:Hrev.
    - apply (f_equal (@rev _)) in Hrev. rewrite rev_involutive in Hrev. subst l. cbn in *. lia.
    - destruct Hsh as (_ & Hlen & _). unfold sn_of in Hsn. rewrite <- He in Hsn. lia.
  Qed.
  Lemma stuck_same_kel id s d d' : get_kel d' id = get_kel d id -> Stuck id s d -> Stuck id s d'.
  Proof.
    intros H (l & bad & rest & i & Hl & R). exists l, bad, rest, i. rewrite H. auto.
  Qed.
  Lemma stuck_event id s d se : id <> id_default -> Stuck id s d -> Stuck id s (fst (process_event E d se)).
  Proof.
    intros Hid Hst.
    destruct (IdentifierPrefix_eq_dec id (em_prefix (sem_msg se))) as [He|Hne].
    2:{ apply (stuck_same_kel id s d); [|exact Hst]. apply (foreign_call E d (CProcess (MEvent se)) id). cbn. congruence. }
    pose proof (stuck_state _ _ _ Hid Hst) as Hcs.
    destruct (process_event_cases E d se) as [(r & -> & _)|(ns & _ & Ha & H)]; [exact Hst|].
    unfold apply_to_state in Ha. rewrite <- He, Hcs in Ha. cbn [obind] in Ha.
    destruct Hst as (l & bad & rest & i & Hl & Hg & Hnl & Hp & Hsn & Hd & Hprev & Hr).
    pose proof (good_log_prefix E _ _ _ Hid Hnl Hg) as Hpre.
    assert (Hse : sn_of se = (st_sn s + 1)%N).
    { destruct (is_inception (sem_msg se)) eqn:Hi.
      - apply apply_msg_incept in Ha; [|exact Hi]. destruct Ha as (Hz & _). congruence.
      - now apply apply_msg_next in Ha; [|exact Hi]. }
    assert (Hadd : Stuck id s (add_kel d se id)).
    { exists l, bad, (rest ++ [stored se]), i. rewrite get_kel_add_same, Hl. cbn [olist].
      rewrite <- app_assoc. cbn [app]. split; [reflexivity|].
      repeat (split; [assumption|]). apply Forall_app. split; [exact Hr|]. constructor; [|constructor].
      unfold sn_of in *. cbn. lia. }
    rewrite <- He in H. destruct H as [(ser & _ & _ & ->)|[(r & -> & _)|(x & ser & _ & -> & _)]]; cbn [fst];
      [exact Hadd|exact Hadd|].
    exists l, bad, (filter (fun e => negb (sem_eqb e se)) (rest ++ [stored se])), i.
    rewrite get_kel_remove, get_kel_add_same, Hl. destruct (IdentifierPrefix_eq_dec id id) as [_|]; [|congruence].
    cbn [olist option_map]. rewrite <- app_assoc. cbn [app]. rewrite filter_app.
    rewrite (filter_low id l s se Hid Hg) by lia. cbn [filter].
    assert (Hb : sem_eqb bad se = false).
    { destruct (sem_eqb bad se) eqn:Hb; [|reflexivity]. apply sem_eqb_true in Hb. destruct Hb as [Hb _].
      pose proof (bad_fails _ _ _ _ _ Hid Hg Hnl Hp Hsn Hd Hprev) as Hf. rewrite Hb in Hf. congruence. }
    rewrite Hb. cbn [negb]. split; [reflexivity|]. repeat (split; [assumption|]).
    apply Forall_forall. intros y Hy. apply filter_In in Hy. destruct Hy as [Hy _].
    apply in_app_iff in Hy. destruct Hy as [Hy|[<-|[]]].
    - now apply (proj1 (Forall_forall _ _) Hr).
    - unfold sn_of in *. cbn. lia.
  Qed.
  Lemma stuck_call id s d c : id <> id_default -> Stuck id s d -> Stuck id s (call E d c).
  Proof.
    intros Hid Hst. destruct c as [m|]; cbn [call].
    - destruct m as [e|r|r|r|q]; [now apply stuck_event|..];
        (apply (stuck_same_kel id s d); [|exact Hst]); unfold get_kel; rewrite process_other_kel; (reflexivity || discriminate).
    - apply (stuck_same_kel id s d); [|exact Hst]. unfold get_kel. now rewrite process_escrow_kel.
  Qed.
  Lemma submit_db k se : k_db (fst (submit E k se)) = call E (k_db k) (CProcess (MEvent se))
    /\ k_prefix (fst (submit E k se)) = k_prefix k /\ k_box (fst (submit E k se)) = k_box k.
  Proof.
    unfold submit. cbn [call]. destruct (process E (k_db k) (MEvent se)) as [d r]. auto.
  Qed.
  Lemma interact_outcome k peer :
    interact E K k peer = (k, snd (interact E K k peer)) /\ (forall se, snd (interact E K k peer) <> Ok se)
    \/ exists p last m sig, peer = IdSelfAddressing p
       /\ popped (olist (get_kel (k_db k) (k_prefix k))) = Some last
       /\ said_to_message E K (k_prefix k) (em_sn (sem_msg last) + 1) (Ixn (mkIxn p [SealDigest p])) JSON Blake3_256 = Ok m
       /\ let se := mkSEM m [mkASP 0 (mkSSP ECDSAsecp256k1Sha256 sig)] None in
          interact E K k peer = (set_db k (add_kel (k_db k) se (k_prefix k)), Ok se).
  Proof.
    unfold interact. destruct (get_kel (k_db k) (k_prefix k)) as [evs|]; [|left; split; [reflexivity|discriminate]].
    cbn [olist]. destruct (popped evs) as [last|]; [|left; split; [reflexivity|discriminate]]. cbn [ok_or obind].
    destruct peer as [p|p|p]; [left; split; [reflexivity|discriminate]| |left; split; [reflexivity|discriminate]].
    cbn [obind].
    assert (Hev : event_to_message E K (k_prefix k) (em_sn (sem_msg last) + 1) (Ixn (mkIxn p [SealDigest p])) JSON Blake3_256
      = said_to_message E K (k_prefix k) (em_sn (sem_msg last) + 1) (Ixn (mkIxn p [SealDigest p])) JSON Blake3_256)
      by (unfold event_to_message; now destruct (k_prefix k)).
    rewrite Hev. destruct (said_to_message E K _ _ _ _ _) as [m|e|] eqn:Hm;
      [|left; split; [reflexivity|discriminate]..].
    cbn [obind]. destruct (e_ser_event E m) as [ser|e|]; [|left; split; [reflexivity|discriminate]..].
    cbn [obind]. destruct (box_sign K (k_box k) ser) as [sig|e|]; [|left; split; [reflexivity|discriminate]..].
    cbn [obind]. right. exists p, last, m, sig. auto.
  Qed.
  Lemma said_fields p sn data f g m : said_to_message E K p sn data f g = Ok m ->
    em_prefix m = p /\ em_sn m = sn /\ em_data m = data.
  Proof.
    unfold said_to_message. intros H. apply obind_ok in H. destruct H as (b0 & _ & H).
    apply obind_ok in H. destruct H as (b1 & _ & H). destruct (digest_aborts g); [discriminate H|]. assert (m = mkEM (si_new f (List.length b0)) (derive E g b1) p sn data) by congruence.
    subst m. auto.
  Qed.
  Lemma popped_app {A} (l : list A) x : popped (l ++ [x]) = Some x.
  Proof. induction l as [|a l IH]; [reflexivity|]. cbn [app popped]. destruct (l ++ [x]) eqn:El; [|exact IH]. now apply app_eq_nil in El. Qed.
  Lemma popped_in {A} (l : list A) x : popped l = Some x -> In x l.
  Proof.
    induction l as [|a l IH]; [discriminate|]. cbn [popped]. destruct l; [intros H; injection H as ->; now left|].
    intros H. right. now apply IH.
  Qed.

  (** the first [interact] *)
  Lemma interact_bricks k l s p se k' :
    k_prefix k <> id_default -> get_kel (k_db k) (k_prefix k) = Some l -> l <> [] -> good_log E (k_prefix k) l s ->
    p <> st_last_digest s -> interact E K k (IdSelfAddressing p) = (k', Ok se) ->
    Stuck (k_prefix k) s (k_db k') /\ k_prefix k' = k_prefix k.
  Proof.
    intros Hid Hl Hne Hg Hp Hi. destruct (interact_outcome k (IdSelfAddressing p)) as [[_ Hn]|(p' & last & m & sig & H1 & H2 & H3 & H4)].
    - exfalso. apply (Hn se). now rewrite Hi.
    - injection H1 as <-. cbv zeta in H4. rewrite H4 in Hi. injection Hi as <- <-. cbn [k_db k_prefix set_db].
      split; [|reflexivity]. destruct (said_fields _ _ _ _ _ _ H3) as (F1 & F2 & F3).
      destruct (exists_last Hne) as (l0 & x & ->). rewrite Hl in H2. cbn [olist] in H2. rewrite popped_app in H2. injection H2 as <-.
      destruct (good_log_shape E _ _ _ Hid Hg) as (Hs & Hsh & _). rewrite rev_app_distr in Hsh. cbn in Hsh.
      destruct Hsh as (_ & Hlen & _).
      assert (Hx : em_sn (sem_msg x) = st_sn s).
      { pose proof (Hs (List.length l0) x) as Hn. rewrite nth_error_app2, Nat.sub_diag in Hn by lia. specialize (Hn eq_refl).
        rewrite app_length in Hlen. cbn in Hlen. lia. }
      eexists (l0 ++ [x]), _, [], (mkIxn p [SealDigest p]). rewrite get_kel_add_same, Hl. cbn [olist].
      split; [reflexivity|]. split; [exact Hg|]. split; [exact Hne|].
      unfold sn_of. cbn [stored sem_msg]. rewrite F1, F2, F3, Hx. repeat (split; [reflexivity|]). split; [exact Hp|constructor].
  Qed.
  Lemma interact_stuck id s k peer :
    id <> id_default -> k_prefix k = id -> Stuck id s (k_db k) -> Stuck id s (k_db (fst (interact E K k peer))).
  Proof.
    intros Hid Hk Hst. destruct (interact_outcome k peer) as [[-> _]|(p & last & m & sig & H1 & H2 & H3 & H4)]; [exact Hst|].
    cbv zeta in H4. rewrite H4. cbn [fst k_db set_db]. rewrite Hk in *.
    destruct Hst as (l & bad & rest & i & Hl & Hg & Hnl & Hp & Hsn & Hd & Hprev & Hr).
    destruct (said_fields _ _ _ _ _ _ H3) as (F1 & F2 & F3).
    exists l, bad, (rest ++ [mkSEM m [mkASP 0 (mkSSP ECDSAsecp256k1Sha256 sig)] None]), i.
    rewrite get_kel_add_same, Hl. cbn [olist]. rewrite <- app_assoc. cbn [app]. split; [reflexivity|].
    repeat (split; [assumption|]). apply Forall_app. split; [exact Hr|]. constructor; [|constructor].
    unfold sn_of. cbn [sem_msg]. rewrite F2. rewrite Hl in H2. cbn [olist] in H2.
    assert (Hall : Forall (fun x => (st_sn s + 1 <= sn_of x)%N) (bad :: rest)) by (constructor; [lia|exact Hr]).
    assert (Hlast : popped (bad :: rest) = Some last).
    { destruct (exists_last (l := bad :: rest)) as (r0 & y & Hy); [discriminate|]. rewrite Hy in *.
      rewrite popped_app. rewrite app_assoc, popped_app in H2. exact H2. }
    apply popped_in in Hlast. apply (proj1 (Forall_forall _ _) Hall) in Hlast. unfold sn_of in Hlast. lia.
  Qed.
  Lemma stuck_submit id s k se :
    id <> id_default -> Stuck id s (k_db k) -> Stuck id s (k_db (fst (submit E k se))).
  Proof. intros Hid Hst. destruct (submit_db k se) as (-> & _). now apply stuck_call. Qed.
  Lemma operate_stuck id s ops : id <> id_default -> forall k, k_prefix k = id -> Stuck id s (k_db k) ->
    Stuck id s (k_db (fst (operate E K k ops))).
  Proof.
    intros Hid. induction ops as [|o ops IH]; intros k Hk Hst; [exact Hst|].
    destruct o as [fresh|payload pk npk|peer|c]; cbn [operate].
    - assert (Hr : k_prefix (fst (rotate E K k fresh)) = id /\ Stuck id s (k_db (fst (rotate E K k fresh)))).
      { unfold rotate. set (k1 := mkKeri _ _ _). destruct (obind _ _) as [se|e|]; [|auto..].
        destruct (submit_db k1 se) as (_ & -> & _). split; [exact Hk|]. now apply stuck_submit. }
      destruct (rotate E K k fresh) as [k1 x]. cbn [fst] in Hr. destruct Hr as [Hr1 Hr2].
      specialize (IH k1 Hr1 Hr2). destruct (operate E K k1 ops). exact IH.
    - assert (Hr : k_prefix (fst (make_ixn E K k payload pk npk)) = id /\ Stuck id s (k_db (fst (make_ixn E K k payload pk npk)))).
      { unfold make_ixn. destruct (obind _ _) as [se|e|]; [|auto..].
        destruct (submit_db k se) as (_ & -> & _). split; [exact Hk|]. now apply stuck_submit. }
      destruct (make_ixn E K k payload pk npk) as [k1 x]. cbn [fst] in Hr. destruct Hr as [Hr1 Hr2].
      specialize (IH k1 Hr1 Hr2). destruct (operate E K k1 ops). exact IH.
    - assert (Hr : k_prefix (fst (interact E K k peer)) = id /\ Stuck id s (k_db (fst (interact E K k peer)))).
      { split; [|now apply interact_stuck].
        destruct (interact_outcome k peer) as [[-> _]|(p & last & m & sig & _ & _ & _ & H4)]; [exact Hk|].
        cbv zeta in H4. rewrite H4. exact Hk. }
      destruct (interact E K k peer) as [k1 x]. cbn [fst] in Hr. destruct Hr as [Hr1 Hr2].
      specialize (IH k1 Hr1 Hr2). destruct (operate E K k1 ops). exact IH.
    - apply IH; [exact Hk|]. now apply stuck_call.
  Qed.
  (** interacting with one's own last digest *)
  Lemma interact_chains k l s se k' :
    Working E K k l -> good_log E (k_prefix k) l s ->
    interact E K k (IdSelfAddressing (st_last_digest s)) = (k', Ok se) ->
    Working E K k' (l ++ [stored se]) /\ k_prefix k' = k_prefix k.
  Proof.
    intros [Hid Hl Hne (s0 & more & Hg0 & Hd & Hc) Hcur Hnext] Hg Hi.
    assert (s0 = s) by (destruct Hg as [_ Hg], Hg0 as [_ Hg0]; congruence). subst s0.
    destruct (interact_outcome k (IdSelfAddressing (st_last_digest s))) as [[_ Hn]|(p' & last & m & sig & H1 & H2 & H3 & H4)].
    { exfalso. apply (Hn se). now rewrite Hi. }
    injection H1 as <-. cbv zeta in H4. rewrite H4 in Hi. injection Hi as <- <-. split; [|reflexivity].
    pose proof Hne as Hne'. pose proof Hl as Hl'.
    destruct (exists_last Hne) as (l0 & x & ->). rewrite Hl in H2. cbn [olist] in H2. rewrite popped_app in H2. injection H2 as <-.
    destruct (good_log_shape E _ _ _ Hid Hg) as (Hs & Hsh & _). rewrite rev_app_distr in Hsh. cbn in Hsh.
    destruct Hsh as (Hp & Hlen & _).
    assert (Hx : em_sn (sem_msg x) = st_sn s).
    { pose proof (Hs (List.length l0) x) as Hn. rewrite nth_error_app2, Nat.sub_diag in Hn by lia. specialize (Hn eq_refl).
      rewrite app_length in Hlen. cbn in Hlen. lia. }
    rewrite Hx in H3. unfold said_to_message in H3. apply obind_ok in H3. destruct H3 as (b0 & _ & H3).
    apply obind_ok in H3. destruct H3 as (b1 & _ & H3). injection H3 as <-.
    edestruct (apply_own_ixn E s) as (ns & Ha & Hnd & Hnc); [exact Hp|].
    constructor; cbn [k_prefix k_db k_box set_db]; auto.
    - rewrite get_kel_add_same, Hl'. reflexivity.
    - intros Hz. now apply app_eq_nil in Hz.
    - exists ns, more. split; [|split; congruence].
      apply good_log_snoc. exists s. split; [exact Hg|]. split; [reflexivity|exact Ha].
  Qed.

  (** ** Keys of a failed rotation *)
  Lemma rotate_box k fresh : k_box (fst (rotate E K k fresh)) = box_rotate (k_box k) fresh.
  Proof.
    unfold rotate. set (k1 := mkKeri _ _ _). destruct (obind _ _) as [se|e|]; try reflexivity.
    now destruct (submit_db k1 se) as (_ & _ & ->).
  Qed.

  (** ** [make_ntr] *)
  Lemma bp_mem_in p l : bp_mem p l = true <-> In p l.
  Proof. unfold bp_mem. destruct (in_dec BasicPrefix_eq_dec p l); split; auto; discriminate. Qed.
  Lemma generate_ok k m k' r : generate_ntr E K k m = (k', Ok r) ->
    exists ser sig info, e_ser_event E m = Ok ser /\ k_sign_ed K (kp_priv (cb_cur (k_box k))) ser = Ok sig
      /\ r = mkNRct (mkRct info (derive E Blake3_256 ser) (em_prefix m) (em_sn m))
               [(ed_key (kp_pub (cb_cur (k_box k))), mkSSP Ed25519Sha512 sig)]
      /\ k' = set_db k (add_receipt_nt (k_db k) r (em_prefix m)).
  Proof.
    unfold generate_ntr. destruct (e_ser_event E m) as [ser|e|]; cbn [obind]; try discriminate.
    unfold box_sign. destruct (k_sign_ed K (kp_priv (cb_cur (k_box k))) ser) as [sig|e|] eqn:Hsig; cbn [obind]; try discriminate.
    unfold receipt_to_message. destruct (k_ser_rct K _) as [b|e|]; cbn [obind]; try discriminate.
    intros H. injection H as <- <-. exists ser, sig. eexists. auto.
  Qed.
  Lemma make_ntr_ok k m k' r : make_ntr E K k m = (k', Ok r) ->
    exists our, k_prefix k = IdBasic our /\ generate_ntr E K k m = (k', Ok r)
      /\ match em_data m with
         | Icp e => In our (iwc_witnesses (icp_wc e))
         | Rot e => In our (wc_graft (rot_wc e)) /\ ~ In our (wc_prune (rot_wc e))
         | _ => False
         end.
  Proof.
    unfold make_ntr. destruct (k_prefix k) as [our|p|p]; try discriminate.
    destruct (em_data m) as [e|e|e|e|e]; try discriminate.
    - destruct (bp_mem our _) eqn:Hm; [|discriminate]. intros H. exists our. apply bp_mem_in in Hm. auto.
    - destruct (bp_mem our (wc_prune _)) eqn:Hm; [discriminate|].
      destruct (bp_mem our (wc_graft _)) eqn:Hg; [|discriminate]. intros H. exists our. apply bp_mem_in in Hg.
      split; [reflexivity|]. split; [exact H|]. split; [exact Hg|]. rewrite <- bp_mem_in. congruence.
  Qed.

  (** ** [respond] *)
  Lemma accept_all_run l : forall d,
    Forall (fun x => to_message x <> Panic) l -> quiet E d (map CProcess (converted l)) = true ->
    exists ms, accept_all E d l = (run E d (map CProcess (converted l)), Ok ms)
      /\ (forall m, In m ms -> In m (converted l)).
  Proof.
    induction l as [|x l IH]; intros d Hc Hq; [exists []; split; [reflexivity|intros m []]|].
    inversion Hc as [|? ? Hx Hc']; subst. cbn [accept_all converted flat_map] in *. fold (converted l) in *.
    destruct (to_message x) as [m|e|]; [| |congruence].
    - cbn [app map quiet run fold_left] in Hq |- *. apply andb_true_iff in Hq. destruct Hq as [Hq1 Hq2].
      cbn [panics] in Hq1. cbn [call] in *.
      destruct (process E d m) as [d1 [o|e|]]; cbn [fst snd is_panic negb] in *; [| |discriminate Hq1].
      + destruct (IH d1 Hc' Hq2) as (ms & -> & Hin). cbn [omap obind]. exists (m :: ms). split; [reflexivity|].
        intros m' [<-|Hm]; [now left|]. right. now apply Hin.
      + destruct (IH d1 Hc' Hq2) as (ms & H & Hin). exists ms. split; [exact H|]. intros m' Hm. right. now apply Hin.
    - exact (IH d Hc' Hq).
  Qed.
  (** exactly the accepted messages are answered *)
  Lemma accept_all_accepted l1 l2 x m : forall d d' ms,
    accept_all E d (l1 ++ x :: l2) = (d', Ok ms) -> to_message x = Ok m ->
    is_ok (snd (process E (run E d (map CProcess (converted l1))) m)) = true -> In m ms.
  Proof.
    induction l1 as [|y l1 IH]; intros d d' ms H Hx Hok.
    - cbn in H. rewrite Hx in H. cbn in Hok. destruct (process E d m) as [d1 [o|e|]]; cbn in Hok; try discriminate.
      destruct (accept_all E d1 l2) as [d2 [r|e|]]; cbn in H; try discriminate. injection H as _ <-. now left.
    - cbn [app accept_all] in H. cbn [converted flat_map] in Hok. fold (converted l1) in Hok.
      destruct (to_message y) as [m'|e|]; [| |discriminate].
      + cbn [app map run fold_left] in Hok. cbn [call] in Hok.
        destruct (process E d m') as [d1 [o|e|]]; cbn [fst] in Hok; [| |discriminate].
        * destruct (accept_all E d1 (l1 ++ x :: l2)) as [d2 [r|e|]] eqn:Hr; cbn in H; try discriminate.
          injection H as _ <-. right. exact (IH d1 d2 r Hr Hx Hok).
        * exact (IH d1 d' ms H Hx Hok).
      + exact (IH d d' ms H Hx Hok).
  Qed.
  Lemma make_rct_kel k m : db_kel (k_db (fst (make_rct E K k m))) = db_kel (k_db k)
    /\ k_prefix (fst (make_rct E K k m)) = k_prefix k /\ k_box (fst (make_rct E K k m)) = k_box k.
  Proof.
    unfold make_rct. destruct (obind _ _) as [r|e|]; [|auto..].
    pose proof (process_other_kel E (k_db k) (MTransferableRct r) ltac:(discriminate)) as H.
    destruct (process E (k_db k) (MTransferableRct r)) as [d res]. cbn in *. auto.
  Qed.
  Lemma answer_one_kel k m : db_kel (k_db (fst (answer_one E K k m))) = db_kel (k_db k).
  Proof.
    destruct m as [e|r|r|r|q]; try reflexivity. cbn [answer_one].
    destruct (match em_data (sem_msg e) with Icp _ => _ | _ => _ end) as [buf|er|]; [|reflexivity..].
    pose proof (make_rct_kel k (sem_msg e)) as (H & _).
    destruct (make_rct E K k (sem_msg e)) as [k1 [r|er|]]; cbn in *; try exact H.
    destruct (sed_cesr _ _); exact H.
  Qed.
  Lemma answer_all_kel l : forall k, db_kel (k_db (fst (answer_all E K k l))) = db_kel (k_db k).
  Proof.
    induction l as [|m l IH]; intros k; [reflexivity|]. cbn [answer_all].
    pose proof (answer_one_kel k m) as H. destruct (answer_one E K k m) as [k1 [b|e|]]; cbn [fst] in H.
    - specialize (IH k1). destruct (answer_all E K k1 l) as [k2 r]. cbn in *. congruence.
    - rewrite IH. exact H.
    - exact H.
  Qed.
  Lemma answer_all_panics l : forall k,
    (exists m, In m l /\ match m with MEvent _ | MTransferableRct _ => False | _ => True end) ->
    snd (answer_all E K k l) = Panic.
  Proof.
    induction l as [|m l IH]; intros k (x & Hx & Hm); [destruct Hx|]. cbn [answer_all].
    destruct Hx as [<-|Hx].
    - destruct m; try destruct Hm; reflexivity.
    - destruct (answer_one E K k m) as [k1 [b|e|]]; [| |reflexivity].
      + specialize (IH k1 (ex_intro _ x (conj Hx Hm))). destruct (answer_all E K k1 l) as [k2 r].
        cbn in *. now rewrite IH.
      + apply IH. exists x. auto.
  Qed.

  (** ** Receipts of a working controller *)
  Lemma est_of_good id l s : id <> id_default -> good_log E id l s -> l <> [] -> st_delegator s = None ->
    exists e, In e l /\ last_such seal_counts (log_of l) = Some (sem_msg e) /\ est_keys (sem_msg e) = Some (st_current s)
      /\ em_prefix (sem_msg e) = id.
  Proof.
    intros Hid. revert s. induction l as [|x l IH] using rev_ind; intros s Hg Hne Hd; [congruence|].
    pose proof Hg as Hg0. apply good_log_snoc in Hg. destruct Hg as (s0 & Hg & Hp & Ha).
    rewrite log_of_app, last_such_app. cbn [log_of map last_such].
    destruct (em_data (sem_msg x)) as [i|r|i|i|r] eqn:Hx.
    - apply apply_msg_incept in Ha; [|unfold is_inception; now rewrite Hx]. destruct Ha as (_ & _ & _ & kc & Hkc & ->).
      exists x. unfold seal_counts. rewrite Hx. rewrite in_app_iff. cbn. auto 6.
    - apply apply_msg_rotate in Ha; [|unfold is_rotation; now rewrite Hx]. destruct Ha as (_ & _ & _ & _ & kc & Hkc & _ & ->).
      exists x. unfold seal_counts. rewrite Hx. rewrite in_app_iff. cbn. auto 6.
    - pose proof (apply_msg_next E _ _ _ ltac:(unfold is_inception; now rewrite Hx) Ha) as (Hpp & _ & _ & Hdd & _).
      destruct (apply_msg_ixn E _ _ _ _ Hx Ha) as (_ & _ & _ & Hs). 
      assert (Hl : l <> []).
      { intros ->. apply good_log_nil in Hg. subst s0. cbn in Hpp. congruence. }
      destruct (IH _ Hg Hl) as (e & H1 & H2 & H3 & H4); [congruence|].
      exists e. unfold seal_counts at 1. rewrite Hx, in_app_iff. subst s. cbn [st_current]. auto.
    - apply apply_msg_incept in Ha; [|unfold is_inception; now rewrite Hx]. destruct Ha as (_ & _ & _ & kc & Hkc & ->).
      cbn in Hd. unfold named_delegator in Hd. rewrite Hx in Hd. discriminate.
    - apply apply_msg_rotate in Ha; [|unfold is_rotation; now rewrite Hx].
      destruct Ha as (_ & _ & _ & Hdel & kc & Hkc & _ & ->). rewrite Hx in Hdel. cbn in Hd. congruence.
  Qed.
  Lemma find_good d id l s e : id <> id_default -> get_kel d id = Some l -> good_log E id l s -> In e l ->
    get_event_at_sn d id (em_sn (sem_msg e)) = Some e.
  Proof.
    intros Hid Hl Hg Hin. rewrite get_event_log. unfold log. rewrite Hl. cbn [olist].
    destruct (good_log_shape E _ _ _ Hid Hg) as (Hs & _).
    apply In_nth_error in Hin. destruct Hin as [k Hk]. pose proof (Hs k e Hk) as Hn. rewrite Hn. clear Hg Hl Hn.
    revert k Hk Hs. generalize 0%N. induction l as [|x l IH]; intros n k Hk Hs; [destruct k; discriminate|].
    apply sns_from_cons in Hs. destruct Hs as [H1 H2]. cbn [find]. destruct k as [|k].
    - injection Hk as ->. rewrite H1. replace (n + N.of_nat 0)%N with n by lia. now rewrite N.eqb_refl.
    - rewrite H1. destruct (N.eqb_spec n (n + N.of_nat (S k))) as [Hz|_]; [lia|].
      replace (n + N.of_nat (S k))%N with (n + 1 + N.of_nat k)%N by lia. now apply IH.
  Qed.
  (** a receipt under an establishment event that a store has *)
  Lemma receipt_accepted d r le s e lo so y kc ser :
    let id := rct_prefix (tr_body r) in
    id <> id_default -> get_kel d id = Some le -> good_log E id le s -> In e le -> em_sn (sem_msg e) = rct_sn (tr_body r) ->
    e_ser_event E (sem_msg e) = Ok ser ->
    es_prefix (tr_seal r) <> id_default -> get_kel d (es_prefix (tr_seal r)) = Some lo -> good_log E (es_prefix (tr_seal r)) lo so ->
    In y lo -> em_sn (sem_msg y) = es_sn (tr_seal r) -> em_digest (sem_msg y) = es_digest (tr_seal r) ->
    est_keys (sem_msg y) = Some kc -> kc_verify E kc ser (tr_sigs r) = Ok true ->
    process E d (MTransferableRct r) = (add_receipt_t d r id, Ok (Some s)) /\ receipt_justified E d r.
  Proof.
    intros id Hid Hle Hge Hin Hsn Hser Hio Hlo Hgo Hy Hysn Hyd Hkc Hv.
    assert (Hk : get_keys_at_event E d (es_prefix (tr_seal r)) (es_sn (tr_seal r)) (es_digest (tr_seal r)) = Ok kc).
    { unfold get_keys_at_event. rewrite <- Hysn, <- Hyd, (find_good _ _ _ _ _ Hio Hlo Hgo Hy), check_digest_self. cbn [obind].
      unfold est_keys in Hkc. destruct (em_data (sem_msg y)); congruence. }
    split.
    - cbn [process]. unfold process_validator_receipt. fold id. rewrite <- Hsn, (find_good _ _ _ _ _ Hid Hle Hge Hin), Hk.
      cbn [obind]. rewrite Hser. cbn [obind]. rewrite Hv.
      now rewrite (compute_state_good E (add_receipt_t d r id) id le s Hid Hle Hge).
    - exists e, ser. split; [unfold log; fold id; rewrite Hle; exact Hin|]. split; [exact Hsn|]. split; [exact Hser|].
      apply (signed_under E d _ ser _ kc); assumption.
  Qed.
  Lemma make_rct_ok k l id le s e ser :
    Working E K k l -> (forall r, json (rct_info r) -> exists b, k_ser_rct K r = Ok b) ->
    id <> id_default -> get_kel (k_db k) id = Some le -> good_log E id le s -> In e le ->
    e_ser_event E (sem_msg e) = Ok ser ->
    exists r y kc, make_rct E K k (sem_msg e) = (set_db k (add_receipt_t (k_db k) r id), Ok r)
      /\ rct_prefix (tr_body r) = id /\ rct_sn (tr_body r) = em_sn (sem_msg e)
      /\ rct_digest (tr_body r) = derive E Blake3_256 ser /\ es_prefix (tr_seal r) = k_prefix k
      /\ In y l /\ em_sn (sem_msg y) = es_sn (tr_seal r) /\ em_digest (sem_msg y) = es_digest (tr_seal r)
      /\ est_keys (sem_msg y) = Some kc /\ kc_verify E kc ser (tr_sigs r) = Ok true.
  Proof.
    intros [Hid Hl Hne (so & more & Hg & Hd & Hc) Hcur Hnext] HR Hide Hle Hge Hin Hser.
    assert (Hpe : em_prefix (sem_msg e) = id) by (apply (proj1 (Forall_forall _ _) (proj1 Hge)); exact Hin).
    unfold make_rct. rewrite Hser. cbn [obind]. destruct (Hcur ser) as (sig & Hsig & Hv). unfold box_sign. rewrite Hsig.
    cbn [obind]. unfold get_last_establishment_event_seal. rewrite Hl.
    destruct (last_est_loop_spec E l state_default state_default so None) as (x & Hx & Hxe); [repeat split|apply Hg|].
    rewrite Hx. cbn [obind].
    destruct (est_of_good _ _ _ Hid Hg Hne Hd) as (y & Hy1 & Hy2 & Hy3 & Hy4). rewrite Hy2 in Hxe.
    destruct x as [x|]; [|discriminate]. cbn [option_map] in Hxe |- *. injection Hxe as Hxe. rewrite Hxe.
    cbn [ok_or obind]. unfold receipt_to_message.
    destruct (HR (mkRct (si_new JSON 0) (derive E Blake3_256 ser) (em_prefix (sem_msg e)) (em_sn (sem_msg e))) eq_refl) as [b ->].
    cbn [obind]. set (r := mkTRct _ _ _).
    assert (Hkv : kc_verify E (st_current so) ser [mkASP 0 (mkSSP Ed25519Sha512 sig)] = Ok true).
    { rewrite Hc. now apply kc_verify_own. }
    destruct (receipt_accepted (k_db k) r le s e l so y (st_current so) ser) as [Hproc _]; cbn [r tr_body rct_prefix rct_sn tr_seal es_prefix es_sn es_digest tr_sigs];
      rewrite ?Hpe, ?Hy4; auto.
    rewrite Hproc. cbn [omap obind]. exists r, y, (st_current so). cbn [r tr_body rct_prefix rct_sn rct_digest tr_seal tr_sigs es_prefix es_sn es_digest].
    rewrite Hpe, Hy4. auto 12.
  Qed.

  (** the store of a controller stays a store that the processor can reach, as long as
      [interact] is not used *)
  Lemma operate_run ops : forall k cs, Forall (fun o => match o with OInteract _ => False | _ => True end) ops ->
    k_db k = run E db_empty cs -> exists cs', k_db (fst (operate E K k ops)) = run E db_empty cs'.
  Proof.
    assert (Hsub : forall k cs se, k_db k = run E db_empty cs -> k_db (fst (submit E k se)) = run E db_empty (cs ++ [CProcess (MEvent se)])).
    { intros k cs se H. destruct (submit_db k se) as (-> & _). rewrite H. unfold run. rewrite fold_left_app. reflexivity. }
    induction ops as [|o ops IH]; intros k cs Hno H; [exists cs; exact H|].
    inversion Hno as [|? ? Ho Hno']; subst. destruct o as [fresh|payload pk npk|peer|c]; cbn [operate].
    - assert (Hr : exists cs', k_db (fst (rotate E K k fresh)) = run E db_empty cs').
      { unfold rotate. set (k1 := mkKeri _ _ _). destruct (obind _ _) as [se|e|]; [|exists cs; exact H..].
        eexists. apply Hsub. exact H. }
      destruct (rotate E K k fresh) as [k1 x]. destruct Hr as [cs' Hr]. destruct (IH k1 cs' Hno' Hr) as [cs'' IH'].
      destruct (operate E K k1 ops). eauto.
    - assert (Hr : exists cs', k_db (fst (make_ixn E K k payload pk npk)) = run E db_empty cs').
      { unfold make_ixn. destruct (obind _ _) as [se|e|]; [|exists cs; exact H..].
        eexists. apply Hsub. exact H. }
      destruct (make_ixn E K k payload pk npk) as [k1 x]. destruct Hr as [cs' Hr]. destruct (IH k1 cs' Hno' Hr) as [cs'' IH'].
      destruct (operate E K k1 ops). eauto.
    - destruct Ho.
    - apply (IH _ (cs ++ [c]) Hno'). cbn [k_db set_db]. rewrite H. unfold run. rewrite fold_left_app. reflexivity.
  Qed.

  (** ** Careful controllers *)
  Lemma careful_start cs b extra ws k0 se0 :
    events_serialize E K -> works E K (cb_cur b) -> works E K (cb_next b) ->
    (extra <> [] -> forall msg, e_digest E Blake3_256 msg <> []) ->
    incept_with E K (keri_new b (run E db_empty cs)) extra ws = (k0, Ok se0) ->
    olist (get_kel (run E db_empty cs) (em_prefix (sem_msg se0))) = [] ->
    Working E K k0 [stored se0] /\ k_prefix k0 = em_prefix (sem_msg se0) /\ k_box k0 = b
    /\ k_db k0 = run E db_empty (cs ++ [CProcess (MEvent se0)]).
  Proof.
    intros HS Hcur Hnext Hdig Hi Hno.
    destruct (build_icp E K HS (kp_pub (cb_cur b)) extra (kp_pub (cb_next b)) ws) as (info & dig & p & Hb & _).
    assert (Hm : sem_msg se0 = mkEM info dig p 0 (Icp (mkIcp (own_kc E (kp_pub (cb_cur b)) extra (kp_pub (cb_next b))) (mkIWC 0 ws) [] []))).
    { unfold incept_with in Hi. cbn [keri_new k_box k_prefix] in Hi. rewrite Hb in Hi. cbn [obind] in Hi.
      unfold sign_own in Hi. destruct (e_ser_event E _) as [ser|e|]; cbn [obind] in Hi; try discriminate.
      destruct (box_sign K b ser) as [sig|e|]; cbn [obind] in Hi; try discriminate.
      unfold submit in Hi. destruct (process E _ _) as [d [o|e|]]; cbn [omap obind] in Hi; try discriminate.
      match type of Hi with (_, Ok ?x) = _ => assert (Hz : se0 = x) by congruence end. rewrite Hz. reflexivity. }
    rewrite <- Hm in Hb.
    assert (Hdb : k_db k0 = run E db_empty (cs ++ [CProcess (MEvent se0)])).
    { unfold incept_with in Hi. cbn [keri_new k_box k_prefix] in Hi. rewrite Hb in Hi. cbn [obind] in Hi.
      destruct (sign_own E K b (sem_msg se0)) as [se|e|]; try discriminate.
      unfold submit in Hi. cbn [k_db keri_new] in Hi. destruct (process E (run E db_empty cs) (MEvent se)) as [d [o|e|]] eqn:Hp; cbn [omap obind] in Hi; try discriminate.
      injection Hi as <- <-. cbn [k_db set_db]. unfold run. rewrite fold_left_app. cbn [fold_left call].
      fold (run E db_empty cs). now rewrite Hp. }
    destruct (incept_step E K HS b (run E db_empty cs) extra ws (sem_msg se0) Hcur Hnext Hdig Hb Hno) as (se & Hse & Hi' & Hw).
    rewrite Hi' in Hi. injection Hi as <- <-. cbn [k_prefix k_box]. auto.
  Qed.
  Lemma no_interact id ops : Forall (op_ok E K id) ops -> Forall (fun o => match o with OInteract _ => False | _ => True end) ops.
  Proof. apply Forall_impl. intros [| | |]; auto. Qed.
  Lemma careful_working k : careful E K k ->
    events_serialize E K /\ (exists l, Working E K k l) /\ exists cs, k_db k = run E db_empty cs.
  Proof.
    intros (cs & b & extra & ws & k0 & se0 & ops & HS & Hcur & Hnext & Hdig & Hi & Hno & Hops & ->).
    destruct (careful_start cs b extra ws k0 se0 HS Hcur Hnext Hdig Hi Hno) as (Hw & _ & _ & Hdb).
    split; [exact HS|]. split.
    - destruct (operate_working E K HS ops k0 _ Hw Hops) as (evs & _ & _ & H). eauto.
    - exact (operate_run ops k0 _ (no_interact _ _ Hops) Hdb).
  Qed.

  (** ** Queries *)
  Lemma kerl_exact l b : (forall e, In e l -> exists x, e_ser_signed E e = Ok x) ->
    kerl_bytes E l = Ok b -> oconcat (e_ser_signed E) l = Ok b.
  Proof.
    revert b. induction l as [|e l IH]; intros b Hl H; [exact H|]. cbn in *.
    destruct (Hl e (or_introl eq_refl)) as [x Hx]. rewrite Hx in *. cbn [obind].
    apply obind_ok in H. destruct H as (y & Hy & H). rewrite (IH _ (fun e' He' => Hl e' (or_intror He')) Hy). exact H.
  Qed.
  Lemma query_auth w q t1 t2 r : process_signed_query E K w q t1 t2 = Ok r ->
    exists s ser, compute_state E (w_db w) (sq_signer q) = Ok (Some s) /\ e_ser_query E (sq_envelope q) = Ok ser
      /\ kc_verify E (st_current s) ser (sq_sigs q) = Ok true /\ process_query E K w (sq_envelope q) t1 t2 = Ok r.
  Proof.
    unfold process_signed_query. intros H. apply obind_ok in H. destruct H as (os & Hos & H).
    destruct os as [s|]; [|discriminate]. cbn [ok_or obind] in H.
    destruct (e_ser_query E (sq_envelope q)) as [ser|e|]; cbn [ounwrap obind] in H; try discriminate.
    destruct (kc_verify E (st_current s) ser (sq_sigs q)) as [[|]|e|] eqn:Hk; cbn [obind] in H; try discriminate.
    exists s, ser. auto.
  Qed.
End WithEnv.
