(** * ManagerProofs: proofs for [Prop_Manager]. *)
From Verif Require Import Base Base64 Codes NumFmt Types KeyConf State Db Processor Spec Cesr Message Keri SpecKeri Manager SpecManager.

Section Lockstep.
  Context (E : Env) (K : KEnv) {M : Type} (G : Manager M) (R : M -> CryptoBox -> Prop) (HR : keeps_word K G R).

  Definition sim (k : KeriM M) (c : Keri) : Prop :=
    km_prefix k = k_prefix c /\ km_db k = k_db c /\ R (km_mgr k) (k_box c).
  Definition agree {A} (x : KeriM M * A) (y : Keri * A) : Prop := sim (fst x) (fst y) /\ snd x = snd y.

  Lemma sim_set k c d : sim k c -> sim (m_set_db k d) (set_db c d).
  Proof. intros (H1 & H2 & H3). split; [exact H1|]. split; [reflexivity|exact H3]. Qed.
  Lemma sign_eq g b m : R g b -> m_sign_own E G g m = sign_own E K b m.
  Proof.
    intros H. destruct (HR g b H) as (_ & _ & Hs & _). unfold m_sign_own, sign_own, box_sign.
    destruct (e_ser_event E m) as [s| |]; cbn [obind]; [|reflexivity|reflexivity]. rewrite Hs. reflexivity.
  Qed.
  Lemma submit_agree k c se : sim k c -> agree (m_submit E k se) (submit E c se).
  Proof.
    intros H. pose proof H as (H1 & H2 & H3). unfold m_submit, submit. rewrite H2.
    destruct (process E (k_db c) (MEvent se)) as [d r]. split; [apply sim_set; exact H|reflexivity].
  Qed.
  Lemma incept_agree k c extra ws : sim k c -> agree (m_incept_with E K G k extra ws) (incept_with E K c extra ws).
  Proof.
    intros H. pose proof H as (H1 & H2 & H3). destruct (HR _ _ H3) as (Hp & Hn & _ & _).
    unfold m_incept_with, incept_with. rewrite Hp, Hn, H1. cbn [obind].
    destruct (build E K _) as [m| |]; cbn [obind]; [|split; [exact H|reflexivity]..].
    rewrite (sign_eq _ _ m H3). destruct (sign_own E K (k_box c) m) as [se| |]; [|split; [exact H|reflexivity]..].
    pose proof (submit_agree k c se H) as [Hs Ho].
    destruct (m_submit E k se) as [k1 r1], (submit E c se) as [c1 r2]. cbn [fst snd] in Hs, Ho. subst r2.
    destruct r1 as [se1| |]; [|split; [exact Hs|reflexivity]..].
    destruct Hs as (_ & Hd & Hb). split; [|reflexivity]. cbn [fst]. split; [reflexivity|]. split; [exact Hd|exact Hb].
  Qed.
  Lemma interact_agree k c peer : sim k c -> agree (m_interact E K G k peer) (interact E K c peer).
  Proof.
    intros H. pose proof H as (H1 & H2 & H3). destruct (HR _ _ H3) as (_ & _ & Hs & _).
    unfold m_interact, interact. rewrite H1, H2.
    destruct (match get_kel (k_db c) (k_prefix c) with Some _ => _ | None => _ end) as [l| |]; cbn [obind];
      [|split; [exact H|reflexivity]..].
    destruct (match peer with IdSelfAddressing _ => _ | _ => _ end) as [p| |]; cbn [obind]; [|split; [exact H|reflexivity]..].
    destruct (event_to_message _ _ _ _ _ _ _) as [m| |]; cbn [obind]; [|split; [exact H|reflexivity]..].
    destruct (e_ser_event E m) as [s| |]; cbn [obind]; [|split; [exact H|reflexivity]..].
    unfold box_sign. rewrite Hs. destruct (k_sign_ed K _ s) as [sg| |]; cbn [obind]; [|split; [exact H|reflexivity]..].
    split; [apply sim_set; exact H|reflexivity].
  Qed.
  Lemma rotation_eq k c : sim k c -> m_make_rotation E K G k = make_rotation E K c.
  Proof.
    intros (H1 & H2 & H3). destruct (HR _ _ H3) as (Hp & Hn & _ & _). unfold m_make_rotation, make_rotation.
    rewrite H1, H2, Hp, Hn. destruct (compute_state _ _ _) as [os| |]; cbn [obind]; [|reflexivity..].
    destruct (ok_or os _) as [s| |]; reflexivity.
  Qed.
  Lemma rotate_agree k c fresh : kp_pub fresh <> [] -> sim k c -> agree (m_rotate E K G k fresh) (rotate E K c fresh).
  Proof.
    intros Hf H. pose proof H as (H1 & H2 & H3). destruct (HR _ _ H3) as (_ & _ & _ & Hr).
    destruct (Hr fresh Hf) as (g' & Hg & Hg'). unfold m_rotate, rotate. rewrite Hg. cbn [obind].
    assert (Hs : sim (mkKM (km_prefix k) g' (km_db k)) (mkKeri (k_prefix c) (box_rotate (k_box c) fresh) (k_db c)))
      by (split; [exact H1|]; split; [exact H2|exact Hg']).
    rewrite (rotation_eq _ _ Hs). destruct (make_rotation E K _) as [m| |]; cbn [obind]; [|split; [exact Hs|reflexivity]..].
    cbn [km_mgr k_box]. rewrite (sign_eq _ _ m Hg').
    destruct (sign_own E K _ m) as [se| |]; [|split; [exact Hs|reflexivity]..]. apply submit_agree. exact Hs.
  Qed.
  Lemma ixn_agree k c p pk npk : sim k c -> agree (m_make_ixn E K G k p pk npk) (make_ixn E K c p pk npk).
  Proof.
    intros H. pose proof H as (H1 & H2 & H3). unfold m_make_ixn, make_ixn. rewrite H1, H2.
    destruct (compute_state _ _ _) as [os| |]; cbn [obind]; [|split; [exact H|reflexivity]..].
    destruct (ok_or os _) as [s| |]; cbn [obind]; [|split; [exact H|reflexivity]..].
    destruct (build E K _) as [m| |]; cbn [obind]; [|split; [exact H|reflexivity]..].
    rewrite (sign_eq _ _ m H3). destruct (sign_own E K _ m) as [se| |]; [|split; [exact H|reflexivity]..].
    apply submit_agree. exact H.
  Qed.
  Lemma rct_agree k c m : sim k c -> agree (m_make_rct E K G k m) (make_rct E K c m).
  Proof.
    intros H. pose proof H as (H1 & H2 & H3). destruct (HR _ _ H3) as (_ & _ & Hs & _).
    unfold m_make_rct, make_rct, box_sign. rewrite H1, H2.
    destruct (e_ser_event E m) as [s| |]; cbn [obind]; [|split; [exact H|reflexivity]..].
    rewrite Hs. destruct (k_sign_ed K _ s) as [sg| |]; cbn [obind]; [|split; [exact H|reflexivity]..].
    destruct (get_last_establishment_event_seal _ _ _) as [o| |]; cbn [obind]; [|split; [exact H|reflexivity]..].
    destruct (ok_or o _) as [seal| |]; cbn [obind]; [|split; [exact H|reflexivity]..].
    destruct (receipt_to_message _ _ _ _ _) as [r| |]; cbn [obind]; [|split; [exact H|reflexivity]..].
    destruct (process E (k_db c) _) as [d res]. split; [apply sim_set; exact H|reflexivity].
  Qed.
  Lemma gntr_agree k c m : sim k c -> agree (m_generate_ntr E K G k m) (generate_ntr E K c m).
  Proof.
    intros H. pose proof H as (H1 & H2 & H3). destruct (HR _ _ H3) as (Hp & _ & Hs & _).
    unfold m_generate_ntr, generate_ntr, box_sign. rewrite H2.
    destruct (e_ser_event E m) as [s| |]; cbn [obind]; [|split; [exact H|reflexivity]..].
    rewrite Hs. destruct (k_sign_ed K _ s) as [sg| |]; cbn [obind]; [|split; [exact H|reflexivity]..].
    rewrite Hp. cbn [obind].
    destruct (receipt_to_message _ _ _ _ _) as [r| |]; cbn [obind]; [|split; [exact H|reflexivity]..].
    split; [apply sim_set; exact H|reflexivity].
  Qed.
  Lemma ntr_agree k c m : sim k c -> agree (m_make_ntr E K G k m) (make_ntr E K c m).
  Proof.
    intros H. pose proof H as (H1 & H2 & H3). unfold m_make_ntr, make_ntr. rewrite H1, H2.
    destruct (k_prefix c) as [our| |]; [|split; [exact H|reflexivity]..].
    destruct (em_data m); try (split; [exact H|reflexivity]).
    - destruct (bp_mem our _); [apply gntr_agree; exact H|split; [exact H|reflexivity]].
    - destruct (bp_mem our (wc_prune _)); [split; [apply sim_set; exact H|reflexivity]|].
      destruct (bp_mem our _); [apply gntr_agree; exact H|split; [exact H|reflexivity]].
  Qed.
  Lemma single_agree k c msg : sim k c -> agree (m_respond_single E K k msg) (respond_single E K c msg).
  Proof.
    intros H. pose proof H as (H1 & H2 & H3). unfold m_respond_single, respond_single. rewrite H2.
    match goal with |- agree (match ?x with _ => _ end) _ => destruct x as [m| |] end; [|split; [exact H|reflexivity]..].
    destruct (process E (k_db c) m) as [d r]. split; [apply sim_set; exact H|reflexivity].
  Qed.
  Lemma one_agree k c m : sim k c -> agree (m_answer_one E K G k m) (answer_one E K c m).
  Proof.
    intros H. pose proof H as (H1 & H2 & H3). unfold m_answer_one, answer_one. rewrite H1, H2.
    destruct m as [ev| | | |]; try (split; [exact H|reflexivity]).
    match goal with |- agree (match ?x with _ => _ end) _ => destruct x as [buf| |] end; [|split; [exact H|reflexivity]..].
    pose proof (rct_agree k c (sem_msg ev) H) as [Hs Ho].
    destruct (m_make_rct E K G k (sem_msg ev)) as [k1 r1], (make_rct E K c (sem_msg ev)) as [c1 r2]. cbn [fst snd] in Hs, Ho.
    subst r2. destruct r1 as [r| |]; [|split; [exact Hs|reflexivity]..].
    destruct (sed_cesr _ _); (split; [exact Hs|reflexivity]).
  Qed.
  Lemma all_agree l : forall k c, sim k c -> agree (m_answer_all E K G k l) (answer_all E K c l).
  Proof.
    induction l as [|m l IH]; intros k c H; cbn [m_answer_all answer_all]; [split; [exact H|reflexivity]|].
    pose proof (one_agree k c m H) as [Hs Ho].
    destruct (m_answer_one E K G k m) as [k1 r1], (answer_one E K c m) as [c1 r2]. cbn [fst snd] in Hs, Ho. subst r2.
    destruct r1 as [b| |]; [|apply IH; exact Hs|split; [exact Hs|reflexivity]].
    pose proof (IH k1 c1 Hs) as [Hs2 Ho2].
    destruct (m_answer_all E K G k1 l) as [k2 r], (answer_all E K c1 l) as [c2 r']. cbn [fst snd] in Hs2, Ho2. subst r'.
    split; [exact Hs2|reflexivity].
  Qed.
  Lemma respond_agree k c msg : sim k c -> agree (m_respond E K G k msg) (respond E K c msg).
  Proof.
    intros H. pose proof H as (H1 & H2 & H3). unfold m_respond, respond. rewrite H2.
    destruct (of_pres _) as [[rest l]| |]; [|split; [exact H|reflexivity]..].
    destruct (accept_all E (k_db c) l) as [d [ms| |]];
      [apply all_agree; apply sim_set; exact H|split; [apply sim_set; exact H|reflexivity]..].
  Qed.

  Lemma do_agree k c o : generated o -> sim k c -> agree (mgr_do E K G k o) (box_do E K c o).
  Proof.
    intros Hg H. assert (X : forall A (f : A -> NodeAnswer) x y, agree x y -> agree (ans f x) (ans f y))
      by (intros A f x y [Ha Hb]; split; [exact Ha|cbn [ans snd]; rewrite Hb; reflexivity]).
    destruct o; cbn [mgr_do box_do]; [apply X..|].
    - apply incept_agree; exact H.
    - apply rotate_agree; [exact Hg|exact H].
    - apply ixn_agree; exact H.
    - apply interact_agree; exact H.
    - apply rct_agree; exact H.
    - apply ntr_agree; exact H.
    - apply single_agree; exact H.
    - apply respond_agree; exact H.
    - pose proof H as (_ & H2 & _). rewrite H2. split; [apply sim_set; exact H|reflexivity].
  Qed.
  Lemma does_agree ops : Forall generated ops -> forall k c, sim k c -> agree (does (mgr_do E K G) k ops) (does (box_do E K) c ops).
  Proof.
    induction ops as [|o ops IH]; intros Hg k c H; cbn [does]; [split; [exact H|reflexivity]|].
    pose proof (do_agree k c o (Forall_inv Hg) H) as [Hs Ho].
    destruct (mgr_do E K G k o) as [k1 x], (box_do E K c o) as [c1 y]. cbn [fst snd] in Hs, Ho. subst y.
    pose proof (IH (Forall_inv_tail Hg) k1 c1 Hs) as [Hs2 Ho2].
    destruct (does _ k1 ops) as [k2 xs], (does _ c1 ops) as [c2 ys]. cbn [fst snd] in Hs2, Ho2. subst ys.
    split; [exact Hs2|reflexivity].
  Qed.
End Lockstep.

(** ** Wallets *)
Lemma uw_get_filter w i j : i <> j -> uw_get (filter (fun e => negb (bytes_eqb (fst e) i)) w) j = uw_get w j.
Proof.
  intros H. induction w as [|[a c] w IH]; [reflexivity|]. cbn [filter fst uw_get]. destruct (bytes_eqb a i) eqn:Ha; cbn [negb].
  - apply bytes_eqb_eq in Ha. subst a. destruct (bytes_eqb i j) eqn:Hj; [apply bytes_eqb_eq in Hj; congruence|exact IH].
  - cbn [uw_get]. destruct (bytes_eqb a j); [reflexivity|exact IH].
Qed.
Lemma uw_get_set w i j c : uw_get (uw_set w i c) j = if bytes_eqb i j then Some c else uw_get w j.
Proof.
  unfold uw_set. cbn [uw_get]. destruct (bytes_eqb i j) eqn:H; [reflexivity|]. apply uw_get_filter.
  intros ->. rewrite bytes_eqb_refl in H. discriminate.
Qed.
Lemma uw_get_in w i c : uw_get w i = Some c -> In (i, c) w.
Proof.
  induction w as [|[a x] w IH]; cbn [uw_get]; [discriminate|]. destruct (bytes_eqb a i) eqn:H; intros Hx.
  - apply bytes_eqb_eq in H. subst a. left. congruence.
  - right. apply IH. exact Hx.
Qed.
Lemma in_uw_set w i c j x : In (j, x) (uw_set w i c) -> (j = i /\ x = c) \/ (j <> i /\ In (j, x) w).
Proof.
  intros [H|H]; [left; split; congruence|]. apply filter_In in H. destruct H as [H1 H2]. cbn [fst] in H2. right.
  split; [|exact H1]. intros ->. rewrite bytes_eqb_refl in H2. discriminate.
Qed.
Definition cur_content (p : KeyPair) : Content := CKeyPair KEd25519 (mkPI [CURRENT] (kp_pub p)) (kp_priv p).
Definition next_content (p : KeyPair) : Content := CKeyPair KEd25519 (mkPI [NEXT] (kp_pub p)) (kp_priv p).
Record holds (w : Wallet) (b : CryptoBox) : Prop := {
  h_cur : uw_get w CURRENT = Some (cur_content (cb_cur b));
  h_next : uw_get w NEXT = Some (next_content (cb_next b));
  h_curk : kp_pub (cb_cur b) <> [];
  h_nextk : kp_pub (cb_next b) <> [];
  h_only : forall i c, In (i, c) w -> controlled NEXT c = true -> i = NEXT /\ c = next_content (cb_next b) }.

Lemma incept_holds w cur next crypto : no_other_next w -> kp_pub cur <> [] -> kp_pub next <> [] ->
  holds (incept_keys w cur next crypto) (mkBox cur next).
Proof.
  intros Hw Hc Hn. unfold incept_keys. constructor; cbn [cb_cur cb_next].
  - rewrite !uw_get_set. reflexivity.
  - rewrite !uw_get_set. reflexivity.
  - exact Hc.
  - exact Hn.
  - intros i c H Hk. apply in_uw_set in H. destruct H as [[-> ->]|[N1 H]]; [discriminate Hk|].
    apply in_uw_set in H. destruct H as [[-> ->]|[N2 H]]; [split; reflexivity|].
    apply in_uw_set in H. destruct H as [[-> ->]|[N3 H]]; [discriminate Hk|].
    rewrite (Hw i c H N3 N2 N1) in Hk. discriminate.
Qed.
Section Pick.
  Context (K : KEnv) (pick : list Content -> option Content) (Hp : finds_one pick).
  Lemma by_controller w b : holds w b -> uw_by_controller pick w NEXT = Some (next_content (cb_next b)).
  Proof.
    intros H. unfold uw_by_controller. destruct Hp as [P1 P2].
    assert (Hin : In (next_content (cb_next b)) (filter (controlled NEXT) (map snd w))).
    { apply filter_In. split; [|reflexivity]. apply in_map_iff. exists (NEXT, next_content (cb_next b)).
      split; [reflexivity|]. apply uw_get_in. apply H. }
    destruct (pick _) as [x|] eqn:Hx.
    - apply P1 in Hx. apply filter_In in Hx. destruct Hx as [Hx Hk]. apply in_map_iff in Hx. destruct Hx as ([i c] & Hc & Hi).
      cbn [snd] in Hc. subst x. destruct (h_only w b H i c Hi Hk) as [_ ->]. reflexivity.
    - exfalso. apply P2 in Hx; [exact Hx|]. intros Hz. rewrite Hz in Hin. exact Hin.
  Qed.
  Lemma public_of w i p ctl : uw_get w i = Some (CKeyPair KEd25519 (mkPI ctl (kp_pub p)) (kp_priv p)) -> kp_pub p <> [] ->
    get_public_key w i = Ok (kp_pub p).
  Proof. intros H Hn. unfold get_public_key. rewrite H. cbn [pi_key]. destruct (kp_pub p); [congruence|reflexivity]. Qed.
  Lemma rotate_holds w b f : holds w b -> kp_pub f <> [] ->
    exists w', wallet_rotate pick w f = (w', Ok tt) /\ holds w' (mkBox (cb_next b) f).
  Proof.
    intros H Hf. unfold wallet_rotate. rewrite (public_of w NEXT (cb_next b) [NEXT] (h_next w b H) (h_nextk w b H)).
    rewrite (by_controller w b H). pose proof (h_nextk w b H) as Hn. destruct (kp_pub (cb_next b)) as [|y ys] eqn:Hk; [congruence|].
    unfold next_content at 1. cbn [pi_key]. eexists. split; [reflexivity|]. constructor; cbn [cb_cur cb_next].
    - rewrite !uw_get_set. reflexivity.
    - rewrite !uw_get_set. reflexivity.
    - rewrite Hk. discriminate.
    - exact Hf.
    - intros i c Hi Hc. apply in_uw_set in Hi. destruct Hi as [[-> ->]|[N1 Hi]]; [split; reflexivity|].
      apply in_uw_set in Hi. destruct Hi as [[-> ->]|[N2 Hi]]; [discriminate Hc|].
      destruct (h_only w b H i c Hi Hc) as [E1 _]. congruence.
  Qed.
  Lemma wallet_keeps : keeps_word K (wallet_manager K pick) holds.
  Proof.
    intros w b H. cbn [wallet_manager mg_public mg_next mg_sign mg_rotate].
    split; [apply (public_of w CURRENT (cb_cur b) [CURRENT]); apply H|].
    split; [apply (public_of w NEXT (cb_next b) [NEXT]); apply H|].
    split; [intros msg; unfold sign_raw; rewrite (h_cur w b H); reflexivity|].
    intros f Hf. apply rotate_holds; [exact H|exact Hf].
  Qed.
  Lemma turned_holds fs : Forall (fun f => kp_pub f <> []) fs -> forall w b, holds w b ->
    snd (turned pick w fs) = repeat (Ok tt) (List.length fs) /\ holds (fst (turned pick w fs)) (fold_left box_rotate fs b).
  Proof.
    induction fs as [|f fs IH]; intros Hf w b H; [split; [reflexivity|exact H]|]. cbn [turned fold_left].
    destruct (rotate_holds w b f H (Forall_inv Hf)) as (w' & Hw & H'). rewrite Hw.
    specialize (IH (Forall_inv_tail Hf) w' _ H'). destruct (turned pick w' fs) as [w2 rs]. cbn [fst snd] in *.
    destruct IH as [I1 I2]. split; [|exact I2]. rewrite I1. reflexivity.
  Qed.
End Pick.

(** ** The node of [new_with_fresh_wallet] *)
From Verif Require Import KeriProofs.
Section Fresh.
  Context (E : Env) (K : KEnv) {M : Type} (G : Manager M) (pk0 : bytes).
  Let id := IdBasic (mkBP ECDSAsecp256k1 pk0).
  Lemma incept_fails k extra ws : km_prefix k = id ->
    exists r, m_incept_with E K G k extra ws = (k, r) /\ ~ succeeded (AEvent r).
  Proof.
    intros Hp. unfold m_incept_with. rewrite Hp.
    destruct (mg_public G (km_mgr k)) as [pk| |]; cbn [obind]; [|eexists; split; [reflexivity|intros []]..].
    destruct (mg_next G (km_mgr k)) as [npk| |]; cbn [obind]; [|eexists; split; [reflexivity|intros []]..].
    destruct (build E K _) as [m| |] eqn:Hb; cbn [obind]; [|eexists; split; [reflexivity|intros []]..].
    assert (Hm : em_prefix m = id /\ exists i, em_data m = Icp i /\ kc_keys (icp_kc i) = ed_key pk :: extra).
    { unfold build in Hb. cbn [b_prefix icp_builder b_type] in Hb.
      destruct (IdentifierPrefix_eq_dec id id_default) as [Hd|_]; [discriminate Hd|]. cbn [obind] in Hb. unfold id in Hb.
      cbn [event_to_message] in Hb. unfold said_to_message in Hb.
      destruct (k_dummy_event _ _ _ _ _ _) as [b0| |]; cbn [obind] in Hb; [|discriminate..].
      destruct (k_dummy_event _ _ _ _ _ _) as [b1| |]; cbn [obind] in Hb; [|discriminate..].
      cbn [b_derivation icp_builder digest_aborts] in Hb.
      match type of Hb with Ok ?x = Ok _ => assert (X : m = x) by congruence end.
      subst m. split; [reflexivity|]. eexists. split; reflexivity. }
    unfold m_sign_own. destruct (e_ser_event E m) as [ser| |]; cbn [obind]; [|eexists; split; [reflexivity|intros []]..].
    destruct (mg_sign G (km_mgr k) ser) as [sg| |]; cbn [obind]; [|eexists; split; [reflexivity|intros []]..].
    destruct Hm as (Hid & i & Hi & Hk). unfold m_submit. cbn [process]. unfold process_event. cbn [sem_msg].
    assert (D : m_set_db k (km_db k) = k) by (destruct k; reflexivity).
    unfold check_delegation. cbn [sem_msg]. rewrite Hi.
    unfold apply_to_state. destruct (compute_state E (km_db k) (em_prefix m)) as [os| |]; cbn [obind];
      [|rewrite D; eexists; split; [reflexivity|intros []]..].
    unfold apply_msg. rewrite Hi. unfold verify_identifier_binding. rewrite Hi, Hid, Hk. cbn [id obind].
    assert (X : (match extra with [] => if BasicPrefix_eq_dec (mkBP ECDSAsecp256k1 pk0) (ed_key pk) then true else false | _ :: _ => false end) = false).
    { destruct extra; [|reflexivity]. destruct (BasicPrefix_eq_dec _ _) as [Hx|]; [discriminate Hx|reflexivity]. }
    rewrite X. cbn [omap]. rewrite D. eexists. split; [reflexivity|intros []].
  Qed.
  Lemma own_fails k o : km_prefix k = id -> get_kel (km_db k) id = None -> own_name o ->
    exists g r, mgr_do E K G k o = (mkKM id g (km_db k), r) /\ ~ succeeded r.
  Proof.
    intros Hp Hn Ho. assert (Hk : k = mkKM id (km_mgr k) (km_db k)) by (destruct k; cbn in *; congruence).
    destruct o; try contradiction Ho; cbn [mgr_do]; unfold ans.
    - destruct (incept_fails k extra ws Hp) as (r & -> & Hr). exists (km_mgr k), (AEvent r). cbn [fst snd]. rewrite <- Hk. split; [reflexivity|exact Hr].
    - unfold m_rotate. destruct (mg_rotate G (km_mgr k) fresh) as [g r]. exists g. rewrite Hp.
      destruct r as [u| |]; cbn [obind]; [|eexists; split; [reflexivity|intros []]..].
      unfold m_make_rotation, compute_state. cbn [km_db km_prefix]. rewrite Hn. cbn [obind ok_or fst snd].
      eexists; split; [reflexivity|intros []].
    - exists (km_mgr k). unfold m_make_ixn, compute_state. rewrite Hp, Hn. cbn [obind ok_or fst snd]. rewrite <- Hk.
      eexists; split; [reflexivity|intros []].
    - exists (km_mgr k). unfold m_interact. rewrite Hp, Hn. cbn [obind fst snd]. rewrite <- Hk.
      eexists; split; [reflexivity|intros []].
    - exists (km_mgr k). unfold m_make_rct, get_last_establishment_event_seal. rewrite Hp, Hn.
      destruct (e_ser_event E m) as [s| |]; cbn [obind fst snd]; try (rewrite <- Hk; eexists; split; [reflexivity|intros []]).
      destruct (mg_sign _ _ _) as [sg| |]; cbn [obind ok_or fst snd]; rewrite <- Hk; (eexists; split; [reflexivity|intros []]).
  Qed.
  Definition useless_op (o : NodeOp) : Prop := own_name o \/ exists c, o = NCall c /\ foreign id c.
  Lemma node_useless ops : Forall useless_op ops -> forall k, km_prefix k = id -> get_kel (km_db k) id = None ->
    Forall (fun a => ~ succeeded a) (snd (does (mgr_do E K G) k ops))
    /\ get_kel (km_db (fst (does (mgr_do E K G) k ops))) id = None
    /\ km_prefix (fst (does (mgr_do E K G) k ops)) = id.
  Proof.
    induction ops as [|o ops IH]; intros Ho k Hp Hn; cbn [does]; [split; [apply Forall_nil|split; assumption]|].
    assert (X : exists k1 r, mgr_do E K G k o = (k1, r) /\ ~ succeeded r /\ km_prefix k1 = id /\ get_kel (km_db k1) id = None).
    { destruct (Forall_inv Ho) as [Hw|(c & -> & Hf)].
      - destruct (own_fails k o Hp Hn Hw) as (g & r & H1 & H2). do 2 eexists. split; [exact H1|]. split; [exact H2|].
        split; [reflexivity|exact Hn].
      - cbn [mgr_do]. do 2 eexists. split; [reflexivity|]. split; [intros []|]. split; [exact Hp|].
        cbn [km_db m_set_db]. rewrite (foreign_call E (km_db k) c id Hf). exact Hn. }
    destruct X as (k1 & r & -> & Hr & Hp1 & Hn1). destruct (IH (Forall_inv_tail Ho) k1 Hp1 Hn1) as (I1 & I2 & I3).
    destruct (does _ k1 ops) as [k2 xs]. cbn [fst snd] in *. split; [apply Forall_cons; assumption|]. split; assumption.
  Qed.
End Fresh.
