(** * KeriProofs: own events of a controller. *)
From Verif Require Import Base Base64 Codes NumFmt Types KeyConf State Db Processor Spec StateProofs LogProofs Cesr Message Keri SpecKeri.

Section WithEnv.
  Context (E : Env) (K : KEnv).

  Lemma kc_verify_own pk more n msg sig :
    e_verify_ed E pk msg sig = true ->
    kc_verify E (mkKC (Simple 1) (ed_key pk :: more) n) msg [mkASP 0 (mkSSP Ed25519Sha512 sig)] = Ok true.
  Proof.
    intros H. unfold kc_verify. cbn [kc_threshold enough_signatures kc_keys List.length].
    change (1 <=? N.of_nat 1)%N with true. cbn [obind negb Nat.leb].
    unfold count_indices. cbn [fold_left obind asp_index N.to_nat repeat bump].
    cbn [forallb]. change (0 + 1 <=? 1)%N with true. cbn [andb].
    assert (F : forall n, forallb (fun x => (x <=? 1)%N) (repeat 0%N n) = true) by (induction n0; cbn; auto).
    rewrite F. unfold verify_each. cbn [fold_left obind asp_index N.to_nat nth_error asp_sig].
    unfold key_verify. cbn [bp_code ed_key ssp_code bp_key ssp_sig]. now rewrite H.
  Qed.

  (** submitting an event that applies and verifies *)
  (** submitting an event that applies and verifies *)
  Lemma process_own d m sigs id s ns ser :
    em_prefix m = id ->
    (match em_data m with Dip _ | Drt _ => False | _ => True end) ->
    compute_state E d id = Ok s ->
    apply_msg E m (match s with Some s => s | None => state_default end) = Ok ns ->
    e_ser_event E m = Ok ser ->
    kc_verify E (st_current ns) ser sigs = Ok true ->
    process E d (MEvent (mkSEM m sigs None)) = (add_kel d (mkSEM m sigs None) id, Ok (Some ns)).
  Proof.
    intros Hp Hd Hc Ha Hs Hv. cbn [process]. unfold process_event. cbn [sem_msg sem_sigs].
    assert (Hcd : check_delegation E d (mkSEM m sigs None) = Ok tt).
    { unfold check_delegation. cbn [sem_msg]. now destruct (em_data m). }
    rewrite Hcd. unfold apply_to_state. rewrite Hp, Hc. cbn [obind]. rewrite Ha, Hs.
    unfold verify_signatures. cbn [sem_sigs]. rewrite Hv. reflexivity.
  Qed.

  (** ** The builder *)
  Lemma said_ok (HS : events_serialize E K) p sn data :
    exists info dig, said_to_message E K p sn data JSON Blake3_256 = Ok (mkEM info dig p sn data) /\ json info.
  Proof.
    destruct HS as (_ & H & _). unfold said_to_message.
    destruct (H (si_new JSON 0) Blake3_256 p sn data eq_refl) as [b0 ->]. cbn [obind].
    destruct (H (si_new JSON (List.length b0)) Blake3_256 p sn data eq_refl) as [b1 ->]. cbn [obind].
    do 2 eexists. split; reflexivity.
  Qed.
  Lemma incept_sa_ok (HS : events_serialize E K) data :
    exists info b, incept_self_addressing E K data Blake3_256 JSON
      = Ok (mkEM info (derive E Blake3_256 b) (IdSelfAddressing (derive E Blake3_256 b)) 0 data) /\ json info.
  Proof.
    destruct HS as (_ & _ & H). unfold incept_self_addressing.
    destruct (H (si_new JSON 0) Blake3_256 data eq_refl) as [b0 ->]. cbn [obind].
    destruct (H (si_new JSON (List.length b0)) Blake3_256 data eq_refl) as [b1 ->]. cbn [obind].
    do 2 eexists. split; reflexivity.
  Qed.

  Definition own_kc (cur : bytes) (more : list BasicPrefix) (next : bytes) : KeyConfig :=
    mkKC (Simple 1) (ed_key cur :: more) (Some (nxt_commitment E (Simple 1) [ed_key next] Blake3_256)).

  Lemma build_rot (HS : events_serialize E K) p sn prev cur next :
    p <> id_default ->
    exists info dig, build E K (rot_builder p sn prev [ed_key cur] [ed_key next])
      = Ok (mkEM info dig p sn (Rot (mkRot prev (own_kc cur [] next) (mkWC 0 [] []) []))) /\ json info.
  Proof.
    intros Hp. unfold build, rot_builder.
    cbn [b_type b_prefix b_sn b_threshold b_next_threshold b_keys b_next_keys b_prev b_data b_delegator
         b_tally b_witnesses b_add b_remove b_format b_derivation].
    destruct (IdentifierPrefix_eq_dec p id_default) as [|_]; [contradiction|]. cbn [obind].
    destruct (said_ok HS p sn (Rot (mkRot prev (own_kc cur [] next) (mkWC 0 [] []) []))) as (info & dig & H & Hj).
    exists info, dig. split; [|exact Hj]. unfold event_to_message. destruct p; exact H.
  Qed.
  Lemma build_ixn (HS : events_serialize E K) p sn prev seals pk npk :
    p <> id_default ->
    exists info dig, build E K (ixn_builder p sn prev seals pk npk)
      = Ok (mkEM info dig p sn (Ixn (mkIxn prev seals))) /\ json info.
  Proof.
    intros Hp. unfold build, ixn_builder.
    cbn [b_type b_prefix b_sn b_threshold b_next_threshold b_keys b_next_keys b_prev b_data b_delegator
         b_tally b_witnesses b_add b_remove b_format b_derivation].
    destruct (IdentifierPrefix_eq_dec p id_default) as [|_]; [contradiction|]. cbn [obind].
    destruct (said_ok HS p sn (Ixn (mkIxn prev seals))) as (info & dig & H & Hj).
    exists info, dig. split; [|exact Hj]. unfold event_to_message. destruct p; exact H.
  Qed.
  (** an inception built for a fresh controller *)
  Lemma build_icp (HS : events_serialize E K) cur extra next ws :
    exists info dig p, build E K (icp_builder E id_default (ed_key cur :: extra) [ed_key next] ws)
      = Ok (mkEM info dig p 0 (Icp (mkIcp (own_kc cur extra next) (mkIWC 0 ws) [] []))) /\ json info
      /\ match extra with
         | [] => p = IdBasic (ed_key cur)
         | _ => p = IdSelfAddressing dig /\ exists b, dig = derive E Blake3_256 b
         end.
  Proof.
    unfold build, icp_builder.
    cbn [b_type b_prefix b_sn b_threshold b_next_threshold b_keys b_next_keys b_prev b_data b_delegator
         b_tally b_witnesses b_add b_remove b_format b_derivation].
    destruct (IdentifierPrefix_eq_dec id_default id_default) as [_|]; [|congruence].
    unfold kc_new. cbn [kc_keys]. destruct extra as [|x extra].
    - cbn [obind event_to_message].
      destruct (said_ok HS (IdBasic (ed_key cur)) 0 (Icp (mkIcp (own_kc cur [] next) (mkIWC 0 ws) [] []))) as (info & dig & H & Hj).
      exists info, dig, (IdBasic (ed_key cur)). split; [exact H|]. split; [exact Hj|reflexivity].
    - destruct (incept_sa_ok HS (Icp (mkIcp (own_kc cur (x :: extra) next) (mkIWC 0 []) [] []))) as (i0 & b0 & H0 & _).
      fold (own_kc cur (x :: extra) next).
      change (mkKC threshold_default (ed_key cur :: x :: extra) (Some (nxt_commitment E threshold_default [ed_key next] Blake3_256)))
        with (own_kc cur (x :: extra) next).
      rewrite H0. cbn [obind em_prefix].
      destruct (incept_sa_ok HS (Icp (mkIcp (own_kc cur (x :: extra) next) (mkIWC 0 ws) [] []))) as (i1 & b1 & H1 & Hj).
      exists i1, (derive E Blake3_256 b1), (IdSelfAddressing (derive E Blake3_256 b1)). split; [exact H1|].
      split; [exact Hj|]. split; [reflexivity|]. eauto.
  Qed.

  (** ** A working controller *)
  Record Working (k : Keri) (l : list SignedEventMessage) : Prop := mkWorking {
    wk_id : k_prefix k <> id_default;
    wk_log : get_kel (k_db k) (k_prefix k) = Some l;
    wk_ne : l <> [];
    wk_state : exists s more, good_log E (k_prefix k) l s /\ st_delegator s = None
       /\ st_current s = own_kc (kp_pub (cb_cur (k_box k))) more (kp_pub (cb_next (k_box k)));
    wk_cur : works E K (cb_cur (k_box k));
    wk_next : works E K (cb_next (k_box k)) }.

  Lemma sign_own_ok (HS : events_serialize E K) b m :
    works E K (cb_cur b) -> json (em_info m) ->
    exists ser sig, e_ser_event E m = Ok ser /\ e_verify_ed E (kp_pub (cb_cur b)) ser sig = true
      /\ sign_own E K b m = Ok (mkSEM m [mkASP 0 (mkSSP Ed25519Sha512 sig)] None).
  Proof.
    intros Hw Hj. destruct (proj1 HS m Hj) as [ser Hser]. destruct (Hw ser) as (sig & Hs & Hv).
    exists ser, sig. split; [exact Hser|]. split; [exact Hv|]. unfold sign_own, box_sign. rewrite Hser. cbn [obind].
    now rewrite Hs.
  Qed.

  Lemma check_digest_self m : check_digest E m (em_digest m) = Ok true.
  Proof.
    unfold check_digest. destruct (SelfAddressing_eq_dec _ _) as [_|]; [|congruence].
    destruct (SAP_eq_dec _ _); congruence.
  Qed.

  (** applying an own rotation or interaction *)
  Lemma apply_own_rot s info dig p cur more nxt next' :
    st_prefix s = p -> st_delegator s = None -> st_current s = own_kc cur more nxt ->
    exists ns, apply_msg E (mkEM info dig p (st_sn s + 1)
                  (Rot (mkRot (st_last_digest s) (own_kc nxt [] next') (mkWC 0 [] []) []))) s = Ok ns
      /\ st_delegator ns = None /\ st_current ns = own_kc nxt [] next'.
  Proof.
    intros Hp Hd Hc. unfold apply_msg. cbn [em_data rot_prev]. unfold check_event_digest.
    rewrite check_digest_self. cbn [obind ok_if]. rewrite Hd. unfold apply_event.
    cbn [em_data em_prefix em_sn]. destruct (IdentifierPrefix_eq_dec p (st_prefix s)) as [_|]; [|congruence].
    rewrite N.ltb_irrefl. cbn [obind apply_data]. unfold apply_rot, verify_next.
    cbn [st_current st_set_sn_prefix rot_kc]. rewrite Hc. cbn [kc_next own_kc].
    unfold commit. cbn [own_kc kc_threshold kc_keys].
    assert (Hcode : sap_code (nxt_commitment E (Simple 1) [ed_key nxt] Blake3_256) = Blake3_256) by reflexivity.
    rewrite Hcode. change (digest_aborts Blake3_256) with false. cbn iota.
    destruct (SAP_eq_dec _ _) as [_|]; [|congruence]. cbn [obind].
    unfold chain_to. destruct (SAP_eq_dec _ _) as [_|]; [|congruence].
    eexists. split; [reflexivity|]. split; [exact Hd|reflexivity].
  Qed.
  Lemma apply_own_ixn s info dig p seals :
    st_prefix s = p ->
    exists ns, apply_msg E (mkEM info dig p (st_sn s + 1) (Ixn (mkIxn (st_last_digest s) seals))) s = Ok ns
      /\ st_delegator ns = st_delegator s /\ st_current ns = st_current s.
  Proof.
    intros Hp. unfold apply_msg. cbn [em_data ixn_prev]. unfold check_event_digest.
    rewrite check_digest_self. cbn [obind ok_if]. unfold apply_event.
    cbn [em_data em_prefix em_sn]. destruct (IdentifierPrefix_eq_dec p (st_prefix s)) as [_|]; [|congruence].
    rewrite N.ltb_irrefl. cbn [obind apply_data apply_ixn].
    unfold chain_to. destruct (SAP_eq_dec _ _) as [_|]; [|congruence].
    eexists. split; [reflexivity|]. split; reflexivity.
  Qed.

  Lemma good_log_prefix id l s : id <> id_default -> l <> [] -> good_log E id l s -> st_prefix s = id.
  Proof.
    intros Hid Hne Hg. destruct (good_log_shape E id l s Hid Hg) as (_ & Hsh & _).
    destruct (rev l) as [|x r] eqn:Hr; [|now destruct Hsh].
    apply (f_equal (@rev _)) in Hr. rewrite rev_involutive in Hr. contradiction.
  Qed.

  Lemma get_kel_add_same d se id : get_kel (add_kel d se id) id = Some (olist (get_kel d id) ++ [stored se]).
  Proof. rewrite get_kel_add. destruct (IdentifierPrefix_eq_dec id id); congruence. Qed.

  Lemma rotate_step (HS : events_serialize E K) k l fresh :
    Working k l -> works E K fresh ->
    exists se, rotate E K k fresh
      = (mkKeri (k_prefix k) (box_rotate (k_box k) fresh) (add_kel (k_db k) se (k_prefix k)), Ok se)
      /\ is_rotation (sem_msg se) = true
      /\ Working (fst (rotate E K k fresh)) (l ++ [stored se]).
  Proof.
    intros [Hid Hl Hne (s & more & Hg & Hd & Hc) Hcur Hnext] Hf.
    pose proof (good_log_prefix _ _ _ Hid Hne Hg) as Hp.
    pose proof (compute_state_good E (k_db k) _ _ _ Hid Hl Hg) as Hcs.
    unfold rotate, make_rotation. cbn [k_prefix k_db k_box box_rotate cb_cur cb_next].
    rewrite Hcs. cbn [obind ok_or].
    destruct (build_rot HS (k_prefix k) (st_sn s + 1) (st_last_digest s) (kp_pub (cb_next (k_box k))) (kp_pub fresh) Hid)
      as (info & dig & Hb & Hj).
    rewrite Hb. cbn [obind].
    set (m := mkEM info dig (k_prefix k) (st_sn s + 1) _) in *.
    destruct (sign_own_ok HS (box_rotate (k_box k) fresh) m) as (ser & sig & Hser & Hv & Hso); [exact Hnext|exact Hj|].
    change (mkBox (cb_next (k_box k)) fresh) with (box_rotate (k_box k) fresh). rewrite Hso.
    destruct (apply_own_rot s info dig (k_prefix k) _ more _ (kp_pub fresh) Hp Hd Hc) as (ns & Ha & Hnd & Hnc). fold m in Ha.
    set (se := mkSEM m [mkASP 0 (mkSSP Ed25519Sha512 sig)] None) in *.
    assert (Hpr : process E (k_db k) (MEvent se) = (add_kel (k_db k) se (k_prefix k), Ok (Some ns))).
    { apply (process_own (k_db k) m _ (k_prefix k) (Some s) ns ser); auto; [exact I|].
      rewrite Hnc. apply kc_verify_own. exact Hv. }
    exists se. unfold submit. cbn [k_db k_prefix k_box set_db]. rewrite Hpr. cbn [omap obind fst].
    split; [reflexivity|]. split; [reflexivity|].
    constructor; cbn [k_prefix k_db k_box set_db box_rotate cb_cur cb_next]; auto.
    - rewrite get_kel_add_same, Hl. reflexivity.
    - intros Hz. now apply app_eq_nil in Hz.
    - exists ns, []. split; [|split; [exact Hnd|exact Hnc]].
      apply good_log_snoc. exists s. split; [exact Hg|]. split; [reflexivity|exact Ha].
  Qed.

  Lemma ixn_step (HS : events_serialize E K) k l payload pk npk :
    Working k l ->
    exists se, make_ixn E K k payload pk npk
      = (mkKeri (k_prefix k) (k_box k) (add_kel (k_db k) se (k_prefix k)), Ok se)
      /\ em_data (sem_msg se) = Ixn (mkIxn (em_digest (sem_msg (last l se)))
           (match payload with Some p => [SealDigest (derive E Blake3_256 p)] | None => [] end))
      /\ Working (fst (make_ixn E K k payload pk npk)) (l ++ [stored se]).
  Proof.
    intros [Hid Hl Hne (s & more & Hg & Hd & Hc) Hcur Hnext].
    pose proof (good_log_prefix _ _ _ Hid Hne Hg) as Hp.
    pose proof (compute_state_good E (k_db k) _ _ _ Hid Hl Hg) as Hcs.
    unfold make_ixn. rewrite Hcs. cbn [obind ok_or].
    set (seals := match payload with Some p => [SealDigest (derive E Blake3_256 p)] | None => [] end).
    destruct (build_ixn HS (k_prefix k) (st_sn s + 1) (st_last_digest s) seals pk npk Hid) as (info & dig & Hb & Hj).
    rewrite Hb. cbn [obind].
    set (m := mkEM info dig (k_prefix k) (st_sn s + 1) _) in *.
    destruct (sign_own_ok HS (k_box k) m Hcur Hj) as (ser & sig & Hser & Hv & Hso). rewrite Hso.
    destruct (apply_own_ixn s info dig (k_prefix k) seals Hp) as (ns & Ha & Hnd & Hnc). fold m in Ha.
    set (se := mkSEM m [mkASP 0 (mkSSP Ed25519Sha512 sig)] None) in *.
    assert (Hpr : process E (k_db k) (MEvent se) = (add_kel (k_db k) se (k_prefix k), Ok (Some ns))).
    { apply (process_own (k_db k) m _ (k_prefix k) (Some s) ns ser); auto; [exact I|].
      rewrite Hnc, Hc. apply kc_verify_own. exact Hv. }
    exists se. unfold submit. rewrite Hpr. cbn [omap obind fst].
    split; [reflexivity|]. split.
    { cbn [se sem_msg m em_data]. do 2 f_equal.
      destruct (good_log_shape E _ l s Hid Hg) as (_ & Hsh & _).
      destruct (exists_last Hne) as (l' & x & ->). rewrite rev_app_distr in Hsh. cbn in Hsh.
      rewrite last_last. now destruct Hsh as (_ & _ & ->). }
    constructor; cbn [k_prefix k_db k_box set_db]; auto.
    - rewrite get_kel_add_same, Hl. reflexivity.
    - intros Hz. now apply app_eq_nil in Hz.
    - exists ns, more. split; [|split; congruence].
      apply good_log_snoc. exists s. split; [exact Hg|]. split; [reflexivity|exact Ha].
  Qed.

  (** calls about others leave the log alone *)
  Lemma foreign_call d c id : foreign id c -> get_kel (call E d c) id = get_kel d id.
  Proof.
    destruct c as [m|]; cbn [call]; intros Hf.
    - destruct m as [e|r|r|r|q]; try (unfold get_kel; rewrite process_other_kel; [reflexivity|discriminate]).
      cbn [foreign] in Hf. cbn [process].
      destruct (process_event_cases E d e) as [(r & -> & _)|(ns & _ & Ha & H)]; [reflexivity|].
      destruct H as [(ser & _ & _ & ->)|[(r & -> & _)|(x & ser & _ & -> & _)]]; cbn [fst];
        rewrite ?get_kel_remove, ?get_kel_add;
        repeat (destruct (IdentifierPrefix_eq_dec _ _) as [Hz|_]; [congruence|]); reflexivity.
    - unfold get_kel. now rewrite process_escrow_kel.
  Qed.
  Lemma Working_call k l c :
    Working k l -> foreign (k_prefix k) c -> Working (set_db k (call E (k_db k) c)) l.
  Proof.
    intros [Hid Hl Hne Hst Hcur Hnext] Hf. constructor; cbn [k_prefix k_db k_box set_db]; auto.
    now rewrite foreign_call.
  Qed.

  Lemma operate_working (HS : events_serialize E K) ops : forall k l,
    Working k l -> Forall (op_ok E K (k_prefix k)) ops ->
    exists evs, snd (operate E K k ops) = map Ok evs
      /\ k_prefix (fst (operate E K k ops)) = k_prefix k
      /\ Working (fst (operate E K k ops)) (l ++ map stored evs).
  Proof.
    induction ops as [|o ops IH]; intros k l Hw Hok.
    - exists []. cbn. rewrite app_nil_r. auto.
    - inversion Hok as [|? ? Ho Hok']; subst. destruct o as [fresh|payload pk npk|peer|c]; cbn [operate].
      + destruct (rotate_step HS k l fresh Hw Ho) as (se & Hr & _ & Hw').
        rewrite Hr in Hw' |- *. cbn [fst] in Hw'.
        destruct (IH _ _ Hw' Hok') as (evs & H1 & H2 & H3).
        destruct (operate E K _ ops) as [k2 xs]. cbn [fst snd] in *. subst xs.
        exists (se :: evs). split; [reflexivity|]. split; [exact H2|]. cbn [map]. now rewrite <- app_assoc in H3.
      + destruct (ixn_step HS k l payload pk npk Hw) as (se & Hr & _ & Hw').
        rewrite Hr in Hw' |- *. cbn [fst] in Hw'.
        destruct (IH _ _ Hw' Hok') as (evs & H1 & H2 & H3).
        destruct (operate E K _ ops) as [k2 xs]. cbn [fst snd] in *. subst xs.
        exists (se :: evs). split; [reflexivity|]. split; [exact H2|]. cbn [map]. now rewrite <- app_assoc in H3.
      + destruct Ho.
      + exact (IH (set_db k (call E (k_db k) c)) l (Working_call k l c Hw Ho) Hok').
  Qed.

  Lemma Working_in_force k l :
    Working k l -> in_force E (k_db k) (k_prefix k) (kp_pub (cb_cur (k_box k))) (kp_pub (cb_next (k_box k))).
  Proof.
    intros [Hid Hl Hne (s & more & Hg & Hd & Hc) _ _]. exists s, more.
    rewrite (compute_state_good E (k_db k) _ _ _ Hid Hl Hg), Hc. auto.
  Qed.

  (** inception of a fresh controller *)
  Lemma incept_step (HS : events_serialize E K) b d extra ws m :
    works E K (cb_cur b) -> works E K (cb_next b) ->
    (extra <> [] -> forall msg, e_digest E Blake3_256 msg <> []) ->
    build E K (icp_builder E id_default (ed_key (kp_pub (cb_cur b)) :: extra) [ed_key (kp_pub (cb_next b))] ws) = Ok m ->
    olist (get_kel d (em_prefix m)) = [] ->
    exists se, sem_msg se = m
      /\ incept_with E K (keri_new b d) extra ws
         = (mkKeri (em_prefix m) b (add_kel d se (em_prefix m)), Ok se)
      /\ Working (mkKeri (em_prefix m) b (add_kel d se (em_prefix m))) [stored se].
  Proof.
    intros Hcur Hnext Hdig Hb Hno.
    destruct (build_icp HS (kp_pub (cb_cur b)) extra (kp_pub (cb_next b)) ws) as (info & dig & p & Hb' & Hj & Hpre).
    assert (m = mkEM info dig p 0 (Icp (mkIcp (own_kc (kp_pub (cb_cur b)) extra (kp_pub (cb_next b))) (mkIWC 0 ws) [] []))) by congruence.
    subst m. cbn [em_prefix] in *. set (m := mkEM _ _ _ _ _) in *.
    assert (Hid : p <> id_default).
    { destruct extra as [|x extra]; [subst p; discriminate|]. destruct Hpre as (-> & bb & ->).
      intros Hz. unfold id_default, sap_default, derive in Hz. injection Hz as Hz.
      now apply (Hdig ltac:(discriminate) bb). }
    assert (Hst : exists s0, compute_state E d p = Ok s0 /\ (match s0 with Some s => s | None => state_default end) = state_default).
    { unfold compute_state. destruct (get_kel d p) as [l|]; [|eexists; split; reflexivity].
      cbn in Hno. subst l. cbn. eexists; split; reflexivity. }
    destruct Hst as (s0 & Hcs & Hs0).
    assert (Hap : exists ns, apply_msg E m state_default = Ok ns /\ st_delegator ns = None
              /\ st_current ns = own_kc (kp_pub (cb_cur b)) extra (kp_pub (cb_next b))).
    { unfold apply_msg. cbn [m em_data]. unfold verify_identifier_binding. cbn [m em_data em_prefix].
      assert (Hbind : forall (f : bool -> out IdentifierState),
        obind (match p with
               | IdBasic bp => Ok match kc_keys (icp_kc (mkIcp (own_kc (kp_pub (cb_cur b)) extra (kp_pub (cb_next b))) (mkIWC 0 ws) [] [])) with
                                  | [k] => if BasicPrefix_eq_dec bp k then true else false | _ => false end
               | IdSelfAddressing sap => let? b0 := check_digest E m sap in
                   Ok (b0 && if SAP_eq_dec (em_digest m) sap then true else false)
               | IdSelfSigning _ => Panic end) f = f true).
      { intros f. destruct extra as [|x extra].
        - subst p. cbn [icp_kc own_kc kc_keys obind]. destruct (BasicPrefix_eq_dec _ _); [reflexivity|congruence].
        - destruct Hpre as (-> & _). change dig with (em_digest m). rewrite check_digest_self. cbn [obind].
          destruct (SAP_eq_dec _ _); [reflexivity|congruence]. }
      fold m. rewrite Hbind. unfold apply_event. cbn [m em_data em_sn].
      destruct (IdentifierPrefix_eq_dec _ _) as [_|Hz]; [|exfalso; apply Hz; reflexivity].
      cbn [N.eqb obind apply_data apply_icp]. eexists. split; [reflexivity|]. split; reflexivity. }
    destruct Hap as (ns & Ha & Hnd & Hnc).
    destruct (sign_own_ok HS b m Hcur Hj) as (ser & sig & Hser & Hv & Hso).
    set (se := mkSEM m [mkASP 0 (mkSSP Ed25519Sha512 sig)] None) in *.
    assert (Hpr : process E d (MEvent se) = (add_kel d se p, Ok (Some ns))).
    { apply (process_own d m _ p s0 ns ser); auto; [exact I|now rewrite Hs0|].
      rewrite Hnc. now apply kc_verify_own. }
    exists se. split; [reflexivity|].
    unfold incept_with, keri_new. cbn [k_box k_prefix k_db]. rewrite Hb'. fold m. cbn [obind]. rewrite Hso.
    unfold submit. cbn [k_db]. fold se. rewrite Hpr. cbn [omap obind]. split; [reflexivity|].
    constructor; cbn [k_prefix k_db k_box]; auto; [|discriminate|].
    - rewrite get_kel_add_same, Hno. reflexivity.
    - exists ns, extra. split; [|auto]. apply (good_log_snoc E p [] (stored se) ns). exists state_default.
      split; [now apply good_log_nil|]. split; [reflexivity|exact Ha].
  Qed.
End WithEnv.
