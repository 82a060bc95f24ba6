(** * DelegateProofs: hierarchies of identifiers (C131). *)
From Coq Require Import QArith.
From Verif Require Import Base Base64 Codes NumFmt Types KeyConf SpecSig State Db Processor Spec StateProofs LogProofs ProcProofs ProcProofs2
  Cesr Message Keri Builder SpecKeri SpecDelegate KeriProofs KeriProofs2 AcceptProofs.
Local Open Scope nat_scope.

Section WithEnv.
  Context (E : Env) (K : KEnv).

  Lemma ok_inj {A} (x y : A) : Ok x = Ok y -> x = y.
  Proof. congruence. Qed.

  (** ** Groups *)
  Definition group_kc (cur next : Group) : KeyConfig :=
    mkKC (g_threshold cur) (g_keys cur) (Some (nxt_commitment E (g_threshold next) (g_keys next) Blake3_256)).
  Lemma nxt_code t keys d : sap_code (nxt_commitment E t keys d) = d.
  Proof.
    unfold nxt_commitment. assert (H : sap_code (derive E d (threshold_str t)) = d) by reflexivity.
    revert H. generalize (derive E d (threshold_str t)). induction keys as [|k keys IH]; intros x Hx; [exact Hx|].
    cbn [fold_left]. apply IH. reflexivity.
  Qed.
  Lemma signatures_ok g who ser :
    Forall (works E K) (g_pairs g) -> Forall (fun i => i < List.length (g_pairs g)) who ->
    exists sigs, signatures K g who ser = Ok sigs /\ map index_of sigs = who
      /\ Forall (fun s => exists k, nth_error (g_keys g) (index_of s) = Some k /\ sig_ok E k ser (asp_sig s)) sigs.
  Proof.
    intros Hw. induction who as [|i who IH]; intros Hi; [exists []; auto|].
    destruct (IH (Forall_inv_tail Hi)) as (sigs & H1 & H2 & H3). pose proof (Forall_inv Hi) as Hl. cbn beta in Hl.
    apply nth_error_Some in Hl. destruct (nth_error (g_pairs g) i) as [p|] eqn:Hn; [|contradiction].
    destruct (proj1 (Forall_forall _ _) Hw p (nth_error_In _ _ Hn) ser) as (sig & Hs & Hv).
    exists (mkASP (N.of_nat i) (mkSSP Ed25519Sha512 sig) :: sigs). cbn [signatures]. rewrite Hn. cbn [ok_or obind].
    rewrite Hs. cbn [obind]. rewrite H1. split; [reflexivity|]. split.
    - cbn [map]. rewrite H2. f_equal. unfold index_of. cbn [asp_index]. lia.
    - constructor; [|exact H3]. exists (ed_key (kp_pub p)). unfold index_of. cbn [asp_index asp_sig]. rewrite Nnat.Nat2N.id. split.
      + unfold g_keys. now rewrite nth_error_map, Hn.
      + left. split; [left; reflexivity|]. split; [reflexivity|exact Hv].
  Qed.
  Lemma sign_by_ok (HS : events_serialize E K) g who m :
    sound_group E K g -> quorum g who -> json (em_info m) ->
    exists ser sigs, e_ser_event E m = Ok ser /\ sign_by E K g who m = Ok (mkSEM m sigs None)
      /\ forall next, kc_verify E (group_kc g next) ser sigs = Ok true.
  Proof.
    intros [Hw Hr] (Hnd & Hi & Ht & Hc) Hj. destruct (proj1 HS m Hj) as [ser Hser].
    destruct (signatures_ok g who ser Hw Hi) as (sigs & H1 & H2 & H3). exists ser, sigs. split; [exact Hser|].
    split; [unfold sign_by; rewrite Hser; cbn [obind]; now rewrite H1|]. intros next.
    apply verify_iff; [exact Hr|]. cbn [group_kc kc_threshold]. split; [|split; [|split]].
    - unfold in_single. destruct (g_threshold g) as [|[c|]]; try exact I. rewrite <- H2 in Hc.
      rewrite Forall_map in Hc. exact Hc.
    - cbn [group_kc kc_threshold]. unfold threshold_met. destruct (g_threshold g) as [n|w].
      + rewrite <- H2, map_length in Ht. exact Ht.
      + eapply Forall_impl; [|exact Ht]. intros sc H. unfold total_weight. rewrite <- H2, map_map in H. exact H.
    - now rewrite H2.
    - exact H3.
  Qed.

  (** ** What the builder returns *)
  Lemma built_ixn (HS : events_serialize E K) id s pk npk seals :
    id <> id_default ->
    exists info dig, build_with E K TIxn pk npk ([SPrefix id; SSn (st_sn s + 1); SPrevious (st_last_digest s)] ++ [SSeals seals])
      = Ok (mkEM info dig id (st_sn s + 1) (Ixn (mkIxn (st_last_digest s) seals))) /\ json info.
  Proof.
    intros Hp. unfold build_with.
    change (fold_left set_one _ _) with
      (mkB TIxn id (st_sn s + 1) (Simple 1) (Simple 1) [ed_key pk] [ed_key npk] (st_last_digest s) seals id_default 0 [] [] [] JSON Blake3_256).
    unfold build.
    cbn [b_type b_prefix b_sn b_threshold b_next_threshold b_keys b_next_keys b_prev b_data b_delegator
         b_tally b_witnesses b_add b_remove b_format b_derivation].
    destruct (IdentifierPrefix_eq_dec id id_default) as [|_]; [contradiction|]. cbn [obind].
    destruct (said_ok E K HS id (st_sn s + 1) (Ixn (mkIxn (st_last_digest s) seals))) as (info & dig & H & Hj).
    exists info, dig. split; [|exact Hj]. unfold event_to_message. destruct id; exact H.
  Qed.
  Definition rot_data_of (boss : option nat) (r : RotationEvent) : EventData :=
    match boss with None => Rot r | Some _ => Drt r end.
  Lemma built_rot (HS : events_serialize E K) boss id s cur nxt pk npk seals :
    id <> id_default ->
    exists info dig, build_with E K (match boss with None => TRot | Some _ => TDrt end) pk npk
        ([SPrefix id; SSn (st_sn s + 1); SPrevious (st_last_digest s)] ++ own_keys cur nxt ++ [SSeals seals])
      = Ok (mkEM info dig id (st_sn s + 1)
              (rot_data_of boss (mkRot (st_last_digest s) (group_kc cur nxt) (mkWC 0 [] []) seals))) /\ json info.
  Proof.
    intros Hp. unfold build_with. destruct boss as [j|].
    - change (fold_left set_one _ _) with
        (mkB TDrt id (st_sn s + 1) (g_threshold cur) (g_threshold nxt) (g_keys cur) (g_keys nxt) (st_last_digest s) seals id_default 0 [] [] [] JSON Blake3_256).
      unfold build.
      cbn [b_type b_prefix b_sn b_threshold b_next_threshold b_keys b_next_keys b_prev b_data b_delegator
         b_tally b_witnesses b_add b_remove b_format b_derivation].
      destruct (IdentifierPrefix_eq_dec id id_default) as [|_]; [contradiction|]. cbn [obind].
      destruct (said_ok E K HS id (st_sn s + 1) (Drt (mkRot (st_last_digest s) (group_kc cur nxt) (mkWC 0 [] []) seals))) as (info & dig & H & Hj).
      exists info, dig. split; [|exact Hj]. unfold event_to_message. destruct id; exact H.
    - change (fold_left set_one _ _) with
        (mkB TRot id (st_sn s + 1) (g_threshold cur) (g_threshold nxt) (g_keys cur) (g_keys nxt) (st_last_digest s) seals id_default 0 [] [] [] JSON Blake3_256).
      unfold build.
      cbn [b_type b_prefix b_sn b_threshold b_next_threshold b_keys b_next_keys b_prev b_data b_delegator
         b_tally b_witnesses b_add b_remove b_format b_derivation].
      destruct (IdentifierPrefix_eq_dec id id_default) as [|_]; [contradiction|]. cbn [obind].
      destruct (said_ok E K HS id (st_sn s + 1) (Rot (mkRot (st_last_digest s) (group_kc cur nxt) (mkWC 0 [] []) seals))) as (info & dig & H & Hj).
      exists info, dig. split; [|exact Hj]. unfold event_to_message. destruct id; exact H.
  Qed.
  Definition own_icp (cur nxt : Group) : InceptionEvent :=
    mkIcp (group_kc cur nxt) (mkIWC 0 []) [] [].
  Lemma nth_error_Some_lt {A} (l : list A) i x : nth_error l i = Some x -> i < List.length l.
  Proof. intros H. apply nth_error_Some. congruence. Qed.
  Definition first_id (w : World) (cur : Group) (boss : option nat) (dig : SelfAddressingPrefix) : IdentifierPrefix :=
    match boss_id w boss, g_keys cur with None, [k] => IdBasic k | _, _ => IdSelfAddressing dig end.
  Definition first_data (w : World) (cur nxt : Group) (boss : option nat) : EventData :=
    match boss_id w boss with None => Icp (own_icp cur nxt) | Some p => Dip (mkDip (own_icp cur nxt) p) end.
  Lemma built_first (HS : events_serialize E K) w cur nxt boss pk npk :
    (forall j, boss = Some j -> exists p, nth_error (w_parties w) j = Some p) ->
    exists info dig, json info
      /\ first_event E K w cur nxt boss pk npk = Ok (mkEM info dig (first_id w cur boss dig) 0 (first_data w cur nxt boss))
      /\ (boss <> None -> boss_id w boss <> None)
      /\ (first_id w cur boss dig = IdSelfAddressing dig -> exists b, dig = derive E Blake3_256 b).
  Proof.
    intros Hj. unfold first_event, first_id, first_data. destruct boss as [j|].
    - cbn [boss_id]. destruct (Hj j eq_refl) as [p Hn]. rewrite Hn. cbn [option_map ok_or obind].
      unfold build_with.
      change (fold_left set_one _ _) with
        (mkB TDip id_default 1 (g_threshold cur) (g_threshold nxt) (g_keys cur) (g_keys nxt)
             (derive E Blake3_256 (repeat x00 32)) [] (pa_id p) 0 [] [] [] JSON Blake3_256).
      unfold build.
      cbn [b_type b_prefix b_sn b_threshold b_next_threshold b_keys b_next_keys b_prev b_data b_delegator
         b_tally b_witnesses b_add b_remove b_format b_derivation].
      destruct (IdentifierPrefix_eq_dec id_default id_default) as [_|]; [|congruence]. unfold kc_new. cbn [kc_keys].
      change (mkKC (g_threshold cur) (g_keys cur) (Some (nxt_commitment E (g_threshold nxt) (g_keys nxt) Blake3_256))) with (group_kc cur nxt).
      destruct (incept_sa_ok E K HS (Icp (mkIcp (group_kc cur nxt) (mkIWC 0 []) [] []))) as (i0 & b0 & H0 & _).
      destruct (incept_sa_ok E K HS (Dip (mkDip (own_icp cur nxt) (pa_id p)))) as (info & b & H & Hjs).
      exists info, (derive E Blake3_256 b). split; [exact Hjs|]. split; [|split; [discriminate|eauto]].
      unfold own_icp in *. rewrite H0. cbn [obind]. destruct (g_keys cur) as [|k [|k' ks]]; cbn [obind]; exact H.
    - cbn [boss_id]. unfold build_with.
      change (fold_left set_one _ _) with
        (mkB TIcp id_default 1 (g_threshold cur) (g_threshold nxt) (g_keys cur) (g_keys nxt)
             (derive E Blake3_256 (repeat x00 32)) [] id_default 0 [] [] [] JSON Blake3_256).
      unfold build.
      cbn [b_type b_prefix b_sn b_threshold b_next_threshold b_keys b_next_keys b_prev b_data b_delegator
         b_tally b_witnesses b_add b_remove b_format b_derivation].
      destruct (IdentifierPrefix_eq_dec id_default id_default) as [_|]; [|congruence]. unfold kc_new. cbn [kc_keys].
      change (mkKC (g_threshold cur) (g_keys cur) (Some (nxt_commitment E (g_threshold nxt) (g_keys nxt) Blake3_256))) with (group_kc cur nxt).
      destruct (incept_sa_ok E K HS (Icp (own_icp cur nxt))) as (info & b & H & Hjs).
      unfold own_icp in *. rewrite H. cbn [obind].
      destruct (g_keys cur) as [|k [|k' ks]]; cbn [obind event_to_message].
      2:{ destruct (said_ok E K HS (IdBasic k) 0 (Icp (own_icp cur nxt))) as (info' & dig & H' & Hjs').
          exists info', dig. split; [exact Hjs'|]. split; [exact H'|]. split; [congruence|discriminate]. }
      all: exists info, (derive E Blake3_256 b); split; [exact Hjs|]; split; [first [exact H|reflexivity]|]; split; [congruence|eauto].
  Qed.

  (** ** Processing *)
  Lemma process_gen d se s ns ser :
    check_delegation E d se = Ok tt ->
    compute_state E d (em_prefix (sem_msg se)) = Ok s ->
    apply_msg E (sem_msg se) (match s with Some s => s | None => state_default end) = Ok ns ->
    e_ser_event E (sem_msg se) = Ok ser ->
    kc_verify E (st_current ns) ser (sem_sigs se) = Ok true ->
    process E d (MEvent se) = (add_kel d se (em_prefix (sem_msg se)), Ok (Some ns)).
  Proof.
    intros Hd Hc Ha Hs Hv. cbn [process]. unfold process_event. rewrite Hd.
    unfold apply_to_state. rewrite Hc. cbn [obind]. rewrite Ha, Hs. unfold verify_signatures. rewrite Hv. reflexivity.
  Qed.

  (** applying the rotation of a party, delegated or not *)
  Lemma apply_party_rot s info dig p boss cur nxt fresh seals :
    st_prefix s = p -> (st_delegator s = None <-> boss = None) -> st_current s = group_kc cur nxt ->
    exists ns, apply_msg E (mkEM info dig p (st_sn s + 1)
                  (rot_data_of boss (mkRot (st_last_digest s) (group_kc nxt fresh) (mkWC 0 [] []) seals))) s = Ok ns
      /\ st_delegator ns = st_delegator s /\ st_current ns = group_kc nxt fresh.
  Proof.
    intros Hp Hd Hc.
    assert (Hap : forall r, rot_kc r = group_kc nxt fresh -> exists ns,
       apply_rot E r (st_set_sn_prefix s (st_sn s + 1) p) = Ok ns /\ st_delegator ns = st_delegator s
       /\ st_current ns = group_kc nxt fresh).
    { intros r Hr. unfold apply_rot, verify_next. cbn [st_current st_set_sn_prefix]. rewrite Hc, Hr. cbn [kc_next group_kc].
      unfold commit. cbn [group_kc kc_threshold kc_keys]. rewrite nxt_code. change (digest_aborts Blake3_256) with false. cbn iota.
      destruct (SAP_eq_dec _ _) as [_|]; [|congruence]. cbn [obind].
      eexists. split; [reflexivity|]. split; reflexivity. }
    unfold apply_msg, rot_data_of. destruct boss as [j|]; cbn [em_data].
    - unfold apply_event. cbn [em_data em_prefix em_sn].
      destruct (IdentifierPrefix_eq_dec p (st_prefix s)) as [_|]; [|congruence].
      rewrite N.ltb_irrefl. cbn [obind apply_data].
      destruct (Hap (mkRot (st_last_digest s) (group_kc nxt fresh) (mkWC 0 [] []) seals) eq_refl) as (ns & H1 & H2 & H3).
      rewrite H1. cbn [obind]. unfold check_event_digest. rewrite check_digest_self. cbn [obind ok_if].
      destruct (st_delegator s) as [q|] eqn:Hq; [|discriminate (proj1 Hd eq_refl)].
      unfold chain_to. cbn [rot_prev]. destruct (SAP_eq_dec _ _) as [_|]; [|congruence].
      eexists. split; [reflexivity|]. cbn. split; [exact H2|exact H3].
    - unfold check_event_digest. rewrite check_digest_self. cbn [obind ok_if]. rewrite (proj2 Hd eq_refl). unfold apply_event.
      cbn [em_data em_prefix em_sn]. destruct (IdentifierPrefix_eq_dec p (st_prefix s)) as [_|]; [|congruence].
      rewrite N.ltb_irrefl. cbn [obind apply_data].
      destruct (Hap (mkRot (st_last_digest s) (group_kc nxt fresh) (mkWC 0 [] []) seals) eq_refl) as (ns & H1 & H2 & H3).
      rewrite H1. cbn [obind]. unfold chain_to. cbn [rot_prev]. destruct (SAP_eq_dec _ _) as [_|]; [|congruence].
      eexists. split; [reflexivity|]. cbn. split; [rewrite H2; now apply Hd|exact H3].
  Qed.

  (** ** Parties *)
  Definition PartyOk (d : Db) (bid : option IdentifierPrefix) (p : Party) : Prop :=
    pa_id p <> id_default /\ sound_group E K (pa_cur p) /\ sound_group E K (pa_next p)
    /\ exists l s, get_kel d (pa_id p) = Some l /\ l <> [] /\ good_log E (pa_id p) l s /\ st_delegator s = bid
       /\ st_current s = group_kc (pa_cur p) (pa_next p).
  Definition WOK (w : World) : Prop :=
    (forall i p, nth_error (w_parties w) i = Some p ->
       PartyOk (w_db w) (boss_id w (pa_boss p)) p /\ (forall j, pa_boss p = Some j -> j < i))
    /\ (forall i j p q, nth_error (w_parties w) i = Some p -> nth_error (w_parties w) j = Some q -> pa_id p = pa_id q -> i = j).

  Lemma PartyOk_kel d d' bid p : get_kel d' (pa_id p) = get_kel d (pa_id p) -> PartyOk d bid p -> PartyOk d' bid p.
  Proof. unfold PartyOk. intros ->. auto. Qed.
  Lemma run_foreign id cs : forall d, Forall (foreign id) cs -> get_kel (run E d cs) id = get_kel d id.
  Proof.
    induction cs as [|c cs IH]; intros d H; [reflexivity|]. inversion H; subst.
    change (run E d (c :: cs)) with (run E (call E d c) cs). rewrite IH by assumption. now apply foreign_call.
  Qed.
  Lemma PartyOk_state d bid p : PartyOk d bid p -> exists s, compute_state E d (pa_id p) = Ok (Some s)
     /\ st_prefix s = pa_id p /\ st_delegator s = bid
     /\ st_current s = group_kc (pa_cur p) (pa_next p).
  Proof.
    intros (Hid & _ & _ & l & s & Hl & Hne & Hg & Hd & Hc). exists s.
    split; [exact (compute_state_good E d _ _ _ Hid Hl Hg)|]. split; [now apply (good_log_prefix E _ l)|auto].
  Qed.

  (** a party's own interaction event *)
  Lemma party_ixn (HS : events_serialize E K) d bid p who pk npk seals :
    PartyOk d bid p -> quorum (pa_cur p) who ->
    exists m se s, next_event E K d (pa_id p) TIxn pk npk [SSeals seals] = Ok m
      /\ sem_msg se = m /\ em_prefix m = pa_id p /\ em_data m = Ixn (mkIxn (st_last_digest s) seals)
      /\ deliver E d (sign_by E K (pa_cur p) who m) = Ok (add_kel d se (pa_id p))
      /\ PartyOk (add_kel d se (pa_id p)) bid p.
  Proof.
    intros Hp Hq. destruct Hp as (Hid & Hw1 & Hw2 & l & s & Hl & Hne & Hg & Hd & Hc).
    pose proof (good_log_prefix E _ _ _ Hid Hne Hg) as Hpre.
    pose proof (compute_state_good E d _ _ _ Hid Hl Hg) as Hcs.
    destruct (built_ixn HS (pa_id p) s pk npk seals Hid) as (info & dig & Hb & Hj).
    set (m := mkEM info dig (pa_id p) (st_sn s + 1) _) in *.
    destruct (sign_by_ok HS (pa_cur p) who m Hw1 Hq Hj) as (ser & sigs & Hser & Hso & Hv).
    destruct (apply_own_ixn E s info dig (pa_id p) seals Hpre) as (ns & Ha & Hnd & Hnc). fold m in Ha.
    set (se := mkSEM m sigs None) in *.
    exists m, se, s. split.
    { unfold next_event. rewrite Hcs. cbn [obind ok_or]. exact Hb. }
    split; [reflexivity|]. split; [reflexivity|]. split; [reflexivity|]. split.
    - unfold deliver. rewrite Hso. cbn [obind].
      rewrite (process_gen d se (Some s) ns ser); [reflexivity|reflexivity|exact Hcs|exact Ha|exact Hser|].
      rewrite Hnc, Hc. apply Hv.
    - split; [exact Hid|]. split; [exact Hw1|]. split; [exact Hw2|]. exists (l ++ [stored se]), ns.
      split; [rewrite get_kel_add_same, Hl; reflexivity|]. split; [intros Hz; now apply app_eq_nil in Hz|].
      split; [|split; congruence]. apply good_log_snoc. exists s. split; [exact Hg|]. split; [reflexivity|exact Ha].
  Qed.

  Lemma nth_error_id w i p : nth_error (w_parties w) i = Some p -> boss_id w (Some i) = Some (pa_id p).
  Proof. intros H. cbn. now rewrite H. Qed.

  Lemma get_kel_other d se id id' : id <> id' -> get_kel (add_kel d se id) id' = get_kel d id'.
  Proof. intros H. rewrite get_kel_add. destruct (IdentifierPrefix_eq_dec _ _); congruence. Qed.

  (** adding an own event of one party leaves the others alone *)
  Lemma WOK_add w i p se :
    WOK w -> nth_error (w_parties w) i = Some p ->
    PartyOk (add_kel (w_db w) se (pa_id p)) (boss_id w (pa_boss p)) p ->
    WOK (mkWorld (add_kel (w_db w) se (pa_id p)) (w_parties w)).
  Proof.
    intros [H1 H2] Hi Hp. split; [|exact H2]. cbn [w_parties w_db]. intros k q Hk.
    destruct (H1 k q Hk) as [Hq Hb]. split; [|exact Hb].
    change (boss_id (mkWorld _ (w_parties w)) (pa_boss q)) with (boss_id w (pa_boss q)).
    destruct (IdentifierPrefix_eq_dec (pa_id p) (pa_id q)) as [He|Hn].
    - pose proof (H2 _ _ _ _ Hi Hk He). subst k. assert (p = q) by congruence. now subst q.
    - apply (PartyOk_kel (w_db w)); [now apply get_kel_other|exact Hq].
  Qed.
  Lemma WOK_run w cs :
    WOK w -> Forall (fun c => forall p, In p (w_parties w) -> foreign (pa_id p) c) cs ->
    WOK (mkWorld (run E (w_db w) cs) (w_parties w)).
  Proof.
    intros [H1 H2] Hf. split; [|exact H2]. cbn [w_parties w_db]. intros k q Hk. destruct (H1 k q Hk) as [Hq Hb].
    split; [|exact Hb]. change (boss_id (mkWorld _ (w_parties w)) (pa_boss q)) with (boss_id w (pa_boss q)).
    apply (PartyOk_kel (w_db w)); [|exact Hq]. apply run_foreign.
    eapply Forall_impl; [|exact Hf]. intros c H. exact (H q (nth_error_In _ _ Hk)).
  Qed.

  (** the anchor of a delegator *)
  Lemma anchor_ok (HS : events_serialize E K) w j who p m pk npk :
    WOK w -> nth_error (w_parties w) j = Some p -> quorum (pa_cur p) who ->
    exists se src, nth_error (w_parties w) j = Some p
      /\ anchor_for E K w j who m pk npk = Ok (add_kel (w_db w) se (pa_id p), src)
      /\ WOK (mkWorld (add_kel (w_db w) se (pa_id p)) (w_parties w))
      /\ (forall d, get_kel d (pa_id p) = get_kel (add_kel (w_db w) se (pa_id p)) (pa_id p) ->
            validate_seal E d (mkES (pa_id p) (src_sn src) (src_digest src)) m = Ok tt).
  Proof.
    intros Hw Hn Hq. destruct (proj1 Hw j p Hn) as [Hp _].
    destruct (party_ixn HS (w_db w) _ p who pk npk [SealEvent (mkES (em_prefix m) (em_sn m) (em_digest m))] Hp Hq)
      as (a & se & s & Hb & Hsm & Hpre & Hdata & Hdel & Hp').
    exists se, (mkSrc (em_sn a) (em_digest a)). split; [exact Hn|]. split.
    { unfold anchor_for. rewrite Hn. cbn [ok_or obind]. rewrite Hb. cbn [obind]. rewrite Hdel. reflexivity. }
    split; [now apply (WOK_add w j p)|].
    intros d Hk. destruct Hp' as (Hid & _ & _ & l & s' & Hl & _ & Hg & _).
    unfold validate_seal. cbn [es_prefix es_sn src_sn].
    assert (Hin : In (stored se) l).
    { rewrite get_kel_add_same in Hl. injection Hl as <-. apply in_or_app. right. now left. }
    rewrite Hl in Hk. pose proof (find_good E d _ l s' (stored se) Hid Hk Hg Hin) as Hf.
    change (em_sn (sem_msg (stored se))) with (em_sn (sem_msg se)) in Hf. rewrite Hsm in Hf. rewrite Hf.
    change (sem_msg (stored se)) with (sem_msg se). rewrite Hsm, Hdata. cbn [obind ixn_data any_anchor es_digest].
    rewrite check_digest_self. reflexivity.
  Qed.

  Lemma compute_state_kel d d' id : get_kel d' id = get_kel d id -> compute_state E d' id = compute_state E d id.
  Proof. unfold compute_state. now intros ->. Qed.
  Lemma grew_0 d d' id : get_kel d' id = get_kel d id -> grew d d' id 0.
  Proof. intros H. exists []. rewrite H, app_nil_r. auto. Qed.
  Lemma grew_add d se id : grew d (add_kel d se id) id 1.
  Proof. exists [stored se]. rewrite get_kel_add_same. auto. Qed.
  Lemma grew_trans d d1 d2 id n m : grew d d1 id n -> grew d1 d2 id m -> grew d d2 id (n + m).
  Proof. intros (l & H1 & <-) (l' & H2 & <-). exists (l ++ l'). rewrite H2, H1, app_assoc, app_length. auto. Qed.
  (** the delegation is declared: by the event itself or by the state *)
  Definition declared (w : World) (boss : option nat) (m : EventMessage) (s0 : option IdentifierState) : Prop :=
    match boss, em_data m with
    | None, (Icp _ | Rot _) => True
    | Some _, Dip x => boss_id w boss = Some (dip_delegator x)
    | Some _, Drt _ => exists s, s0 = Some s /\ st_delegator s = boss_id w boss
    | _, _ => False
    end.
  Lemma submit_ok (HS : events_serialize E K) w boss bwho g who m pk npk between s0 ns next :
    WOK w -> boss_agrees w boss bwho ->
    sound_group E K g -> quorum g who -> json (em_info m) ->
    compute_state E (w_db w) (em_prefix m) = Ok s0 ->
    (forall p, boss_id w boss = Some p -> em_prefix m <> p) ->
    Forall (foreign (em_prefix m)) between ->
    Forall (fun c => forall p, In p (w_parties w) -> foreign (pa_id p) c) between ->
    apply_msg E m (match s0 with Some s => s | None => state_default end) = Ok ns ->
    st_current ns = group_kc g next ->
    declared w boss m s0 ->
    exists d se, submit_event E K w boss bwho g who m pk npk between = Ok (add_kel d se (em_prefix m))
      /\ sem_msg se = m /\ get_kel d (em_prefix m) = get_kel (w_db w) (em_prefix m)
      /\ WOK (mkWorld d (w_parties w))
      /\ (forall k p, nth_error (w_parties w) k = Some p -> grew (w_db w) d (pa_id p) (one_if boss k)).
  Proof.
    intros Hw Hj Hworks Hquo Hjs Hcs Hno Hf1 Hf2 Ha Hc Hdec.
    destruct (sign_by_ok HS g who m Hworks Hquo Hjs) as (ser & sigs & Hser & Hso & Hv).
    destruct boss as [j|]; cbn [submit_event].
    - destruct (Hj j eq_refl) as (p & Hnp & Hbq).
      destruct (anchor_ok HS w j bwho p m pk npk Hw Hnp Hbq) as (ae & src & Hn & Han & Hw' & Hval).
      rewrite Han. cbn [obind fst snd].
      set (d1 := add_kel (w_db w) ae (pa_id p)) in *.
      assert (Hb : boss_id w (Some j) = Some (pa_id p)) by now apply nth_error_id.
      set (se := mkSEM m sigs (Some src)).
      assert (Hk : get_kel (run E d1 between) (em_prefix m) = get_kel (w_db w) (em_prefix m)).
      { rewrite run_foreign by exact Hf1. apply get_kel_other. intros Hz. exact (Hno _ Hb (eq_sym Hz)). }
      assert (Hkp : get_kel (run E d1 between) (pa_id p) = get_kel d1 (pa_id p)).
      { apply run_foreign. eapply Forall_impl; [|exact Hf2]. intros c H. exact (H p (nth_error_In _ _ Hn)). }
      exists (run E d1 between), se. split; [|split; [reflexivity|split; [exact Hk|]]].
      + unfold with_source. rewrite Hso. cbn [obind sem_msg sem_sigs]. fold se. unfold deliver. cbn [obind].
        rewrite (process_gen (run E d1 between) se s0 ns ser); [reflexivity| |now rewrite (compute_state_kel (w_db w))|exact Ha|exact Hser|].
        * unfold check_delegation. cbn [se sem_msg sem_seal]. unfold declared in Hdec.
          destruct (em_data m) as [|r|x|x|r]; try contradiction Hdec.
          -- cbn [ok_or obind]. rewrite Hb in Hdec. injection Hdec as Hdec. rewrite <- Hdec. now apply Hval.
          -- destruct Hdec as (s & -> & Hds). rewrite (compute_state_kel (w_db w)), Hcs by exact Hk.
             cbn [obind ok_or]. rewrite Hds, Hb. cbn [obind ok_or]. now apply Hval.
        * rewrite Hc. apply Hv.
      + split; [exact (WOK_run (mkWorld d1 (w_parties w)) between Hw' Hf2)|].
        intros k q Hq. assert (Hkq : get_kel (run E d1 between) (pa_id q) = get_kel d1 (pa_id q)).
        { apply run_foreign. eapply Forall_impl; [|exact Hf2]. intros c H. exact (H q (nth_error_In _ _ Hq)). }
        cbn [one_if]. destruct (Nat.eq_dec j k) as [-> |Hjk].
        * assert (p = q) by congruence. subst q. exists [stored ae]. rewrite Hkq. unfold d1. rewrite get_kel_add_same. auto.
        * apply grew_0. rewrite Hkq. apply get_kel_other. intros Hz. exact (Hjk (proj2 Hw _ _ _ _ Hn Hq Hz)).
    - set (se := mkSEM m sigs None).
      assert (Hk : get_kel (run E (w_db w) between) (em_prefix m) = get_kel (w_db w) (em_prefix m)) by now apply run_foreign.
      exists (run E (w_db w) between), se. split; [|split; [reflexivity|split; [exact Hk|split; [now apply WOK_run|]]]].
      2:{ intros k q Hq. apply grew_0. apply run_foreign. eapply Forall_impl; [|exact Hf2]. intros c H. exact (H q (nth_error_In _ _ Hq)). }
      rewrite Hso. fold se. unfold deliver. cbn [obind].
      rewrite (process_gen (run E (w_db w) between) se s0 ns ser); [reflexivity| |now rewrite (compute_state_kel (w_db w))|exact Ha|exact Hser|].
      * unfold check_delegation. cbn [se sem_msg]. unfold declared in Hdec. destruct (em_data m); now try contradiction Hdec.
      * rewrite Hc. apply Hv.
  Qed.

  (** the inception of a party *)
  Lemma apply_first w cur nxt boss info dig :
    exists ns, apply_msg E (mkEM info dig (first_id w cur boss dig) 0 (first_data w cur nxt boss)) state_default = Ok ns
      /\ st_delegator ns = boss_id w boss /\ st_current ns = group_kc cur nxt.
  Proof.
    assert (Hb : verify_identifier_binding E (mkEM info dig (first_id w cur boss dig) 0 (first_data w cur nxt boss)) = Ok true).
    { unfold verify_identifier_binding, first_data, first_id. cbn [em_data em_prefix].
      assert (Hs : forall data, (let? b := check_digest E (mkEM info dig (IdSelfAddressing dig) 0 data) dig in
                Ok (b && (if SAP_eq_dec dig dig then true else false)))%bool = Ok true).
      { intros data. change dig with (em_digest (mkEM info dig (IdSelfAddressing dig) 0 data)) at 2. rewrite check_digest_self. cbn [obind andb].
        destruct (SAP_eq_dec dig dig); [reflexivity|congruence]. }
      destruct (boss_id w boss) as [p|]; [exact (check_digest_self E (mkEM info dig (IdSelfAddressing dig) 0 (Dip (mkDip (own_icp cur nxt) p))))|].
      cbn [own_icp icp_kc group_kc kc_keys].
      destruct (g_keys cur) as [|k [|k' ks]]; [apply Hs| |apply Hs].
      destruct (BasicPrefix_eq_dec _ _); [reflexivity|congruence]. }
    unfold apply_msg, first_data in *. destruct (boss_id w boss) as [p|]; cbn [em_data] in *; rewrite Hb; cbn [obind].
    - unfold apply_event. cbn [em_data em_sn].
      destruct (IdentifierPrefix_eq_dec _ _) as [_|Hz]; [|exfalso; apply Hz; reflexivity].
      cbn [N.eqb obind apply_data]. eexists. split; [reflexivity|]. split; reflexivity.
    - unfold apply_event. cbn [em_data em_sn].
      destruct (IdentifierPrefix_eq_dec _ _) as [_|Hz]; [|exfalso; apply Hz; reflexivity].
      cbn [N.eqb obind apply_data]. eexists. split; [reflexivity|]. split; reflexivity.
  Qed.

  Lemma boss_id_app w p q b : WOK w -> boss_id w b <> None -> boss_id (mkWorld q (w_parties w ++ [p])) b = boss_id w b.
  Proof.
    intros _ H. destruct b as [j|]; [|reflexivity]. cbn [boss_id w_parties] in *.
    destruct (nth_error (w_parties w) j) as [x|] eqn:Hn; [|contradiction H; reflexivity].
    rewrite nth_error_app1; [now rewrite Hn|]. apply nth_error_Some. congruence.
  Qed.
  Lemma boss_known w i p : WOK w -> nth_error (w_parties w) i = Some p -> (pa_boss p = None <-> boss_id w (pa_boss p) = None).
  Proof.
    intros [H1 _] Hi. destruct (H1 i p Hi) as [_ Hb]. destruct (pa_boss p) as [j|]; [|split; reflexivity].
    split; [discriminate|]. intros Hz. exfalso. specialize (Hb j eq_refl). cbn in Hz.
    assert (Hj : j < List.length (w_parties w)) by (assert (i < List.length (w_parties w)) by (apply nth_error_Some; congruence); lia).
    apply nth_error_Some in Hj. destruct (nth_error (w_parties w) j); [discriminate|contradiction].
  Qed.

  Lemma incept_party (HS : events_serialize E K) (HD : forall msg, e_digest E Blake3_256 msg <> []) w cur nxt who boss bwho pk npk between :
    WOK w -> step_ok E K w (Incept cur nxt who boss bwho pk npk between) ->
    exists w', step E K w (Incept cur nxt who boss bwho pk npk between) = Ok w' /\ WOK w'
      /\ (forall k p, nth_error (w_parties w) k = Some p -> grew (w_db w) (w_db w') (pa_id p) (one_if boss k))
      /\ (exists p, w_parties w' = w_parties w ++ [p] /\ pa_boss p = boss /\ List.length (olist (get_kel (w_db w') (pa_id p))) = 1).
  Proof.
    intros Hw ((Hw1 & Hw2 & Hnew & Hf) & Hquo & Hj). cbn [step].
    destruct (built_first HS w cur nxt boss pk npk) as (info & dig & Hjs & Hb & Hbn & Hdv).
    { intros j Hz. destruct (Hj j Hz) as (p & Hp & _). eauto. }
    destruct (apply_first w cur nxt boss info dig) as (ns & Ha & Hnd & Hnc).
    destruct (Hnew _ Hb) as [Hno Hf1]. rewrite Hb. cbn [obind].
    set (m := mkEM info dig _ _ _) in *.
    assert (Hid : em_prefix m <> id_default).
    { cbn [m em_prefix]. unfold first_id in *.
      assert (Hz : (exists b, dig = derive E Blake3_256 b) -> IdSelfAddressing dig <> id_default).
      { intros (b & ->) Hz. unfold id_default, sap_default, derive in Hz. injection Hz as Hz. now apply (HD b). }
      destruct (boss_id w boss); [apply Hz, Hdv; reflexivity|].
      destruct (g_keys cur) as [|k [|k' ks]]; [apply Hz, Hdv; reflexivity|discriminate|apply Hz, Hdv; reflexivity]. }
    assert (Hstored : forall i p, nth_error (w_parties w) i = Some p -> pa_id p <> em_prefix m).
    { intros i p Hi Hz. destruct (proj1 Hw i p Hi) as [(_ & _ & _ & l & s & Hl & Hne & _) _].
      rewrite Hz in Hl. rewrite Hl in Hno. cbn in Hno. contradiction. }
    assert (Hst : exists s0, compute_state E (w_db w) (em_prefix m) = Ok s0 /\ (match s0 with Some s => s | None => state_default end) = state_default).
    { unfold compute_state. destruct (get_kel (w_db w) (em_prefix m)) as [l|]; [|eexists; split; reflexivity].
      cbn in Hno. subst l. cbn. eexists; split; reflexivity. }
    destruct Hst as (s0 & Hcs & Hs0).
    destruct (submit_ok HS w boss bwho cur who m pk npk between s0 ns nxt) as (d & se & Hsub & Hsm & Hk & Hw' & Hgr); auto.
    { intros p Hp Hz. destruct boss as [j|]; [|discriminate Hp]. cbn in Hp.
      destruct (nth_error (w_parties w) j) as [x|] eqn:Hn; [|discriminate]. injection Hp as <-. exact (Hstored j x Hn (eq_sym Hz)). }
    { now rewrite Hs0. }
    { unfold declared. cbn [m em_data]. unfold first_data. destruct boss as [j|]; [|exact I].
      destruct (boss_id w (Some j)); [reflexivity|]. now apply (Hbn ltac:(discriminate)). }
    rewrite Hsub. cbn [obind]. eexists. split; [reflexivity|]. refine (conj _ (conj _ _)).
    3:{ cbn [w_parties w_db]. eexists. split; [reflexivity|]. split; [reflexivity|]. cbn [pa_id]. now rewrite get_kel_add_same, Hk, Hno. }
    2:{ cbn [w_db]. intros k q Hq. destruct (Hgr k q Hq) as (x & X1 & X2). exists x. rewrite get_kel_other; [auto|]. intros Hz. exact (Hstored k q Hq (eq_sym Hz)). }
    assert (Hbid : forall b, (b = None \/ boss_id w b <> None) -> boss_id (mkWorld (add_kel d se (em_prefix m)) (w_parties w ++ [mkParty (em_prefix m) cur nxt boss])) b = boss_id w b).
    { intros b [-> |Hz]; [reflexivity|]. now apply boss_id_app. }
    split; cbn [w_db w_parties].
    - intros i p Hi. destruct (lt_dec i (List.length (w_parties w))) as [Hl|Hl].
      + rewrite nth_error_app1 in Hi by exact Hl. destruct (proj1 Hw i p Hi) as [_ Hlt]. split; [|exact Hlt].
        rewrite Hbid by (destruct (boss_id w (pa_boss p)) eqn:Hz; [right; discriminate|left; now apply (boss_known w i p Hw Hi)]).
        destruct (proj1 Hw' i p Hi) as [Hp _]. apply (PartyOk_kel d); [|exact Hp].
        apply get_kel_other. intros Hz. exact (Hstored i p Hi (eq_sym Hz)).
      + rewrite nth_error_app2 in Hi by lia. destruct (i - List.length (w_parties w)) as [|k] eqn:Hk0; [|destruct k; discriminate Hi].
        assert (Hpp : mkParty (em_prefix m) cur nxt boss = p) by (cbn [nth_error] in Hi; congruence). rewrite <- Hpp. clear Hpp Hi. cbn [pa_boss]. split; [|intros j ->; destruct (Hj j eq_refl) as (x & Hx & _); apply nth_error_Some_lt in Hx; lia].
        rewrite Hbid by (destruct boss as [j|]; [right; apply Hbn; discriminate|now left]).
        split; [exact Hid|]. split; [exact Hw1|]. split; [exact Hw2|]. exists [stored se], ns. cbn [pa_id pa_cur pa_next].
        split; [rewrite get_kel_add_same, Hk, Hno; reflexivity|]. split; [discriminate|]. split; [|auto].
        apply (good_log_snoc E (em_prefix m) [] (stored se) ns). exists state_default.
        split; [now apply good_log_nil|].
        change (sem_msg (stored se)) with (sem_msg se). rewrite Hsm. split; [reflexivity|exact Ha].
    - intros i j p q Hi Hq He.
      assert (Hcase : forall i p, nth_error (w_parties w ++ [mkParty (em_prefix m) cur nxt boss]) i = Some p ->
                (nth_error (w_parties w) i = Some p /\ pa_id p <> em_prefix m) \/ (i = List.length (w_parties w) /\ pa_id p = em_prefix m)).
      { clear -Hstored. intros i p Hi. destruct (lt_dec i (List.length (w_parties w))) as [Hl|Hl].
        - rewrite nth_error_app1 in Hi by exact Hl. left. split; [exact Hi|now apply (Hstored i)].
        - rewrite nth_error_app2 in Hi by lia. destruct (i - List.length (w_parties w)) as [|k] eqn:Hk0; [|destruct k; discriminate Hi].
          injection Hi as <-. right. split; [lia|reflexivity]. }
      destruct (Hcase _ _ Hi) as [[A1 A2]|[A1 A2]], (Hcase _ _ Hq) as [[B1 B2]|[B1 B2]]; try congruence.
      exact (proj2 Hw i j p q A1 B1 He).
  Qed.

  Lemma nth_set_nth {A} i (x : A) l : i < List.length l ->
    forall k, nth_error (set_nth i x l) k = if Nat.eq_dec k i then Some x else nth_error l k.
  Proof.
    revert i. induction l as [|y l IH]; intros i Hi k; [inversion Hi|]. destruct i as [|i], k as [|k]; cbn [set_nth nth_error]; try reflexivity.
    rewrite IH by (cbn in Hi; lia). destruct (Nat.eq_dec k i), (Nat.eq_dec (S k) (S i)); try lia; reflexivity.
  Qed.

  Lemma map_set_nth {A B} (f : A -> B) i x y l : nth_error l i = Some x -> f y = f x -> map f (set_nth i y l) = map f l.
  Proof.
    revert i. induction l as [|z l IH]; intros [|i] H Hf; try discriminate; cbn in *; [|f_equal; now apply IH].
    injection H as ->. now rewrite Hf.
  Qed.

  Lemma rotate_party (HS : events_serialize E K) w i fresh who bwho seals pk npk between :
    WOK w -> step_ok E K w (Rotate i fresh who bwho seals pk npk between) ->
    exists w', step E K w (Rotate i fresh who bwho seals pk npk between) = Ok w' /\ WOK w'
      /\ map pa_id (w_parties w') = map pa_id (w_parties w) /\ map pa_boss (w_parties w') = map pa_boss (w_parties w)
      /\ (forall k p q, nth_error (w_parties w) i = Some p -> nth_error (w_parties w) k = Some q ->
            grew (w_db w) (w_db w') (pa_id q) (one_if (pa_boss p) k + one_if (Some i) k)).
  Proof.
    intros Hw ((Hfr & Hf) & p & Hn & Hquo & Hboss). cbn [step]. pose proof (nth_error_Some_lt _ _ _ Hn) as Hi0.
    rewrite Hn. cbn [ok_or obind].
    destruct (proj1 Hw i p Hn) as [Hp Hlt].
    destruct Hp as (Hid & Hw1 & Hw2 & l & s & Hl & Hne & Hg & Hd & Hc).
    pose proof (good_log_prefix E _ _ _ Hid Hne Hg) as Hpre.
    pose proof (compute_state_good E (w_db w) _ _ _ Hid Hl Hg) as Hcs.
    destruct (built_rot HS (pa_boss p) (pa_id p) s (pa_next p) fresh pk npk seals Hid) as (info & dig & Hb & Hjs).
    unfold next_event. rewrite Hcs. cbn [obind ok_or]. rewrite Hb. cbn [obind].
    set (m := mkEM info dig (pa_id p) (st_sn s + 1) _) in *.
    assert (Hbn : st_delegator s = None <-> pa_boss p = None).
    { rewrite Hd. pose proof (boss_known w i p Hw Hn). tauto. }
    destruct (apply_party_rot s info dig (pa_id p) (pa_boss p) _ _ fresh seals Hpre Hbn Hc) as (ns & Ha & Hnd & Hnc).
    change (mkEM info dig (pa_id p) (st_sn s + 1) _) with m in Ha.
    destruct (submit_ok HS w (pa_boss p) bwho (pa_next p) who m pk npk between (Some s) ns fresh) as (d & se & Hsub & Hsm & Hk & Hw' & Hgr); auto.
    { intros q Hq Hz. destruct (pa_boss p) as [j|]; [|discriminate Hq]. cbn in Hq.
      destruct (nth_error (w_parties w) j) as [x|] eqn:Hx; [|discriminate]. injection Hq as <-. cbn [m em_prefix] in Hz.
      pose proof (proj2 Hw _ _ _ _ Hn Hx Hz). subst j. specialize (Hlt i eq_refl). lia. }
    { eapply Forall_impl; [|exact Hf]. intros c H. exact (H p (nth_error_In _ _ Hn)). }
    { unfold declared. cbn [m em_data]. destruct (pa_boss p) as [j|]; [|exact I]. exists s. auto. }
    rewrite Hsub. cbn [obind]. eexists. split; [reflexivity|]. cbn [m em_prefix] in *.
    set (p' := mkParty (pa_id p) (pa_next p) fresh (pa_boss p)). split.
    2:{ cbn [w_parties w_db]. split; [|split].
        - exact (map_set_nth pa_id i p p' _ Hn eq_refl).
        - exact (map_set_nth pa_boss i p p' _ Hn eq_refl).
        - intros k p0 q Hp0 Hq. assert (p0 = p) by congruence. subst p0. apply (grew_trans _ d); [now apply Hgr|].
          cbn [one_if]. destruct (Nat.eq_dec i k) as [<-|Hik].
          + assert (p = q) by congruence. subst q. apply grew_add.
          + apply grew_0. apply get_kel_other. intros Hz. exact (Hik (proj2 Hw _ _ _ _ Hn Hq Hz)). }
    assert (Hbid : forall dd b, boss_id (mkWorld dd (set_nth i p' (w_parties w))) b = boss_id w b).
    { intros dd [j|]; [|reflexivity]. cbn [boss_id w_parties]. rewrite nth_set_nth by exact Hi0.
      destruct (Nat.eq_dec j i) as [-> |]; [now rewrite Hn|reflexivity]. }
    split; cbn [w_db w_parties].
    - intros k q Hq. rewrite nth_set_nth in Hq by exact Hi0. rewrite Hbid. destruct (Nat.eq_dec k i) as [-> |Hki].
      + injection Hq as <-. cbn [p' pa_boss]. split; [|exact Hlt].
        split; [exact Hid|]. split; [exact Hw2|]. split; [exact Hfr|]. exists (l ++ [stored se]), ns. cbn [p' pa_id pa_cur pa_next].
        split; [rewrite get_kel_add_same, Hk, Hl; reflexivity|]. split; [intros Hz; now apply app_eq_nil in Hz|].
        split; [|split; [congruence|exact Hnc]]. apply good_log_snoc. exists s. split; [exact Hg|].
        change (sem_msg (stored se)) with (sem_msg se). rewrite Hsm. split; [reflexivity|exact Ha].
      + destruct (proj1 Hw' k q Hq) as [Hqo Hqb]. split; [|exact Hqb].
        apply (PartyOk_kel d); [|exact Hqo]. apply get_kel_other. intros Hz. exact (Hki (eq_sym (proj2 Hw _ _ _ _ Hn Hq Hz))).
    - assert (Hcase : forall k q, nth_error (set_nth i p' (w_parties w)) k = Some q -> exists q', nth_error (w_parties w) k = Some q' /\ pa_id q' = pa_id q).
      { intros k q Hq. rewrite nth_set_nth in Hq by exact Hi0. destruct (Nat.eq_dec k i) as [-> |]; [|eauto].
        injection Hq as <-. eauto. }
      intros a b x y Hx Hy He. destruct (Hcase _ _ Hx) as (x' & X1 & X2), (Hcase _ _ Hy) as (y' & Y1 & Y2).
      apply (proj2 Hw a b x' y' X1 Y1). congruence.
  Qed.

  Lemma step_fine (HS : events_serialize E K) (HD : forall msg, e_digest E Blake3_256 msg <> []) w x :
    WOK w -> step_ok E K w x -> exists w', step E K w x = Ok w' /\ WOK w'
      /\ newcomer w w' x
      /\ (forall k p, nth_error (w_parties w) k = Some p -> grew (w_db w) (w_db w') (pa_id p) (made w x k)).
  Proof.
    intros Hw Hx. destruct x as [cur nxt who boss bwho pk npk between|i fresh who bwho seals pk npk between|i who seals pk npk|c].
    - destruct (incept_party HS HD w cur nxt who boss bwho pk npk between Hw Hx) as (w' & H1 & H2 & H3 & p & H4 & H5 & H6).
      exists w'. split; [exact H1|]. split; [exact H2|]. split; [|exact H3]. cbn [newcomer]. exists (pa_id p).
      rewrite H4, !map_app. cbn [map]. rewrite H5. auto.
    - destruct (rotate_party HS w i fresh who bwho seals pk npk between Hw Hx) as (w' & H1 & H2 & H3 & H4 & H5).
      exists w'. split; [exact H1|]. split; [exact H2|]. split; [split; assumption|]. intros k q Hq. cbn [made].
      destruct Hx as (_ & p & Hn & _). unfold boss_of. rewrite Hn. now apply (H5 k p).
    - cbn [step]. destruct Hx as (_ & p & Hn & Hquo). rewrite Hn. cbn [ok_or obind].
      destruct (proj1 Hw i p Hn) as [Hp _].
      destruct (party_ixn HS (w_db w) _ p who pk npk seals Hp Hquo) as (m & se & s & Hb & _ & _ & _ & Hdel & Hp').
      rewrite Hb. cbn [obind]. rewrite Hdel. cbn [obind]. eexists. split; [reflexivity|]. split; [now apply (WOK_add w i p)|].
      split; [split; reflexivity|]. cbn [w_db made one_if]. intros k q Hq. destruct (Nat.eq_dec i k) as [<-|Hik].
      + assert (p = q) by congruence. subst q. apply grew_add.
      + apply grew_0. apply get_kel_other. intros Hz. exact (Hik (proj2 Hw _ _ _ _ Hn Hq Hz)).
    - cbn [step]. eexists. split; [reflexivity|]. destruct Hx as [Hx _]. cbn [careful] in Hx.
      split; [exact (WOK_run w [c] Hw (Forall_cons _ Hx (Forall_nil _)))|]. split; [split; reflexivity|].
      cbn [w_db made]. intros k q Hq. apply grew_0. apply foreign_call. exact (Hx q (nth_error_In _ _ Hq)).
  Qed.
  Lemma live_fine (HS : events_serialize E K) (HD : forall msg, e_digest E Blake3_256 msg <> []) l : forall w,
    WOK w -> steps_ok E K w l -> exists w', live E K w l = Ok w' /\ WOK w'.
  Proof.
    induction l as [|x l IH]; intros w Hw Hs; cbn [live]; [eauto|]. destruct Hs as [Hx Hr].
    destruct (step_fine HS HD w x Hw Hx) as (w1 & H1 & Hw1 & _). rewrite H1. cbn [obind]. apply IH; [exact Hw1|now apply Hr].
  Qed.
  (** ** Without enough signatures nothing happens *)
  Lemma signatures_inv g who ser : forall sigs, signatures K g who ser = Ok sigs -> map index_of sigs = who.
  Proof.
    induction who as [|i who IH]; intros sigs H; cbn [signatures] in H; [injection H as <-; reflexivity|].
    destruct (nth_error (g_pairs g) i); [|discriminate H]. cbn [ok_or obind] in H.
    destruct (k_sign_ed K _ ser); [|discriminate H..]. cbn [obind] in H.
    destruct (signatures K g who ser) as [l| |]; [|discriminate H..]. cbn [obind] in H. injection H as <-.
    cbn [map]. rewrite (IH l eq_refl). f_equal. unfold index_of. cbn [asp_index]. lia.
  Qed.
  Lemma sign_by_inv g who m se : sign_by E K g who m = Ok se -> sem_msg se = m /\ map index_of (sem_sigs se) = who.
  Proof.
    unfold sign_by. intros H. destruct (e_ser_event E m) as [ser| |]; [|discriminate H..]. cbn [obind] in H.
    destruct (signatures K g who ser) as [l| |] eqn:Hl; [|discriminate H..]. cbn [obind] in H.
    injection H as <-. split; [reflexivity|]. now apply signatures_inv in Hl.
  Qed.
  Lemma deliver_inv d o d' : deliver E d o = Ok d' -> exists se s0 ns ser, o = Ok se
    /\ compute_state E d (em_prefix (sem_msg se)) = Ok s0
    /\ apply_msg E (sem_msg se) (match s0 with Some s => s | None => state_default end) = Ok ns
    /\ kc_verify E (st_current ns) ser (sem_sigs se) = Ok true.
  Proof.
    unfold deliver. destruct o as [se| |]; [|discriminate..]. cbn [obind process]. unfold process_event. intros H.
    destruct (check_delegation E d se); [|discriminate H..].
    unfold apply_to_state in H. destruct (compute_state E d (em_prefix (sem_msg se))) as [s0| |] eqn:Hc; [|discriminate H..].
    cbn [obind] in H. destruct (apply_msg E (sem_msg se) _) as [ns| |] eqn:Ha; [|discriminate H..].
    destruct (e_ser_event E (sem_msg se)) as [ser| |] eqn:Hs; [|discriminate H..].
    unfold verify_signatures in H. destruct (kc_verify E (st_current ns) ser (sem_sigs se)) as [[|]| |] eqn:Hv; cbn [obind] in H; try discriminate H.
    exists se, s0, ns, ser. auto.
  Qed.
  Lemma quorum_of g next ser sigs :
    sound_group E K g -> kc_verify E (group_kc g next) ser sigs = Ok true -> quorum g (map index_of sigs).
  Proof.
    intros [_ Hr] Hv. apply verify_iff in Hv; [|exact Hr]. destruct Hv as (Hin & Ht & Hnd & Hall).
    cbn [group_kc kc_threshold kc_keys] in *. split; [exact Hnd|]. split; [|split].
    - rewrite Forall_map. eapply Forall_impl; [|exact Hall]. intros s (k & Hk & _). apply nth_error_Some_lt in Hk.
      unfold g_keys in Hk. now rewrite map_length in Hk.
    - unfold threshold_met in Ht. destruct (g_threshold g) as [n|w]; [now rewrite map_length|].
      eapply Forall_impl; [|exact Ht]. intros sc H. unfold total_weight in H. now rewrite map_map.
    - unfold in_single in Hin. destruct (g_threshold g) as [|[c|]]; try exact I. now rewrite Forall_map.
  Qed.
  Lemma delivered_quorum d g who m o s0 ns next d' :
    sound_group E K g -> (forall se, o = Ok se -> sem_msg se = m /\ map index_of (sem_sigs se) = who) ->
    compute_state E d (em_prefix m) = Ok s0 ->
    apply_msg E m (match s0 with Some s => s | None => state_default end) = Ok ns ->
    st_current ns = group_kc g next -> deliver E d o = Ok d' -> quorum g who.
  Proof.
    intros Hs Ho Hc Ha Hk H. destruct (deliver_inv _ _ _ H) as (se & s1 & ns1 & ser & -> & H1 & H2 & H3).
    destruct (Ho se eq_refl) as [<- <-]. assert (s1 = s0) by congruence. subst s1. assert (ns1 = ns) by congruence. subst ns1.
    rewrite Hk in H3. now apply quorum_of in H3.
  Qed.
  Lemma ixn_quorum (HS : events_serialize E K) d bid p who pk npk seals m d' :
    PartyOk d bid p -> next_event E K d (pa_id p) TIxn pk npk [SSeals seals] = Ok m ->
    deliver E d (sign_by E K (pa_cur p) who m) = Ok d' -> quorum (pa_cur p) who.
  Proof.
    intros Hp Hm Hd. destruct Hp as (Hid & Hw1 & Hw2 & l & s & Hl & Hne & Hg & Hde & Hc).
    pose proof (good_log_prefix E _ _ _ Hid Hne Hg) as Hpre.
    pose proof (compute_state_good E d _ _ _ Hid Hl Hg) as Hcs.
    destruct (built_ixn HS (pa_id p) s pk npk seals Hid) as (info & dig & Hb & Hj).
    unfold next_event in Hm. rewrite Hcs in Hm. cbn [obind ok_or] in Hm. rewrite Hb in Hm. apply ok_inj in Hm. subst m.
    destruct (apply_own_ixn E s info dig (pa_id p) seals Hpre) as (ns & Ha & _ & Hnc).
    set (m := mkEM info dig _ _ _) in *.
    refine (delivered_quorum d _ who m _ (Some s) ns (pa_next p) d' Hw1 _ Hcs Ha _ Hd); [|congruence].
    intros se Hse. now apply sign_by_inv in Hse.
  Qed.
  Lemma submit_quorum (HS : events_serialize E K) w boss bwho g who m pk npk between s0 ns next d' :
    WOK w -> sound_group E K g ->
    compute_state E (w_db w) (em_prefix m) = Ok s0 ->
    (forall p, boss_id w boss = Some p -> em_prefix m <> p) ->
    Forall (foreign (em_prefix m)) between ->
    apply_msg E m (match s0 with Some s => s | None => state_default end) = Ok ns ->
    st_current ns = group_kc g next ->
    submit_event E K w boss bwho g who m pk npk between = Ok d' -> quorum g who /\ boss_agrees w boss bwho.
  Proof.
    intros Hw Hg Hcs Hno Hf Ha Hc H. destruct boss as [j|]; cbn [submit_event] in H.
    - unfold anchor_for in H. destruct (nth_error (w_parties w) j) as [p|] eqn:Hn; [|discriminate H]. cbn [ok_or obind] in H.
      destruct (proj1 Hw j p Hn) as [Hp _].
      destruct (next_event E K (w_db w) (pa_id p) TIxn pk npk _) as [a| |] eqn:Hne; [|discriminate H..]. cbn [obind] in H.
      destruct (deliver E (w_db w) (sign_by E K (pa_cur p) bwho a)) as [d1| |] eqn:Hd1; [|discriminate H..]. cbn [obind fst snd] in H.
      pose proof (ixn_quorum HS _ _ p bwho pk npk _ a d1 Hp Hne Hd1) as Hbq.
      destruct (party_ixn HS (w_db w) _ p bwho pk npk [SealEvent (mkES (em_prefix m) (em_sn m) (em_digest m))] Hp Hbq)
        as (a' & ae & s & Hb & _ & _ & _ & Hdel & _).
      assert (a' = a) by congruence. subst a'.
      assert (d1 = add_kel (w_db w) ae (pa_id p)) by congruence. subst d1.
      split; [|intros k Hk; injection Hk as <-; eauto].
      refine (delivered_quorum _ g who m _ s0 ns next d' Hg _ _ Ha Hc H).
      + intros se Hse. unfold with_source in Hse. destruct (sign_by E K g who m) as [x| |] eqn:Hx; [|discriminate Hse..].
        cbn [obind] in Hse. apply ok_inj in Hse. subst se. now apply sign_by_inv in Hx.
      + rewrite (compute_state_kel (w_db w)); [exact Hcs|]. rewrite run_foreign by exact Hf.
        apply get_kel_other. intros Hz. exact (Hno _ (nth_error_id _ _ _ Hn) (eq_sym Hz)).
    - split; [|discriminate]. refine (delivered_quorum _ g who m _ s0 ns next d' Hg _ _ Ha Hc H).
      + intros se Hse. now apply sign_by_inv in Hse.
      + rewrite (compute_state_kel (w_db w)); [exact Hcs|]. now apply run_foreign.
  Qed.
  Lemma step_needs (HS : events_serialize E K) (HD : forall msg, e_digest E Blake3_256 msg <> []) w x w' :
    WOK w -> careful E K w x -> step E K w x = Ok w' -> agreed w x.
  Proof.
    intros Hw Hx H. destruct x as [cur nxt who boss bwho pk npk between|i fresh who bwho seals pk npk between|i who seals pk npk|c].
    - destruct Hx as (Hw1 & Hw2 & Hnew & Hf). cbn [step] in H.
      destruct (first_event E K w cur nxt boss pk npk) as [m| |] eqn:Hm; [|discriminate H..]. cbn [obind] in H.
      destruct (submit_event E K w boss bwho cur who m pk npk between) as [d| |] eqn:Hs; [|discriminate H..].
      assert (Hex : forall j, boss = Some j -> exists p, nth_error (w_parties w) j = Some p).
      { intros j ->. unfold first_event in Hm. cbn [boss_id] in Hm. destruct (nth_error (w_parties w) j); [eauto|discriminate Hm]. }
      destruct (built_first HS w cur nxt boss pk npk Hex) as (info & dig & Hjs & Hb & Hbn & _).
      rewrite Hm in Hb. apply ok_inj in Hb.
      destruct (apply_first w cur nxt boss info dig) as (ns & Ha & Hnd & Hnc). rewrite <- Hb in Ha.
      destruct (Hnew m eq_refl) as [Hno Hf1].
      assert (Hst : exists s0, compute_state E (w_db w) (em_prefix m) = Ok s0 /\ (match s0 with Some s => s | None => state_default end) = state_default).
      { unfold compute_state. destruct (get_kel (w_db w) (em_prefix m)) as [l|]; [|eexists; split; reflexivity].
        cbn in Hno. subst l. cbn. eexists; split; reflexivity. }
      destruct Hst as (s0 & Hcs & Hs0).
      apply (submit_quorum HS w boss bwho cur who m pk npk between s0 ns nxt d); auto.
      + intros p Hp Hz. destruct boss as [j|]; [|discriminate Hp]. cbn in Hp.
        destruct (nth_error (w_parties w) j) as [q|] eqn:Hn; [|discriminate]. injection Hp as <-.
        destruct (proj1 Hw j q Hn) as [(_ & _ & _ & l & s & Hl & Hne & _) _].
        rewrite <- Hz in Hl. rewrite Hl in Hno. cbn in Hno. contradiction.
      + now rewrite Hs0.
    - destruct Hx as (Hfr & Hf). cbn [agreed].
      assert (Hn : exists p, nth_error (w_parties w) i = Some p).
      { cbn [step] in H. destruct (nth_error (w_parties w) i) as [p|]; [eauto|discriminate H]. }
      destruct Hn as [p Hn]. exists p. split; [exact Hn|].
      destruct (proj1 Hw i p Hn) as [Hp Hlt].
      destruct Hp as (Hid & Hw1 & Hw2 & l & s & Hl & Hne & Hg & Hd & Hc).
      pose proof (good_log_prefix E _ _ _ Hid Hne Hg) as Hpre.
      pose proof (compute_state_good E (w_db w) _ _ _ Hid Hl Hg) as Hcs.
      destruct (built_rot HS (pa_boss p) (pa_id p) s (pa_next p) fresh pk npk seals Hid) as (info & dig & Hb & Hjs).
      set (m := mkEM info dig (pa_id p) (st_sn s + 1) _) in *.
      assert (Hst : step E K w (Rotate i fresh who bwho seals pk npk between) =
        let? d := submit_event E K w (pa_boss p) bwho (pa_next p) who m pk npk between in
        Ok (mkWorld d (set_nth i (mkParty (pa_id p) (pa_next p) fresh (pa_boss p)) (w_parties w)))).
      { cbn [step]. rewrite Hn. cbn [ok_or obind]. unfold next_event. rewrite Hcs. cbn [obind ok_or]. rewrite Hb. reflexivity. }
      rewrite Hst in H. clear Hst.
      assert (Hbn : st_delegator s = None <-> pa_boss p = None).
      { rewrite Hd. pose proof (boss_known w i p Hw Hn). tauto. }
      destruct (apply_party_rot s info dig (pa_id p) (pa_boss p) _ _ fresh seals Hpre Hbn Hc) as (ns & Ha & Hnd & Hnc).
      change (mkEM info dig (pa_id p) (st_sn s + 1) _) with m in Ha.
      destruct (submit_event E K w (pa_boss p) bwho (pa_next p) who m pk npk between) as [d| |] eqn:Hs; [|discriminate H..].
      apply (submit_quorum HS w (pa_boss p) bwho (pa_next p) who m pk npk between (Some s) ns fresh d); auto.
      + intros q Hq Hz. destruct (pa_boss p) as [j|]; [|discriminate Hq]. cbn in Hq.
        destruct (nth_error (w_parties w) j) as [x|] eqn:Hx; [|discriminate]. injection Hq as <-. cbn [m em_prefix] in Hz.
        pose proof (proj2 Hw _ _ _ _ Hn Hx Hz). subst j. specialize (Hlt i eq_refl). lia.
      + eapply Forall_impl; [|exact Hf]. intros c Hz. exact (Hz p (nth_error_In _ _ Hn)).
    - cbn [step agreed] in *. destruct (nth_error (w_parties w) i) as [p|] eqn:Hn; [|discriminate H]. cbn [ok_or obind] in H.
      exists p. split; [reflexivity|]. destruct (proj1 Hw i p Hn) as [Hp _].
      destruct (next_event E K (w_db w) (pa_id p) TIxn pk npk _) as [m| |] eqn:Hm; [|discriminate H..]. cbn [obind] in H.
      destruct (deliver E (w_db w) _) as [d1| |] eqn:Hd1; [|discriminate H..].
      exact (ixn_quorum HS _ _ p who pk npk _ m d1 Hp Hm Hd1).
    - exact I.
  Qed.
  Lemma WOK_start d : WOK (mkWorld d []).
  Proof. split; intros [|i]; discriminate. Qed.
End WithEnv.
