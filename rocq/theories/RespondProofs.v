(** What [respond] sends back. *)
From Coq Require Import ZifyBool ZifyN ZifyNat.
From Verif Require Import Base Base64 Codes NumFmt Types KeyConf SpecCodec Cesr SpecCesr CesrProofs CesrProofs2 Message
  State Db Processor Spec SpecProc SpecHistory StateProofs LogProofs LogTheorems ProcProofs ProcProofs2 ProcProofs3 Prop_Proc Keri SpecKeri KeriProofs KeriProofs2 Prop_Keri SpecRespond.

Section R.
  Context (E : Env) (K : KEnv).
  Lemma operate_app k a b : fst (operate E K k (a ++ b)) = fst (operate E K (fst (operate E K k a)) b).
  Proof.
    revert k. induction a as [|o a IH]; intros k; [reflexivity|]. destruct o as [f|p x y|p|c]; cbn [app operate].
    - destruct (rotate E K k f) as [k1 o1]. specialize (IH k1). destruct (operate E K k1 (a ++ b)) as [k2 l2]. destruct (operate E K k1 a) as [k3 l3]. exact IH.
    - destruct (make_ixn E K k p x y) as [k1 o1]. specialize (IH k1). destruct (operate E K k1 (a ++ b)) as [k2 l2]. destruct (operate E K k1 a) as [k3 l3]. exact IH.
    - destruct (interact E K k p) as [k1 o1]. specialize (IH k1). destruct (operate E K k1 (a ++ b)) as [k2 l2]. destruct (operate E K k1 a) as [k3 l3]. exact IH.
    - apply IH.
  Qed.
  Lemma careful_calls k cs : careful E K k -> Forall (foreign (k_prefix k)) cs -> careful E K (set_db k (run E (k_db k) cs)).
  Proof.
    intros (cs0 & b & extra & ws & k0 & se0 & ops & HS & Hcur & Hnext & Hdig & Hi & Hno & Hops & ->) Hf.
    destruct (careful_start E K cs0 b extra ws k0 se0 HS Hcur Hnext Hdig Hi Hno) as (Hw & _ & _ & Hdb).
    destruct (operate_working E K HS ops k0 _ Hw Hops) as (evs & _ & Hp & _). rewrite Hp in Hf.
    exists cs0, b, extra, ws, k0, se0, (ops ++ map OCall cs). repeat (split; [assumption|]). split.
    - apply Forall_app. split; [exact Hops|]. apply Forall_map. eapply Forall_impl; [|exact Hf]. intros c Hc. exact Hc.
    - rewrite operate_app. clear. generalize (fst (operate E K k0 ops)). clear. induction cs as [|c cs IH]; intros k; [now destruct k|].
      cbn [map operate run fold_left]. rewrite <- IH. reflexivity.
  Qed.
  Lemma accept_all_successes l : forall d,
    Forall (fun x => to_message x <> Panic) l -> quiet E d (map CProcess (converted l)) = true ->
    accept_all E d l = (run E d (map CProcess (converted l)), Ok (successes E d (map CProcess (converted l)))).
  Proof.
    induction l as [|x l IH]; intros d Hc Hq; [reflexivity|].
    inversion Hc as [|? ? Hx Hc']; subst. cbn [accept_all converted flat_map] in *. fold (converted l) in *.
    destruct (to_message x) as [m|e|]; [|exact (IH d Hc' Hq)|congruence].
    cbn [app map quiet run fold_left successes] in Hq |- *. apply andb_true_iff in Hq. destruct Hq as [Hq1 Hq2].
    unfold panics in Hq1. cbn [call] in *. unfold succeeds.
    destruct (process E d m) as [d1 [o|e|]]; cbn [fst snd is_panic negb] in *; [| |discriminate Hq1].
    - rewrite (IH d1 Hc' Hq2). reflexivity.
    - rewrite (IH d1 Hc' Hq2). reflexivity.
  Qed.
  (** accepted events are in the log afterwards *)
  Lemma successes_in cs0 cs ev : let d := run E db_empty cs0 in
    In (MEvent ev) (successes E d cs) -> em_prefix (sem_msg ev) <> id_default ->
    In (mkSEM (sem_msg ev) (sem_sigs ev) None) (log (run E d cs) (em_prefix (sem_msg ev))).
  Proof.
    cbv zeta. revert cs0. induction cs as [|c cs IH]; intros cs0 Hin Hid; [destruct Hin|]. cbn [successes] in Hin. apply in_app_iff in Hin.
    assert (R : run E (run E db_empty cs0) (c :: cs) = run E db_empty ((cs0 ++ [c]) ++ cs)) by (unfold run; rewrite !fold_left_app; reflexivity).
    assert (R1 : run E db_empty (cs0 ++ [c]) = call E (run E db_empty cs0) c) by (unfold run; now rewrite fold_left_app).
    destruct Hin as [Hin|Hin].
    - destruct c as [m|]; [|destruct Hin]. unfold succeeds in Hin. destruct (process E (run E db_empty cs0) m) as [d' [o|e|]] eqn:Hp; cbn [snd] in Hin; try (destruct Hin; fail).
      destruct Hin as [-> | []]. destruct (C19_acceptance_appends_the_event E cs0 ev d' o Hid Hp) as (s & _ & Hl & _).
      rewrite R. destruct (C22_logs_are_append_only E (cs0 ++ [CProcess (MEvent ev)]) cs _ Hid) as [ext ->]. apply in_app_iff. left.
      rewrite R1. cbn [call]. rewrite Hp. unfold log at 1. cbn [fst]. rewrite Hl. cbn [olist]. apply in_app_iff. right. now left.
    - rewrite <- R1 in Hin. specialize (IH (cs0 ++ [c]) Hin Hid). rewrite R. replace (run E db_empty ((cs0 ++ [c]) ++ cs)) with (run E (run E db_empty (cs0 ++ [c])) cs); [exact IH|].
      unfold run. now rewrite <- fold_left_app.
  Qed.
  Lemma run_from cs0 cs : run E (run E db_empty cs0) cs = run E db_empty (cs0 ++ cs).
  Proof. unfold run. now rewrite fold_left_app. Qed.
  Lemma has_receipt_spec d me peer : has_receipt d me 0 peer = true <-> acknowledged d me peer.
  Proof.
    unfold has_receipt, acknowledged. destruct (get_receipts_t d me) as [rs|]; cbn [olist].
    - rewrite existsb_exists. split; intros (r & Hr & H); exists r; (split; [exact Hr|]).
      + apply andb_true_iff in H as (H1 & H2). apply N.eqb_eq in H1. destruct (IdentifierPrefix_eq_dec _ _); [auto|discriminate].
      + destruct H as (-> & <-). rewrite N.eqb_refl. destruct (IdentifierPrefix_eq_dec _ _) as [_|Hn]; [reflexivity|now destruct Hn].
    - split; [discriminate|]. intros (r & [] & _).
  Qed.
  Lemma receipt_written r body : k_ser_rct K (tr_body r) = Ok body -> List.length (tr_sigs r) < 63 ->
    exists t, sed_cesr (ser_type E K) (sed_of_tr r) = Ok t /\ receipt_text K r t.
  Proof.
    intros Hb Hl. unfold sed_cesr, sed_of_tr. cbn [sed_atts sed_event oconcat ser_type].
    assert (A : exists a, to_cesr (SealSignaturesGroups [(tr_seal r, tr_sigs r)]) = Ok a).
    { cbn [to_cesr]. unfold with_count at 1. cbn [oconcat]. unfold sigs_cesr, with_count. cbn [obind].
      assert (U : as_u16 (List.length (tr_sigs r)) = N.of_nat (List.length (tr_sigs r))) by (unfold as_u16; apply N.mod_small; lia).
      rewrite U, adjust_small by (reflexivity || lia). cbn [obind List.length]. change (as_u16 1) with 1%N. rewrite adjust_small by (reflexivity || lia). cbn [obind]. eauto. }
    destruct A as [a Ha]. rewrite Ha. cbn [obind]. rewrite app_nil_r, Hb. cbn [obind]. eexists. split; [reflexivity|]. exists body, a. auto.
  Qed.

  Context (HR : forall r, json (rct_info r) -> exists b, k_ser_rct K r = Ok b).
  (** the receipts made have one signature and are JSON *)
  Lemma make_rct_shape k m k' r : make_rct E K k m = (k', Ok r) ->
    (exists ser sig, e_ser_event E m = Ok ser /\ rct_digest (tr_body r) = derive E Blake3_256 ser
        /\ k_sign_ed K (kp_priv (cb_cur (k_box k))) ser = Ok sig /\ tr_sigs r = [mkASP 0 (mkSSP Ed25519Sha512 sig)])
    /\ exists b, k_ser_rct K (mkRct (si_new JSON 0) (rct_digest (tr_body r)) (rct_prefix (tr_body r)) (rct_sn (tr_body r))) = Ok b
        /\ rct_info (tr_body r) = si_new JSON (List.length b).
  Proof.
    unfold make_rct. destruct (let? ser := _ in _) as [x|e|] eqn:Hx; try discriminate.
    apply obind_ok in Hx as (ser & Hser & Hx). apply obind_ok in Hx as (sig & Hsig & Hx). apply obind_ok in Hx as (os & _ & Hx).
    apply obind_ok in Hx as (seal & _ & Hx). apply obind_ok in Hx as (rc & Hrc & Hx). injection Hx as <-.
    unfold receipt_to_message in Hrc. apply obind_ok in Hrc as (b & Hb & Hrc). injection Hrc as <-.
    destruct (process E (k_db k) _) as [d [o|e|]]; cbn [omap obind]; intros H; inversion H; subst. split; [exists ser, sig; auto|exists b; auto].
  Qed.
  Definition same_view (d d' : Db) (me : IdentifierPrefix) : Prop :=
    (forall id, get_kel d' id = get_kel d id) /\ get_receipts_t d' me = get_receipts_t d me.
  Lemma kerl_same d d' id : get_kel d' id = get_kel d id -> get_kerl E d' id = get_kerl E d id.
  Proof. unfold get_kerl. now intros ->. Qed.
  Lemma justified_same d d' r : (forall id, get_kel d' id = get_kel d id) -> receipt_justified E d' r -> receipt_justified E d r.
  Proof.
    intros H (ev & ser & H1 & H2 & H3 & H4). exists ev, ser. unfold log in *. rewrite H in H1. split; [exact H1|]. split; [exact H2|]. split; [exact H3|].
    unfold signed_under_seal in *. unfold log in *. now rewrite H in H4.
  Qed.
  Lemma about_cons_same id r rs : rct_prefix (tr_body r) = id -> about id (r :: rs) = r :: about id rs.
  Proof. intros H. unfold about. cbn [filter]. destruct (IdentifierPrefix_eq_dec _ _); [reflexivity|congruence]. Qed.
  Lemma about_cons_other id r rs : rct_prefix (tr_body r) <> id -> about id (r :: rs) = about id rs.
  Proof. intros H. unfold about. cbn [filter]. destruct (IdentifierPrefix_eq_dec _ _); [congruence|reflexivity]. Qed.
  Lemma answer_all_spec d me p ms : forall k,
    careful E K k -> k_prefix k = me -> cb_cur (k_box k) = p -> same_view d (k_db k) me ->
    (exists t, get_kerl E d me = Ok (Some t)) ->
    Forall (answerable E me) ms ->
    (forall ev, In (MEvent ev) ms -> exists e, sem_msg e = sem_msg ev /\ In e (log d (em_prefix (sem_msg ev)))) ->
    exists k' rs out, answer_all E K k ms = (k', Ok out) /\ answers E K d me p ms rs out /\ Forall (taken_elsewhere E d me) rs
      /\ k_prefix k' = me /\ k_box k' = k_box k /\ careful E K k' /\ same_view d (k_db k') me
      /\ forall id, olist (get_receipts_t (k_db k') id) = olist (get_receipts_t (k_db k) id) ++ about id rs.
  Proof.
    induction ms as [|m ms IH]; intros k Hk Hp Hbx Hv Hown Ha Hin.
    { exists k, [], []. split; [reflexivity|]. split; [apply an_nil|]. split; [apply Forall_nil|]. repeat (split; [assumption || reflexivity|]). intros id. cbn. now rewrite app_nil_r. }
    inversion Ha as [|? ? Hm Ha']; subst. cbn [answer_all].
    destruct m as [ev|r|r|r|q]; cbn [answerable] in Hm; try contradiction.
    - destruct Hm as (Hne & Hid & ser & Hser). destruct (Hin ev (or_introl eq_refl)) as (e & He & Hie).
      assert (Hie' : In e (log (k_db k) (em_prefix (sem_msg ev)))) by (unfold log; rewrite (proj1 Hv); exact Hie).
      destruct (C71_receipts_of_known_events E K k (em_prefix (sem_msg ev)) e ser Hk HR Hid Hie') as (k1 & r & Hmk & R1 & R2 & R3 & R4 & R5 & R6 & R7); [now rewrite He|].
      rewrite He in *.
      destruct (make_rct_shape _ _ _ _ Hmk) as [Hsg Hsz]. destruct (HR (tr_body r)) as [body Hbody]; [destruct Hsz as (bb & _ & ->); reflexivity|].
      destruct (receipt_written r body Hbody) as (t & Ht & Htext); [destruct Hsg as (? & ? & _ & _ & _ & ->); cbn [List.length]; lia|].
      (* the store afterwards *)
      destruct (careful_working E K k Hk) as (_ & (lo & Hw) & cs0 & Hcs).
      assert (Hle : exists le s, get_kel (k_db k) (em_prefix (sem_msg ev)) = Some le /\ good_log E (em_prefix (sem_msg ev)) le s /\ In e le).
      { unfold log in Hie'. destruct (get_kel (k_db k) _) as [le|] eqn:Hle; [|destruct Hie'].
        rewrite Hcs in Hle. destruct (reach_good E cs0 _ le Hid Hle) as (s & Hg & _). eauto. }
      destruct Hle as (le & s & Hle & Hge & Hin'). rewrite <- He in Hser.
      destruct (make_rct_ok E K k lo _ le s e ser Hw HR Hid Hle Hge Hin' Hser) as (r' & y & kc & Hmk' & _ & _ & _ & _ & Y1 & Y2 & Y3 & _).
      rewrite He in Hmk', Hser. rewrite Hmk in Hmk'. injection Hmk' as Ek1 Er. subst r'.
      assert (Hlo : log d (k_prefix k) = lo) by (unfold log; rewrite <- (proj1 Hv), (wk_log _ _ _ _ Hw); reflexivity).
      assert (Hk1 : careful E K k1 /\ k_prefix k1 = k_prefix k /\ k_box k1 = k_box k
        /\ (forall i, get_kel (k_db k1) i = get_kel (k_db k) i)
        /\ (forall i, get_receipts_t (k_db k1) i = if IdentifierPrefix_eq_dec i (em_prefix (sem_msg ev)) then Some (olist (get_receipts_t (k_db k) i) ++ [r]) else get_receipts_t (k_db k) i)).
      { rewrite Ek1. split; [|split; [reflexivity|split; [reflexivity|split]]].
        - assert (Q : set_db k (run E (k_db k) [CProcess (MTransferableRct r)]) = k1).
          { cbn [run fold_left call]. unfold make_rct in Hmk. destruct (let? ser := _ in _) as [x|er|]; try discriminate.
            destruct (process E (k_db k) (MTransferableRct x)) as [dd oo] eqn:Hpp. destruct oo; cbn [omap obind] in Hmk; try discriminate. injection Hmk as <- <-. now rewrite Hpp. }
          rewrite <- Ek1, <- Q. apply careful_calls; [exact Hk|]. apply Forall_cons; [exact I|apply Forall_nil].
        - intros i. reflexivity.
        - intros i. cbn [k_db set_db]. unfold get_receipts_t, add_receipt_t. cbn [db_rct_t set_rct_t]. rewrite tget_tpush.
          destruct (IdentifierPrefix_eq_dec i _) as [-> |]; reflexivity. }
      destruct Hk1 as (Hk1 & Hp1 & Hb1 & Hkel1 & Hr1).
      assert (Hv1 : same_view d (k_db k1) (k_prefix k)).
      { split; [intros i; rewrite Hkel1; apply Hv|]. rewrite Hr1. destruct (IdentifierPrefix_eq_dec _ _) as [Q|_]; [congruence|apply Hv]. }
      destruct (IH k1 Hk1 Hp1 (f_equal cb_cur Hb1) Hv1 Hown Ha') as (k' & rs & out & Hall & Hans & Htk & Hp' & Hb' & Hk' & Hv' & Hrs).
      { intros ev' Hev'. apply Hin. now right. }
      assert (Hack : has_receipt (k_db k) (k_prefix k) 0 (em_prefix (sem_msg ev)) = true <-> acknowledged d (k_prefix k) (em_prefix (sem_msg ev))).
      { rewrite has_receipt_spec. unfold acknowledged. now rewrite (proj2 Hv). }
      destruct Hown as [own Hown]. pose proof (kerl_same d (k_db k) (k_prefix k) (proj1 Hv _)) as Hkerl. rewrite Hown in Hkerl.
      assert (Hans1 : exists intro, introduction E d (k_prefix k) (sem_msg ev) intro /\ answer_one E K k (MEvent ev) = (k1, Ok (intro ++ t))).
      { cbn [answer_one]. rewrite Hmk, Ht. unfold introduction.
        destruct (em_data (sem_msg ev)) as [i|x|x|x|x].
        - destruct (has_receipt _ _ _ _) eqn:Hhr.
          + exists []. split; [|reflexivity]. right. split; [|reflexivity]. intros [_ Hn]. apply Hn. now apply Hack.
          + exists own. rewrite Hkerl. cbn [obind ok_or]. split; [|reflexivity]. left. split; [eauto|]. split; [|exact Hown].
            intros Hn. apply Hack in Hn. congruence.
        - exists []. split; [|reflexivity]. right. split; [|reflexivity]. intros [[i Hi] _]. discriminate.
        - exists []. split; [|reflexivity]. right. split; [|reflexivity]. intros [[i Hi] _]. discriminate.
        - exists []. split; [|reflexivity]. right. split; [|reflexivity]. intros [[i Hi] _]. discriminate.
        - exists []. split; [|reflexivity]. right. split; [|reflexivity]. intros [[i Hi] _]. discriminate. }
      destruct Hans1 as (intro & Hintro & ->). rewrite Hall. cbn [omap obind].
      exists k', (r :: rs), (intro ++ t ++ out). split; [now rewrite <- app_assoc|]. split.
      + apply an_event; [|exact Htext|exact Hintro|exact Hans]. split; [exact R1|]. split; [exact R2|]. split; [exact Hsg|]. split; [exact Hsz|]. split; [exact R4|].
        split; [exists y; rewrite Hlo; auto|]. eapply justified_same; [|exact R6]. apply Hv.
      + split.
        { apply Forall_cons; [|exact Htk]. intros cs. cbv zeta. intros I1 I2. rewrite R1 in *. destruct (R7 cs) as (s' & Hs' & _).
          - unfold log in *. rewrite (proj1 Hv). exact I1.
          - apply I2. exact Hie.
          - eauto. }
        split; [exact Hp'|]. split; [congruence|]. split; [exact Hk'|]. split; [exact Hv'|]. intros id. rewrite Hrs, Hr1.
        destruct (IdentifierPrefix_eq_dec id (em_prefix (sem_msg ev))) as [-> |Hn].
        * cbn [olist]. rewrite about_cons_same by exact R1. now rewrite <- app_assoc.
        * rewrite about_cons_other by congruence. reflexivity.
    - cbn [answer_one]. destruct (IH k Hk eq_refl eq_refl Hv Hown Ha') as (k' & rs & out & -> & Hans & Hrest).
      { intros ev' Hev'. apply Hin. now right. }
      exists k', rs, out. split; [reflexivity|]. split; [now apply an_receipt|exact Hrest].
  Qed.
End R.
