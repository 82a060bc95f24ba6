(** * Prop_Keri: controllers and witnesses (C57-C62, C71). *)
From Verif Require Import Base Base64 Codes NumFmt Types KeyConf SpecSig State Db Processor Spec SpecProc
  StateProofs LogProofs LogTheorems SigProofs ProcProofs ProcProofs2 ProcProofs3 Cesr Message Keri SpecKeri
  KeriProofs KeriProofs2 Demo.

(** ** A demo: short toy signatures (key, then the digest of the message), a key table parser *)
Definition short_verify (key msg sig : bytes) : bool := bytes_eqb sig (key ++ toy_digest Blake3_256 msg).
Definition etoy : Env :=
  mkEnv toy_digest short_verify short_verify (e_ser_event toy) (e_ser_signed toy) (e_deriv_data toy)
    (e_ser_reply toy) (e_deriv_reply toy) (e_ser_query toy).
Definition ktoy_with (parse : bytes -> pres EventType) : KEnv :=
  mkKEnv (fun _ _ _ sn data => Ok (data_bytes data ++ fmt_hex sn)) (fun _ _ data => Ok (data_bytes data ++ fmt_hex 0))
    (fun r => Ok (id_str (rct_prefix r) ++ fmt_hex (rct_sn r))) (fun s => Ok (id_str (st_prefix s) ++ fmt_hex (st_sn s)))
    parse (fun priv msg => Ok (priv ++ toy_digest Blake3_256 msg)).
Definition pair_of (b : byte) : KeyPair := mkKP (repeat b 32) (repeat b 32).
(** Carol, and a store where Wendy has incepted *)
Definition c_box : CryptoBox := mkBox (pair_of x51) (pair_of x52).
Definition w_out := incept etoy (ktoy_with (fun _ => PErr)) (keri_new (mkBox (pair_of x61) (pair_of x62)) db_empty)
                      [mkBP Ed25519 (repeat x51 32); wit x71].
Definition of_ok {A} (d : A) (x : out A) : A := match x with Ok a => a | _ => d end.
Definition w_icp : SignedEventMessage := of_ok s_icp (snd w_out).
Definition w_rcpt : SignedNontransferableReceipt :=
  mkNRct (rct_of (sem_msg w_icp)) [(wit x71, mkSSP Ed25519Sha512 (repeat x71 32 ++ toy_digest Blake3_256 (toy_ser (sem_msg w_icp))))].
Definition table_parse (s : bytes) : pres EventType :=
  let! (r, t) := take 7 s in
  if is t "{""k"":0}" then POk r (KeyEventT (sem_msg w_icp))
  else if is t "{""k"":1}" then POk r (ReceiptT (nr_body w_rcpt)) else PErr.
Definition table_text (e : EventType) : out bytes :=
  match e with KeyEventT _ => Ok (bstr "{""k"":0}") | _ => Ok (bstr "{""k"":1}") end.
Definition ktoy : KEnv := ktoy_with table_parse.
Definition carol_with (extra : list BasicPrefix) : Keri * out SignedEventMessage :=
  incept_with etoy ktoy (keri_new c_box (run etoy db_empty [CProcess (MEvent w_icp)])) extra [].
Definition carol : Keri := fst (carol_with []).
Definition carol2 : Keri := fst (carol_with [key x44]).

Lemma toy_works b : works etoy ktoy (pair_of b).
Proof. intros msg. eexists. split; [reflexivity|]. apply bytes_eqb_refl. Qed.
Lemma toy_serializes : events_serialize etoy ktoy.
Proof. repeat split; intros; eexists; reflexivity. Qed.
Lemma toy_digest_ne : forall msg, e_digest etoy Blake3_256 msg <> [].
Proof. intros msg H. apply (f_equal (@List.length _)) in H. cbn [e_digest etoy] in H. rewrite toy_digest_len in H. discriminate. Qed.
Lemma carol_careful extra : is_ok (snd (carol_with extra)) = true ->
  get_kel (run etoy db_empty [CProcess (MEvent w_icp)]) (em_prefix (sem_msg (of_ok s_icp (snd (carol_with extra))))) = None ->
  careful etoy ktoy (fst (carol_with extra)).
Proof.
  intros H Hn. exists [CProcess (MEvent w_icp)], c_box, extra, [], (fst (carol_with extra)), (of_ok s_icp (snd (carol_with extra))), [].
  split; [exact toy_serializes|]. split; [apply toy_works|]. split; [apply toy_works|]. split; [intros _; exact toy_digest_ne|].
  split; [|split; [now rewrite Hn|split; [constructor|reflexivity]]].
  change (incept_with etoy ktoy (keri_new c_box (run etoy db_empty [CProcess (MEvent w_icp)])) extra []) with (carol_with extra).
  destruct (carol_with extra) as [k [se|e|]]; [reflexivity|discriminate H..].
Qed.
Lemma carol_is_careful : careful etoy ktoy carol.
Proof. apply carol_careful; vm_compute; reflexivity. Qed.
Lemma carol2_is_careful : careful etoy ktoy carol2.
Proof. apply carol_careful; vm_compute; reflexivity. Qed.

(** ** C57: a controller's own inception, rotations and interactions are always accepted *)
Theorem C57_own_events_are_accepted :
  forall (E : Env) (K : KEnv) (cs : list Call) (b : CryptoBox) (extra ws : list BasicPrefix),
    events_serialize E K -> works E K (cb_cur b) -> works E K (cb_next b) ->
    (extra <> [] -> forall msg, e_digest E Blake3_256 msg <> []) ->
    let d := run E db_empty cs in
    (** the identifier (which inception over an empty store also gives) is new *)
    (forall se, snd (incept_with E K (keri_new b db_empty) extra ws) = Ok se -> log d (em_prefix (sem_msg se)) = []) ->
    exists k se, incept_with E K (keri_new b d) extra ws = (k, Ok se)
      /\ k_prefix k = em_prefix (sem_msg se) /\ k_box k = b
      /\ forall ops, Forall (op_ok E K (k_prefix k)) ops ->
           let k' := fst (operate E K k ops) in
           exists evs, snd (operate E K k ops) = map Ok evs
             /\ k_prefix k' = k_prefix k
             /\ log (k_db k') (k_prefix k) = map stored (se :: evs)
             /\ in_force E (k_db k') (k_prefix k) (kp_pub (cb_cur (k_box k'))) (kp_pub (cb_next (k_box k')))
             /\ works E K (cb_cur (k_box k')) /\ works E K (cb_next (k_box k')).
Proof.
  intros E K cs b extra ws HS Hcur Hnext Hdig d Hno.
  destruct (build_icp E K HS (kp_pub (cb_cur b)) extra (kp_pub (cb_next b)) ws) as (info & dig & p & Hb & _).
  set (m := mkEM info dig p _ _) in *.
  assert (H0 : exists se, sem_msg se = m /\ snd (incept_with E K (keri_new b db_empty) extra ws) = Ok se).
  { destruct (incept_step E K HS b db_empty extra ws m Hcur Hnext Hdig Hb eq_refl) as (se & Hse & -> & _). eauto. }
  destruct H0 as (se0 & Hse0 & Hi0). specialize (Hno se0 Hi0). rewrite Hse0 in Hno.
  destruct (incept_step E K HS b d extra ws m Hcur Hnext Hdig Hb Hno) as (se & Hse & Hi & Hw).
  exists (mkKeri (em_prefix m) b (add_kel d se (em_prefix m))), se. split; [exact Hi|]. rewrite Hse. split; [reflexivity|].
  split; [reflexivity|]. intros ops Hops. destruct (operate_working E K HS ops _ _ Hw Hops) as (evs & H1 & H2 & H3).
  exists evs. split; [exact H1|]. split; [exact H2|]. pose proof (Working_in_force E K _ _ H3) as H4.
  rewrite H2 in H4. destruct H3 as [_ H3 _ _ H5 H6]. rewrite H2 in H3.
  split; [unfold log; rewrite H3; reflexivity|]. auto.
Qed.
(** what a rotation and an interaction contain (they use the held keys and the payload) *)
Theorem C57_contents :
  forall (E : Env) (K : KEnv) (k : Keri), careful E K k ->
    (forall fresh, works E K fresh -> exists se k', rotate E K k fresh = (k', Ok se) /\ k_box k' = box_rotate (k_box k) fresh
       /\ is_rotation (sem_msg se) = true)
    /\ (forall payload pk npk, exists se k', make_ixn E K k payload pk npk = (k', Ok se) /\ k_box k' = k_box k
       /\ exists prev, em_data (sem_msg se) = Ixn (mkIxn prev
            match payload with Some p => [SealDigest (derive E Blake3_256 p)] | None => [] end)).
Proof.
  intros E K k Hk. destruct (careful_working E K k Hk) as (HS & (l & Hw) & _). split.
  - intros fresh Hf. destruct (rotate_step E K HS k l fresh Hw Hf) as (se & Hr & Hrot & _).
    do 2 eexists. split; [exact Hr|]. split; [reflexivity|exact Hrot].
  - intros payload pk npk. destruct (ixn_step E K HS k l payload pk npk Hw) as (se & Hr & Hd & _).
    do 2 eexists. split; [exact Hr|]. split; [reflexivity|]. eauto.
Qed.
Example C57_example :
  (exists k se, carol_with [] = (k, Ok se) /\ k_prefix k = IdBasic (key x51))
  /\ (exists k se, carol_with [key x44] = (k, Ok se))
  /\ snd (incept_with etoy ktoy (keri_new c_box db_empty) [] []) <> Err ESerialization
  /\ map is_ok (snd (operate etoy ktoy carol
       [ORotate (pair_of x53); OIxn (Some (bstr "hi")) [x01] [x02]; OCall (CProcess (MEvent s_icp)); ORotate (pair_of x54); OCall CEscrow; OIxn None [] []]))
     = [true; true; true; true].
Proof. ex_vm. Qed.
Example C57_ops_ok : Forall (op_ok etoy ktoy (k_prefix carol))
  [ORotate (pair_of x53); OIxn (Some (bstr "hi")) [x01] [x02]; OCall (CProcess (MEvent s_icp)); ORotate (pair_of x54); OCall CEscrow; OIxn None [] []].
Proof. repeat (apply Forall_cons; [first [apply toy_works|exact I|vm_compute; discriminate]|]). apply Forall_nil. Qed.
Example C57_new : forall se, snd (incept_with etoy ktoy (keri_new c_box db_empty) [] []) = Ok se ->
  log (run etoy db_empty [CProcess (MEvent w_icp)]) (em_prefix (sem_msg se)) = [].
Proof.
  intros se H. assert (Hp : omap (fun x => em_prefix (sem_msg x)) (snd (incept_with etoy ktoy (keri_new c_box db_empty) [] [])) = Ok (IdBasic (key x51)))
    by (vm_compute; reflexivity). rewrite H in Hp. cbn [omap obind] in Hp. injection Hp as ->. vm_compute. reflexivity.
Qed.

(** ** C58: interacting with a peer leaves a working controller *)
(** Full statement *)
Definition C58_statement : Prop :=
  forall (E : Env) (K : KEnv) (k k' : Keri) (p : SelfAddressingPrefix) (se : SignedEventMessage) (ops : list Op),
    careful E K k -> interact E K k (IdSelfAddressing p) = (k', Ok se) -> Forall (op_ok E K (k_prefix k)) ops ->
    exists evs, snd (operate E K k' ops) = map Ok evs.
Definition c58_ops : list Op := [ORotate (pair_of x53); OIxn None [] []].
Definition c58_k' : Keri := fst (interact etoy ktoy carol (IdSelfAddressing (em_digest a_icp))).
Example c58_results : map is_ok (snd (operate etoy ktoy c58_k' c58_ops)) = [true; false].
Proof. vm_compute. reflexivity. Qed.
Theorem C58_refuted : ~ C58_statement.
Proof.
  intros H.
  assert (Hok : is_ok (snd (interact etoy ktoy carol (IdSelfAddressing (em_digest a_icp)))) = true) by (vm_compute; reflexivity).
  specialize (H etoy ktoy carol c58_k' (em_digest a_icp)
    (of_ok s_icp (snd (interact etoy ktoy carol (IdSelfAddressing (em_digest a_icp))))) c58_ops carol_is_careful).
  destruct H as (evs & H).
  - unfold c58_k'. destruct (interact etoy ktoy carol (IdSelfAddressing (em_digest a_icp))) as [k [x|x|]]; [reflexivity|discriminate Hok..].
  - repeat (apply Forall_cons; [first [apply toy_works|exact I]|]). apply Forall_nil.
  - apply (f_equal (map is_ok)) in H. rewrite c58_results in H. rewrite map_map in H. destruct evs as [|a [|c evs]]; discriminate H.
Qed.
(** Whatever is done afterwards, with any calls by anybody, the key state never moves again. *)
Theorem C58_state_frozen_forever :
  forall (E : Env) (K : KEnv) (k k' : Keri) (p : SelfAddressingPrefix) (se : SignedEventMessage) (last : SignedEventMessage),
    careful E K k -> interact E K k (IdSelfAddressing p) = (k', Ok se) ->
    (exists before, log (k_db k) (k_prefix k) = before ++ [last]) -> p <> em_digest (sem_msg last) ->
    forall ops, compute_state E (k_db (fst (operate E K k' ops))) (k_prefix k) = compute_state E (k_db k) (k_prefix k).
Proof.
  intros E K k k' p se last Hk Hi (before & Hlast) Hp ops.
  destruct (careful_working E K k Hk) as (_ & (l & Hw) & _). destruct Hw as [Hid Hl Hne (s & more & Hg & _ & _) _ _].
  unfold log in Hlast. rewrite Hl in Hlast. cbn [olist] in Hlast.
  assert (Hd : st_last_digest s = em_digest (sem_msg last)).
  { destruct (good_log_shape E _ _ _ Hid Hg) as (_ & Hsh & _). rewrite Hlast, rev_app_distr in Hsh. cbn in Hsh.
    now destruct Hsh as (_ & _ & ->). }
  destruct (interact_bricks E K k l s p se k' Hid Hl Hne Hg ltac:(congruence) Hi) as [Hst Hpre].
  rewrite (compute_state_good E (k_db k) _ _ _ Hid Hl Hg). apply stuck_state; [exact Hid|].
  apply operate_stuck; [exact Hid|exact Hpre|exact Hst].
Qed.
Example C58_frozen_example :
  is_ok (snd (interact etoy ktoy carol (IdSelfAddressing (em_digest a_icp)))) = true
  /\ (exists e, log (k_db carol) (k_prefix carol) = [] ++ [e] /\ em_digest a_icp <> em_digest (sem_msg e))
  /\ List.length (log (k_db (fst (operate etoy ktoy c58_k' c58_ops))) (k_prefix carol)) = 3
  /\ st_sn (state_of etoy (k_db (fst (operate etoy ktoy c58_k' c58_ops))) (k_prefix carol)) = 0%N.
Proof. ex_vm. Qed.
(** Only an interaction with the digest of the own last event is harmless. *)
Theorem C58_own_digest_partial :
  forall (E : Env) (K : KEnv) (k k' : Keri) (se last : SignedEventMessage) (ops : list Op),
    careful E K k -> (exists before, log (k_db k) (k_prefix k) = before ++ [last]) ->
    interact E K k (IdSelfAddressing (em_digest (sem_msg last))) = (k', Ok se) ->
    Forall (op_ok E K (k_prefix k)) ops ->
    exists evs, snd (operate E K k' ops) = map Ok evs
      /\ log (k_db (fst (operate E K k' ops))) (k_prefix k) = log (k_db k) (k_prefix k) ++ map stored (se :: evs).
Proof.
  intros E K k k' se last ops Hk (before & Hlast) Hi Hops.
  destruct (careful_working E K k Hk) as (HS & (l & Hw) & _). pose proof Hw as [Hid Hl Hne (s & more & Hg & _ & _) _ _].
  unfold log in Hlast. rewrite Hl in Hlast. cbn [olist] in Hlast.
  assert (Hd : st_last_digest s = em_digest (sem_msg last)).
  { destruct (good_log_shape E _ _ _ Hid Hg) as (_ & Hsh & _). rewrite Hlast, rev_app_distr in Hsh. cbn in Hsh.
    now destruct Hsh as (_ & _ & ->). }
  rewrite <- Hd in Hi. destruct (interact_chains E K k l s se k' Hw Hg Hi) as [Hw' Hp'].
  rewrite <- Hp' in Hops. destruct (operate_working E K HS ops k' _ Hw' Hops) as (evs & H1 & H2 & H3).
  exists evs. split; [exact H1|]. destruct H3 as [_ H3 _ _ _ _]. rewrite H2, Hp' in H3.
  unfold log. rewrite H3, Hl. cbn [olist map]. now rewrite <- app_assoc.
Qed.
Example C58_own_digest_example : exists e, log (k_db carol) (k_prefix carol) = [] ++ [e]
  /\ is_ok (snd (interact etoy ktoy carol (IdSelfAddressing (em_digest (sem_msg e))))) = true.
Proof. ex_vm. Qed.

(** ** C59: a failed rotation does not change keys *)
(** Full statement: a second controller object over the same key manager and store fails to
    rotate; the held keys still match the key state of the first. *)
Definition C59_statement : Prop :=
  forall (E : Env) (K : KEnv) (k k2 k2' : Keri) (fresh : KeyPair) (e : error),
    careful E K k -> k_box k2 = k_box k -> k_db k2 = k_db k -> works E K fresh ->
    rotate E K k2 fresh = (k2', Err e) ->
    in_force E (k_db k2') (k_prefix k) (kp_pub (cb_cur (k_box k2'))) (kp_pub (cb_next (k_box k2'))).
Definition carol_other : Keri := keri_new (k_box carol) (k_db carol).
Theorem C59_refuted : ~ C59_statement.
Proof.
  intros H. specialize (H etoy ktoy carol carol_other (fst (rotate etoy ktoy carol_other (pair_of x53))) (pair_of x53)
    (ESemantic "There is no state") carol_is_careful eq_refl eq_refl (toy_works x53)).
  destruct H as (s & more & Hs & Hk & _).
  - vm_compute. reflexivity.
  - assert (Hc : kc_keys (st_current (state_of etoy (k_db (fst (rotate etoy ktoy carol_other (pair_of x53)))) (k_prefix carol)))
       = [key x51]) by (vm_compute; reflexivity).
    unfold state_of in Hc. rewrite Hs, Hk in Hc. apply (f_equal (@List.hd _ (key x00))) in Hc. cbn [hd] in Hc.
    vm_compute in Hc. discriminate Hc.
Qed.
(** The held keys change whenever [rotate] fails. *)
Theorem C59_failed_rotation_changes_keys :
  forall (E : Env) (K : KEnv) (k : Keri) (fresh : KeyPair), k_box (fst (rotate E K k fresh)) = box_rotate (k_box k) fresh.
Proof. exact rotate_box. Qed.
(** A careful controller's rotation does not fail. *)
Theorem C59_careful_partial :
  forall (E : Env) (K : KEnv) (k : Keri) (fresh : KeyPair), careful E K k -> works E K fresh ->
    exists se, snd (rotate E K k fresh) = Ok se
      /\ let k' := fst (rotate E K k fresh) in
         in_force E (k_db k') (k_prefix k) (kp_pub (cb_cur (k_box k'))) (kp_pub (cb_next (k_box k'))).
Proof.
  intros E K k fresh Hk Hf. destruct (careful_working E K k Hk) as (HS & (l & Hw) & _).
  destruct (rotate_step E K HS k l fresh Hw Hf) as (se & Hr & _ & Hw'). exists se. rewrite Hr in *. split; [reflexivity|].
  exact (Working_in_force E K _ _ Hw').
Qed.
(** after the failed rotation the first controller's interactions are refused *)
Example C59_locked_out :
  is_ok (snd (make_ixn etoy ktoy carol None [] [])) = true
  /\ is_ok (snd (make_ixn etoy ktoy (mkKeri (k_prefix carol) (k_box (fst (rotate etoy ktoy carol_other (pair_of x53)))) (k_db carol)) None [] [])) = false.
Proof. ex_vm. Qed.

(** ** C60: witness receipts are only generated by listed witnesses *)
(** Full statement: only listed witnesses, and the receipt is theirs. *)
Definition listed (our : BasicPrefix) (m : EventMessage) : Prop :=
  match em_data m with
  | Icp e => In our (iwc_witnesses (icp_wc e))
  | Rot e => In our (wc_graft (rot_wc e)) /\ ~ In our (wc_prune (rot_wc e))
  | _ => False
  end.
Definition C60_statement : Prop :=
  forall (E : Env) (K : KEnv) (k k' : Keri) (m : EventMessage) (r : SignedNontransferableReceipt),
    careful E K k -> make_ntr E K k m = (k', Ok r) ->
    exists our ser sig, k_prefix k = IdBasic our /\ listed our m
      /\ e_ser_event E m = Ok ser /\ nr_couplets r = [(our, sig)] /\ sig_ok E our ser sig.
(** The list is respected, the receipt names the event and is stored, and it verifies under
    the key that is attached to it. *)
Theorem C60_only_listed :
  forall (E : Env) (K : KEnv) (k k' : Keri) (m : EventMessage) (r : SignedNontransferableReceipt),
    make_ntr E K k m = (k', Ok r) ->
    exists our ser, k_prefix k = IdBasic our /\ listed our m /\ e_ser_event E m = Ok ser
      /\ rct_prefix (nr_body r) = em_prefix m /\ rct_sn (nr_body r) = em_sn m
      /\ rct_digest (nr_body r) = derive E Blake3_256 ser
      /\ In r (olist (get_receipts_nt (k_db k') (em_prefix m)))
      /\ (works E K (cb_cur (k_box k)) ->
          exists sig, nr_couplets r = [(ed_key (kp_pub (cb_cur (k_box k))), sig)]
            /\ sig_ok E (ed_key (kp_pub (cb_cur (k_box k)))) ser sig).
Proof.
  intros E K k k' m r H. destruct (make_ntr_ok E K k m k' r H) as (our & Hour & Hg & Hl).
  destruct (generate_ok E K k m k' r Hg) as (ser & sig & info & Hser & Hsig & Hr & Hk').
  exists our, ser. split; [exact Hour|]. split; [exact Hl|]. split; [exact Hser|]. rewrite Hr. cbn [nr_body rct_prefix rct_sn rct_digest nr_couplets].
  do 3 (split; [reflexivity|]). split.
  - rewrite Hk', <- Hr. cbn [k_db set_db]. unfold get_receipts_nt, add_receipt_nt. cbn [db_rct_nt set_rct_nt].
    rewrite tget_tpush_same. cbn [olist]. apply in_app_iff. right. now left.
  - intros Hw. eexists. split; [reflexivity|]. left. cbn [ssp_code ssp_sig bp_key ed_key]. split; [now left|]. split; [reflexivity|].
    destruct (Hw ser) as (sig' & Hs' & Hv). congruence.
Qed.
Theorem C60_before_rotation_partial :
  forall (E : Env) (K : KEnv) (k k' : Keri) (m : EventMessage) (r : SignedNontransferableReceipt),
    works E K (cb_cur (k_box k)) -> k_prefix k = IdBasic (ed_key (kp_pub (cb_cur (k_box k)))) ->
    make_ntr E K k m = (k', Ok r) ->
    exists our ser sig, k_prefix k = IdBasic our /\ listed our m
      /\ e_ser_event E m = Ok ser /\ nr_couplets r = [(our, sig)] /\ sig_ok E our ser sig.
Proof.
  intros E K k k' m r Hw Hp H. destruct (C60_only_listed E K k k' m r H) as (our & ser & H1 & H2 & H3 & _ & _ & _ & _ & H4).
  destruct (H4 Hw) as (sig & H5 & H6). assert (our = ed_key (kp_pub (cb_cur (k_box k)))) by congruence. subst our. eauto 8.
Qed.
Definition carol_rotated : Keri := fst (operate etoy ktoy carol [ORotate (pair_of x53)]).
Theorem C60_after_rotation_refuted : ~ C60_statement.
Proof.
  intros H. destruct carol_is_careful as (cs & b & extra & ws & k0 & se0 & ops & H1 & H2 & H3 & H4 & H5 & H6 & H7 & H8).
  assert (Hk : careful etoy ktoy carol_rotated).
  { exists [CProcess (MEvent w_icp)], c_box, [], [], carol, (of_ok s_icp (snd (carol_with []))), [ORotate (pair_of x53)].
    split; [exact toy_serializes|]. split; [apply toy_works|]. split; [apply toy_works|]. split; [intros _; exact toy_digest_ne|].
    split; [vm_compute; reflexivity|]. split; [vm_compute; reflexivity|]. split; [|reflexivity].
    apply Forall_cons; [apply toy_works|apply Forall_nil]. }
  clear - H Hk.
  specialize (H etoy ktoy carol_rotated (fst (make_ntr etoy ktoy carol_rotated (sem_msg w_icp))) (sem_msg w_icp)
    (of_ok w_rcpt (snd (make_ntr etoy ktoy carol_rotated (sem_msg w_icp)))) Hk).
  destruct H as (our & ser & sig & Hour & _ & _ & Hc & _).
  - vm_compute. reflexivity.
  - assert (Ho : k_prefix carol_rotated = IdBasic (key x51)) by (vm_compute; reflexivity).
    assert (Hn : map fst (nr_couplets (of_ok w_rcpt (snd (make_ntr etoy ktoy carol_rotated (sem_msg w_icp))))) = [key x52])
      by (vm_compute; reflexivity).
    rewrite Hc in Hn. cbn [map fst] in Hn. assert (our = key x51) by congruence. subst our.
    apply (f_equal (@List.hd _ (key x00))) in Hn. vm_compute in Hn. discriminate Hn.
Qed.
Example C60_example :
  (exists k' r, make_ntr etoy ktoy carol (sem_msg w_icp) = (k', Ok r))
  /\ k_prefix carol = IdBasic (ed_key (kp_pub (cb_cur (k_box carol))))
  /\ snd (make_ntr etoy ktoy carol a_icp) = Err (ESemantic "we are not in a witness list.").
Proof. ex_vm. Qed.

(** ** C61: streams survive bad messages *)
(** Full statement: no panic, and the key logs are those of processing every message that converts. *)
Definition C61_statement : Prop :=
  forall (E : Env) (K : KEnv) (k : Keri) (stream : bytes) (rest : bytes) (l : list SignedEventData),
    careful E K k -> signed_event_stream (k_parse K) stream = POk rest l ->
    snd (respond E K k stream) <> Panic
    /\ forall id, get_kel (k_db (fst (respond E K k stream))) id = get_kel (run E (k_db k) (map CProcess (converted l))) id.
(** It holds for the logs, whenever no conversion and no [process] call panics. *)
Theorem C61_logs_partial :
  forall (E : Env) (K : KEnv) (k : Keri) (stream : bytes) (rest : bytes) (l : list SignedEventData),
    signed_event_stream (k_parse K) stream = POk rest l ->
    Forall (fun x => to_message x <> Panic) l -> quiet E (k_db k) (map CProcess (converted l)) = true ->
    forall id, get_kel (k_db (fst (respond E K k stream))) id = get_kel (run E (k_db k) (map CProcess (converted l))) id.
Proof.
  intros E K k stream rest l Hs Hc Hq id. unfold respond. rewrite Hs. cbn [of_pres].
  destruct (accept_all_run E l (k_db k) Hc Hq) as (ms & -> & _). unfold get_kel. now rewrite answer_all_kel.
Qed.
(** Any accepted witness receipt, key-state reply or query makes the call panic. *)
Theorem C61_accepted_receipt_panics :
  forall (E : Env) (K : KEnv) (k : Keri) (stream rest : bytes) (l1 l2 : list SignedEventData) (x : SignedEventData) (m : Message),
    signed_event_stream (k_parse K) stream = POk rest (l1 ++ x :: l2) -> to_message x = Ok m ->
    match m with MNontransferableRct _ | MKeyStateNotice _ => True | _ => False end ->
    is_ok (snd (process E (run E (k_db k) (map CProcess (converted l1))) m)) = true ->
    snd (respond E K k stream) = Panic.
Proof.
  intros E K k stream rest l1 l2 x m Hs Hx Hm Hok. unfold respond. rewrite Hs. cbn [of_pres].
  destruct (accept_all E (k_db k) (l1 ++ x :: l2)) as [d [ms|e|]] eqn:Ha; [| |reflexivity].
  - apply answer_all_panics. exists m. split; [exact (accept_all_accepted E l1 l2 x m (k_db k) d ms Ha Hx Hok)|].
    destruct m; auto.
  - exfalso. assert (He : forall l d0 e, snd (accept_all E d0 l) <> Err e).
    { clear. induction l as [|y l IH]; intros d0 e; [discriminate|]. cbn [accept_all]. destruct (to_message y) as [m|er|]; [|apply IH|discriminate].
      destruct (process E d0 m) as [d1 [o|er|]]; [|apply IH|discriminate]. specialize (IH d1).
      destruct (accept_all E d1 l) as [d2 [r|er|]]; cbn in *; try discriminate. intros Hz. now apply (IH er). }
    apply (He (l1 ++ x :: l2) (k_db k) e). now rewrite Ha.
Qed.
(** A stream whose start does not parse is dropped whole, and the call says [Ok]. *)
Theorem C61_bad_start_drops_everything :
  forall (E : Env) (K : KEnv) (k : Keri) (stream : bytes),
    signed_message (k_parse K) stream = PErr -> respond E K k stream = (k, Ok []).
Proof.
  intros E K k stream H. unfold respond, signed_event_stream, many0. cbn [many0_f]. rewrite H. cbn [of_pres accept_all answer_all].
  destruct k; reflexivity.
Qed.
Definition w_text : bytes := of_ok [] (sed_cesr table_text (sed_of_event w_icp)).
Definition r_text : bytes := of_ok [] (sed_cesr table_text (sed_of_ntr w_rcpt)).
(** Carol's store has Wendy's inception; the stream is a valid receipt of it *)
Theorem C61_refuted : ~ C61_statement.
Proof.
  intros H. specialize (H etoy ktoy carol r_text [] [sed_of_ntr w_rcpt] carol_is_careful). destruct H as [H _].
  - vm_compute. reflexivity.
  - apply H. vm_compute. reflexivity.
Qed.
Definition carol0 : Keri := fst (incept etoy ktoy (keri_new c_box db_empty) []).
(** an event is processed (and receipted), garbage in front makes it disappear, a receipt after it panics *)
Example C61_example :
  (exists b, snd (respond etoy ktoy carol0 w_text) = Ok b /\ b <> [])
  /\ List.length (log (k_db (fst (respond etoy ktoy carol0 w_text))) (em_prefix (sem_msg w_icp))) = 1
  /\ snd (respond etoy ktoy carol0 (bstr "garbage" ++ w_text)) = Ok []
  /\ log (k_db (fst (respond etoy ktoy carol0 (bstr "garbage" ++ w_text)))) (em_prefix (sem_msg w_icp)) = []
  /\ signed_message table_parse (bstr "garbage" ++ w_text) = PErr
  /\ snd (respond etoy ktoy carol0 (w_text ++ r_text)) = Panic.
Proof. ex_vm. Qed.
Example C61_logs_example :
  signed_event_stream (k_parse ktoy) (w_text ++ w_text) = POk [] [sed_of_event w_icp; sed_of_event w_icp]
  /\ quiet etoy (k_db carol0) (map CProcess (converted [sed_of_event w_icp; sed_of_event w_icp])) = true.
Proof. ex_vm. Qed.
Example C61_logs_example_converts : Forall (fun x => to_message x <> Panic) [sed_of_event w_icp; sed_of_event w_icp].
Proof. repeat (apply Forall_cons; [vm_compute; discriminate|]). apply Forall_nil. Qed.
Example C61_receipt_example :
  signed_event_stream (k_parse ktoy) (w_text ++ r_text) = POk [] ([sed_of_event w_icp] ++ sed_of_ntr w_rcpt :: [])
  /\ to_message (sed_of_ntr w_rcpt) = Ok (MNontransferableRct w_rcpt)
  /\ is_ok (snd (process etoy (run etoy (k_db carol0) (map CProcess (converted [sed_of_event w_icp]))) (MNontransferableRct w_rcpt))) = true.
Proof. ex_vm. Qed.

(** ** C62: query answers go to authenticated parties and reflect the log *)
Theorem C62_authenticated :
  forall (E : Env) (K : KEnv) (w : Witness) (q : SignedQuery) (t1 t2 : Z) (r : ReplyType),
    process_signed_query E K w q t1 t2 = Ok r ->
    exists s ser, compute_state E (w_db w) (sq_signer q) = Ok (Some s) /\ e_ser_query E (sq_envelope q) = Ok ser
      /\ (rational_threshold (kc_threshold (st_current s)) -> satisfies E (st_current s) ser (sq_sigs q)).
Proof.
  intros E K w q t1 t2 r H. destruct (query_auth E K w q t1 t2 r H) as (s & ser & H1 & H2 & H3 & _).
  exists s, ser. split; [exact H1|]. split; [exact H2|]. intros Hr. now apply verify_sound.
Qed.
(** A log query is answered with the whole log in order (of events that serialize). *)
Theorem C62_log_exact :
  forall (E : Env) (K : KEnv) (w : Witness) (q : SignedQuery) (t1 t2 : Z) (r : ReplyType),
    q_route (sq_envelope q) = RLog ->
    (forall e, In e (log (w_db w) (q_i (sq_envelope q))) -> exists b, e_ser_signed E e = Ok b) ->
    process_signed_query E K w q t1 t2 = Ok r ->
    exists evs texts, get_kel (w_db w) (q_i (sq_envelope q)) = Some evs
      /\ Forall2 (fun e b => e_ser_signed E e = Ok b) evs texts /\ r = Kel (List.concat texts).
Proof.
  intros E K w q t1 t2 r Hq Hser H. destruct (query_auth E K w q t1 t2 r H) as (s & ser & _ & _ & _ & H3).
  unfold process_query in H3. rewrite Hq in H3. unfold get_kerl in H3. unfold log in Hser.
  destruct (get_kel (w_db w) (q_i (sq_envelope q))) as [evs|]; [|discriminate]. cbn [olist] in Hser.
  apply obind_ok in H3. destruct H3 as (o & Ho & H3). apply obind_ok in Ho. destruct Ho as (b & Hb & Ho). injection Ho as <-.
  cbn [ok_or obind] in H3. injection H3 as <-. apply (kerl_exact E evs b Hser) in Hb. clear Hser H.
  assert (G : exists texts, Forall2 (fun e b => e_ser_signed E e = Ok b) evs texts /\ b = List.concat texts).
  { revert b Hb. induction evs as [|e evs IH]; intros b Hb; cbn [oconcat] in Hb.
    - injection Hb as <-. exists []. split; [constructor|reflexivity].
    - apply obind_ok in Hb. destruct Hb as (x & Hx & Hb). apply obind_ok in Hb. destruct Hb as (y & Hy & Hb). injection Hb as <-.
      destruct (IH y Hy) as (texts & Ht & ->). exists (x :: texts). split; [now constructor|reflexivity]. }
  destruct G as (texts & Ht & ->). eauto.
Qed.
(** Whatever serializes: the answer is the texts of all events of the log in order, those that do
    not serialize left out. *)
Theorem C62_log_contents :
  forall (E : Env) (K : KEnv) (w : Witness) (q : SignedQuery) (t1 t2 : Z) (r : ReplyType),
    q_route (sq_envelope q) = RLog ->
    process_signed_query E K w q t1 t2 = Ok r ->
    exists evs texts, get_kel (w_db w) (q_i (sq_envelope q)) = Some evs
      /\ Forall2 (fun e b => e_ser_signed E e = Ok b \/ ((exists x, e_ser_signed E e = Err x) /\ b = [])) evs texts
      /\ r = Kel (List.concat texts).
Proof.
  intros E K w q t1 t2 r Hq H. destruct (query_auth E K w q t1 t2 r H) as (s & ser & _ & _ & _ & H3).
  unfold process_query in H3. rewrite Hq in H3. unfold get_kerl in H3.
  destruct (get_kel (w_db w) (q_i (sq_envelope q))) as [evs|]; [|discriminate].
  apply obind_ok in H3. destruct H3 as (o & Ho & H3). apply obind_ok in Ho. destruct Ho as (b & Hb & Ho). injection Ho as <-.
  cbn [ok_or obind] in H3. injection H3 as <-. clear H.
  assert (G : exists texts, Forall2 (fun e b => e_ser_signed E e = Ok b \/ ((exists x, e_ser_signed E e = Err x) /\ b = [])) evs texts
                            /\ b = List.concat texts).
  { revert b Hb. induction evs as [|e evs IH]; intros b Hb; cbn [kerl_bytes] in Hb.
    - injection Hb as <-. exists []. split; [constructor|reflexivity].
    - destruct (e_ser_signed E e) as [x|x|] eqn:Hx; [| |discriminate Hb].
      + apply obind_ok in Hb. destruct Hb as (y & Hy & Hb). injection Hb as <-.
        destruct (IH y Hy) as (texts & H1 & ->). exists (x :: texts). split; [|reflexivity]. constructor; auto.
      + destruct (IH b Hb) as (texts & H1 & ->). exists ([] :: texts). split; [|reflexivity]. constructor; [|exact H1].
        right. split; [now exists x|reflexivity]. }
  destruct G as (texts & H1 & ->). exists evs, texts. auto.
Qed.
Print Assumptions C62_log_contents.
(** A key-state query is answered with the computed state, signed by the witness. *)
Theorem C62_state_exact :
  forall (E : Env) (K : KEnv) (b : CryptoBox) (d : Db) (q : SignedQuery) (t1 t2 : Z) (r : ReplyType),
    let w := witness_new b d in
    q_route (sq_envelope q) = RKsn -> works E K (cb_cur b) ->
    process_signed_query E K w q t1 t2 = Ok r ->
    exists s rpy ser sig, compute_state E d (q_i (sq_envelope q)) = Ok (Some s)
      /\ r = Rep (mkSRpy rpy (NonTransferable (w_prefix w) sig))
      /\ ksn_state (rp_ksn rpy) = s /\ rp_route rpy = RReplyKsn (IdBasic (w_prefix w)) /\ rp_timestamp rpy = t2
      /\ e_ser_reply E rpy = Ok ser /\ sig_ok E (w_prefix w) ser sig.
Proof.
  intros E K b d q t1 t2 r w Hq Hw H. destruct (query_auth E K w q t1 t2 r H) as (_ & _ & _ & _ & _ & H3).
  unfold process_query in H3. rewrite Hq in H3. cbn [w w_db witness_new] in H3.
  destruct (compute_state E d (q_i (sq_envelope q))) as [[s|]|e|]; cbn [ounwrap obind ok_or] in H3; try discriminate.
  apply obind_ok in H3. destruct H3 as (sr & Hsr & H3). injection H3 as <-.
  unfold signed_notice in Hsr. apply obind_ok in Hsr. destruct Hsr as (rpy & Hrpy & Hsr).
  apply obind_ok in Hsr. destruct Hsr as (ser & Hser & Hsr). apply obind_ok in Hsr. destruct Hsr as (sig & Hsig & Hsr). injection Hsr as <-.
  exists s, rpy, ser, (mkSSP Ed25519Sha512 sig). split; [reflexivity|]. split; [reflexivity|].
  unfold new_reply in Hrpy. apply obind_ok in Hrpy. destruct Hrpy as (b0 & _ & Hrpy). injection Hrpy as <-.
  cbn [rp_ksn ksn_state new_ksn rp_route rp_timestamp]. do 3 (split; [reflexivity|]). split; [exact Hser|].
  left. cbn [w w_prefix witness_new ed_key bp_code bp_key ssp_code ssp_sig]. split; [now left|]. split; [reflexivity|].
  unfold box_sign in Hsig. cbn [w w_box witness_new] in Hsig. destruct (Hw ser) as (sig' & Hs' & Hv). congruence.
Qed.
(** The third route of a query panics for every authenticated query. *)
Theorem C62_reply_route_panics :
  forall (E : Env) (K : KEnv) (w : Witness) (q : SignedQuery) (t1 t2 : Z) (aid : IdentifierPrefix) (s : IdentifierState) (ser : bytes),
    q_route (sq_envelope q) = RReplyKsn aid ->
    compute_state E (w_db w) (sq_signer q) = Ok (Some s) -> e_ser_query E (sq_envelope q) = Ok ser ->
    kc_verify E (st_current s) ser (sq_sigs q) = Ok true ->
    process_signed_query E K w q t1 t2 = Panic.
Proof.
  intros E K w q t1 t2 aid s ser Hq Hs Hser Hk. unfold process_signed_query. rewrite Hs. cbn [obind ok_or]. rewrite Hser.
  cbn [ounwrap obind]. rewrite Hk. cbn [obind]. unfold process_query. now rewrite Hq.
Qed.
Definition query_by (pk : byte) (route : Route) (id : IdentifierPrefix) : SignedQuery :=
  let q := mkQry info0 (mkSAP Blake3_256 []) 7 route (bstr "r") id in
  mkSQry q (k_prefix carol) [mkASP 0 (mkSSP Ed25519Sha512 (repeat pk 32 ++ toy_digest Blake3_256 (id_str id)))].
Definition walt : Witness := witness_new (mkBox (pair_of x71) (pair_of x72)) (k_db carol).
Example C62_example :
  (exists r, process_signed_query etoy ktoy walt (query_by x51 RLog (em_prefix (sem_msg w_icp))) 5 6 = Ok (Kel r) /\ r <> [])
  /\ (exists r, process_signed_query etoy ktoy walt (query_by x51 RKsn (em_prefix (sem_msg w_icp))) 5 6 = Ok (Rep r))
  /\ process_signed_query etoy ktoy walt (query_by x52 RKsn (em_prefix (sem_msg w_icp))) 5 6 = Err ESignatureVerification
  /\ process_signed_query etoy ktoy walt (query_by x51 (RReplyKsn alice) (em_prefix (sem_msg w_icp))) 5 6 = Panic.
Proof. ex_vm. Qed.
(** Conversely a well-signed log query about a known identifier is answered. *)
Theorem C62_answered :
  forall (E : Env) (K : KEnv) (w : Witness) (q : SignedQuery) (t1 t2 : Z) (s : IdentifierState) (ser : bytes) (evs : list SignedEventMessage),
    compute_state E (w_db w) (sq_signer q) = Ok (Some s) -> e_ser_query E (sq_envelope q) = Ok ser ->
    rational_threshold (kc_threshold (st_current s)) -> in_single (kc_threshold (st_current s)) (sq_sigs q) ->
    satisfies E (st_current s) ser (sq_sigs q) ->
    q_route (sq_envelope q) = RLog -> get_kel (w_db w) (q_i (sq_envelope q)) = Some evs ->
    (forall e, In e evs -> exists b, e_ser_signed E e = Ok b) ->
    exists b, process_signed_query E K w q t1 t2 = Ok (Kel b).
Proof.
  intros E K w q t1 t2 s ser evs Hs Hser Hr Hin Hsat Hq Hl Hev. unfold process_signed_query. rewrite Hs. cbn [obind ok_or]. rewrite Hser.
  cbn [ounwrap obind]. rewrite (proj2 (verify_sound_complete E _ _ _ Hr Hin) Hsat). cbn [obind]. unfold process_query, get_kerl. rewrite Hq, Hl.
  assert (G : exists b, kerl_bytes E evs = Ok b).
  { clear Hl. induction evs as [|e evs IH]; [now exists []|]. cbn [kerl_bytes]. destruct (Hev e (or_introl eq_refl)) as [x ->].
    destruct IH as [y ->]; [intros e' He'; apply Hev; now right|]. cbn [obind]. eauto. }
  destruct G as [b ->]. cbn [obind ok_or]. eauto.
Qed.
Example C62_answered_example :
  satisfies etoy (mkKC (Simple 1) [key x51] None) (id_str (em_prefix (sem_msg w_icp))) (sq_sigs (query_by x51 RLog (em_prefix (sem_msg w_icp))))
  /\ kc_keys (st_current (state_of etoy (w_db walt) (k_prefix carol))) = [key x51]
  /\ kc_threshold (st_current (state_of etoy (w_db walt) (k_prefix carol))) = Simple 1.
Proof.
  split; [|ex_vm]. split; [cbn; lia|]. split; [repeat constructor; intros []|]. apply Forall_cons; [|apply Forall_nil].
  exists (key x51). split; [reflexivity|]. left. split; [now left|]. split; [reflexivity|]. vm_compute. reflexivity.
Qed.

(** ** C71: a controller can receipt every event in its store *)
Theorem C71_receipts_of_known_events :
  forall (E : Env) (K : KEnv) (k : Keri) (id : IdentifierPrefix) (e : SignedEventMessage) (ser : bytes),
    careful E K k -> (forall r, json (rct_info r) -> exists b, k_ser_rct K r = Ok b) ->
    id <> id_default -> In e (log (k_db k) id) -> e_ser_event E (sem_msg e) = Ok ser ->
    exists k' r, make_rct E K k (sem_msg e) = (k', Ok r)
      /\ rct_prefix (tr_body r) = id /\ rct_sn (tr_body r) = em_sn (sem_msg e)
      /\ rct_digest (tr_body r) = derive E Blake3_256 ser
      /\ es_prefix (tr_seal r) = k_prefix k
      /\ In r (olist (get_receipts_t (k_db k') id))
      /\ receipt_justified E (k_db k) r
      (** and every other store that has the event and the controller's log takes it *)
      /\ forall cs, let d := run E db_empty cs in
           incl (log (k_db k) (k_prefix k)) (log d (k_prefix k)) -> In e (log d id) ->
           exists s, process E d (MTransferableRct r) = (add_receipt_t d r id, Ok (Some s)) /\ receipt_justified E d r.
Proof.
  intros E K k id e ser Hk HR Hid Hin Hser. destruct (careful_working E K k Hk) as (_ & (l & Hw) & cs0 & Hcs).
  pose proof Hw as [Hido Hl Hne (so & more & Hgo & _ & _) _ _].
  assert (Hle : exists le s, get_kel (k_db k) id = Some le /\ good_log E id le s /\ In e le).
  { unfold log in Hin. destruct (get_kel (k_db k) id) as [le|] eqn:Hle; [|destruct Hin].
    rewrite Hcs in Hle. destruct (reach_good E cs0 id le Hid Hle) as (s & Hg & _). eauto. }
  destruct Hle as (le & s & Hle & Hge & Hin').
  destruct (make_rct_ok E K k l id le s e ser Hw HR Hid Hle Hge Hin' Hser) as (r & y & kc & Hm & R1 & R2 & R3 & R4 & Y1 & Y2 & Y3 & Y4 & Y5).
  do 2 eexists. split; [exact Hm|]. split; [exact R1|]. split; [exact R2|]. split; [exact R3|]. split; [exact R4|]. split.
  { cbn [k_db set_db]. unfold get_receipts_t, add_receipt_t. cbn [db_rct_t set_rct_t]. rewrite tget_tpush_same. cbn [olist].
    apply in_app_iff. right. now left. }
  assert (G : forall d le s lo so, get_kel d id = Some le -> good_log E id le s -> In e le ->
     get_kel d (k_prefix k) = Some lo -> good_log E (k_prefix k) lo so -> In y lo ->
     process E d (MTransferableRct r) = (add_receipt_t d r id, Ok (Some s)) /\ receipt_justified E d r).
  { intros d le' s' lo so' G1 G2 G3 G4 G5 G6. rewrite <- R1.
    apply (receipt_accepted E d r le' s' e lo so' y kc ser); rewrite ?R1, ?R4; auto. }
  split; [exact (proj2 (G (k_db k) le s l so Hle Hge Hin' Hl Hgo Y1))|].
  intros cs d Hincl Hind. unfold log in Hincl, Hind. rewrite Hl in Hincl. cbn [olist] in Hincl. specialize (Hincl y Y1).
  destruct (get_kel d id) as [le'|] eqn:H1; [|destruct Hind]. destruct (get_kel d (k_prefix k)) as [lo|] eqn:H2; [|destruct Hincl].
  destruct (reach_good E cs id le' Hid H1) as (s' & Hg' & _). destruct (reach_good E cs (k_prefix k) lo Hido H2) as (so' & Hgo' & _).
  exists s'. exact (G d le' s' lo so' H1 Hg' Hind H2 Hgo' Hincl).
Qed.
Example C71_example :
  log (k_db carol) (em_prefix (sem_msg w_icp)) = [stored w_icp] /\ em_prefix (sem_msg w_icp) <> id_default
  /\ exists k r, make_rct etoy ktoy carol (sem_msg w_icp) = (k, Ok r)
  /\ (exists s, snd (process etoy (run etoy db_empty [CProcess (MEvent w_icp); CProcess (MEvent (of_ok s_icp (snd (carol_with []))))]) (MTransferableRct r)) = Ok s).
Proof. ex_vm. Qed.

Print Assumptions C57_own_events_are_accepted.
Print Assumptions C57_contents.
Print Assumptions C58_refuted.
Print Assumptions C58_state_frozen_forever.
Print Assumptions C58_own_digest_partial.
Print Assumptions C59_refuted.
Print Assumptions C59_failed_rotation_changes_keys.
Print Assumptions C59_careful_partial.
Print Assumptions C60_only_listed.
Print Assumptions C60_before_rotation_partial.
Print Assumptions C60_after_rotation_refuted.
Print Assumptions C61_logs_partial.
Print Assumptions C61_accepted_receipt_panics.
Print Assumptions C61_bad_start_drops_everything.
Print Assumptions C61_refuted.
Print Assumptions C62_authenticated.
Print Assumptions C62_log_exact.
Print Assumptions C62_state_exact.
Print Assumptions C62_reply_route_panics.
Print Assumptions C62_answered.
Print Assumptions C71_receipts_of_known_events.
