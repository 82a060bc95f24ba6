(** * Prop_Manager: C128 - C130, controllers over any key manager, and the wallet. *)
From Verif Require Import Base Base64 Codes NumFmt Types KeyConf State Db Processor Spec Cesr Message Keri SpecKeri
  SpecProc Demo KeriProofs Manager SpecManager ManagerProofs Prop_Keri.

(** ** C128: a key manager that keeps its word is as good as the built-in one *)
(** The node answers every sequence of calls with the same answers, leaves the same store and has
    the same identifier as the node whose keys are in a [CryptoBox]. *)
Theorem C128_any_manager :
  forall (E : Env) (K : KEnv) (M : Type) (G : Manager M) (R : M -> CryptoBox -> Prop), keeps_word K G R ->
  forall (p : IdentifierPrefix) (g : M) (b : CryptoBox) (d : Db) (ops : list NodeOp), R g b -> Forall generated ops ->
    let there := does (mgr_do E K G) (mkKM p g d) ops in
    let here := does (box_do E K) (mkKeri p b d) ops in
    snd there = snd here /\ km_prefix (fst there) = k_prefix (fst here) /\ km_db (fst there) = k_db (fst here)
    /\ R (km_mgr (fst there)) (k_box (fst here)).
Proof.
  intros E K M G R HR p g b d ops Hg Ho there here.
  destruct (does_agree E K G R HR ops Ho (mkKM p g d) (mkKeri p b d)) as [(H1 & H2 & H3) H4].
  { split; [reflexivity|]. split; [reflexivity|exact Hg]. }
  split; [exact H4|]. split; [exact H1|]. split; [exact H2|exact H3].
Qed.
Print Assumptions C128_any_manager.
(** The built-in manager is one of them. *)
Theorem C128_box_is_one : forall (E : Env) (K : KEnv), keeps_word K (box_manager K) eq.
Proof.
  intros E K b ? <-. split; [reflexivity|]. split; [reflexivity|]. split; [reflexivity|].
  intros fresh _. eexists. split; reflexivity.
Qed.
Print Assumptions C128_box_is_one.

(** the operations of C57, and their results *)
Definition node_op (o : Op) : NodeOp :=
  match o with
  | ORotate f => NRotate f
  | OIxn p pk npk => NIxn p pk npk
  | OInteract peer => NInteract peer
  | OCall c => NCall c
  end.
Definition events_of (l : list NodeAnswer) : list (out SignedEventMessage) :=
  flat_map (fun a => match a with AEvent r => [r] | _ => [] end) l.
Lemma operate_does E K ops : forall k,
  fst (does (box_do E K) k (map node_op ops)) = fst (operate E K k ops)
  /\ events_of (snd (does (box_do E K) k (map node_op ops))) = snd (operate E K k ops).
Proof.
  induction ops as [|o ops IH]; intros k; [split; reflexivity|].
  destruct o; cbn [map node_op does box_do operate ans fst snd].
  - destruct (rotate E K k fresh) as [k1 x]. cbn [fst snd]. specialize (IH k1). destruct (does _ k1 _), (operate _ _ k1 _). cbn [fst snd] in *.
    destruct IH as [-> IH]. split; [reflexivity|]. cbn [events_of flat_map app]. f_equal. exact IH.
  - destruct (make_ixn E K k payload pk npk) as [k1 x]. cbn [fst snd]. specialize (IH k1). destruct (does _ k1 _), (operate _ _ k1 _). cbn [fst snd] in *.
    destruct IH as [-> IH]. split; [reflexivity|]. cbn [events_of flat_map app]. f_equal. exact IH.
  - destruct (interact E K k peer) as [k1 x]. cbn [fst snd]. specialize (IH k1). destruct (does _ k1 _), (operate _ _ k1 _). cbn [fst snd] in *.
    destruct IH as [-> IH]. split; [reflexivity|]. cbn [events_of flat_map app]. f_equal. exact IH.
  - specialize (IH (set_db k (call E (k_db k) c))). destruct (does _ (set_db _ _) _), (operate _ _ (set_db _ _) _). cbn [fst snd] in *.
    destruct IH as [-> IH]. split; [reflexivity|]. exact IH.
Qed.
(** So the promise of C57 holds with any such manager: inception and everything after it is
    accepted, the log holds exactly the events returned, and the keys in force are those that the
    manager reports. *)
Theorem C128_own_events_are_accepted :
  forall (E : Env) (K : KEnv) (M : Type) (G : Manager M) (R : M -> CryptoBox -> Prop), keeps_word K G R ->
  forall (cs : list Call) (g : M) (b : CryptoBox) (extra ws : list BasicPrefix), R g b ->
    events_serialize E K -> works E K (cb_cur b) -> works E K (cb_next b) ->
    (extra <> [] -> forall msg, e_digest E Blake3_256 msg <> []) ->
    let d := run E db_empty cs in
    (forall se, snd (m_incept_with E K G (m_new g db_empty) extra ws) = Ok se -> log d (em_prefix (sem_msg se)) = []) ->
    exists k se, m_incept_with E K G (m_new g d) extra ws = (k, Ok se)
      /\ km_prefix k = em_prefix (sem_msg se)
      /\ forall ops, Forall (op_ok E K (km_prefix k)) ops -> Forall generated (map node_op ops) ->
           let there := does (mgr_do E K G) k (map node_op ops) in
           exists evs cur next, events_of (snd there) = map Ok evs
             /\ km_prefix (fst there) = km_prefix k
             /\ log (km_db (fst there)) (km_prefix k) = map stored (se :: evs)
             /\ mg_public G (km_mgr (fst there)) = Ok cur /\ mg_next G (km_mgr (fst there)) = Ok next
             /\ in_force E (km_db (fst there)) (km_prefix k) cur next.
Proof.
  intros E K M G R HR cs g b extra ws Hg HS Hc Hn Hd d Hnew.
  assert (Hsim : forall d0, sim R (m_new g d0) (keri_new b d0)) by (intros d0; split; [reflexivity|]; split; [reflexivity|exact Hg]).
  assert (Hnew' : forall se, snd (incept_with E K (keri_new b db_empty) extra ws) = Ok se -> log d (em_prefix (sem_msg se)) = []).
  { intros se Hse. apply Hnew. destruct (incept_agree E K G R HR _ _ extra ws (Hsim db_empty)) as [_ ->]. exact Hse. }
  destruct (C57_own_events_are_accepted E K cs b extra ws HS Hc Hn Hd Hnew') as (c & se & Hi & Hp & Hb & Hops).
  destruct (incept_agree E K G R HR _ _ extra ws (Hsim d)) as [Hs Ho]. fold d in Hi. rewrite Hi in Hs, Ho. cbn [fst snd] in Hs, Ho.
  destruct (m_incept_with E K G (m_new g d) extra ws) as [k r]. cbn [fst snd] in Hs, Ho. subst r.
  exists k, se. split; [reflexivity|]. pose proof Hs as (H1 & H2 & H3). split; [rewrite H1; exact Hp|].
  intros ops Hok Hgen there. rewrite H1 in Hok. destruct (Hops ops Hok) as (evs & R1 & R2 & R3 & R4 & _ & _).
  destruct (does_agree E K G R HR (map node_op ops) Hgen k c Hs) as [(S1 & S2 & S3) S4].
  destruct (operate_does E K ops c) as [D1 D2]. rewrite D1 in S1, S2, S3. destruct (HR _ _ S3) as (P1 & P2 & _ & _).
  exists evs, (kp_pub (cb_cur (k_box (fst (operate E K c ops))))), (kp_pub (cb_next (k_box (fst (operate E K c ops))))).
  split; [unfold there; rewrite S4, D2; exact R1|]. split; [unfold there; rewrite S1, H1; exact R2|].
  split; [unfold there; rewrite S2, H1; exact R3|]. split; [exact P1|]. split; [exact P2|].
  unfold there. rewrite S2, H1. exact R4.
Qed.
Print Assumptions C128_own_events_are_accepted.
(** A manager that does not keep its word (it makes the generated key the current one, not the
    announced one) cannot rotate. *)
Definition careless : Manager CryptoBox :=
  mkMgr CryptoBox (box_sign ktoy) (fun b => Ok (kp_pub (cb_cur b))) (fun b => Ok (kp_pub (cb_next b)))
    (fun b fresh => (mkBox fresh (cb_next b), Ok tt)).
Definition n_ops : list NodeOp :=
  [NIncept [] []; NCall (CProcess (MEvent w_icp)); NReceipt (sem_msg w_icp); NRotate (pair_of x53); NIxn (Some (bstr "hi")) [] []].
Definition good (a : NodeAnswer) : bool :=
  match a with AEvent (Ok _) | AReceipt (Ok _) | AWitness (Ok _) | AState (Ok _) | ABytes (Ok _) => true | _ => false end.
Example C128_example :
  Forall generated n_ops
  /\ map good (snd (does (mgr_do etoy ktoy (box_manager ktoy)) (m_new c_box db_empty) n_ops)) = [true; false; true; true; true]
  /\ map good (snd (does (mgr_do etoy ktoy careless) (m_new c_box db_empty) n_ops)) = [true; false; true; false; false].
Proof.
  apply conj; [repeat (apply Forall_cons; [first [exact I|vm_compute; discriminate]|]); apply Forall_nil|].
  ex_vm.
Qed.

(** ** C129: a wallet rotates to the key that it announced *)
(** The claim: whatever else is in the wallet and however it enumerates its contents, after
    [incept_keys] every rotation succeeds, makes the key that [next_public_key] returned the
    current one, and the signature is made with it. *)
Definition C129_statement : Prop :=
  forall (K : KEnv) (pick : list Content -> option Content) (w0 : Wallet) (cur next crypto fresh : KeyPair),
    finds_one pick -> kp_pub cur <> [] -> kp_pub next <> [] -> kp_pub crypto <> [] -> kp_pub fresh <> [] ->
    let w := incept_keys w0 cur next crypto in
    snd (wallet_rotate pick w fresh) = Ok tt
    /\ mg_public (wallet_manager K pick) (fst (wallet_rotate pick w fresh)) = mg_next (wallet_manager K pick) w.
(** an older pair was filed under the controller "next" *)
Definition attic : Wallet := [(bstr "old", CKeyPair KEd25519 (mkPI [NEXT] (kp_pub (pair_of x99))) (kp_priv (pair_of x99)))].
Fixpoint final (l : list Content) : option Content :=
  match l with [] => None | [x] => Some x | _ :: r => final r end.
Lemma final_finds : finds_one final.
Proof.
  split.
  - induction l as [|a l IH]; intros x H; [discriminate H|]. destruct l as [|b l]; [left; cbn in H; congruence|].
    right. apply IH. exact H.
  - induction l as [|a l IH]; intros H; [congruence|]. destruct l as [|b l]; [discriminate|]. apply IH. discriminate.
Qed.
Theorem C129_refuted : ~ C129_statement.
Proof.
  intros H. destruct (H ktoy final attic (pair_of x51) (pair_of x52) (pair_of x58) (pair_of x53) final_finds) as [_ H2];
    [vm_compute; discriminate..|]. vm_compute in H2. discriminate H2.
Qed.
Print Assumptions C129_refuted.
(** With any number of rotations, if nothing else has the controller "next": all rotations succeed
    and the keys are those of a [CryptoBox] that was rotated with the same generated pairs. *)
Theorem C129_partial :
  forall (K : KEnv) (pick : list Content -> option Content) (w0 : Wallet) (cur next crypto : KeyPair) (fs : list KeyPair),
    finds_one pick -> no_other_next w0 -> kp_pub cur <> [] -> kp_pub next <> [] -> Forall (fun f => kp_pub f <> []) fs ->
    let (w, rs) := turned pick (incept_keys w0 cur next crypto) fs in
    let b := fold_left box_rotate fs (mkBox cur next) in
    rs = repeat (Ok tt) (List.length fs)
    /\ mg_public (wallet_manager K pick) w = Ok (kp_pub (cb_cur b))
    /\ mg_next (wallet_manager K pick) w = Ok (kp_pub (cb_next b))
    /\ (forall msg, mg_sign (wallet_manager K pick) w msg = k_sign_ed K (kp_priv (cb_cur b)) msg)
    /\ forall fresh, kp_pub fresh <> [] ->
         mg_public (wallet_manager K pick) (fst (wallet_rotate pick w fresh)) = mg_next (wallet_manager K pick) w.
Proof.
  intros K pick w0 cur next crypto fs Hp Hw Hc Hn Hf.
  pose proof (turned_holds pick Hp fs Hf _ _ (incept_holds w0 cur next crypto Hw Hc Hn)) as [H1 H2].
  destruct (turned pick _ fs) as [w rs]. cbn [fst snd] in H1, H2. cbv zeta.
  destruct (wallet_keeps K pick Hp w _ H2) as (P1 & P2 & P3 & P4).
  split; [exact H1|]. split; [exact P1|]. split; [exact P2|]. split; [exact P3|].
  intros fresh Hfr. destruct (P4 fresh Hfr) as (w' & Hw' & H'). cbn [wallet_manager mg_rotate] in Hw'. rewrite Hw'. cbn [fst].
  destruct (wallet_keeps K pick Hp w' _ H') as (Q1 & _). rewrite Q1, P2. reflexivity.
Qed.
Print Assumptions C129_partial.
(** and a node over such a wallet does what the node over the [CryptoBox] does *)
Theorem C129_wallet_node :
  forall (E : Env) (K : KEnv) (pick : list Content -> option Content) (w0 : Wallet) (cur next crypto : KeyPair) (d : Db)
         (ops : list NodeOp),
    finds_one pick -> no_other_next w0 -> kp_pub cur <> [] -> kp_pub next <> [] -> Forall generated ops ->
    let there := does (mgr_do E K (wallet_manager K pick)) (m_new (incept_keys w0 cur next crypto) d) ops in
    let here := does (box_do E K) (keri_new (mkBox cur next) d) ops in
    snd there = snd here /\ km_prefix (fst there) = k_prefix (fst here) /\ km_db (fst there) = k_db (fst here).
Proof.
  intros E K pick w0 cur next crypto d ops Hp Hw Hc Hn Hg there here.
  destruct (C128_any_manager E K Wallet (wallet_manager K pick) holds (wallet_keeps K pick Hp) id_default
              (incept_keys w0 cur next crypto) (mkBox cur next) d ops (incept_holds w0 cur next crypto Hw Hc Hn) Hg) as (H1 & H2 & H3 & _).
  split; [exact H1|]. split; [exact H2|exact H3].
Qed.
Print Assumptions C129_wallet_node.
(** A node whose wallet picks the wrong pair: its first rotation is refused. *)
Example C129_example :
  finds_one (fun l => hd_error l) /\ no_other_next [(bstr "seed", CEntropy [])]
  /\ map good (snd (does (mgr_do etoy ktoy (wallet_manager ktoy (fun l => hd_error l)))
       (m_new (incept_keys [(bstr "seed", CEntropy [])] (pair_of x51) (pair_of x52) (pair_of x58)) db_empty) n_ops))
     = [true; false; true; true; true]
  /\ map good (snd (does (mgr_do etoy ktoy (wallet_manager ktoy final))
       (m_new (incept_keys attic (pair_of x51) (pair_of x52) (pair_of x58)) db_empty) n_ops))
     = [true; false; true; false; false].
Proof.
  apply conj.
  { split; [intros [|a l] x H; [discriminate H|left; cbn in H; congruence]|intros [|a l] H; [congruence|discriminate]]. }
  apply conj; [intros id c [H|[]] _ _ _; assert (c = CEntropy []) by congruence; subst c; reflexivity|].
  ex_vm.
Qed.

(** ** C130: a node made by [new_with_fresh_wallet] can be used *)
(** The claim: with keys that work and a serializer that works, its inception is accepted. *)
Definition C130_statement : Prop :=
  forall (E : Env) (K : KEnv) (pick : list Content -> option Content) (d : Db) (cur next crypto : KeyPair),
    events_serialize E K -> finds_one pick -> works E K cur -> works E K next -> kp_pub cur <> [] -> kp_pub next <> [] ->
    get_kel d (IdBasic (mkBP ECDSAsecp256k1 (kp_pub cur))) = None ->
    exists k se, m_incept_with E K (wallet_manager K pick) (new_with_fresh_wallet d cur next crypto) [] [] = (k, Ok se).
Theorem C130_refuted : ~ C130_statement.
Proof.
  intros H. destruct (H etoy ktoy final db_empty (pair_of x51) (pair_of x52) (pair_of x58)) as (k & se & Hk).
  - exact toy_serializes.
  - exact final_finds.
  - apply toy_works.
  - apply toy_works.
  - vm_compute; discriminate.
  - vm_compute; discriminate.
  - vm_compute; reflexivity.
  - destruct (incept_fails etoy ktoy (wallet_manager ktoy final) (kp_pub (pair_of x51)) (new_with_fresh_wallet db_empty (pair_of x51) (pair_of x52) (pair_of x58)) [] [] eq_refl) as (r & Hr & Hn).
    rewrite Hr in Hk. assert (r = Ok se) by congruence. subst r. apply Hn. exact I.
Qed.
Print Assumptions C130_refuted.
(** In fact such a node can never make a statement in its own name: with any keys, over any store
    in which its identifier has no log and in which others submit no events for it, every
    inception, rotation, interaction and receipt fails, whatever it tried before, and its log
    stays empty.  (The identifier says that the key is an ECDSA key; the events say that it is an
    Ed25519 key, which is what it is.) *)
Theorem C130_never_usable :
  forall (E : Env) (K : KEnv) (pick : list Content -> option Content) (d : Db) (cur next crypto : KeyPair) (ops : list NodeOp),
    let id := IdBasic (mkBP ECDSAsecp256k1 (kp_pub cur)) in
    get_kel d id = None ->
    Forall (fun o => own_name o \/ exists c, o = NCall c /\ foreign id c) ops ->
    let after := does (mgr_do E K (wallet_manager K pick)) (new_with_fresh_wallet d cur next crypto) ops in
    Forall (fun a => ~ succeeded a) (snd after)
    /\ km_prefix (fst after) = id /\ get_kel (km_db (fst after)) id = None.
Proof.
  intros E K pick d cur next crypto ops id Hn Ho after.
  destruct (node_useless E K (wallet_manager K pick) (kp_pub cur) ops Ho (new_with_fresh_wallet d cur next crypto) eq_refl Hn) as (H1 & H2 & H3).
  split; [exact H1|]. split; [exact H3|exact H2].
Qed.
Print Assumptions C130_never_usable.
(** Even over a store that has a log of the identifier, its inceptions fail and change nothing. *)
Theorem C130_inception_refused :
  forall (E : Env) (K : KEnv) (pick : list Content -> option Content) (pk : bytes) (w : Wallet) (d : Db) (extra ws : list BasicPrefix),
    let k := mkKM (IdBasic (mkBP ECDSAsecp256k1 pk)) w d in
    fst (m_incept_with E K (wallet_manager K pick) k extra ws) = k
    /\ ~ exists se, snd (m_incept_with E K (wallet_manager K pick) k extra ws) = Ok se.
Proof.
  intros E K pick pk w d extra ws k.
  destruct (incept_fails E K (wallet_manager K pick) pk k extra ws eq_refl) as (r & -> & Hn).
  split; [reflexivity|]. intros (se & Hse). cbn [snd] in Hse. subst r. apply Hn. exact I.
Qed.
Print Assumptions C130_inception_refused.
(** What works: the same wallet under [new]. *)
Theorem C130_partial :
  forall (E : Env) (K : KEnv) (pick : list Content -> option Content) (cs : list Call) (cur next crypto : KeyPair),
    events_serialize E K -> finds_one pick -> works E K cur -> works E K next -> kp_pub cur <> [] -> kp_pub next <> [] ->
    log (run E db_empty cs) (IdBasic (ed_key (kp_pub cur))) = [] ->
    exists k se, m_incept_with E K (wallet_manager K pick) (m_new (incept_keys [] cur next crypto) (run E db_empty cs)) [] [] = (k, Ok se)
      /\ km_prefix k = IdBasic (ed_key (kp_pub cur)).
Proof.
  intros E K pick cs cur next crypto HS Hp Hc Hn Hck Hnk Hl.
  assert (Hw : no_other_next []) by (intros id c []).
  destruct (build_icp E K HS (kp_pub cur) [] (kp_pub next) []) as (info & dig & p & Hb & Hpre).
  assert (Hpe : p = IdBasic (ed_key (kp_pub cur))).
  { unfold build in Hb. cbn [b_prefix icp_builder b_type kc_keys kc_new b_keys] in Hb.
    destruct (IdentifierPrefix_eq_dec id_default id_default) as [_|Hd]; [|congruence]. cbn [obind] in Hb.
    unfold event_to_message, said_to_message in Hb.
    destruct (k_dummy_event _ _ _ _ _ _) as [b0| |]; cbn [obind] in Hb; [|discriminate..].
    destruct (k_dummy_event _ _ _ _ _ _) as [b1| |]; cbn [obind] in Hb; [|discriminate..].
    cbn [b_derivation icp_builder digest_aborts] in Hb.
    match type of Hb with Ok ?x = Ok ?y => assert (X : em_prefix x = em_prefix y) by congruence end. cbn [em_prefix] in X. congruence. }
  set (m := mkEM info dig p _ _) in *.
  destruct (incept_step E K HS (mkBox cur next) (run E db_empty cs) [] [] m Hc Hn (fun X => False_ind _ (X eq_refl)) Hb) as (se & Hse & Hi & _).
  { cbn [m em_prefix]. rewrite Hpe. exact Hl. }
  destruct (incept_agree E K (wallet_manager K pick) holds (wallet_keeps K pick Hp)
              (m_new (incept_keys [] cur next crypto) (run E db_empty cs)) (keri_new (mkBox cur next) (run E db_empty cs)) [] []) as [(S1 & _) S2].
  { split; [reflexivity|]. split; [reflexivity|]. apply incept_holds; assumption. }
  rewrite Hi in S1, S2. cbn [fst snd] in S1, S2.
  destruct (m_incept_with E K (wallet_manager K pick) _ [] []) as [k r]. cbn [fst snd] in *. subst r.
  exists k, se. split; [reflexivity|]. rewrite S1. cbn [k_prefix m em_prefix]. exact Hpe.
Qed.
Print Assumptions C130_partial.
Example C130_example :
  map good (snd (does (mgr_do etoy ktoy (wallet_manager ktoy final)) (new_with_fresh_wallet db_empty (pair_of x51) (pair_of x52) (pair_of x58)) n_ops))
  = [false; false; false; false; false].
Proof. ex_vm. Qed.
