(** * Prop_Digest: the digest algorithms a message can name (C133).

    Nine algorithms can be named by a prefix, a commitment, a seal or the digest of a message;
    for two of them the library aborts ([KeyConf.digest_aborts]).  See [Prop_State.v] for
    [run E db_empty cs] and [id_default]; [Spec.computable] and [SpecProc.checkable] say which
    algorithms are meant. *)
From Verif Require Import Base Base64 Codes NumFmt Types KeyConf SpecSig State Db Processor Spec SpecProc SpecRules SpecQuery
  StateProofs LogProofs LogTheorems LogTheorems2 SigProofs ProcProofs ProcProofs2 ProcProofs3 QueryProofs AcceptProofs Demo Prop_Query.

(** ** C133: naming a digest algorithm makes no node abort *)
(** Inceptions of the kinds that are implemented. *)
Definition supported (m : EventMessage) : Prop :=
  match em_data m, em_prefix m with
  | Icp _, IdSelfSigning _ | Dip _, IdSelfSigning _ | Dip _, IdBasic _ => False
  | _, _ => True
  end.
(** The full statement: whatever has happened, and whatever digests an event names, an event of a
    kind that is implemented, with signatures that point at existing keys, aborts no node. *)
Definition C133_statement : Prop :=
  forall E cs se,
    let d := run E db_empty cs in let m := sem_msg se in
    let logs := fun id => log_of (log d id) in
    em_prefix m <> id_default -> (exists x, e_deriv_data E m = Ok x) -> e_ser_event E m <> Panic ->
    supported m ->
    (forall kc, SpecRules.keys_in_force (logs (em_prefix m)) m = Some kc -> rational_threshold (kc_threshold kc)
       /\ in_single (kc_threshold kc) (sem_sigs se)
       /\ Forall (fun s => index_of s < List.length (kc_keys kc)) (sem_sigs se)) ->
    snd (process E d (MEvent se)) <> Panic.

(** Refuted: an inception event for an identifier that names such an algorithm aborts every
    node that receives it; no signature is needed. *)
Theorem C133_refuted_inception :
  forall E cs se i g,
    let d := run E db_empty cs in
    em_data (sem_msg se) = Icp i -> em_prefix (sem_msg se) = IdSelfAddressing g -> IdSelfAddressing g <> id_default ->
    ~ computable (sap_code g) -> sap_code (em_digest (sem_msg se)) <> sap_code g ->
    (exists x, e_deriv_data E (sem_msg se) = Ok x) ->
    process E d (MEvent se) = (d, Panic).
Proof.
  cbv zeta. intros E cs se i g Hd Hp Hid Hc Hn Hx. cbn [process]. unfold process_event, check_delegation. rewrite Hd.
  unfold apply_to_state. rewrite Hp.
  destruct (reach_log_good E cs _ Hid) as (s & Hg & Hcs).
  destruct (compute_state E (run E db_empty cs) (IdSelfAddressing g)) as [os| |]; try contradiction. cbn [obind].
  assert (A : forall s0, apply_msg E (sem_msg se) s0 = Panic).
  { intros s0. unfold apply_msg, verify_identifier_binding. rewrite Hd, Hp.
    destruct (check_digest_iff E (sem_msg se) g Hx) as (_ & _ & H3 & _).
    assert (P : check_digest E (sem_msg se) g = Panic) by (apply H3; intros [H|H]; contradiction).
    rewrite P. reflexivity. }
  rewrite A. reflexivity.
Qed.
Print Assumptions C133_refuted_inception.
Definition f_icp : EventMessage := mkEM info0 (em_digest a_icp) (IdSelfAddressing (mkSAP (Blake2B256 []) (repeat x01 32))) 0 (em_data a_icp).
Theorem C133_refuted : ~ C133_statement.
Proof.
  intros H. specialize (H toy [] (mkSEM f_icp [] None)). cbv zeta in H. cbn [sem_msg sem_sigs] in H.
  refine (H _ _ _ _ _ _); clear H.
  - vm_compute; discriminate.
  - eexists. reflexivity.
  - discriminate.
  - exact I.
  - intros kc Hk. assert (K : exists a b, SpecRules.keys_in_force (log_of (log (run toy db_empty []) (em_prefix f_icp))) f_icp = Some (mkKC (Simple 2) a b))
      by (eexists _, _; vm_compute; reflexivity).
    destruct K as (a & b & K). rewrite K in Hk. injection Hk as <-. split; [exact I|]. split; [exact I|constructor].
  - vm_compute. reflexivity.
Qed.
Print Assumptions C133_refuted.

(** Refuted: an identifier may commit to its next keys with such an algorithm (its events are
    accepted like any others).  From then on every rotation that anybody sends for it, at the
    place of the next event, aborts the node; again no signature is needed. *)
Theorem C133_refuted_rotation :
  forall E cs se r s n,
    let d := run E db_empty cs in let id := em_prefix (sem_msg se) in
    em_data (sem_msg se) = Rot r -> id <> id_default -> log d id <> [] ->
    compute_state E d id = Ok (Some s) -> st_delegator s = None ->
    kc_next (st_current s) = Some n -> ~ computable (sap_code n) -> em_sn (sem_msg se) = (st_sn s + 1)%N ->
    process E d (MEvent se) = (d, Panic).
Proof.
  cbv zeta. intros E cs se r s n Hd Hid Hl Hs Hdel Hn Hc Hsn. cbn [process]. unfold process_event, check_delegation. rewrite Hd.
  unfold apply_to_state. rewrite Hs. cbn [obind].
  destruct (get_kel (run E db_empty cs) (em_prefix (sem_msg se))) as [l|] eqn:Hk; [|unfold log in Hl; rewrite Hk in Hl; contradiction Hl; reflexivity].
  assert (Hne : l <> []) by (unfold log in Hl; rewrite Hk in Hl; exact Hl).
  pose proof (c03_prefix E cs _ l s Hid Hk Hne Hs) as Hp.
  assert (P : apply_msg E (sem_msg se) s = Panic).
  { unfold apply_msg. rewrite Hd, check_event_digest_ok, Hdel. cbn [obind].
    assert (Q : apply_event E (sem_msg se) s = Panic).
    { apply apply_event_panic. rewrite Hd. split; [now symmetry|]. split; [exact Hsn|]. eauto. }
    rewrite Q. reflexivity. }
  rewrite P. reflexivity.
Qed.
Print Assumptions C133_refuted_rotation.
(** So the identifier never gets other keys: whatever arrives, in whatever order, no
    establishment event ever follows one that commits with such an algorithm. *)
Theorem C133_keys_frozen :
  forall E cs id l j k e e' kc n,
    id <> id_default -> get_kel (run E db_empty cs) id = Some l ->
    nth_error l j = Some e -> est_keys (sem_msg e) = Some kc -> kc_next kc = Some n -> ~ computable (sap_code n) ->
    j < k -> nth_error l k = Some e' -> is_establishment (sem_msg e') = false.
Proof.
  intros E cs id l j k e e' kc n Hid Hl He Hk Hn Hc. apply (c04_frozen_any E cs id l j k e e' kc); auto.
  intros n' Hn'. congruence.
Qed.
Print Assumptions C133_keys_frozen.

(** Refuted: so does a reply that anybody signs with a key of his own. *)
Theorem C133_refuted_reply :
  forall E d r k sg ser,
    sr_sig r = NonTransferable k sg -> reply_route r = RReplyKsn (IdBasic k) ->
    e_ser_reply E (sr_reply r) = Ok ser -> sig_ok E k ser sg ->
    (exists x, e_deriv_reply E (sr_reply r) = Ok x) -> ~ computable (sap_code (rp_digest (sr_reply r))) ->
    process E d (MKeyStateNotice r) = (d, Panic).
Proof.
  intros E d r k sg ser Hs Hr Hser Hv (x & Hx) Hc. cbn [process]. unfold process_signed_reply. unfold reply_route in Hr. rewrite Hr, Hs.
  cbn [get_signer]. destruct (IdentifierPrefix_eq_dec _ _) as [_|Q]; [|congruence]. rewrite Hser.
  apply (c33_nontransferable E d ser k sg) in Hv. rewrite Hv. unfold reply_check_digest. rewrite Hx. cbn [obind].
  unfold verify_binding. apply not_computable in Hc. rewrite Hc. reflexivity.
Qed.
Print Assumptions C133_refuted_reply.
(** Refuted: and a receipt of any event of the node that points with such a digest at the keys
    of any identifier the node knows; it need not be signed. *)
Theorem C133_refuted_receipt :
  forall E d r e e' ,
    get_event_at_sn d (rct_prefix (tr_body r)) (rct_sn (tr_body r)) = Some e ->
    get_event_at_sn d (es_prefix (tr_seal r)) (es_sn (tr_seal r)) = Some e' ->
    (exists x, e_deriv_data E (sem_msg e') = Ok x) -> ~ checkable (sem_msg e') (es_digest (tr_seal r)) ->
    process E d (MTransferableRct r) = (d, Panic).
Proof.
  intros E d r e e' He He' Hx Hc. cbn [process]. unfold process_validator_receipt. rewrite He. unfold get_keys_at_event. rewrite He'.
  destruct (check_digest_iff E (sem_msg e') (es_digest (tr_seal r)) Hx) as (_ & _ & H3 & _).
  rewrite (proj2 H3 Hc). reflexivity.
Qed.
Print Assumptions C133_refuted_receipt.

(** *** What holds *)
(** The identifier in whose log the seal of a delegated event is looked up. *)
Definition consulted (l : list EventMessage) (m : EventMessage) : option IdentifierPrefix :=
  match em_data m with Dip _ => named_delegator m | Drt _ => delegator_of l m | _ => None end.
(** Everything in the logs and in the event that is compared with the event by its digest can
    be compared: the identifier of an inception, the commitment that a rotation has to meet,
    the seals of the delegator. *)
Definition comparable (E : Env) (logs : IdentifierPrefix -> list EventMessage) (m : EventMessage) : Prop :=
  let l := logs (em_prefix m) in
  (is_inception m = true -> forall g, em_prefix m = IdSelfAddressing g -> checkable m g)
  /\ (is_rotation m = true -> forall e kc n, last_establishment l = Some e -> est_keys e = Some kc -> kc_next kc = Some n ->
        computable (sap_code n))
  /\ (forall p x data es, consulted l m = Some p -> In x (logs p) -> anchor_data x = Some data ->
        In (SealEvent es) data -> checkable m (es_digest es)).
(** If so, an event of a kind that is implemented, with signatures that point at existing keys,
    aborts no node. *)
Theorem C133_partial :
  forall E cs se,
    let d := run E db_empty cs in let m := sem_msg se in
    let logs := fun id => log_of (log d id) in
    em_prefix m <> id_default -> (exists x, e_deriv_data E m = Ok x) -> e_ser_event E m <> Panic ->
    supported m -> comparable E logs m ->
    (forall kc, SpecRules.keys_in_force (logs (em_prefix m)) m = Some kc -> rational_threshold (kc_threshold kc)
       /\ in_single (kc_threshold kc) (sem_sigs se)
       /\ Forall (fun s => index_of s < List.length (kc_keys kc)) (sem_sigs se)) ->
    snd (process E d (MEvent se)) <> Panic.
Proof.
  cbv zeta. intros E cs se Hid Hx Hser Hsup (C1 & C2 & C3) Hkeys.
  set (d := run E db_empty cs) in *. set (m := sem_msg se) in *. set (id := em_prefix m) in *.
  destruct (reach_log_good E cs id Hid) as (s & Hg & Hcs). fold d in Hg, Hcs.
  destruct (good_log_shape _ _ _ _ Hid Hg) as (_ & Hsh & _).
  assert (Has : apply_to_state E d m = apply_msg E m s).
  { unfold apply_to_state. fold id. destruct (compute_state E d id) as [[s'|]| |]; try contradiction; cbn; now subst. }
  assert (Hv : forall p sn dg, consulted (log_of (log d id)) m = Some p -> validate_seal E d (mkES p sn dg) m <> Panic).
  { intros p sn dg Hp. unfold validate_seal. cbn [es_prefix es_sn].
    destruct (get_event_at_sn d p sn) as [x|] eqn:Hxe; [|discriminate].
    assert (Hin : In (sem_msg x) (log_of (log d p))).
    { rewrite get_event_log in Hxe. apply find_some in Hxe. apply in_map. apply Hxe. }
    assert (Hany : forall data, anchor_data (sem_msg x) = Some data -> any_anchor E m data <> Panic).
    { intros data Hdata.
      assert (Hall : forall es, In (SealEvent es) data -> checkable m (es_digest es)) by (intros es Hes; exact (C3 p _ data es Hp Hin Hdata Hes)).
      clear Hdata. induction data as [|y data IH]; [discriminate|].
      assert (IH' : any_anchor E m data <> Panic) by (apply IH; intros es Hes; apply Hall; now right).
      cbn [any_anchor]. destruct y as [l|es|g|g]; auto.
      destruct (check_digest_iff E m (es_digest es) Hx) as (_ & _ & K3 & K4).
      destruct (check_digest E m (es_digest es)) as [[|]|e|] eqn:Hc; auto; [discriminate|now destruct (K4 e)|].
      exfalso. apply (proj1 K3 eq_refl). apply Hall. now left. }
    unfold anchor_data in Hany. destruct (em_data (sem_msg x)); cbn [obind]; try discriminate;
      specialize (Hany _ eq_refl); destruct (any_anchor _ _ _) as [[|]| |]; cbn [obind]; congruence. }
  assert (Hcd : check_delegation E d se <> Panic).
  { unfold check_delegation. fold m. destruct (em_data m) as [i|r|i|dip|r] eqn:Hd; try discriminate.
    - destruct (sem_seal se) as [src|]; cbn [ok_or obind]; [|discriminate].
      apply Hv. unfold consulted, named_delegator. now rewrite Hd.
    - fold id. destruct (compute_state E d id) as [[s'|]| |]; try contradiction; cbn [ok_or obind]; [|discriminate]. subst s'.
      destruct (st_delegator s) as [p|] eqn:Hsd; cbn [ok_or obind]; [|discriminate].
      destruct (sem_seal se) as [src|]; cbn [ok_or obind]; [|discriminate].
      apply Hv. unfold consulted. rewrite Hd. destruct (log d id) as [|f l] eqn:Hl.
      { cbn in Hsh. subst s. discriminate Hsd. }
      destruct (good_deleg E id _ _ f Hid Hg eq_refl) as (Hdel & _). cbn. congruence. }
  assert (Hap : apply_msg E m s <> Panic).
  { intros HP. apply c11_panic in HP; [|destruct Hx as (x & ->); discriminate].
    assert (U : unmeetable m s -> is_rotation m = true -> False).
    { intros (U1 & U2 & n & U3 & U4) Hr. apply U4. destruct (log d id) as [|f l] eqn:Hl.
      { cbn in Hsh. subst s. discriminate U3. }
      destruct (good_keys E id _ _ Hid Hg ltac:(discriminate)) as (e0 & He0 & Hk0). exact (C2 Hr e0 _ n He0 Hk0 U3). }
    assert (W : forall g, unhashable E m g -> em_prefix m = IdSelfAddressing g -> is_inception m = true -> False).
    { intros g (W1 & W2 & _) Hp Hi. destruct (C1 Hi g Hp); contradiction. }
    unfold supported in Hsup. unfold is_rotation in U. unfold is_inception in W.
    destruct (em_data m), (em_prefix m) eqn:Hpre; try contradiction; eauto; destruct HP as [_ HP]; eauto. }
  cbn [process]. unfold process_event. fold m. fold id.
  destruct (check_delegation E d se); [|discriminate|congruence]. rewrite Has.
  destruct (apply_msg E m s) as [s'|e|] eqn:Ha; [|discriminate|congruence].
  destruct (e_ser_event E m) as [ser|e|]; [|discriminate|congruence].
  assert (Hk : SpecRules.keys_in_force (log_of (log d id)) m = Some (st_current s')).
  { assert (Hg' : good_log E id (log d id ++ [se]) s') by (apply good_log_snoc; exists s; auto).
    destruct (good_keys E id _ _ Hid Hg' ltac:(now destruct (log d id))) as (e0 & He & Hk).
    rewrite log_of_app in He. cbn in He. unfold SpecRules.keys_in_force. fold m in He. now rewrite He. }
  destruct (Hkeys _ Hk) as (K1 & K2 & K3).
  unfold verify_signatures. destruct (kc_verify E (st_current s') ser (sem_sigs se)) as [[|]|e|] eqn:Hver; cbn [obind snd]; try discriminate.
  exfalso. apply verify_panics_iff in Hver; [|exact K1]. destruct Hver as [Q|(_ & _ & Q)]; contradiction.
Qed.
Print Assumptions C133_partial.
(** The same for the functions that compare digests. *)
Theorem C133_comparisons_partial :
  forall E,
    (forall p data, verify_binding E p data = Panic <-> ~ computable (sap_code p))
    /\ (forall kc next, verify_next E kc next = Panic <-> exists n, kc_next kc = Some n /\ ~ computable (sap_code n))
    /\ (forall m g x, e_deriv_data E m = Ok x -> (check_digest E m g = Panic <-> ~ checkable m g)).
Proof.
  intros E. refine (conj _ (conj _ _)).
  - intros p data. unfold verify_binding. rewrite <- not_computable. destruct (digest_aborts _); split; congruence.
  - intros kc next. unfold verify_next. destruct (kc_next kc) as [n|].
    + destruct (digest_aborts (sap_code n)) eqn:Hab; split; try discriminate.
      * intros _. exists n. split; [reflexivity|]. now apply not_computable.
      * reflexivity.
      * intros (n' & Hn & Hc). injection Hn as <-. apply not_computable in Hc. congruence.
    + split; [discriminate|]. intros (n & Hn & _). discriminate Hn.
  - intros m g x Hx. destruct (check_digest_iff E m g (ex_intro _ x Hx)) as (_ & _ & H & _). exact H.
Qed.
Print Assumptions C133_comparisons_partial.

(** *** Hypotheses met *)
(** Frank's identifier names a good algorithm, but commits to his next key with the other one. *)
Definition f_kc : KeyConfig := mkKC (Simple 1) [key x51] (Some (mkSAP (Blake2S256 []) (repeat x07 32))).
Definition f_ok : EventMessage := mk_incept (Icp (mkIcp f_kc (mkIWC 0 []) [] [])).
Definition frank : IdentifierPrefix := em_prefix f_ok.
Definition f_rot : EventMessage := mk_event frank 1 (Rot (mkRot (em_digest f_ok) (kc_of [key x52] [key x53] 1) (mkWC 0 [] []) [])).
Definition with_frank : list Call := [CProcess (MEvent (signed f_ok [key x51] None))].
Definition frank_state : IdentifierState := state_of toy (run toy db_empty with_frank) frank.
Example C133_rotation_example :
  frank <> id_default /\ log (run toy db_empty with_frank) frank <> []
  /\ compute_state toy (run toy db_empty with_frank) frank = Ok (Some frank_state) /\ st_delegator frank_state = None
  /\ kc_next (st_current frank_state) = Some (mkSAP (Blake2S256 []) (repeat x07 32))
  /\ process toy (run toy db_empty with_frank) (MEvent (mkSEM f_rot [] None)) = (run toy db_empty with_frank, Panic).
Proof. ex_vm. Qed.
Example C133_inception_example : process toy demo (MEvent (mkSEM f_icp [] None)) = (demo, Panic).
Proof. vm_compute. reflexivity. Qed.
Definition f_reply : ReplyMessage :=
  mkReply info0 (mkSAP (Blake2B256 []) (repeat x08 32)) 100 (RReplyKsn (IdBasic (key x54))) (notice about_alice 100).
Example C133_reply_example : process toy demo (MKeyStateNotice (by_bare (key x54) f_reply)) = (demo, Panic).
Proof. vm_compute. reflexivity. Qed.
Definition f_rct : SignedTransferableReceipt := mkTRct (rct_of a_rot) (mkES bob 0 (mkSAP (Blake2S256 []) (repeat x09 32))) [].
Example C133_receipt_example : process toy demo (MTransferableRct f_rct) = (demo, Panic).
Proof. vm_compute. reflexivity. Qed.
(** the demo's delegated rotation meets the hypotheses of [C133_partial] *)
Definition before_drt : Db := run toy db_empty (firstn 5 demo_events).
Example C133_partial_example : supported b_drt /\ comparable toy (fun id => log_of (log before_drt id)) b_drt.
Proof.
  split; [exact I|]. unfold comparable. cbv zeta. refine (conj _ (conj _ _)).
  - intros H. discriminate H.
  - intros _ e kc n He Hk Hn.
    assert (Q : forall e, last_establishment (log_of (log before_drt (em_prefix b_drt))) = Some e -> e = b_dip) by (intros e0; vm_compute; congruence).
    apply Q in He. subst e. assert (K : kc = kc_of [key x11] [key x12] 1) by (vm_compute in Hk; vm_compute; congruence). subst kc.
    vm_compute in Hn. injection Hn as <-. exact I.
  - intros p x data es Hp Hx Hd Hs.
    assert (P : p = alice) by (vm_compute in Hp; vm_compute; congruence). subst p.
    assert (L : log_of (log before_drt alice) = [a_icp; a_rot; a_ixn; a_ixn2]) by (vm_compute; reflexivity). rewrite L in Hx.
    cbn in Hx. destruct Hx as [<-|[<-|[<-|[<-|[]]]]]; cbn in Hd; try discriminate Hd; injection Hd as <-; cbn in Hs;
      try contradiction; destruct Hs as [Hs|[]]; injection Hs as <-; right; exact I.
Qed.
