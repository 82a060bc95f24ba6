(** * Prop_Proc: the event processor (C19-C35).

    See [Prop_State.v] for [run E db_empty cs] and [id_default]; [SpecProc.v] for the
    vocabulary. *)
From Verif Require Import Base Base64 Codes NumFmt Types KeyConf SpecSig State Db Processor Spec SpecProc
  StateProofs LogProofs LogTheorems LogTheorems2 SigProofs ProcProofs ProcProofs2 ProcProofs3 Demo.

Lemma toy_ser_never_err : forall m x, e_ser_event toy m <> Err x.
Proof. discriminate. Qed.
Lemma demo_quiet : quiet toy db_empty demo_calls = true.
Proof. vm_compute. reflexivity. Qed.

(** used by the refutations: no stored event has digest [g] *)
Lemma aget_in {K V} (dec : forall a b : K, {a = b} + {a <> b}) (t : list (K * V)) k v :
  aget dec t k = Some v -> In v (map snd t).
Proof.
  induction t as [|[k' v'] t IH]; cbn; [discriminate|]. destruct (dec _ _); [intros H; injection H as ->; now left|].
  intros H. right. now apply IH.
Qed.
Lemma no_event_has_digest E d g :
  forallb (fun e => (if SelfAddressing_eq_dec (sap_code (em_digest (sem_msg e))) (sap_code g) then true else false)
                    && (if SAP_eq_dec (em_digest (sem_msg e)) g then false else true)) (List.concat (map snd (db_kel d))) = true ->
  forall id e, In e (log d id) -> ~ digest_of_event E (sem_msg e) g.
Proof.
  intros H id e Hin. rewrite forallb_forall in H.
  assert (Hin' : In e (List.concat (map snd (db_kel d)))).
  { unfold log in Hin. destruct (get_kel d id) as [l|] eqn:Hl; [|destruct Hin]. apply in_concat. exists l.
    split; [|exact Hin]. eapply aget_in. exact Hl. }
  specialize (H e Hin'). apply andb_true_iff in H. destruct H as [H1 H2].
  intros [Hd|[Hd _]].
  - destruct (SAP_eq_dec _ _); congruence.
  - destruct (SelfAddressing_eq_dec _ _); congruence.
Qed.

(** ** C19: acceptance appends exactly the event *)
Theorem C19_acceptance_appends_the_event :
  forall E cs se d' os,
    let d := run E db_empty cs in let id := em_prefix (sem_msg se) in
    id <> id_default -> process E d (MEvent se) = (d', Ok os) ->
    exists s, os = Some s
      /\ get_kel d' id = Some (log d id ++ [mkSEM (sem_msg se) (sem_sigs se) None])
      /\ (forall i, i <> id -> get_kel d' i = get_kel d i)
      /\ compute_state E d' id = Ok (Some s)
      /\ same_but_logs d d'.
Proof. exact c19. Qed.
Print Assumptions C19_acceptance_appends_the_event.
Example C19_example :
  exists d' os, process toy (run toy db_empty [CProcess (MEvent s_icp); CProcess (MEvent s_rot); CProcess (MEvent s_ixn)])
                  (MEvent s_dip) = (d', Ok os).
Proof. ex_vm. Qed.

(** ** C20: rejection leaves the log unchanged.  Refuted for the computed state: a rejected
    inception of an unknown identifier leaves an entry without events, and the identifier
    then has a (default) state. *)
Definition unsigned_icp : SignedEventMessage := mkSEM a_icp [] None.
Theorem C20_refuted :
  exists E cs se d' e,
    let d := run E db_empty cs in let id := em_prefix (sem_msg se) in
    id <> id_default /\ (forall m x, e_ser_event E m <> Err x) /\
    process E d (MEvent se) = (d', Err e) /\
    compute_state E d id = Ok None /\ compute_state E d' id = Ok (Some state_default).
Proof.
  exists toy, [], unsigned_icp. do 2 eexists. cbv zeta.
  split; [vm_compute; discriminate|]. split; [discriminate|]. split; [vm_compute; reflexivity|].
  split; vm_compute; reflexivity.
Qed.
Print Assumptions C20_refuted.
(** Everything else holds (for events whose serialization does not fail). *)
Theorem C20_partial :
  forall E cs se d' e,
    let d := run E db_empty cs in let id := em_prefix (sem_msg se) in
    id <> id_default -> (forall x, e_ser_event E (sem_msg se) <> Err x) ->
    process E d (MEvent se) = (d', Err e) ->
    same_but_logs d d' /\ (forall i, log d' i = log d i)
    /\ (forall i, i <> id \/ get_kel d id <> None \/ is_inception (sem_msg se) = false ->
          get_kel d' i = get_kel d i /\ compute_state E d' i = compute_state E d i).
Proof. exact c20. Qed.
Print Assumptions C20_partial.
Example C20_example :
  get_kel (run toy db_empty [CProcess (MEvent s_icp)]) alice <> None
  /\ exists d' e, process toy (run toy db_empty [CProcess (MEvent s_icp)]) (MEvent (mkSEM a_rot [] None)) = (d', Err e).
Proof. ex_vm. Qed.

(** ** C21: everything in a log was properly signed.  Refuted: a signature index that is
    out of range makes verification panic after the event was stored. *)
Definition bad_index : SignedEventMessage :=
  mkSEM a_rot [mkASP 0 (sig_over (key x03) (toy_ser a_rot)); mkASP 5 (sig_over (key x03) (toy_ser a_rot))] None.
Theorem C21_refuted :
  exists E cs id l e e0 kc ser,
    id <> id_default /\ get_kel (run E db_empty cs) id = Some l /\ In e l /\
    last_establishment (log_of l) = Some e0 /\ sem_msg e = e0 /\ est_keys e0 = Some kc /\
    e_ser_event E (sem_msg e) = Ok ser /\ ~ satisfies E kc ser (sem_sigs e).
Proof.
  exists toy, [CProcess (MEvent s_icp); CProcess (MEvent bad_index)], alice. do 5 eexists.
  split; [vm_compute; discriminate|]. split; [vm_compute; reflexivity|].
  split; [right; left; reflexivity|]. split; [vm_compute; reflexivity|]. split; [reflexivity|].
  split; [vm_compute; reflexivity|]. split; [reflexivity|].
  intros (_ & _ & H). apply Forall_inv_tail in H. apply Forall_inv in H. destruct H as (k & Hk & _).
  vm_compute in Hk. discriminate Hk.
Qed.
Print Assumptions C21_refuted.
(** Without panics (and serialization errors) it holds. *)
Theorem C21_partial :
  forall E cs id l k e,
    (forall m x, e_ser_event E m <> Err x) -> quiet E db_empty cs = true ->
    id <> id_default -> get_kel (run E db_empty cs) id = Some l -> nth_error l k = Some e ->
    exists e0 kc ser,
      last_establishment (log_of (firstn (S k) l)) = Some e0 /\ est_keys e0 = Some kc
      /\ e_ser_event E (sem_msg e) = Ok ser
      /\ enough_signatures (kc_threshold kc) (sem_sigs e) = Ok true
      /\ (rational_threshold (kc_threshold kc) -> satisfies E kc ser (sem_sigs e)).
Proof. exact c21. Qed.
Print Assumptions C21_partial.
(** The other half holds always: every log replays completely. *)
Theorem C21_logs_replay :
  forall E cs id l,
    id <> id_default -> get_kel (run E db_empty cs) id = Some l ->
    exists s, replay_strict E l state_default = Ok s /\ compute_state E (run E db_empty cs) id = Ok (Some s).
Proof. exact c21_replay. Qed.
Print Assumptions C21_logs_replay.
Example C21_example :
  (forall m x, e_ser_event toy m <> Err x) /\ quiet toy db_empty demo_calls = true
  /\ exists l e, get_kel demo alice = Some l /\ nth_error l 3 = Some e.
Proof. split; [exact toy_ser_never_err|]. split; [exact demo_quiet|]. ex_vm. Qed.

(** ** C22: first seen wins, logs are append-only *)
Theorem C22_logs_are_append_only :
  forall E cs cs' id,
    id <> id_default ->
    exists ext, log (run E db_empty (cs ++ cs')) id = log (run E db_empty cs) id ++ ext.
Proof. exact c22_append. Qed.
Print Assumptions C22_logs_are_append_only.
Theorem C22_first_seen_wins :
  forall E cs cs' id e e',
    id <> id_default ->
    In e (log (run E db_empty cs) id) -> In e' (log (run E db_empty (cs ++ cs')) id) ->
    em_sn (sem_msg e) = em_sn (sem_msg e') -> e = e'.
Proof. exact c22_first_seen. Qed.
Print Assumptions C22_first_seen_wins.
Example C22_example :
  nth_error (log (run toy db_empty [CProcess (MEvent s_icp)]) alice) 0 = Some (stored s_icp)
  /\ nth_error (log demo alice) 0 = Some (stored s_icp).
Proof. ex_vm. Qed.

(** ** C23: identifiers are isolated *)
Theorem C23_other_identifiers_untouched :
  forall E d m id, subject m <> Some id -> same_for id d (fst (process E d m)).
Proof. exact c23. Qed.
Print Assumptions C23_other_identifiers_untouched.
Theorem C23_other_states_untouched :
  forall E d m id, subject m <> Some id -> compute_state E (fst (process E d m)) id = compute_state E d id.
Proof. exact c23_state. Qed.
Print Assumptions C23_other_states_untouched.
Example C23_example : subject (MEvent s_drt) <> Some alice /\ subject (MTransferableRct b_rct) <> Some bob.
Proof. ex_vm. Qed.

(** ** C24: out of order and duplicate events are refused with the right error.  Refuted for
    an identifier that is not known yet: an event beyond the next one is not "out of order". *)
Theorem C24_refuted :
  exists E se d',
    em_prefix (sem_msg se) <> id_default /\ em_sn (sem_msg se) = 2%N /\
    process E db_empty (MEvent se) = (d', Err (ESemantic "Prefix does not match")).
Proof.
  exists toy, s_ixn. eexists. split; [vm_compute; discriminate|]. split; [reflexivity|]. vm_compute. reflexivity.
Qed.
Print Assumptions C24_refuted.
(** Refused always, without any change to the store. *)
Theorem C24_refused :
  forall E cs se,
    let d := run E db_empty cs in let id := em_prefix (sem_msg se) in
    id <> id_default -> em_sn (sem_msg se) <> N.of_nat (List.length (log d id)) ->
    fst (process E d (MEvent se)) = d /\ forall os, snd (process E d (MEvent se)) <> Ok os.
Proof. exact c24_refused. Qed.
Print Assumptions C24_refused.
(** With the right error for interactions and non-delegated rotations of known identifiers. *)
Theorem C24_partial :
  forall E cs se l,
    let d := run E db_empty cs in let m := sem_msg se in let id := em_prefix m in
    id <> id_default -> get_kel d id = Some l -> l <> [] ->
    (match em_data m with
     | Ixn _ => True
     | Rot _ => forall e, nth_error l 0 = Some e -> named_delegator (sem_msg e) = None
     | _ => False end) ->
    ((N.of_nat (List.length l) < em_sn m)%N -> process E d (MEvent se) = (d, Err EOutOfOrder))
    /\ ((em_sn m < N.of_nat (List.length l))%N -> process E d (MEvent se) = (d, Err EDuplicate)).
Proof. exact c24_error. Qed.
Print Assumptions C24_partial.
Example C24_example :
  (exists l, get_kel (run toy db_empty [CProcess (MEvent s_icp)]) alice = Some l /\ l <> [] /\ List.length l = 1)
  /\ em_sn (sem_msg s_ixn2) = 3%N
  /\ snd (process toy (run toy db_empty [CProcess (MEvent s_icp)]) (MEvent s_ixn2)) = Err EOutOfOrder
  /\ snd (process toy demo (MEvent s_rot)) = Err EDuplicate.
Proof. ex_vm. Qed.

(** ** C25: a log can be replayed elsewhere.  Refuted for delegated identifiers: the stored
    events have no source seal, without which they are refused. *)
Definition alice_calls : list Call := map (fun e => CProcess (MEvent e)) [s_icp; s_rot; s_ixn; s_ixn2].
Theorem C25_refuted :
  exists E cs id l e0 dl d2,
    (forall m x, e_ser_event E m <> Err x) /\ quiet E db_empty cs = true /\
    id <> id_default /\ get_kel (run E db_empty cs) id = Some l /\ nth_error l 0 = Some e0 /\
    named_delegator (sem_msg e0) = Some dl /\ log d2 id = [] /\ log d2 dl = log (run E db_empty cs) dl /\
    process E d2 (MEvent e0) = (d2, Err (ESemantic "Missing source seal")).
Proof.
  exists toy, demo_calls, bob. do 3 eexists. exists (run toy db_empty alice_calls).
  split; [exact toy_ser_never_err|]. split; [exact demo_quiet|]. ex_vm.
Qed.
Print Assumptions C25_refuted.
(** [accepts_each E d msgs]: processing [msgs] one after the other on [d], each is accepted. *)
Theorem C25_partial :
  forall E cs id l d2,
    (forall m x, e_ser_event E m <> Err x) -> quiet E db_empty cs = true ->
    id <> id_default -> get_kel (run E db_empty cs) id = Some l -> l <> [] ->
    (forall e, In e l -> is_delegated (sem_msg e) = false) -> log d2 id = [] ->
    accepts_each E d2 l /\ log (run E d2 (submit l)) id = l
    /\ compute_state E (run E d2 (submit l)) id = compute_state E (run E db_empty cs) id.
Proof. exact c25_plain. Qed.
Print Assumptions C25_partial.
(** Delegated identifiers: there are source seals with which it works on every node with the
    delegator's log. *)
Theorem C25_delegated_with_seals :
  forall E cs id l d2,
    (forall m x, e_ser_event E m <> Err x) -> quiet E db_empty cs = true ->
    id <> id_default -> get_kel (run E db_empty cs) id = Some l -> l <> [] ->
    (forall e0 dl, nth_error l 0 = Some e0 -> named_delegator (sem_msg e0) = Some dl ->
        dl <> id_default /\ log d2 dl = log (run E db_empty cs) dl) -> log d2 id = [] ->
    exists msgs, map sem_msg msgs = map sem_msg l /\ map sem_sigs msgs = map sem_sigs l
      /\ accepts_each E d2 msgs /\ log (run E d2 (submit msgs)) id = l
      /\ compute_state E (run E d2 (submit msgs)) id = compute_state E (run E db_empty cs) id.
Proof. exact c25_sealed. Qed.
Print Assumptions C25_delegated_with_seals.
Example C25_example :
  (exists l, get_kel demo alice = Some l /\ l <> [] /\ forallb (fun e => negb (is_delegated (sem_msg e))) l = true)
  /\ log db_empty alice = []
  /\ exists l, get_kel demo bob = Some l /\ l <> []
     /\ log (run toy db_empty alice_calls) alice = log demo alice /\ log (run toy db_empty alice_calls) bob = [].
Proof. ex_vm. Qed.

(** ** C26: state at sn is the state after that event *)
Theorem C26_state_at_sn :
  forall E cs id l n,
    id <> id_default -> get_kel (run E db_empty cs) id = Some l ->
    exists s, compute_state_at_sn E (run E db_empty cs) id n = Ok (Some s)
      /\ replay_strict E (firstn (S (N.to_nat n)) l) state_default = Ok s.
Proof. exact c26. Qed.
Print Assumptions C26_state_at_sn.
Theorem C26_last :
  forall E cs id l n,
    id <> id_default -> get_kel (run E db_empty cs) id = Some l ->
    (N.of_nat (List.length l) <= n + 1)%N ->
    compute_state_at_sn E (run E db_empty cs) id n = compute_state E (run E db_empty cs) id.
Proof. exact c26_last. Qed.
Print Assumptions C26_last.
(** the state at sn n is what the current state was when event n was the last one *)
Theorem C26_history :
  forall E cs cs' id l n,
    id <> id_default -> get_kel (run E db_empty cs) id = Some l -> List.length l = S (N.to_nat n) ->
    compute_state_at_sn E (run E db_empty (cs ++ cs')) id n = compute_state E (run E db_empty cs) id.
Proof. exact c26_history. Qed.
Print Assumptions C26_history.
Example C26_example :
  option_map (@List.length _) (get_kel (run toy db_empty (firstn 2 demo_calls)) alice) = Some 2
  /\ compute_state_at_sn toy demo alice 1 <> compute_state toy demo alice
  /\ compute_state_at_sn toy demo alice 7 = compute_state toy demo alice.
Proof. ex_vm. Qed.

(** ** C27: delegated events need the delegator's anchor *)
Theorem C27_delegator_anchored_it :
  forall E cs se d' os,
    let d := run E db_empty cs in let m := sem_msg se in
    em_prefix m <> id_default -> is_delegated m = true -> process E d (MEvent se) = (d', Ok os) ->
    exists src delegator e data s,
      sem_seal se = Some src
      /\ (exists e0, nth_error (log d' (em_prefix m)) 0 = Some e0 /\ named_delegator (sem_msg e0) = Some delegator)
      /\ In e (log d delegator) /\ em_sn (sem_msg e) = src_sn src
      /\ anchor_data (sem_msg e) = Some data /\ In (SealEvent s) data /\ digest_of_event E m (es_digest s).
Proof. exact c27. Qed.
Print Assumptions C27_delegator_anchored_it.
Example C27_example :
  is_delegated b_drt = true
  /\ exists d' os, process toy (run toy db_empty (firstn 5 demo_calls)) (MEvent s_drt) = (d', Ok os).
Proof. ex_vm. Qed.

(** ** C28: source seal and anchor are fully checked.  Refuted: the digest of the source seal
    is not looked at, nor are prefix and sn of the anchoring seal. *)
Definition nowhere : SelfAddressingPrefix := mkSAP Blake3_256 (repeat x77 32).
Theorem C28_refuted :
  exists E cs se d' os src,
    let d := run E db_empty cs in
    em_prefix (sem_msg se) <> id_default /\ is_delegated (sem_msg se) = true /\ sem_seal se = Some src /\
    process E d (MEvent se) = (d', Ok os) /\
    (forall id e, In e (log d id) -> ~ digest_of_event E (sem_msg e) (src_digest src)).
Proof.
  exists toy, (firstn 3 demo_calls), (signed b_dip [key x11] (Some (mkSrc 2 nowhere))).
  do 3 eexists. cbv zeta. split; [vm_compute; discriminate|]. split; [reflexivity|]. split; [reflexivity|].
  split; [vm_compute; reflexivity|]. apply no_event_has_digest. vm_compute. reflexivity.
Qed.
Print Assumptions C28_refuted.
(** In general the digest of the source seal has no influence at all. *)
Theorem C28_source_digest_is_never_checked :
  forall E d m sigs sn g g',
    process E d (MEvent (mkSEM m sigs (Some (mkSrc sn g)))) = process E d (MEvent (mkSEM m sigs (Some (mkSrc sn g')))).
Proof.
  intros. cbn. unfold process_event, check_delegation; cbn [sem_msg sem_seal sem_sigs ok_or obind src_sn src_digest].
  reflexivity.
Qed.
Print Assumptions C28_source_digest_is_never_checked.
Definition wrong_anchor : EventMessage :=
  mk_event alice 2 (Ixn (mkIxn (em_digest a_rot) [SealEvent (mkES alice 99 (em_digest b_dip))])).
Theorem C28_anchor_refuted :
  exists E cs se d' os src delegator,
    let d := run E db_empty cs in
    em_prefix (sem_msg se) <> id_default /\ is_delegated (sem_msg se) = true /\ sem_seal se = Some src /\
    process E d (MEvent se) = (d', Ok os) /\ named_delegator (sem_msg se) = Some delegator /\
    (forall e data s, In e (log d delegator) -> anchor_data (sem_msg e) = Some data -> In (SealEvent s) data ->
        es_prefix s <> em_prefix (sem_msg se) /\ es_sn s <> em_sn (sem_msg se)).
Proof.
  exists toy, [CProcess (MEvent s_icp); CProcess (MEvent s_rot); CProcess (MEvent (signed wrong_anchor [key x03; key x04] None))],
    (signed b_dip [key x11] (Some (mkSrc 2 (em_digest wrong_anchor)))).
  do 4 eexists. cbv zeta. split; [vm_compute; discriminate|]. split; [reflexivity|]. split; [reflexivity|].
  split; [vm_compute; reflexivity|]. split; [reflexivity|].
  intros e data s Hin.
  match type of Hin with In _ ?t =>
    assert (Hl : t = map stored [s_icp; s_rot; signed wrong_anchor [key x03; key x04] None]) by (vm_compute; reflexivity) end.
  rewrite Hl in Hin. clear Hl.
  destruct Hin as [<-|[<-|[<-|[]]]]; intros Ha Hs; cbn in Ha; try discriminate Ha; injection Ha as <-.
  - destruct Hs.
  - destruct Hs as [Hs|[]]. injection Hs as <-. split; vm_compute; discriminate.
Qed.
Print Assumptions C28_anchor_refuted.

(** ** C29: stored transferable receipts are valid *)
Theorem C29_stored_receipts_are_valid :
  forall E cs id rs r,
    id <> id_default -> get_receipts_t (run E db_empty cs) id = Some rs -> In r rs ->
    es_prefix (tr_seal r) <> id_default ->
    rct_prefix (tr_body r) = id /\ receipt_justified E (run E db_empty cs) r.
Proof. exact c29_reachable. Qed.
Print Assumptions C29_stored_receipts_are_valid.
Theorem C29_stored_only_if_valid :
  forall E d r d' res,
    process E d (MTransferableRct r) = (d', res) ->
    get_receipts_t d' (rct_prefix (tr_body r)) = get_receipts_t d (rct_prefix (tr_body r))
    \/ (get_receipts_t d' (rct_prefix (tr_body r)) = Some (olist (get_receipts_t d (rct_prefix (tr_body r))) ++ [r])
        /\ receipt_justified E d r).
Proof. exact c29_accept. Qed.
Print Assumptions C29_stored_only_if_valid.
Example C29_example : get_receipts_t demo alice = Some [b_rct] /\ es_prefix (tr_seal b_rct) <> id_default.
Proof. ex_vm. Qed.

(** ** C30: a receipt receipts the event it names.  Refuted: the digest is not looked at. *)
Theorem C30_refuted :
  exists E cs id rt rn,
    id <> id_default /\ get_receipts_t (run E db_empty cs) id = Some [rt] /\
    get_receipts_nt (run E db_empty cs) id = Some [rn] /\
    (forall id e, In e (log (run E db_empty cs) id) ->
       ~ digest_of_event E (sem_msg e) (rct_digest (tr_body rt)) /\ ~ digest_of_event E (sem_msg e) (rct_digest (nr_body rn))).
Proof.
  set (rt := mkTRct (with_digest (rct_of a_rot) nowhere) (tr_seal b_rct) (tr_sigs b_rct)).
  set (rn := mkNRct (with_digest (rct_of a_rot) nowhere) (nr_couplets w_rct)).
  set (cs := firstn 4 demo_calls ++ [CProcess (MTransferableRct rt); CProcess (MNontransferableRct rn)]).
  exists toy, cs, alice, rt, rn.
  split; [vm_compute; discriminate|]. split; [vm_compute; reflexivity|]. split; [vm_compute; reflexivity|].
  assert (Hno : forall id e, In e (log (run toy db_empty cs) id) -> ~ digest_of_event toy (sem_msg e) nowhere).
  { apply no_event_has_digest. vm_compute. reflexivity. }
  intros id e Hin. split; exact (Hno id e Hin).
Qed.
Print Assumptions C30_refuted.
(** In general: with any other digest the receipt is accepted just the same. *)
Theorem C30_receipt_digest_is_never_checked :
  forall E d r g d' res,
    process E d (MTransferableRct r) = (d', Ok res) ->
    exists d2 res2, process E d (MTransferableRct (mkTRct (with_digest (tr_body r) g) (tr_seal r) (tr_sigs r))) = (d2, Ok res2)
      /\ get_receipts_t d2 (rct_prefix (tr_body r))
         = Some (olist (get_receipts_t d (rct_prefix (tr_body r))) ++ [mkTRct (with_digest (tr_body r) g) (tr_seal r) (tr_sigs r)]).
Proof. exact c30_transferable. Qed.
Print Assumptions C30_receipt_digest_is_never_checked.

(** ** C31: stored witness receipts are valid.  Refuted: a signature that does not verify is
    accepted. *)
Definition bad_witness : SignedNontransferableReceipt :=
  mkNRct (rct_of a_rot) [(wit x73, mkSSP Ed25519Sha512 (repeat x00 64))].
Theorem C31_refuted :
  exists E cs id r k s ev ser1 ser2,
    get_receipts_nt (run E db_empty cs) id = Some [r] /\ nr_couplets r = [(k, s)] /\
    In ev (log (run E db_empty cs) id) /\ em_sn (sem_msg ev) = rct_sn (nr_body r) /\
    e_ser_event E (sem_msg ev) = Ok ser1 /\ e_ser_signed E ev = Ok ser2 /\ ~ sig_ok E k ser1 s /\ ~ sig_ok E k ser2 s.
Proof.
  exists toy, (firstn 2 demo_calls ++ [CProcess (MNontransferableRct bad_witness)]), alice, bad_witness.
  do 2 eexists. exists (stored s_rot). do 2 eexists.
  split; [vm_compute; reflexivity|]. split; [reflexivity|].
  split. { assert (Hl : log (run toy db_empty (firstn 2 demo_calls ++ [CProcess (MNontransferableRct bad_witness)])) alice
             = map stored [s_icp; s_rot]) by (vm_compute; reflexivity). rewrite Hl. right; left; reflexivity. }
  split; [reflexivity|]. split; [reflexivity|]. split; [reflexivity|].
  split; intros [(_ & _ & H)|(_ & H & _)]; vm_compute in H; discriminate H.
Qed.
Print Assumptions C31_refuted.
(** Exactly when a witness receipt is stored: the event is there and the key and signature
    types fit. *)
Theorem C31_partial :
  forall E d r d' res,
    process E d (MNontransferableRct r) = (d', res) ->
    (get_receipts_nt d' (rct_prefix (nr_body r)) <> get_receipts_nt d (rct_prefix (nr_body r)) <->
     exists ev ser, get_event_at_sn d (rct_prefix (nr_body r)) (rct_sn (nr_body r)) = Some ev
        /\ e_ser_signed E ev = Ok ser /\ Forall (fun c => types_fit (fst c) (snd c)) (nr_couplets r))
    /\ (get_receipts_nt d' (rct_prefix (nr_body r)) <> get_receipts_nt d (rct_prefix (nr_body r)) ->
        get_receipts_nt d' (rct_prefix (nr_body r)) = Some (olist (get_receipts_nt d (rct_prefix (nr_body r))) ++ [r])).
Proof. exact c31. Qed.
Print Assumptions C31_partial.
Example C31_example : get_receipts_nt demo alice = Some [w_rct].
Proof. ex_vm. Qed.

(** ** C32: early receipts are escrowed, not lost.  Refuted in the second half: when the event
    arrives, the receipt stays in escrow, however often the escrow is processed. *)
Definition early_calls : list Call :=
  demo_calls ++ [CProcess (MEvent (signed a_ixn3 [key x03; key x04] None))].
Theorem C32_refuted :
  exists E cs id rn rt ev,
    get_escrow_nt (run E db_empty cs) id = Some [rn] /\ get_escrow_t (run E db_empty cs) id = Some [rt] /\
    In ev (log (run E db_empty cs) id) /\ em_sn (sem_msg ev) = rct_sn (nr_body rn) /\ em_sn (sem_msg ev) = rct_sn (tr_body rt) /\
    forall n, let d := run E db_empty (cs ++ repeat CEscrow n) in
      ~ In rn (olist (get_receipts_nt d id)) /\ ~ In rt (olist (get_receipts_t d id)).
Proof.
  exists toy, early_calls, alice, w_rct_early, b_rct_early, (stored (signed a_ixn3 [key x03; key x04] None)).
  split; [vm_compute; reflexivity|]. split; [vm_compute; reflexivity|].
  split. { assert (Hl : log (run toy db_empty early_calls) alice
             = map stored [s_icp; s_rot; s_ixn; s_ixn2; signed a_ixn3 [key x03; key x04] None]) by (vm_compute; reflexivity).
           rewrite Hl. do 4 right. left. reflexivity. }
  split; [reflexivity|]. split; [reflexivity|]. intros n. cbv zeta. rewrite run_app.
  assert (Hno : forall m, ~ In (CProcess m) (repeat CEscrow n)).
  { intros m Hin. apply repeat_spec in Hin. discriminate. }
  destruct (c32_not_promoted toy (run toy db_empty early_calls) (repeat CEscrow n) alice (fun r => Hno _) (fun r => Hno _)) as [-> ->].
  assert (H1 : get_receipts_nt (run toy db_empty early_calls) alice = Some [w_rct]) by (vm_compute; reflexivity).
  assert (H2 : get_receipts_t (run toy db_empty early_calls) alice = Some [b_rct]) by (vm_compute; reflexivity).
  rewrite H1, H2. split; intros [H|[]]; vm_compute in H; discriminate H.
Qed.
Print Assumptions C32_refuted.
Theorem C32_early_witness_receipt_is_escrowed :
  forall E d r,
    let id := rct_prefix (nr_body r) in
    (forall e, In e (log d id) -> em_sn (sem_msg e) <> rct_sn (nr_body r)) ->
    let d' := fst (process E d (MNontransferableRct r)) in
    get_escrow_nt d' id = Some (olist (get_escrow_nt d id) ++ [r])
    /\ (forall i, i <> id -> get_escrow_nt d' i = get_escrow_nt d i)
    /\ (forall i, get_kel d' i = get_kel d i /\ get_dup d' i = get_dup d i
          /\ get_receipts_nt d' i = get_receipts_nt d i /\ get_receipts_t d' i = get_receipts_t d i
          /\ get_escrow_t d' i = get_escrow_t d i
          /\ get_accepted_replys d' i = get_accepted_replys d i /\ get_escrowed_replys d' i = get_escrowed_replys d i).
Proof. exact c32_nontransferable. Qed.
Print Assumptions C32_early_witness_receipt_is_escrowed.
Theorem C32_early_validator_receipt_is_escrowed :
  forall E d r,
    let id := rct_prefix (tr_body r) in
    (forall e, In e (log d id) -> em_sn (sem_msg e) <> rct_sn (tr_body r)) ->
    let d' := fst (process E d (MTransferableRct r)) in
    get_escrow_t d' id = Some (olist (get_escrow_t d id) ++ [r])
    /\ (forall i, i <> id -> get_escrow_t d' i = get_escrow_t d i)
    /\ (forall i, get_kel d' i = get_kel d i /\ get_dup d' i = get_dup d i
          /\ get_receipts_nt d' i = get_receipts_nt d i /\ get_receipts_t d' i = get_receipts_t d i
          /\ get_escrow_nt d' i = get_escrow_nt d i
          /\ get_accepted_replys d' i = get_accepted_replys d i /\ get_escrowed_replys d' i = get_escrowed_replys d i).
Proof. exact c32_transferable. Qed.
Print Assumptions C32_early_validator_receipt_is_escrowed.
(** escrowed receipts are never dropped *)
Theorem C32_escrowed_receipts_stay :
  forall E d cs id,
    (exists ext, olist (get_escrow_nt (run E d cs) id) = olist (get_escrow_nt d id) ++ ext)
    /\ (exists ext, olist (get_escrow_t (run E d cs) id) = olist (get_escrow_t d id) ++ ext).
Proof. intros. split; [apply c32_escrow_nt_grows|apply c32_escrow_t_grows]. Qed.
Print Assumptions C32_escrowed_receipts_stay.
Example C32_example :
  forallb (fun e => negb (em_sn (sem_msg e) =? rct_sn (nr_body w_rct_early))%N) (log demo alice) = true
  /\ get_escrow_nt demo alice = Some [w_rct_early] /\ get_escrow_t demo alice = Some [b_rct_early].
Proof. ex_vm. Qed.

(** ** C33: data signature verification is sound *)
Theorem C33_transferable_signature :
  forall E d data seal sigs,
    proc_verify E d data (Transferable seal sigs) = Ok tt -> signed_under_seal E d seal data sigs.
Proof. exact c33_transferable. Qed.
Print Assumptions C33_transferable_signature.
Theorem C33_nontransferable_signature :
  forall E d data bp sig,
    proc_verify E d data (NonTransferable bp sig) = Ok tt <-> sig_ok E bp data sig.
Proof. exact c33_nontransferable. Qed.
Print Assumptions C33_nontransferable_signature.
Example C33_example :
  proc_verify toy demo (bstr "hello") (Transferable (mkES alice 1 (em_digest a_rot)) (sigs_from 0 [key x03; key x04] (bstr "hello"))) = Ok tt
  /\ proc_verify toy demo (bstr "hello") (NonTransferable (wit x71) (sig_over (wit x71) (bstr "hello"))) = Ok tt.
Proof. ex_vm. Qed.

(** ** C34: last establishment seal.  Refuted for delegated identifiers. *)
Theorem C34_refuted :
  exists E cs id l e,
    id <> id_default /\ get_kel (run E db_empty cs) id = Some l /\ last_establishment (log_of l) = Some e /\
    get_last_establishment_event_seal E (run E db_empty cs) id = Ok None.
Proof. exists toy, demo_calls, bob. ex_vm. Qed.
Print Assumptions C34_refuted.
Theorem C34_partial :
  forall E cs id l,
    id <> id_default -> get_kel (run E db_empty cs) id = Some l -> l <> [] ->
    (forall e, In e l -> is_delegated (sem_msg e) = false) ->
    exists e, last_establishment (log_of l) = Some e
      /\ get_last_establishment_event_seal E (run E db_empty cs) id = Ok (Some (mkES id (em_sn e) (em_digest e))).
Proof. exact c34. Qed.
Print Assumptions C34_partial.
Example C34_example :
  exists l, get_kel demo alice = Some l /\ l <> [] /\ forallb (fun e => negb (is_delegated (sem_msg e))) l = true
  /\ get_last_establishment_event_seal toy demo alice = Ok (Some (mkES alice 1 (em_digest a_rot))).
Proof. ex_vm. Qed.

(** ** C35: unknown identifiers stay unknown.  Refuted: a rejected inception suffices. *)
Theorem C35_refuted :
  exists E cs id,
    id <> id_default /\ (forall m x, e_ser_event E m <> Err x) /\ quiet E db_empty cs = true /\
    log (run E db_empty cs) id = [] /\ compute_state E (run E db_empty cs) id <> Ok None.
Proof.
  exists toy, [CProcess (MEvent unsigned_icp)], alice.
  split; [vm_compute; discriminate|]. split; [exact toy_ser_never_err|]. ex_vm.
Qed.
Print Assumptions C35_refuted.
(** If no event of the identifier was even submitted, there is no state; and whenever its log
    is empty, the state can only be the default one. *)
Theorem C35_partial :
  forall E cs id,
    ((forall se, In (CProcess (MEvent se)) cs -> em_prefix (sem_msg se) <> id) ->
       compute_state E (run E db_empty cs) id = Ok None)
    /\ (forall s, id <> id_default -> log (run E db_empty cs) id = [] ->
          compute_state E (run E db_empty cs) id = Ok (Some s) -> s = state_default).
Proof. intros E cs id. split; [apply c35|]. intros s. apply c35_empty. Qed.
Print Assumptions C35_partial.
Example C35_example :
  forallb (fun c => match c with CProcess (MEvent se) => if IdentifierPrefix_eq_dec (em_prefix (sem_msg se)) bob then false else true | _ => true end)
    (firstn 3 demo_calls) = true
  /\ compute_state toy (run toy db_empty (firstn 3 demo_calls)) bob = Ok None.
Proof. ex_vm. Qed.
