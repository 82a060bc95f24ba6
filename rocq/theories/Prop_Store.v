(** * C36-C39: the store under crashes, threads and numbering. *)
From Coq Require Import Permutation.
From Verif Require Import Base Base64 Base64Proofs Codes NumFmt Types KeyConf SpecSig State Db Processor Prog Sled
  SpecCodec CodecProofs CodecProofs2 SledProofs Spec SpecProc SpecStore StoreProofs Crash CrashProofs Conc ConcProofs Demo.

(** ** C36: crashes.  [try_all E sled_empty l] is the store after the attempts [l], each
    a call (a message or an escrow pass), complete or killed after any number of tree accesses. *)

(** Refuted: an event is stored before its signatures are checked, so a crash in between
    leaves an unsigned rotation in the log; afterwards the properly signed rotation is
    refused. *)
Definition unsigned_rot : SignedEventMessage := mkSEM a_rot [] None.
Theorem C36_refuted :
  exists E l id evs e0 kc ser,
    Forall (fun a => call_ids_ok (fst a)) l /\ (forall m x, e_ser_event E m <> Err x) /\ id_ok id
    /\ lookup (try_all E sled_empty l) TKel id = Some evs
    /\ In unsigned_rot evs /\ last_establishment (log_of evs) = Some e0 /\ sem_msg unsigned_rot = e0
    /\ est_keys e0 = Some kc /\ e_ser_event E (sem_msg unsigned_rot) = Ok ser
    /\ ~ satisfies E kc ser (sem_sigs unsigned_rot)
    /\ snd (sprocess E (try_all E sled_empty l) (MEvent s_rot)) = Err EDuplicate
    /\ snd (sprocess E (try_all E sled_empty [(CProcess (MEvent s_icp), None)]) (MEvent s_rot)) <> Err EDuplicate.
Proof.
  exists toy, [(CProcess (MEvent s_icp), None); (CProcess (MEvent unsigned_rot), Some 5)], alice. do 4 eexists.
  split. { repeat (apply Forall_cons || apply Forall_nil); cbn [fst call_ids_ok message_ids_ok]; (split; [split; [discriminate|reflexivity]|exact I]). }
  split; [discriminate|]. split; [split; [discriminate|reflexivity]|].
  split; [vm_compute; reflexivity|]. split; [right; left; reflexivity|].
  split; [vm_compute; reflexivity|]. split; [reflexivity|]. split; [vm_compute; reflexivity|].
  split; [reflexivity|]. split.
  - intros (H & _). vm_compute in H. now apply H.
  - split; [vm_compute; reflexivity|vm_compute; discriminate].
Qed.
Print Assumptions C36_refuted.

(** What holds.  At every crash point every log replays completely ... *)
Theorem C36_logs_replay :
  forall E l id evs,
    (forall m x, e_ser_event E m <> Err x) -> Forall (fun a => call_ids_ok (fst a)) l ->
    id_ok id -> lookup (try_all E sled_empty l) TKel id = Some evs ->
    exists st, replay_strict E evs state_default = Ok st.
Proof. intros E l id evs Hs Hl. exact (c36_replay E Hs l Hl id evs). Qed.
Print Assumptions C36_logs_replay.
(** ... every event in a log is properly signed, or is an event whose processing was
    killed or panicked ... *)
Theorem C36_partial :
  forall E l id evs k e,
    (forall m x, e_ser_event E m <> Err x) -> Forall (fun a => call_ids_ok (fst a)) l ->
    id_ok id -> lookup (try_all E sled_empty l) TKel id = Some evs -> nth_error evs k = Some e ->
    (exists e0 kc ser,
       last_establishment (log_of (firstn (S k) evs)) = Some e0 /\ est_keys e0 = Some kc
       /\ e_ser_event E (sem_msg e) = Ok ser
       /\ enough_signatures (kc_threshold kc) (sem_sigs e) = Ok true
       /\ (rational_threshold (kc_threshold kc) -> satisfies E kc ser (sem_sigs e)))
    \/ (exists se, In (CProcess (MEvent se)) (interrupted E sled_empty l) /\ stored se = e).
Proof. intros E l id evs k e Hs Hl. exact (c36 E Hs l Hl id evs k e). Qed.
Print Assumptions C36_partial.
(** ... and one attempt, however it ends, changes at most one log, by appending its event. *)
Theorem C36_logs_only_grow :
  forall E l c o id,
    (forall m x, e_ser_event E m <> Err x) -> Forall (fun a => call_ids_ok (fst a)) l ->
    call_ids_ok c -> id_ok id ->
    let s := try_all E sled_empty l in
    let before := olist (lookup s TKel id) in let after := olist (lookup (try_one E s (c, o)) TKel id) in
    after = before
    \/ exists se, c = CProcess (MEvent se) /\ id = em_prefix (sem_msg se) /\ after = before ++ [stored se].
Proof. intros E l c o id Hs Hl Hc Hid. exact (c36_step E Hs l Hl (c, o) id Hc Hid). Qed.
Print Assumptions C36_logs_only_grow.
Definition demo_attempts : list attempt :=
  [(CProcess (MEvent s_icp), Some 3); (CProcess (MEvent s_icp), None); (CProcess (MEvent unsigned_rot), Some 3);
   (CEscrow, Some 1); (CProcess (MEvent s_rot), Some 2); (CProcess (MEvent s_rot), None); (CEscrow, None);
   (CProcess (MNontransferableRct w_rct), Some 4); (CProcess (MEvent s_ixn), None)].
Example C36_example :
  Forall (fun a => call_ids_ok (fst a)) demo_attempts
  /\ option_map log_of (lookup (try_all toy sled_empty demo_attempts) TKel alice) = Some [a_icp; a_rot; a_ixn].
Proof.
  split; [|vm_compute; reflexivity].
  repeat (apply Forall_cons || apply Forall_nil); cbn [fst call_ids_ok message_ids_ok];
    try exact I; try (split; [split; [discriminate|reflexivity]|exact I]); split; [discriminate|reflexivity].
Qed.

(** ** C37: two threads *)
(** Refuted.  (a) two different rotations with the same sequence number are both accepted
    and stored. *)
Definition a_rot' : EventMessage :=
  mk_event alice 1 (Rot (mkRot (em_digest a_icp) (kc_of [key x03; key x04] [key x05; key x06] 2)
                          (mkWC 1 [] [wit x74]) [])).
Definition s_rot' := signed a_rot' [key x03; key x04] None.
Definition two_first (n : nat) : list bool := repeat true n ++ repeat false 100.
Theorem C37_refuted :
  exists E s m1 m2 sch,
    s = srun E sled_empty [MEvent s_icp] /\
    let '(s', (r1, r2)) := par_process E sch s m1 m2 in
    (exists st, r1 = Ok (Some st)) /\ (exists st, r2 = Ok (Some st))
    /\ option_map log_of (lookup s' TKel alice) = Some [a_icp; a_rot'; a_rot]
    /\ option_map log_of (lookup (fst (sprocess E (fst (sprocess E s m1)) m2)) TKel alice) = Some [a_icp; a_rot]
    /\ option_map log_of (lookup (fst (sprocess E (fst (sprocess E s m2)) m1)) TKel alice) = Some [a_icp; a_rot'].
Proof.
  exists toy. eexists. exists (MEvent s_rot), (MEvent s_rot'), (two_first 2). split; [reflexivity|].
  match goal with |- let '(_, _) := ?x in _ => let y := eval vm_compute in x in change x with y end.
  cbv iota. split; [eexists; reflexivity|]. split; [eexists; reflexivity|]. ex_vm.
Qed.
Print Assumptions C37_refuted.
(** (b) an accepted event is lost. *)
Theorem C37_lost_event_refuted :
  exists E s m1 m2 sch,
    s = srun E sled_empty [MEvent s_icp] /\
    let '(s', (r1, r2)) := par_process E sch s m1 m2 in
    (exists st, r1 = Ok (Some st)) /\ (exists st, r2 = Ok (Some st))
    /\ option_map log_of (lookup s' TKel alice) = Some [a_icp; a_rot].
Proof.
  exists toy. eexists. exists (MEvent s_rot), (MEvent s_rot'), (two_first 4). split; [reflexivity|].
  match goal with |- let '(_, _) := ?x in _ => let y := eval vm_compute in x in change x with y end.
  cbv iota. split; [eexists; reflexivity|]. split; [eexists; reflexivity|]. ex_vm.
Qed.
Print Assumptions C37_lost_event_refuted.
(** (c) the inceptions of two unrelated new identifiers: one is refused, and the other's
    log is found under the wrong identifier. *)
Definition c_icp : EventMessage :=
  mk_incept (Icp (mkIcp (kc_of [key x21] [key x22] 1) (mkIWC 0 []) [] [])).
Definition carol : IdentifierPrefix := em_prefix c_icp.
Theorem C37_numbering_refuted :
  exists E m1 m2 sch,
    subject m1 = Some alice /\ subject m2 = Some carol /\ alice <> carol /\
    let '(s', (r1, r2)) := par_process E sch sled_empty m1 m2 in
    r1 = Err EDuplicate /\ (exists st, r2 = Ok (Some st))
    /\ option_map log_of (lookup s' TKel alice) = Some [c_icp] /\ lookup s' TKel carol = None.
Proof.
  exists toy, (MEvent s_icp), (MEvent (signed c_icp [key x21] None)), (two_first 2).
  split; [reflexivity|]. split; [reflexivity|]. split; [vm_compute; discriminate|].
  match goal with |- let '(_, _) := ?x in _ => let y := eval vm_compute in x in change x with y end.
  cbv iota. split; [reflexivity|]. split; [eexists; reflexivity|]. ex_vm.
Qed.
Print Assumptions C37_numbering_refuted.
(** What holds: messages whose subjects are not read by the other call, over identifiers
    the store has already numbered, can be processed concurrently under any schedule. *)
Theorem C37_partial :
  forall E ms m1 m2 sch,
    Forall message_ids_ok ms -> message_ids_ok m1 -> message_ids_ok m2 ->
    let s := srun E sled_empty ms in let d := run E db_empty (map CProcess ms) in
    (forall id, reads_of E d m1 id \/ reads_of E d m2 id -> number s id <> None) ->
    (forall id, subject m1 = Some id -> ~ reads_of E d m2 id) ->
    (forall id, subject m2 = Some id -> ~ reads_of E d m1 id) ->
    let '(s', (r1, r2)) := par_process E sch s m1 m2 in
    let s1 := fst (sprocess E s m1) in
    r1 = snd (sprocess E s m1) /\ r2 = snd (sprocess E s1 m2)
    /\ forall n id, lookup s' n id = lookup (fst (sprocess E s1 m2)) n id.
Proof.
  intros E ms m1 m2 sch Hms H1 H2. cbv zeta.
  destruct (process_refines E ms Hms _ _ _ Rel_empty store_ok_empty) as (M & R & Hok & _).
  intros HK N1 N2. exact (c37 E _ _ _ m1 m2 sch R Hok H1 H2 HK N1 N2).
Qed.
Print Assumptions C37_partial.
Definition s_c_icp := signed c_icp [key x21] None.
Definition s_c_ixn :=
  signed (mk_event carol 1 (Ixn (mkIxn (em_digest c_icp) []))) [key x21] None.
Example C37_example :
  let ms := [MEvent s_icp; MEvent s_c_icp] in
  let s := srun toy sled_empty ms in let d := run toy db_empty (map CProcess ms) in
  (forall id, reads_of toy d (MEvent s_rot) id \/ reads_of toy d (MEvent s_c_ixn) id -> number s id <> None)
  /\ (forall id, subject (MEvent s_rot) = Some id -> ~ reads_of toy d (MEvent s_c_ixn) id)
  /\ (forall id, subject (MEvent s_c_ixn) = Some id -> ~ reads_of toy d (MEvent s_rot) id)
  /\ (exists st, snd (sprocess toy s (MEvent s_rot)) = Ok (Some st))
  /\ (exists st, snd (sprocess toy s (MEvent s_c_ixn)) = Ok (Some st)).
Proof.
  cbv zeta. split; [|split; [|split; [|split; [eexists; vm_compute; reflexivity|eexists; vm_compute; reflexivity]]]].
  - intros id [[->|[]]|[->|[]]]; vm_compute; discriminate.
  - intros id H. injection H as <-. intros [H|[]]. vm_compute in H. discriminate H.
  - intros id H. injection H as <-. intros [H|[]]. vm_compute in H. discriminate H.
Qed.

(** ** C38: numbering and tables.  [sops sled_empty h] is the store after the history [h]
    of store operations. *)
Lemma decode_ne s d : b64_decode s = Some d -> s <> [] -> d <> [].
Proof.
  destruct s as [|a [|b [|c [|e r]]]]; cbn [b64_decode]; try congruence.
  - intros H _ ->. unfold dec_group2 in H. destruct (dec6 a), (dec6 b); try discriminate H.
    destruct (_ =? _)%N; discriminate H.
  - intros H _ ->. unfold dec_group2, dec_group3 in H.
    destruct (is_pad c); destruct (dec6 a), (dec6 b); try destruct (dec6 c); try discriminate H;
      destruct (_ =? _)%N; discriminate H.
  - intros H _ ->.
    assert (G2 : dec_group2 a b <> Some []).
    { unfold dec_group2. destruct (dec6 a), (dec6 b); try discriminate. destruct (_ =? _)%N; discriminate. }
    assert (G3 : dec_group3 a b c <> Some []).
    { unfold dec_group3. destruct (dec6 a), (dec6 b), (dec6 c); try discriminate. destruct (_ =? _)%N; discriminate. }
    assert (G4 : dec_group4 a b c e <> Some []).
    { unfold dec_group4. destruct (dec6 a), (dec6 b), (dec6 c), (dec6 e); discriminate. }
    destruct r as [|f r]; cbn [b64_decode] in H; [destruct (is_pad e), (is_pad c); auto|].
    destruct (dec_group4 a b c e) as [x|]; [|discriminate H].
    match type of H with match ?y with _ => _ end = _ => destruct y as [y'|]; [|discriminate H] end.
    destruct x; [now apply G4|discriminate H].
Qed.
Lemma tail_ne {A} s a n (k : bytes -> A) x :
  n <> 0 -> List.length s = a + n ->
  (let? sub := str_slice a (a + n) s in let? d := decode sub in Ok (k d)) = Ok x ->
  exists d, x = k d /\ d <> [].
Proof.
  intros Hn Hl. unfold str_slice. destruct (_ && _ && _ && _) eqn:Eb; cbn [obind]; [|discriminate].
  unfold decode. destruct (b64_decode _) as [d|] eqn:Ed; cbn [ok_or obind]; [|discriminate].
  intros H. injection H as <-. exists d. split; [reflexivity|]. eapply decode_ne; [exact Ed|].
  intros Hs. apply (f_equal (@List.length _)) in Hs. rewrite firstn_length, skipn_length in Hs. cbn in Hs. lia.
Qed.
(** every identifier read from text is one of those the theorems speak about *)
Theorem C38_read_identifiers_are_ok : forall s p, id_from s = Ok p -> id_ok p.
Proof.
  intros s p. unfold id_from, bp_from, sap_from, ssp_from.
  assert (B : forall p, bp_from s = Ok p -> bp_key p <> []).
  { intros q. unfold bp_from. destruct (basic_code_from s) as [c| |]; cbn [obind]; try discriminate.
    destruct (List.length s =? _) eqn:El; [|discriminate]. apply Nat.eqb_eq in El. intros H.
    apply tail_ne in H; [|destruct c; discriminate|exact El]. destruct H as (d & -> & Hd). exact Hd. }
  assert (S : forall p, sap_from s = Ok p -> sap_digest p <> [] /\ unkeyed (sap_code p) = sap_code p).
  { intros q. unfold sap_from. destruct (sa_code_from s) as [c| |] eqn:Ec; cbn [obind]; try discriminate.
    destruct (List.length s =? _) eqn:El; [|discriminate]. apply Nat.eqb_eq in El. intros H.
    apply tail_ne in H; [|destruct c; discriminate|exact El]. destruct H as (d & -> & Hd). split; [exact Hd|].
    cbn [sap_code]. unfold sa_code_from in Ec.
    destruct (str_get1 s) as [h|]; [|discriminate].
    repeat match type of Ec with context [if ?b then _ else _] => destruct b; [inversion Ec; reflexivity|] end;
      destruct (is h "0"); try discriminate Ec.
    destruct (str_slice 1 2 s) as [t| |]; cbn [obind] in Ec; try discriminate Ec.
    repeat match type of Ec with context [if ?b then _ else _] => destruct b; [inversion Ec; reflexivity|] end; discriminate Ec. }
  assert (G : forall p, ssp_from s = Ok p -> ssp_sig p <> []).
  { intros q. unfold ssp_from. destruct (ss_code_from s) as [c| |]; cbn [obind]; try discriminate.
    destruct (List.length s =? _) eqn:El; [|discriminate]. apply Nat.eqb_eq in El. intros H.
    apply tail_ne in H; [|destruct c; discriminate|exact El]. destruct H as (d & -> & Hd). exact Hd. }
  fold (bp_from s) (sap_from s) (ssp_from s).
  destruct (bp_from s) as [q|e|]; try discriminate.
  - intros H. injection H as <-. split; [exact (B q eq_refl)|reflexivity].
  - destruct (sap_from s) as [q|e'|]; try discriminate.
    + intros H. injection H as <-. destruct (S q eq_refl) as [H1 H2]. split; [exact H1|].
      cbn [id_unkeyed]. rewrite H2. now destruct q.
    + destruct (ssp_from s) as [q| |]; cbn [obind]; try discriminate.
      intros H. injection H as <-. split; [exact (G q eq_refl)|reflexivity].
Qed.
Print Assumptions C38_read_identifiers_are_ok.
Theorem C38_numbers_are_distinct :
  forall h a b k, Forall any_ok h -> id_ok a -> id_ok b ->
    number (sops sled_empty h) a = Some k -> number (sops sled_empty h) b = Some k -> a = b.
Proof. exact c38_injective. Qed.
Print Assumptions C38_numbers_are_distinct.
Theorem C38_numbers_never_change :
  forall h h' a k, Forall any_ok h -> Forall any_ok h' -> id_ok a ->
    number (sops sled_empty h) a = Some k -> number (sops sled_empty (h ++ h')) a = Some k.
Proof. exact c38_stable. Qed.
Print Assumptions C38_numbers_never_change.
Theorem C38_push_appends :
  forall h n id x, Forall any_ok h -> id_ok id ->
    let s := sops sled_empty h in
    lookup (fst (sop (OPush n id x) s)) n id = Some (olist (lookup s n id) ++ [x]).
Proof. intros h n id x Hh Hid. exact (law_push h Hh n id x Hid). Qed.
Print Assumptions C38_push_appends.
Theorem C38_remove_deletes_equal_entries :
  forall h n id x, Forall any_ok h -> id_ok id ->
    let s := sops sled_empty h in
    lookup (fst (sop (ORemove n id x) s)) n id =
    match lookup s n id with Some l => Some (filter (fun e => negb (teqb n e x)) l) | None => None end.
Proof. intros h n id x Hh Hid. exact (law_remove h Hh n id x Hid). Qed.
Print Assumptions C38_remove_deletes_equal_entries.
Theorem C38_put_replaces :
  forall h n id l, Forall any_ok h -> id_ok id ->
    lookup (fst (sop (OPut n id l) (sops sled_empty h))) n id = Some l.
Proof. intros h n id l Hh Hid. exact (law_put h Hh n id l Hid). Qed.
Print Assumptions C38_put_replaces.
Theorem C38_others_untouched :
  forall h A (o : op A) n id, Forall any_ok h -> op_ok o -> id_ok id -> ~ writes_to o n id ->
    lookup (fst (sop o (sops sled_empty h))) n id = lookup (sops sled_empty h) n id.
Proof. intros h A o n id Hh Ho Hid Hw. exact (law_frame h Hh o n id Ho Hid Hw). Qed.
Print Assumptions C38_others_untouched.
Theorem C38_all_lists_every_entry :
  forall h n, Forall any_ok h ->
    let s := sops sled_empty h in
    exists ids, NoDup ids /\ Forall id_ok ids
      /\ (forall id, id_ok id -> In id ids <-> lookup s n id <> None)
      /\ Permutation (snd (sop (OAll n) s)) (flat_map (fun id => olist (lookup s n id)) ids).
Proof. intros h n Hh. exact (law_all h Hh n). Qed.
Print Assumptions C38_all_lists_every_entry.
(** the processor over the numeric-key store behaves as over per-identifier tables (the
    store of all other theorems), for every history of messages *)
Theorem C38_processing_agrees :
  forall E ms, Forall message_ids_ok ms ->
    sresults E sled_empty ms = dresults E db_empty ms
    /\ forall n id, id_ok id ->
         lookup (srun E sled_empty ms) n id = tget (dtab n (run E db_empty (map CProcess ms))) id.
Proof.
  intros E ms Hms.
  destruct (process_refines E ms Hms _ _ _ Rel_empty store_ok_empty) as (M & R & Hok & Er).
  split; [exact Er|]. intros n id Hid. exact (lookup_rel _ _ _ n id R Hid).
Qed.
Print Assumptions C38_processing_agrees.
(** the boundary: identifiers without key material all have the empty text, share one
    number and see each other's tables *)
Theorem C38_empty_identifiers_collide :
  exists a b : IdentifierPrefix, a <> b /\
    forall n x, lookup (fst (sop (OPush n a x) sled_empty)) n b = Some [x].
Proof.
  exists (IdBasic (mkBP Ed25519 [])), (IdBasic (mkBP Ed25519NT [])). split; [discriminate|].
  intros n x. destruct n; vm_compute; reflexivity.
Qed.
Print Assumptions C38_empty_identifiers_collide.
Definition demo_ops : list anyop :=
  [AnyOp _ (OPush TKel alice s_icp); AnyOp _ (OGet TRpy bob); AnyOp _ (OPush TKel carol s_c_icp);
   AnyOp _ (ORemove TKel alice s_icp); AnyOp _ (OPush TKel alice s_rot)].
Example C38_example :
  Forall any_ok demo_ops
  /\ map (number (sops sled_empty demo_ops)) [alice; bob; carol] = [Some 0%N; Some 1%N; Some 2%N]
  /\ lookup (sops sled_empty demo_ops) TKel alice = Some [s_rot]
  /\ Forall message_ids_ok [MEvent s_icp; MEvent s_rot; MEvent s_ixn; MEvent s_dip; MTransferableRct b_rct].
Proof.
  split; [repeat (apply Forall_cons || apply Forall_nil); (split; [discriminate|reflexivity])|].
  split; [vm_compute; reflexivity|]. split; [vm_compute; reflexivity|].
  repeat (apply Forall_cons || apply Forall_nil); cbn [message_ids_ok]; split;
    try exact I; split; try discriminate; reflexivity.
Qed.

(** ** C39: append *)
Theorem C39_refuted :
  exists (t : tree (list N)) k l, vt_get (vt_append t k l) k <> Some (olist (vt_get t k) ++ l).
Proof. exists [(0%N, [1%N])], 0%N, [2%N]. vm_compute. discriminate. Qed.
Print Assumptions C39_refuted.
(** an entry that exists never changes *)
Theorem C39_append_is_dropped :
  forall T (t : tree (list T)) k l old, vt_get t k = Some old -> vt_append t k l = t.
Proof. intros T t k l old H. unfold vt_append. now rewrite H. Qed.
Print Assumptions C39_append_is_dropped.
Theorem C39_partial :
  forall T (t : tree (list T)) k l, vt_get t k = None ->
    vt_get (vt_append t k l) k = Some l
    /\ forall k', k' <> k -> vt_get (vt_append t k l) k' = vt_get t k'.
Proof.
  intros T t k l H. unfold vt_append. rewrite H. unfold vt_get, vt_put. rewrite tr_get_put, N.eqb_refl.
  split; [reflexivity|]. intros k' Hk. rewrite tr_get_put. destruct (k' =? k)%N eqn:E; [|reflexivity].
  apply N.eqb_eq in E. congruence.
Qed.
Print Assumptions C39_partial.
(** Pushing, in contrast, keeps what is there and adds at the end; removing takes out the equal
    entries and keeps the order of the others; neither touches another key. *)
Theorem C39_push_keeps :
  forall T (t : tree (list T)) k x,
    vt_get (vt_push t k x) k = Some (match vt_get t k with Some old => old | None => [] end ++ [x])
    /\ forall k', k' <> k -> vt_get (vt_push t k x) k' = vt_get t k'.
Proof.
  intros T t k x. unfold vt_push, vt_get, vt_put. destruct (tr_get t k) as [l|]; (split; [rewrite tr_get_put, N.eqb_refl; reflexivity|]);
    intros k' Hk; rewrite tr_get_put; (destruct (k' =? k)%N eqn:E; [apply N.eqb_eq in E; congruence|reflexivity]).
Qed.
Print Assumptions C39_push_keeps.
Theorem C39_remove_keeps :
  forall T (eqb : T -> T -> bool) (t : tree (list T)) k x,
    vt_get (vt_remove eqb t k x) k = match vt_get t k with Some old => Some (filter (fun e => negb (eqb e x)) old) | None => None end
    /\ forall k', k' <> k -> vt_get (vt_remove eqb t k x) k' = vt_get t k'.
Proof.
  intros T eqb t k x. unfold vt_remove, vt_get, vt_put. destruct (tr_get t k) as [l|] eqn:El.
  - split; [rewrite tr_get_put, N.eqb_refl; reflexivity|]. intros k' Hk; rewrite tr_get_put; (destruct (k' =? k)%N eqn:E; [apply N.eqb_eq in E; congruence|reflexivity]).
  - split; [exact El|reflexivity].
Qed.
Print Assumptions C39_remove_keeps.
Theorem C39_contains_means :
  forall T (eqb : T -> T -> bool) (t : tree (list T)) x,
    vt_contains eqb t x = true <-> exists k l e, In (k, l) t /\ In e l /\ eqb e x = true.
Proof.
  intros T eqb t x. unfold vt_contains. rewrite existsb_exists. split.
  - intros ([k l] & H & He). apply existsb_exists in He as (e & Hi & He). exists k, l, e. auto.
  - intros (k & l & e & H & Hi & He). exists (k, l). split; [exact H|]. apply existsb_exists. exists e. auto.
Qed.
Example C39_example : vt_get [(0%N, [1%N])] 3 = None.
Proof. reflexivity. Qed.
