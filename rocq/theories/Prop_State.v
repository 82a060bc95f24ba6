(** * Prop_State: the key state machine (C01-C11).

    [run E db_empty cs] is the store after any finite history [cs] of calls of [process]
    (events, receipts, replies) and [process_escrow] on an empty store, whatever the
    outcome of each call.  [id_default] is the empty identifier of Rust's [Default]; no
    text reads as it ([C00_no_text_is_default_identifier]). *)
From Verif Require Import Base Base64 Codes NumFmt Types KeyConf State Db Processor Spec
  StateProofs LogProofs LogTheorems LogTheorems2 Demo.

Theorem C00_no_text_is_default_identifier :
  forall s p, id_from s = Ok p -> p <> id_default.
Proof. exact id_from_not_default. Qed.
Print Assumptions C00_no_text_is_default_identifier.
Example C00_example : exists s, id_from s = Ok alice.
Proof. exists (id_str alice). ex_vm. Qed.

(** ** C01: sequence numbers advance by exactly one *)
Theorem C01_log_sequence_numbers :
  forall E cs id l k e,
    id <> id_default -> get_kel (run E db_empty cs) id = Some l ->
    nth_error l k = Some e -> em_sn (sem_msg e) = N.of_nat k.
Proof. exact c01_sns. Qed.
Print Assumptions C01_log_sequence_numbers.
Theorem C01_state_sequence_number :
  forall E cs id l s,
    id <> id_default -> get_kel (run E db_empty cs) id = Some l -> l <> [] ->
    compute_state E (run E db_empty cs) id = Ok (Some s) ->
    (st_sn s + 1)%N = N.of_nat (List.length l).
Proof. exact c01_state. Qed.
Print Assumptions C01_state_sequence_number.
(** an accepted event is the next one, and the returned state reports its number *)
Theorem C01_accepted_event_is_next :
  forall E cs se d' s,
    let d := run E db_empty cs in
    em_prefix (sem_msg se) <> id_default ->
    process E d (MEvent se) = (d', Ok (Some s)) ->
    em_sn (sem_msg se) = N.of_nat (List.length (olist (get_kel d (em_prefix (sem_msg se)))))
    /\ st_sn s = em_sn (sem_msg se).
Proof. exact c01_accept. Qed.
Print Assumptions C01_accepted_event_is_next.
Example C01_example :
  exists l, get_kel demo alice = Some l /\ map (fun e => em_sn (sem_msg e)) l = [0; 1; 2; 3]%N
  /\ exists d' s, process toy (run toy db_empty [CProcess (MEvent s_icp)]) (MEvent s_rot) = (d', Ok (Some s)).
Proof. ex_vm. Qed.

(** ** C02: accepted events form a digest chain *)
Theorem C02_digest_chain :
  forall E cs id l k e e',
    id <> id_default -> get_kel (run E db_empty cs) id = Some l ->
    nth_error l k = Some e -> nth_error l (S k) = Some e' ->
    prev_digest (sem_msg e') = Some (em_digest (sem_msg e)).
Proof. exact c02_chain. Qed.
Print Assumptions C02_digest_chain.
Theorem C02_state_digest :
  forall E cs id l s e,
    id <> id_default -> get_kel (run E db_empty cs) id = Some l ->
    compute_state E (run E db_empty cs) id = Ok (Some s) ->
    last_event (log_of l) = Some e -> st_last_digest s = em_digest e.
Proof. exact c02_state. Qed.
Print Assumptions C02_state_digest.
Example C02_example :
  exists l s, get_kel demo alice = Some l /\ compute_state toy demo alice = Ok (Some s)
  /\ last_event (log_of l) = Some a_ixn2 /\ List.length l = 4.
Proof. ex_vm. Qed.

(** ** C03: one inception, first, and the identifier never changes *)
Theorem C03_one_inception_first :
  forall E cs id l k e,
    id <> id_default -> get_kel (run E db_empty cs) id = Some l -> nth_error l k = Some e ->
    (is_inception (sem_msg e) = true <-> k = 0) /\ em_prefix (sem_msg e) = id.
Proof. exact c03_inception. Qed.
Print Assumptions C03_one_inception_first.
Theorem C03_state_prefix :
  forall E cs id l s,
    id <> id_default -> get_kel (run E db_empty cs) id = Some l -> l <> [] ->
    compute_state E (run E db_empty cs) id = Ok (Some s) -> st_prefix s = id.
Proof. exact c03_prefix. Qed.
Print Assumptions C03_state_prefix.
Example C03_example :
  exists l s, get_kel demo bob = Some l /\ l <> [] /\ compute_state toy demo bob = Ok (Some s).
Proof. ex_vm. Qed.

(** ** C04: keys only change to what was pre-committed *)
(** the keys in force are those of the last establishment event *)
Theorem C04_keys_of_last_establishment :
  forall E cs id l s,
    id <> id_default -> get_kel (run E db_empty cs) id = Some l -> l <> [] ->
    compute_state E (run E db_empty cs) id = Ok (Some s) ->
    exists e, last_establishment (log_of l) = Some e /\ est_keys e = Some (st_current s).
Proof. exact c04_keys. Qed.
Print Assumptions C04_keys_of_last_establishment.
(** every rotation in a log matches the commitment of the establishment event before it *)
Theorem C04_rotation_matches_commitment :
  forall E cs id l k e,
    id <> id_default -> get_kel (run E db_empty cs) id = Some l ->
    nth_error l k = Some e -> is_rotation (sem_msg e) = true ->
    exists e0 kc0 n kc,
      last_establishment (log_of (firstn k l)) = Some e0 /\ est_keys e0 = Some kc0 /\
      kc_next kc0 = Some n /\ est_keys (sem_msg e) = Some kc /\
      sap_digest n = xor_all (e_digest E (sap_code n) (threshold_str (kc_threshold kc)))
                             (map (fun key => e_digest E (sap_code n) (bp_str key)) (kc_keys kc)) /\
      computable (sap_code n).
Proof. exact c04_commit. Qed.
Print Assumptions C04_rotation_matches_commitment.
(** with an empty commitment there is no later establishment event *)
Theorem C04_empty_commitment_is_final :
  forall E cs id l j k e e' kc,
    id <> id_default -> get_kel (run E db_empty cs) id = Some l ->
    nth_error l j = Some e -> est_keys (sem_msg e) = Some kc -> kc_next kc = None ->
    j < k -> nth_error l k = Some e' -> is_establishment (sem_msg e') = false.
Proof. exact c04_frozen. Qed.
Print Assumptions C04_empty_commitment_is_final.
(** an accepted interaction changes only sequence number and last digest *)
Theorem C04_interaction_changes_nothing_else :
  forall E d se i d' s s',
    em_data (sem_msg se) = Ixn i ->
    compute_state E d (em_prefix (sem_msg se)) = Ok (Some s) ->
    process E d (MEvent se) = (d', Ok (Some s')) ->
    s' = mkState (st_prefix s) (st_sn s + 1) (em_digest (sem_msg se)) (st_last_previous s)
           (st_last_type s) (st_current s) (st_tally s) (st_witnesses s) (st_delegator s) (st_last_est s).
Proof. exact c04_ixn. Qed.
Print Assumptions C04_interaction_changes_nothing_else.
(** a log whose second event is a rotation, one whose inception commits to nothing *)
Definition nc_icp : EventMessage :=
  mk_incept (Icp (mkIcp (mkKC (Simple 1) [key x21] None) (mkIWC 0 []) [] [])).
Definition nc_ixn : EventMessage := mk_event (em_prefix nc_icp) 1 (Ixn (mkIxn (em_digest nc_icp) [])).
Example C04_example :
  exists l, get_kel demo alice = Some l
  /\ (exists e, nth_error l 1 = Some e /\ is_rotation (sem_msg e) = true)
  /\ exists l2 e, get_kel (run toy db_empty [CProcess (MEvent (signed nc_icp [key x21] None));
                                          CProcess (MEvent (signed nc_ixn [key x21] None))]) (em_prefix nc_icp)
                = Some l2 /\ List.length l2 = 2 /\ nth_error l2 0 = Some e
                /\ option_map kc_next (est_keys (sem_msg e)) = Some None.
Proof. ex_vm. Qed.

(** ** C05: delegated and self-governed identifiers do not mix *)
Theorem C05_delegation_is_fixed :
  forall E cs id l e0 s,
    id <> id_default -> get_kel (run E db_empty cs) id = Some l -> nth_error l 0 = Some e0 ->
    compute_state E (run E db_empty cs) id = Ok (Some s) ->
    st_delegator s = named_delegator (sem_msg e0)
    /\ forall e, In e l -> match em_data (sem_msg e) with
                           | Rot _ => named_delegator (sem_msg e0) = None
                           | Drt _ => named_delegator (sem_msg e0) <> None
                           | _ => True end.
Proof. exact c05. Qed.
Print Assumptions C05_delegation_is_fixed.
Example C05_example :
  option_map log_of (get_kel demo bob) = Some [b_dip; b_drt] /\ is_rotation b_drt = true
  /\ st_delegator (state_of toy demo bob) = Some alice.
Proof. ex_vm. Qed.

(** ** C06: witness list evolution *)
Theorem C06_witness_list :
  forall E cs id l s,
    id <> id_default -> get_kel (run E db_empty cs) id = Some l ->
    compute_state E (run E db_empty cs) id = Ok (Some s) ->
    st_witnesses s = fold_left spec_witnesses (log_of l) []
    /\ st_tally s = fold_left spec_tally (log_of l) 0%N.
Proof. exact c06. Qed.
Print Assumptions C06_witness_list.
Example C06_example : st_witnesses (state_of toy demo alice) = [wit x72; wit x73].
Proof. ex_vm. Qed.

(** ** C07: witness list stays a set.  Refuted: a rotation may add a current witness again,
    and may remove one that is not a witness. *)
Definition dup_rot : EventMessage :=
  mk_event alice 1 (Rot (mkRot (em_digest a_icp) (kc_of [key x03; key x04] [key x05; key x06] 2)
                          (mkWC 1 [wit x79] [wit x72]) [])).
Definition dup_calls : list Call :=
  [CProcess (MEvent s_icp); CProcess (MEvent (signed dup_rot [key x03; key x04] None))].
Theorem C07_refuted :
  exists E cs id l e s,
    id <> id_default /\ get_kel (run E db_empty cs) id = Some l /\
    nth_error l 0 = Some e /\ NoDup (spec_witnesses [] (sem_msg e)) /\
    compute_state E (run E db_empty cs) id = Ok (Some s) /\
    ~ NoDup (st_witnesses s) /\
    exists e1 w, nth_error l 1 = Some e1 /\ In w (removed_witnesses (sem_msg e1))
                 /\ ~ In w (spec_witnesses [] (sem_msg e)).
Proof.
  exists toy, dup_calls, alice.
  do 3 eexists. split; [vm_compute; discriminate|]. split; [vm_compute; reflexivity|].
  split; [reflexivity|]. split; [apply nodup_by; ex_vm|].
  split; [vm_compute; reflexivity|]. split; [apply not_nodup_by; ex_vm|].
  exists (stored (signed dup_rot [key x03; key x04] None)), (wit x79).
  split; [ex_vm|]. split; [apply in_by; ex_vm|apply not_in_by; ex_vm].
Qed.
Print Assumptions C07_refuted.
(** What holds: if every rotation adds distinct witnesses that are new (or just removed), the
    list has no duplicates.  Missing from the full statement: the code does not check this. *)
Theorem C07_partial :
  forall E cs id l s,
    id <> id_default -> get_kel (run E db_empty cs) id = Some l ->
    compute_state E (run E db_empty cs) id = Ok (Some s) ->
    (forall e, nth_error l 0 = Some e -> NoDup (spec_witnesses [] (sem_msg e))) ->
    (forall k e, nth_error l k = Some e ->
       NoDup (added_witnesses (sem_msg e))
       /\ forall w, In w (added_witnesses (sem_msg e)) ->
          In w (fold_left spec_witnesses (log_of (firstn k l)) []) -> In w (removed_witnesses (sem_msg e))) ->
    NoDup (st_witnesses s).
Proof. exact c07_nodup. Qed.
Print Assumptions C07_partial.
Example C07_example :
  exists l, get_kel demo alice = Some l /\ List.length l = 4 /\
   (forall k e, nth_error l k = Some e ->
       NoDup (added_witnesses (sem_msg e))
       /\ forall w, In w (added_witnesses (sem_msg e)) ->
          In w (fold_left spec_witnesses (log_of (firstn k l)) []) -> In w (removed_witnesses (sem_msg e))).
Proof.
  exists [stored s_icp; stored s_rot; stored s_ixn; stored s_ixn2]. split; [ex_vm|]. split; [ex_vm|].
  assert (H3 : forall w, In w (added_witnesses a_rot) -> w = wit x73).
  { intros w [<-|[]]. reflexivity. }
  intros [|[|[|[|k]]]] e He; cbn [nth_error] in He; try (destruct k; discriminate He); injection He as <-;
    (split; [apply nodup_by; vm_compute; reflexivity|]).
  - intros w [].
  - intros w Hw Hin. apply H3 in Hw. subst w. exfalso. revert Hin. apply not_in_by. ex_vm.
  - intros w [].
  - intros w [].
Qed.

(** ** C08: last-establishment record.  Refuted for rotations: the record has the digest of the
    event before the rotation, and the two witness lists are exchanged. *)
Theorem C08_refuted :
  exists E cs id l s e,
    id <> id_default /\ get_kel (run E db_empty cs) id = Some l /\
    compute_state E (run E db_empty cs) id = Ok (Some s) /\
    last_establishment (log_of l) = Some e /\
    le_digest (st_last_est s) <> em_digest e /\
    le_br (st_last_est s) <> removed_witnesses e /\ le_ba (st_last_est s) <> added_witnesses e.
Proof.
  exists toy, demo_calls, alice. do 3 eexists.
  split; [vm_compute; discriminate|]. split; [vm_compute; reflexivity|].
  split; [vm_compute; reflexivity|]. split; [vm_compute; reflexivity|].
  split; [vm_compute; discriminate|]. split; vm_compute; discriminate.
Qed.
Print Assumptions C08_refuted.
(** What holds: the sn is right; after an inception everything is right; after a rotation
    the record is exactly (digest of the previous event, added, removed). *)
Theorem C08_partial :
  forall E cs id l s,
    id <> id_default -> get_kel (run E db_empty cs) id = Some l -> l <> [] ->
    compute_state E (run E db_empty cs) id = Ok (Some s) ->
    exists e, last_establishment (log_of l) = Some e /\ le_sn (st_last_est s) = em_sn e
      /\ (is_inception e = true -> le_digest (st_last_est s) = em_digest e
            /\ le_br (st_last_est s) = [] /\ le_ba (st_last_est s) = [])
      /\ (is_rotation e = true -> prev_digest e = Some (le_digest (st_last_est s))
            /\ le_br (st_last_est s) = added_witnesses e /\ le_ba (st_last_est s) = removed_witnesses e).
Proof. exact c08_full. Qed.
Print Assumptions C08_partial.
Example C08_example :
  exists s, compute_state toy (run toy db_empty [CProcess (MEvent s_icp)]) alice = Ok (Some s)
  /\ st_last_est s = mkLE 0 (em_digest a_icp) [] [].
Proof. ex_vm. Qed.

(** ** C09: identifier prefix is bound to the inception.  Refuted for self-addressing
    prefixes: prefix and digest field only have to agree with each other. *)
Definition forged : SelfAddressingPrefix := mkSAP Blake3_256 (repeat x99 32).
Definition forged_icp : EventMessage :=
  mkEM info0 forged (IdSelfAddressing forged) 0 (em_data a_icp).
Theorem C09_refuted :
  exists E cs id l e sap,
    id = IdSelfAddressing sap /\ sap <> sap_default /\ get_kel (run E db_empty cs) id = Some l /\
    nth_error l 0 = Some e /\
    (forall m m' : EventMessage, em_data m = em_data m' -> em_sn m = em_sn m' -> e_deriv_data E m = e_deriv_data E m') /\
    exists data, e_deriv_data E (sem_msg e) = Ok data /\ e_digest E (sap_code sap) data <> sap_digest sap.
Proof.
  exists toy, [CProcess (MEvent (signed forged_icp [key x01; key x02] None))], (IdSelfAddressing forged).
  do 3 eexists. split; [reflexivity|]. split; [discriminate|]. split; [vm_compute; reflexivity|].
  split; [reflexivity|]. split.
  - intros m m' H1 H2. cbn. unfold toy_deriv. now rewrite H1, H2.
  - eexists. split; [reflexivity|]. vm_compute. discriminate.
Qed.
Print Assumptions C09_refuted.
Theorem C09_partial :
  forall E cs id l e,
    id <> id_default -> get_kel (run E db_empty cs) id = Some l -> nth_error l 0 = Some e ->
    match id with
    | IdBasic bp => exists i, em_data (sem_msg e) = Icp i /\ kc_keys (icp_kc i) = [bp]
    | IdSelfAddressing sap =>
        em_digest (sem_msg e) = sap
        \/ (is_inception (sem_msg e) = true
            /\ exists data, e_deriv_data E (sem_msg e) = Ok data /\ e_digest E (sap_code sap) data = sap_digest sap)
    | IdSelfSigning _ => False
    end.
Proof. exact c09_binding. Qed.
Print Assumptions C09_partial.
Definition basic_icp : EventMessage :=
  mkEM info0 forged (IdBasic (key x31)) 0 (Icp (mkIcp (kc_of [key x31] [key x32] 1) (mkIWC 0 []) [] [])).
Example C09_example :
  (exists l, get_kel (run toy db_empty [CProcess (MEvent (signed basic_icp [key x31] None))]) (IdBasic (key x31)) = Some l /\ l <> [])
  /\ exists l, get_kel demo alice = Some l /\ l <> [].
Proof. ex_vm. Qed.

(** ** C10: event digest field is the digest of the event.  Refuted: the digest field is only
    compared with itself, so any value is accepted. *)
Definition forged_ixn : EventMessage := mkEM info0 forged alice 1 (Ixn (mkIxn (em_digest a_icp) [])).
Theorem C10_refuted :
  exists E cs id l e data,
    id <> id_default /\ get_kel (run E db_empty cs) id = Some l /\ In e l /\
    (forall m m' : EventMessage, em_data m = em_data m' -> em_sn m = em_sn m' -> e_deriv_data E m = e_deriv_data E m') /\
    e_deriv_data E (sem_msg e) = Ok data /\
    e_digest E (sap_code (em_digest (sem_msg e))) data <> sap_digest (em_digest (sem_msg e)).
Proof.
  exists toy, [CProcess (MEvent s_icp); CProcess (MEvent (signed forged_ixn [key x01; key x02] None))], alice.
  do 3 eexists. split; [vm_compute; discriminate|]. split; [vm_compute; reflexivity|].
  split; [right; left; reflexivity|]. split.
  - intros m m' H1 H2. cbn. unfold toy_deriv. now rewrite H1, H2.
  - split; [reflexivity|]. vm_compute. discriminate.
Qed.
Print Assumptions C10_refuted.
(** In general: for a rotation or interaction, whatever value the digest field has, the
    transition is the same and the state records that value. *)
Theorem C10_digest_field_is_never_checked :
  forall E m s s' g,
    is_inception m = false -> apply_msg E m s = Ok s' ->
    apply_msg E (mkEM (em_info m) g (em_prefix m) (em_sn m) (em_data m)) s = Ok (st_set_last_digest s' g).
Proof. exact c10_any_digest. Qed.
Print Assumptions C10_digest_field_is_never_checked.

(** ** C11: applying an event to a state never panics.  Refuted: [todo!()] for a self-signing
    inception prefix or a delegated inception without self-addressing prefix. *)
Theorem C11_refuted :
  exists E m, (forall m', e_deriv_data E m' <> Panic) /\ apply_msg E m state_default = Panic.
Proof.
  exists toy, (mkEM info0 forged (IdSelfSigning (mkSSP Ed25519Sha512 (repeat x01 64))) 0 (em_data a_icp)).
  split; [discriminate|reflexivity].
Qed.
Print Assumptions C11_refuted.
(** Refuted again: two of the nine digest algorithms an event can name are not computable
    ([computable]).  An identifier that names one of them aborts the node that receives its
    inception, and a rotation aborts the node if the commitment it has to meet names one. *)
Theorem C11_refuted_digest :
  exists E m m' s, (forall m', e_deriv_data E m' <> Panic)
    /\ (exists sap, em_data m = em_data a_icp /\ em_prefix m = IdSelfAddressing sap /\ ~ computable (sap_code sap))
    /\ apply_msg E m state_default = Panic
    /\ apply_msg E m' state_default = Ok s
    /\ apply_msg E a_rot s = Panic.
Proof.
  set (sap := mkSAP (Blake2B256 []) (repeat x01 32)).
  set (icp := match em_data a_icp with Icp i => i | _ => mkIcp kc_default (mkIWC 0 []) [] [] end).
  set (kc := mkKC (kc_threshold (icp_kc icp)) (kc_keys (icp_kc icp)) (Some sap)).
  exists toy, (mkEM info0 forged (IdSelfAddressing sap) 0 (em_data a_icp)),
    (mkEM info0 (em_digest a_icp) (em_prefix a_icp) 0 (Icp (mkIcp kc (icp_wc icp) (icp_config icp) (icp_data icp)))).
  eexists. split; [discriminate|]. split.
  { exists sap. split; [reflexivity|]. split; [reflexivity|]. cbn. tauto. }
  split; [vm_compute; reflexivity|]. split; [vm_compute; reflexivity|]. vm_compute; reflexivity.
Qed.
Print Assumptions C11_refuted_digest.
(** These are the only cases: [unhashable m p] says that the prefix [p] of the inception [m]
    names an algorithm that is not computable, other than that of the digest of [m]; and
    [unmeetable m s] that the event [m] is the next one of the log with state [s], whose keys
    in force committed to the next ones with an algorithm that is not computable. *)
Theorem C11_partial :
  forall E m s,
    e_deriv_data E m <> Panic ->
    let unhashable p :=
      sap_code (em_digest m) <> sap_code p /\ ~ computable (sap_code p) /\ exists data, e_deriv_data E m = Ok data in
    let unmeetable :=
      em_prefix m = st_prefix s /\ em_sn m = (st_sn s + 1)%N
      /\ exists n, kc_next (st_current s) = Some n /\ ~ computable (sap_code n) in
    (apply_msg E m s = Panic <->
     match em_data m, em_prefix m with
     | Icp _, IdSelfSigning _ => True
     | Dip _, IdBasic _ | Dip _, IdSelfSigning _ => True
     | Icp _, IdSelfAddressing p | Dip _, IdSelfAddressing p => unhashable p
     | Rot _, _ => st_delegator s = None /\ unmeetable
     | Drt _, _ => unmeetable
     | _, _ => False
     end).
Proof. exact c11_panic. Qed.
Print Assumptions C11_partial.
Example C11_example : (forall m', e_deriv_data toy m' <> Panic) /\ exists s, apply_msg toy a_icp state_default = Ok s.
Proof. split; [discriminate|]. eexists; vm_compute; reflexivity. Qed.
