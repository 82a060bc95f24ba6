(** * Prop_Accept: which events are accepted (C85).

    See [Prop_State.v] for [run E db_empty cs] and [id_default]; [SpecRules.v] for the rules. *)
From Verif Require Import Base Base64 Codes NumFmt Types KeyConf SpecSig State Db Processor Spec SpecProc SpecRules
  StateProofs LogProofs LogTheorems LogTheorems2 SigProofs ProcProofs ProcProofs2 AcceptProofs Demo.

(** ** C85: an event is accepted exactly when the rules allow it *)
(** For an event whose content can be written out, and keys whose weights are fractions. *)
Theorem C85_accepted_exactly_when_allowed :
  forall E cs se,
    let d := run E db_empty cs in let m := sem_msg se in
    let logs := fun id => log_of (log d id) in
    em_prefix m <> id_default ->
    (forall p, delegator_of (logs (em_prefix m)) m = Some p -> p <> id_default) ->
    (exists x, e_deriv_data E m = Ok x) ->
    (forall kc, keys_in_force (logs (em_prefix m)) m = Some kc -> rational_threshold (kc_threshold kc)) ->
    ((exists d' s, process E d (MEvent se) = (d', Ok (Some s))) <-> acceptable E logs se).
Proof. exact accept_iff. Qed.
Print Assumptions C85_accepted_exactly_when_allowed.

(** The decision is a function of two logs: that of the event's identifier and that of its
    delegator. Receipts, escrows, replies and other identifiers have no say. *)
Theorem C85_decided_by_two_logs :
  forall E cs1 cs2 se,
    let d1 := run E db_empty cs1 in let d2 := run E db_empty cs2 in
    let m := sem_msg se in let l := log_of (log d1 (em_prefix m)) in
    em_prefix m <> id_default ->
    (forall p, delegator_of l m = Some p -> p <> id_default) ->
    (exists x, e_deriv_data E m = Ok x) ->
    (forall kc, keys_in_force l m = Some kc -> rational_threshold (kc_threshold kc)) ->
    log_of (log d2 (em_prefix m)) = l ->
    (forall p, delegator_of l m = Some p -> log_of (log d2 p) = log_of (log d1 p)) ->
    ((exists d' s, process E d1 (MEvent se) = (d', Ok (Some s))) <->
     (exists d' s, process E d2 (MEvent se) = (d', Ok (Some s)))).
Proof.
  cbv zeta. intros E cs1 cs2 se Hid Hd Hx Hr Hl Hdl.
  rewrite (accept_iff E cs1 se Hid Hd Hx Hr).
  rewrite (accept_iff E cs2 se Hid) by (try exact Hx; intros a; cbv beta; rewrite Hl; auto).
  unfold acceptable. cbv zeta. rewrite Hl.
  assert (Ha : anchored E (fun id => log_of (log (run E db_empty cs1) id)) (log_of (log (run E db_empty cs1) (em_prefix (sem_msg se)))) se
           <-> anchored E (fun id => log_of (log (run E db_empty cs2) id)) (log_of (log (run E db_empty cs1) (em_prefix (sem_msg se)))) se).
  { unfold anchored. split; intros (p & src & x & be & es & af & H0 & H1 & H2 & H3);
      exists p, src, x, be, es, af; (split; [exact H0|]); (split; [exact H1|]); (split; [|exact H3]);
      pose proof (Hdl _ H0) as He; cbv beta in *; [rewrite He|rewrite <- He]; exact H2. }
  rewrite Ha. reflexivity.
Qed.
Print Assumptions C85_decided_by_two_logs.

(** Hypotheses met, on both sides: a delegated rotation accepted and the same rotation before its
    anchor is there. *)
Definition before_anchor : list Call := [CProcess (MEvent s_icp); CProcess (MEvent s_rot); CProcess (MEvent s_ixn); CProcess (MEvent s_dip)].
Definition with_anchor : list Call := before_anchor ++ [CProcess (MEvent s_ixn2)].
Definition accepted (E : Env) (cs : list Call) (se : SignedEventMessage) : bool :=
  match process E (run E db_empty cs) (MEvent se) with (_, Ok (Some _)) => true | _ => false end.
Example C85_example :
  accepted toy with_anchor s_drt = true /\ accepted toy before_anchor s_drt = false.
Proof. apply conj; vm_compute; reflexivity. Qed.
Example C85_example_hypotheses :
  em_prefix (sem_msg s_drt) = bob /\ bob <> id_default
  /\ delegator_of (log_of (log (run toy db_empty with_anchor) bob)) (sem_msg s_drt) = Some alice /\ alice <> id_default
  /\ (exists x, e_deriv_data toy (sem_msg s_drt) = Ok x)
  /\ option_map kc_threshold (keys_in_force (log_of (log (run toy db_empty with_anchor) bob)) (sem_msg s_drt)) = Some (Simple 1).
Proof.
  apply conj; [reflexivity|]. apply conj; [vm_compute; discriminate|].
  apply conj; [vm_compute; reflexivity|]. apply conj; [vm_compute; discriminate|].
  apply conj; [eexists; reflexivity|]. vm_compute. reflexivity.
Qed.
Example C85_example_allowed : acceptable toy (fun id => log_of (log (run toy db_empty with_anchor) id)) s_drt.
Proof.
  destruct C85_example_hypotheses as (H1 & H2 & H3 & H4 & H5 & H6).
  apply C85_accepted_exactly_when_allowed.
  - rewrite H1. exact H2.
  - rewrite H1. intros p. rewrite H3. intros H. injection H as <-. exact H4.
  - exact H5.
  - rewrite H1. intros kc Hk. rewrite Hk in H6. cbn in H6. injection H6 as ->. exact I.
  - destruct C85_example as [H _]. unfold accepted in H.
    destruct (process toy (run toy db_empty with_anchor) (MEvent s_drt)) as [d' [[s|]| |]]; try discriminate H. eauto.
Qed.
