(** * Prop_Query: key-state replies (C52-C56, C69). *)
From Coq Require Import Permutation.
From Verif Require Import Base Base64 Codes NumFmt NumProofs Types KeyConf SpecSig State Db Processor Spec SpecProc SpecQuery
  ProcProofs ProcProofs2 QueryProofs Demo.

(** ** A demo: Dave is known by a (transferable) key and has rotated; Bob and Dave reply about Alice *)
Definition d_icp : EventMessage :=
  let dt := Icp (mkIcp (kc_of [key x41] [key x42] 1) (mkIWC 0 []) [] []) in
  mkEM info0 (mkSAP Blake3_256 (toy_digest Blake3_256 (data_bytes dt ++ fmt_hex 0))) (IdBasic (key x41)) 0 dt.
Definition dave : IdentifierPrefix := em_prefix d_icp.
Definition d_rot : EventMessage :=
  mk_event dave 1 (Rot (mkRot (em_digest d_icp) (kc_of [key x42] [key x43] 1) (mkWC 0 [] []) [])).
Definition with_dave : list Call :=
  demo_events ++ [CProcess (MEvent (signed d_icp [key x41] None)); CProcess (MEvent (signed d_rot [key x42] None))].
Definition notice (s : IdentifierState) (t : Z) : KeyStateNotice := mkKsn info0 s 0 t [].
Definition reply_of (aid : IdentifierPrefix) (k : KeyStateNotice) (t : Z) : ReplyMessage :=
  let r := mkReply info0 (mkSAP Blake3_256 []) t (RReplyKsn aid) k in
  mkReply info0 (mkSAP Blake3_256 (toy_digest Blake3_256 (toy_deriv_reply r))) t (RReplyKsn aid) k.
Definition by_keys (e : EventMessage) (keys : list BasicPrefix) (r : ReplyMessage) : SignedReply :=
  mkSRpy r (Transferable (mkES (em_prefix e) (em_sn e) (em_digest e)) (sigs_from 0 keys (toy_ser_reply r))).
Definition by_bare (k : BasicPrefix) (r : ReplyMessage) : SignedReply :=
  mkSRpy r (NonTransferable k (sig_over k (toy_ser_reply r))).
Definition about_alice : IdentifierState := state_of toy (run toy db_empty with_dave) alice.
Definition bob_0 : SignedReply := by_keys b_dip [key x11] (reply_of bob (notice about_alice 100) 100).
Definition bob_1 : SignedReply := by_keys b_drt [key x12] (reply_of bob (notice about_alice 150) 90).
Definition dave_1 : SignedReply := by_keys d_rot [key x42] (reply_of dave (notice about_alice 100) 100).
Definition dave_bare : SignedReply := by_bare (key x41) (reply_of dave (notice about_alice 200) 200).
Definition answer (cs : list Call) (r : SignedReply) : out (option IdentifierState) :=
  snd (process toy (run toy db_empty cs) (MKeyStateNotice r)).
Definition then_reply (cs : list Call) (rs : list SignedReply) : list Call :=
  cs ++ map (fun r => CProcess (MKeyStateNotice r)) rs.
(** Bob replies with his first keys, then (earlier clock) with his rotated keys; Dave replies too *)
Example query_demo :
  answer with_dave bob_0 = Ok (Some about_alice)
  /\ answer (then_reply with_dave [bob_0]) bob_1 = Ok (Some about_alice)
  /\ answer (then_reply with_dave [bob_0; bob_1]) dave_1 = Ok (Some about_alice)
  /\ answer (then_reply with_dave [bob_0; bob_1; dave_1]) bob_0 = Err (EQuery QStaleRpy)
  /\ accepted (run toy db_empty (then_reply with_dave [bob_0; bob_1; dave_1; bob_0])) alice = [bob_1; dave_1].
Proof. ex_vm. Qed.

(** ** C52: replies are accepted only in BADA order *)
(** Full statement: whatever happens in between, a reply that is accepted later for the same
    subject and replier does not come before. *)
Definition C52_statement : Prop :=
  forall (E : Env) (before after : list Call) (id : IdentifierPrefix) (r r' : SignedReply),
    In r (accepted (run E db_empty before) id) ->
    In r' (accepted (run E db_empty (before ++ after)) id) ->
    replier r = replier r' ->
    not_before r r'.
(** It fails for identifiers that are a (transferable) key: a reply under the keys of a
    rotation is replaced by one signed by the rotated-out inception key. *)
Theorem C52_bare_key_refuted : ~ C52_statement.
Proof.
  intros H. specialize (H toy (then_reply with_dave [dave_1]) [CProcess (MKeyStateNotice dave_bare)] alice dave_1 dave_bare).
  assert (H1 : accepted (run toy db_empty (then_reply with_dave [dave_1])) alice = [dave_1]) by (vm_compute; reflexivity).
  assert (H2 : accepted (run toy db_empty (then_reply with_dave [dave_1] ++ [CProcess (MKeyStateNotice dave_bare)])) alice = [dave_bare])
    by (vm_compute; reflexivity).
  rewrite H1, H2 in H. specialize (H (or_introl eq_refl) (or_introl eq_refl) ltac:(vm_compute; reflexivity)).
  destruct H as [H|[H _]]; vm_compute in H; discriminate H.
Qed.
Print Assumptions C52_bare_key_refuted.
(** It holds whenever the two replies are signed in the same manner, in particular for
    every replier that is not a bare key; and a bare-key reply is never replaced by one under
    a seal.  Missing: an establishment-key reply followed by a bare-key one. *)
Theorem C52_bada_order_partial :
  forall (E : Env) (before after : list Call) (id : IdentifierPrefix) (r r' : SignedReply),
    In r (accepted (run E db_empty before) id) ->
    In r' (accepted (run E db_empty (before ++ after)) id) ->
    replier r = replier r' ->
    (not_before r r' \/ (by_bare_key r = false /\ by_bare_key r' = true))
    /\ ~ (by_bare_key r = true /\ by_bare_key r' = false).
Proof. exact c52. Qed.
Print Assumptions C52_bada_order_partial.
Theorem C52_transferable_repliers_partial :
  forall (E : Env) (before after : list Call) (id : IdentifierPrefix) (r r' : SignedReply),
    In r (accepted (run E db_empty before) id) ->
    In r' (accepted (run E db_empty (before ++ after)) id) ->
    replier r = replier r' -> (forall k, replier r <> IdBasic k) ->
    not_before r r'.
Proof.
  intros E b a id r r' H1 H2 H3 Hk. destruct (c52 E b a id r r' H1 H2 H3) as [[H|[_ H]] _]; [exact H|].
  exfalso. unfold by_bare_key in H. rewrite H3 in Hk. unfold replier in Hk.
  destruct (sr_sig r') as [|k s]; [discriminate H|]. now apply (Hk k).
Qed.
Print Assumptions C52_transferable_repliers_partial.
(** A step by a single reply, without the reachability of a history: the one that replaces
    another never has an earlier time, except under newer keys. *)
Theorem C52_replacement :
  forall (E : Env) (cs : list Call) (r old : SignedReply) (d' : Db) (res : option IdentifierState),
    process E (run E db_empty cs) (MKeyStateNotice r) = (d', Ok res) ->
    In old (accepted (run E db_empty cs) (sr_prefix r)) -> replier old = replier r ->
    (reply_time old <= reply_time r)%Z \/ (key_sn old < key_sn r)%N.
Proof.
  intros E cs r old d' res H Hin Hrep. apply reply_accepted in H. destruct H as (Ha & _).
  destruct (bada_order E _ _ _ (RpyInv_reachable E cs) Ha Hin Hrep) as [[[H|[_ H]]|(_ & _ & H)] _]; auto.
Qed.
Print Assumptions C52_replacement.
(** An accepted reply is never dropped: its replier always has one. *)
Theorem C52_never_dropped :
  forall (E : Env) (before after : list Call) (id : IdentifierPrefix) (r : SignedReply),
    In r (accepted (run E db_empty before) id) ->
    exists r', In r' (accepted (run E db_empty (before ++ after)) id) /\ replier r' = replier r.
Proof. exact c52_kept. Qed.
Print Assumptions C52_never_dropped.
Example C52_example :
  In bob_0 (accepted (run toy db_empty (then_reply with_dave [bob_0])) alice)
  /\ In bob_1 (accepted (run toy db_empty (then_reply with_dave [bob_0] ++ [CProcess (MKeyStateNotice bob_1)])) alice)
  /\ replier bob_0 = replier bob_1 /\ (forall k, replier bob_0 <> IdBasic k) /\ (reply_time bob_1 < reply_time bob_0)%Z.
Proof.
  assert (H1 : accepted (run toy db_empty (then_reply with_dave [bob_0])) alice = [bob_0]) by (vm_compute; reflexivity).
  assert (H2 : accepted (run toy db_empty (then_reply with_dave [bob_0] ++ [CProcess (MKeyStateNotice bob_1)])) alice = [bob_1]) by (vm_compute; reflexivity).
  rewrite H1, H2. split; [now left|]. split; [now left|]. split; [vm_compute; reflexivity|].
  split; [intros k; vm_compute; discriminate|vm_compute; reflexivity].
Qed.

(** ** C53: one accepted reply per subject and route, the latest *)
Theorem C53_one_per_route :
  forall (E : Env) (cs : list Call) (id : IdentifierPrefix),
    NoDup (map reply_route (accepted (run E db_empty cs) id))
    /\ forall r, In r (accepted (run E db_empty cs) id) -> sr_prefix r = id /\ reply_route r = RReplyKsn (replier r).
Proof.
  intros E cs id. destruct (RpyInv_reachable E cs id) as [H1 H2]. split; [exact H1|].
  rewrite Forall_forall in H2. intros r Hr. destruct (H2 r Hr). auto.
Qed.
Print Assumptions C53_one_per_route.
Theorem C53_latest_wins :
  forall (E : Env) (d : Db) (r : SignedReply) (d' : Db) (res : option IdentifierState),
    process E d (MKeyStateNotice r) = (d', Ok res) ->
    In r (accepted d' (sr_prefix r))
    /\ (forall r', In r' (accepted d' (sr_prefix r)) <->
          r' = r \/ (In r' (accepted d (sr_prefix r)) /\ reply_route r' <> reply_route r))
    /\ (forall id, id <> sr_prefix r -> accepted d' id = accepted d id).
Proof. exact c53_latest. Qed.
Print Assumptions C53_latest_wins.
Theorem C53_refusal_changes_nothing :
  forall (E : Env) (d : Db) (r : SignedReply) (d' : Db) (res : out (option IdentifierState)),
    process E d (MKeyStateNotice r) = (d', res) -> (forall s, res <> Ok s) ->
    forall id, accepted d' id = accepted d id.
Proof. exact c53_refused. Qed.
Print Assumptions C53_refusal_changes_nothing.
Example C53_example :
  answer (then_reply with_dave [bob_0; dave_1]) bob_1 = Ok (Some about_alice)
  /\ accepted (run toy db_empty (then_reply with_dave [bob_0; dave_1])) alice = [bob_0; dave_1]
  /\ accepted (run toy db_empty (then_reply with_dave [bob_0; dave_1; bob_1])) alice = [dave_1; bob_1].
Proof. ex_vm. Qed.

(** ** C54: accepted replies are authentic and match the log *)
(** Full statement; for a bare key, "signed by the identifier" means: by its keys in force. *)
Definition keys_in_force (E : Env) (d : Db) (id : IdentifierPrefix) : list BasicPrefix :=
  match compute_state E d id with Ok (Some s) => kc_keys (st_current s) | _ => [] end.
Definition C54_statement : Prop :=
  forall (E : Env) (cs : list Call) (r : SignedReply) (d' : Db) (res : option IdentifierState),
    sr_prefix r <> id_default ->
    process E (run E db_empty cs) (MKeyStateNotice r) = (d', Ok res) ->
    reply_route r = RReplyKsn (replier r)
    /\ reply_signed E (run E db_empty cs) r
    /\ (forall k s, sr_sig r = NonTransferable k s -> log (run E db_empty cs) (IdBasic k) <> [] ->
          In k (keys_in_force E (run E db_empty cs) (IdBasic k)))
    /\ reply_bound E r
    /\ exists e, last_event (log_of (log (run E db_empty cs) (sr_prefix r))) = Some e /\ notice_names E r e.
Lemma against_C54 E cs r res k s :
  snd (process E (run E db_empty cs) (MKeyStateNotice r)) = Ok res -> sr_prefix r <> id_default ->
  sr_sig r = NonTransferable k s -> log (run E db_empty cs) (IdBasic k) <> [] ->
  ~ In k (keys_in_force E (run E db_empty cs) (IdBasic k)) -> ~ C54_statement.
Proof.
  intros Hr Hid Hs Hl Hk H. destruct (process E (run E db_empty cs) (MKeyStateNotice r)) as [d' x] eqn:Hp.
  cbn in Hr. subst x. destruct (H _ _ _ _ _ Hid Hp) as (_ & _ & Hc & _). apply Hk. eapply Hc; eauto.
Qed.
Theorem C54_rotated_key_refuted : ~ C54_statement.
Proof.
  apply (against_C54 toy with_dave dave_bare (Some about_alice) (key x41)
           (sig_over (key x41) (toy_ser_reply (reply_of dave (notice about_alice 200) 200)))).
  - vm_compute; reflexivity.
  - vm_compute; discriminate.
  - vm_compute; reflexivity.
  - vm_compute; discriminate.
  - apply not_in_by. vm_compute; reflexivity.
Qed.
Print Assumptions C54_rotated_key_refuted.
(** Missing: that a bare key which has a log is still in force. *)
Theorem C54_accepted_reply_is_authentic_partial :
  forall (E : Env) (cs : list Call) (r : SignedReply) (d' : Db) (res : option IdentifierState),
    sr_prefix r <> id_default ->
    process E (run E db_empty cs) (MKeyStateNotice r) = (d', Ok res) ->
    reply_route r = RReplyKsn (replier r)
    /\ reply_signed E (run E db_empty cs) r /\ reply_bound E r
    /\ exists e, last_event (log_of (log (run E db_empty cs) (sr_prefix r))) = Some e /\ notice_names E r e.
Proof. exact c54. Qed.
Print Assumptions C54_accepted_reply_is_authentic_partial.
(** and everything in the table is justified by the present logs *)
Theorem C54_table_is_authentic_partial :
  forall (E : Env) (cs : list Call) (id : IdentifierPrefix) (r : SignedReply),
    id <> id_default -> In r (accepted (run E db_empty cs) id) -> replier r <> id_default ->
    reply_signed E (run E db_empty cs) r /\ reply_bound E r
    /\ exists e, In e (log_of (log (run E db_empty cs) (sr_prefix r))) /\ notice_names E r e.
Proof. intros E cs id r H1 H2 H3. destruct (JInv_reachable E cs) as (_ & _ & H). now apply (H id). Qed.
Print Assumptions C54_table_is_authentic_partial.
Example C54_example :
  sr_prefix bob_0 <> id_default /\ answer with_dave bob_0 = Ok (Some about_alice) /\ replier bob_0 <> id_default
  /\ answer with_dave (by_keys b_dip [key x12] (reply_of bob (notice about_alice 100) 100)) = Err ESignatureVerification
  /\ answer with_dave (by_keys b_dip [key x11] (reply_of alice (notice about_alice 100) 100))
     = Err (EQuery (QError "Wrong reply message signer"))
  /\ answer demo_events (by_keys b_dip [key x11] (reply_of bob (notice (state_of toy (run toy db_empty (firstn 3 demo_events)) alice) 100) 100))
     = Err (EQuery QStaleKsn).
Proof. ex_vm. Qed.

(** ** C69: an accepted key-state reply describes the local key state *)
Definition C69_statement : Prop :=
  forall (E : Env) (cs : list Call) (r : SignedReply) (d' : Db) (s : IdentifierState),
    sr_prefix r <> id_default ->
    process E (run E db_empty cs) (MKeyStateNotice r) = (d', Ok (Some s)) ->
    exists s0, compute_state E (run E db_empty cs) (sr_prefix r) = Ok (Some s0)
      /\ st_current s = st_current s0 /\ st_witnesses s = st_witnesses s0 /\ st_tally s = st_tally s0
      /\ st_delegator s = st_delegator s0 /\ st_sn s = st_sn s0.
(** The keys (and threshold, witnesses, delegator) of the notice are not compared with the
    log: Bob's false statement about Alice's keys is accepted and returned as her state. *)
Definition lie : IdentifierState :=
  mkState (st_prefix about_alice) (st_sn about_alice) (st_last_digest about_alice) (st_last_previous about_alice)
    (st_last_type about_alice) (kc_of [key x66] [key x67] 1) (st_tally about_alice) (st_witnesses about_alice)
    (st_delegator about_alice) (st_last_est about_alice).
Definition bob_lies : SignedReply := by_keys b_dip [key x11] (reply_of bob (notice lie 100) 100).
Lemma against_C69 E cs r s s0 :
  snd (process E (run E db_empty cs) (MKeyStateNotice r)) = Ok (Some s) -> sr_prefix r <> id_default ->
  compute_state E (run E db_empty cs) (sr_prefix r) = Ok (Some s0) -> st_current s <> st_current s0 -> ~ C69_statement.
Proof.
  intros Hr Hid Hs Hk H. destruct (process E (run E db_empty cs) (MKeyStateNotice r)) as [d' x] eqn:Hp.
  cbn in Hr. subst x. destruct (H _ _ _ _ _ Hid Hp) as (s1 & Hs1 & Hc & _). congruence.
Qed.
Theorem C69_wrong_keys_refuted : ~ C69_statement.
Proof. apply (against_C69 toy with_dave bob_lies lie about_alice); ex_vm. Qed.
Print Assumptions C69_wrong_keys_refuted.
(** What is checked: the subject, the sequence number and the last event's digest. *)
Theorem C69_checked_fields_partial :
  forall (E : Env) (cs : list Call) (r : SignedReply) (d' : Db) (s : IdentifierState),
    sr_prefix r <> id_default ->
    process E (run E db_empty cs) (MKeyStateNotice r) = (d', Ok (Some s)) ->
    s = ksn_state (rp_ksn (sr_reply r))
    /\ exists s0, compute_state E (run E db_empty cs) (sr_prefix r) = Ok (Some s0)
      /\ st_prefix s = st_prefix s0 /\ st_sn s = st_sn s0
      /\ (sap_code (st_last_digest s) = sap_code (st_last_digest s0) -> st_last_digest s = st_last_digest s0).
Proof. exact c69. Qed.
Print Assumptions C69_checked_fields_partial.
Example C69_example : sr_prefix bob_0 <> id_default /\ answer with_dave bob_0 = Ok (Some about_alice)
  /\ sap_code (st_last_digest about_alice) = Blake3_256.
Proof. ex_vm. Qed.

(** ** C55: reprocessing the escrow *)
(** Full statement: a pass adds no entry and keeps exactly the replies that may still be accepted. *)
Definition can_be_accepted (E : Env) (cs : list Call) (r : SignedReply) : Prop :=
  exists more res, snd (process E (run E db_empty (cs ++ more)) (MKeyStateNotice r)) = Ok res.
Definition C55_statement : Prop :=
  forall (E : Env) (cs : list Call) (r : SignedReply),
    let d := run E db_empty cs in
    let d' := fst (process_escrow E d) in
    (List.length (get_all_escrowed_replys d') <= List.length (get_all_escrowed_replys d))
    /\ (In r (get_all_escrowed_replys d') -> can_be_accepted E cs r).
(** a reply about an identifier whose log is not known yet *)
Definition early : SignedReply := by_keys b_dip [key x11] (reply_of bob (notice (state_of toy demo alice) 100) 100).
Theorem C55_escrow_grows_refuted : ~ C55_statement.
Proof.
  intros H. destruct (H toy (then_reply [] [early]) early) as [Hlen _].
  apply Nat.leb_le in Hlen. vm_compute in Hlen. discriminate Hlen.
Qed.
Print Assumptions C55_escrow_grows_refuted.
(** In general: when no escrowed reply can be resolved, [n] passes multiply the escrow by [2^n]. *)
Theorem C55_passes_double_the_escrow :
  forall (E : Env) (d : Db) (n : nat),
    (forall r, In r (get_all_escrowed_replys d) ->
       process E d (MKeyStateNotice r) = (add_escrowed_reply d r (sr_prefix r), Err (EQuery QOutOfOrder))) ->
    List.length (get_all_escrowed_replys (run E d (repeat CEscrow n))) = 2 ^ n * List.length (get_all_escrowed_replys d).
Proof. exact c55_power. Qed.
Print Assumptions C55_passes_double_the_escrow.
Example C55_double_example :
  let d := run toy db_empty (then_reply [] [early]) in
  get_all_escrowed_replys d = [early]
  /\ process toy d (MKeyStateNotice early) = (add_escrowed_reply d early (sr_prefix early), Err (EQuery QOutOfOrder)).
Proof. cbv zeta. ex_vm. Qed.
(** A reply whose notice has been overtaken by the log can never be accepted ... *)
Theorem C55_overtaken_never_accepted :
  forall (E : Env) (cs more : list Call) (r : SignedReply) (e : EventMessage),
    sr_prefix r <> id_default ->
    last_event (log_of (log (run E db_empty cs) (sr_prefix r))) = Some e ->
    (st_sn (ksn_state (rp_ksn (sr_reply r))) < em_sn e)%N ->
    forall res, snd (process E (run E db_empty (cs ++ more)) (MKeyStateNotice r)) <> Ok res.
Proof. exact c55_dead. Qed.
Print Assumptions C55_overtaken_never_accepted.
(** ... but passes leave it in escrow: after the log moved on, the early reply stays. *)
Definition overtaken : list Call := then_reply [] [by_keys b_dip [key x11] (reply_of bob (notice (state_of toy (run toy db_empty (firstn 2 demo_events)) alice) 100) 100)] ++ demo_events.
Definition overtaken_reply : SignedReply :=
  by_keys b_dip [key x11] (reply_of bob (notice (state_of toy (run toy db_empty (firstn 2 demo_events)) alice) 100) 100).
Theorem C55_stale_notice_stays_refuted :
  exists (E : Env) (cs : list Call) (r : SignedReply),
    get_all_escrowed_replys (run E db_empty cs) = [r]
    /\ process_escrow E (run E db_empty cs) = (run E db_empty cs, Ok tt)
    /\ ~ can_be_accepted E cs r.
Proof.
  exists toy, overtaken, overtaken_reply.
  assert (Hg : get_all_escrowed_replys (run toy db_empty overtaken) = [overtaken_reply]) by (vm_compute; reflexivity).
  split; [exact Hg|]. split.
  - assert (Hp : process_signed_reply toy (run toy db_empty overtaken) overtaken_reply
                 = (run toy db_empty overtaken, Err (EQuery QStaleKsn))) by (vm_compute; reflexivity).
    exact (c55_kept toy _ _ _ Hg Hp eq_refl).
  - intros (more & res & H).
    refine (c55_dead toy overtaken more overtaken_reply a_ixn2 _ _ _ res H).
    + vm_compute; discriminate.
    + vm_compute; reflexivity.
    + vm_compute; reflexivity.
Qed.
Print Assumptions C55_stale_notice_stays_refuted.
(** What does hold: a pass brings nothing new into the escrow, and takes out only replies that
    were accepted, badly signed or superseded (in a store with the same logs).
    Missing: the duplicates and the overtaken notices. *)
Theorem C55_pass_adds_no_other_reply_partial :
  forall (E : Env) (d : Db) (r : SignedReply),
    In r (get_all_escrowed_replys (fst (process_escrow E d))) -> In r (get_all_escrowed_replys d).
Proof. exact c55_nothing_new. Qed.
Print Assumptions C55_pass_adds_no_other_reply_partial.
Theorem C55_pass_removes_only_settled_partial :
  forall (E : Env) (d : Db) (r : SignedReply),
    In r (get_all_escrowed_replys d) -> ~ In r (get_all_escrowed_replys (fst (process_escrow E d))) ->
    exists d1, (forall id, log d1 id = log d id)
      /\ let res := snd (process E d1 (MKeyStateNotice r)) in
         (exists s, res = Ok s) \/ res = Err ESignatureVerification \/ res = Err (EQuery QStaleRpy).
Proof.
  intros E d r H1 H2. destruct (c55_removed E d r H1 H2) as (d1 & Hk & Hr). exists d1. split; [now apply kel_log|].
  cbv zeta. cbn [process]. destruct (snd (process_signed_reply E d1 r)) as [s|e|]; [eauto| |discriminate Hr].
  destruct e as [ | | | | | | | | | | | | |q]; try discriminate Hr; auto. destruct q; try discriminate Hr; auto.
Qed.
Print Assumptions C55_pass_removes_only_settled_partial.
Definition early_then_events : list Call := then_reply [] [early] ++ demo_events.
Example C55_removed_example :
  let d := run toy db_empty early_then_events in
  get_all_escrowed_replys d = [early] /\ get_all_escrowed_replys (fst (process_escrow toy d)) = []
  /\ accepted (fst (process_escrow toy d)) alice = [early].
Proof. cbv zeta. ex_vm. Qed.
