(** * Prop_ReplyStore: the written form of key-state notices (C56) and the reply tables (C70). *)
From Verif Require Import Base Base64 Codes NumFmt NumProofs Types KeyConf SpecSig State Db Processor Spec SpecProc SpecQuery
  QueryProofs ReplyStore ReplyStoreProofs Demo Prop_Query.

(** ** C56: a key state notice survives serialization *)
(** Full statement, for notices a processor can make: numbers fit 64 bits, there is a
    commitment to next keys, and the delegator, if any, is a prefix whose text is read back. *)
Definition C56_statement : Prop :=
  forall (k : KeyStateNotice), u64s k ->
    (exists n, kc_next (st_current (ksn_state k)) = Some n) ->
    (forall i, st_delegator (ksn_state k) = Some i -> id_from (id_str i) = Ok i) ->
    (ksn_timestamp k mod 1000 = 0)%Z ->
    reread_notice k = Ok k.
Definition notice_with (sn : N) (di : option IdentifierPrefix) : KeyStateNotice :=
  notice (mkState alice sn (em_digest a_icp) None (Some TIcp) (kc_of [key x01] [key x02] 1) 1 [wit x71] di (mkLE 0 (em_digest a_icp) [] [])) 1000.
(** sequence number 10 is written ["10"] and read as 16 *)
Theorem C56_decimal_as_hex_refuted : ~ C56_statement.
Proof.
  intros H. specialize (H (notice_with 10 (Some bob))).
  assert (Hr : reread_notice (notice_with 10 (Some bob)) = Ok (notice_with 16 (Some bob))) by (vm_compute; reflexivity).
  rewrite Hr in H. assert (Hk : notice_with 16 (Some bob) = notice_with 10 (Some bob)).
  { assert (Hx : Ok (notice_with 16 (Some bob)) = Ok (notice_with 10 (Some bob))); [|now injection Hx].
    apply H.
    - unfold u64s. split; [|split]; vm_compute; discriminate.
    - eexists. vm_compute; reflexivity.
    - intros i Hi. assert (i = bob) by (vm_compute in Hi; injection Hi as <-; vm_compute; reflexivity). subst i. vm_compute; reflexivity.
    - reflexivity. }
  assert (Hsn : st_sn (ksn_state (notice_with 16 (Some bob))) = st_sn (ksn_state (notice_with 10 (Some bob)))) by now rewrite Hk.
  vm_compute in Hsn. discriminate Hsn.
Qed.
Print Assumptions C56_decimal_as_hex_refuted.
(** a notice about an identifier that has no delegator cannot be read at all *)
Theorem C56_no_delegator_refuted :
  forall (k k' : KeyStateNotice), st_delegator (ksn_state k) = None -> reread_notice k <> Ok k'.
Proof. intros k k' H. now apply notice_no_delegator. Qed.
Print Assumptions C56_no_delegator_refuted.
(** and one without a commitment to next keys cannot even be written *)
Theorem C56_no_next_keys_refuted :
  forall (k : KeyStateNotice), kc_next (st_current (ksn_state k)) = None -> reread_notice k = Panic.
Proof. intros k H. unfold reread_notice. now rewrite H. Qed.
Print Assumptions C56_no_next_keys_refuted.
(** Numbers: exactly those below ten survive, every other one is read as a larger number
    or refused. *)
Theorem C56_numbers :
  forall (n : N), (n <= u64_max)%N ->
    (read_number (write_number n) = Ok n <-> (n < 10)%N)
    /\ (forall w, read_number (write_number n) = Ok w -> (10 <= n)%N -> (n < w)%N).
Proof. intros n Hn. split; [now apply number_iff|]. intros w. apply number_wrong. Qed.
Print Assumptions C56_numbers.
(** Exactly which notices survive. *)
Theorem C56_survivors_partial :
  forall (k : KeyStateNotice), u64s k ->
    (reread_notice k = Ok k <->
     (exists n, kc_next (st_current (ksn_state k)) = Some n)
     /\ (st_sn (ksn_state k) < 10 /\ ksn_first_seen k < 10 /\ st_tally (ksn_state k) < 10)%N
     /\ (exists i, st_delegator (ksn_state k) = Some i /\ id_from (id_str i) = Ok i)
     /\ (ksn_timestamp k mod 1000 = 0)%Z).
Proof. exact notice_iff. Qed.
Print Assumptions C56_survivors_partial.
Example C56_example :
  reread_notice (notice_with 9 (Some bob)) = Ok (notice_with 9 (Some bob))
  /\ reread_notice (notice_with 9 None) = Err (EDeserialize "Empty prefix")
  /\ st_sn (ksn_state (match reread_notice (notice_with 255 (Some bob)) with Ok k => k | _ => notice_with 0 None end)) = 597%N.
Proof. ex_vm. Qed.

(** ** C70: a stored reply can be read back *)
(** Full statement: no reply that is processed makes a later one, or a pass over the escrow, panic. *)
Definition run_s (E : Env) (d : Db) (rs : list SignedReply) : Db :=
  fold_left (fun d r => fst (process_signed_reply_s E d r)) rs d.
Definition C70_statement : Prop :=
  forall (E : Env) (cs : list Call) (rs : list SignedReply) (r : SignedReply),
    get_all_escrowed_replys (run E db_empty cs) = [] -> db_rpy (run E db_empty cs) = [] ->
    (forall x, In x (r :: rs) -> writable x = true) ->
    snd (process_signed_reply_s E (run_s E (run E db_empty cs) rs) r) <> Panic
    /\ snd (process_escrow_s E (run_s E (run E db_empty cs) rs)) <> Panic.
(** Bob replies about Alice, who has no delegator, and is accepted; then Dave's reply panics. *)
Theorem C70_second_reply_panics_refuted : ~ C70_statement.
Proof.
  intros H. destruct (H toy with_dave [bob_0] dave_1) as [H1 _].
  - vm_compute; reflexivity.
  - vm_compute; reflexivity.
  - intros x [<-|[<-|[]]]; vm_compute; reflexivity.
  - apply H1. vm_compute; reflexivity.
Qed.
Print Assumptions C70_second_reply_panics_refuted.
(** In general: once a reply about an identifier without delegator is accepted, every
    authentic reply about it panics ... *)
Theorem C70_accepted_then_panic :
  forall (E : Env) (d : Db) (r : SignedReply) (d' : Db) (res : option IdentifierState) (r2 : SignedReply),
    process_signed_reply_s E d r = (d', Ok res) -> st_delegator (ksn_state (rp_ksn (sr_reply r))) = None ->
    sr_prefix r2 = sr_prefix r -> authentic E d' r2 ->
    process_signed_reply_s E d' r2 = (d', Panic).
Proof. exact c70_accept. Qed.
Print Assumptions C70_accepted_then_panic.
(** ... once one is escrowed, every pass panics ... *)
Theorem C70_escrowed_then_panic :
  forall (E : Env) (d : Db) (r : SignedReply) (d' : Db),
    put_off_s d r = (d', Err (EQuery QOutOfOrder)) -> st_delegator (ksn_state (rp_ksn (sr_reply r))) = None ->
    snd (process_escrow_s E d') = Panic.
Proof. exact c70_escrow. Qed.
Print Assumptions C70_escrowed_then_panic.
(** ... and the next escrowed reply about the identifier erases it. *)
Theorem C70_escrowed_then_lost :
  forall (d : Db) (r : SignedReply) (d' : Db) (r2 : SignedReply) (d2 : Db),
    get_escrowed_replys d (sr_prefix r) = None ->
    put_off_s d r = (d', Err (EQuery QOutOfOrder)) -> st_delegator (ksn_state (rp_ksn (sr_reply r))) = None ->
    sr_prefix r2 = sr_prefix r -> put_off_s d' r2 = (d2, Err (EQuery QOutOfOrder)) ->
    get_escrowed_replys d2 (sr_prefix r) = Some [r2].
Proof. exact c70_lost. Qed.
Print Assumptions C70_escrowed_then_lost.
(** Replies that are read back as they were written behave as in the idealized tables of
    [Db.v] (to which C52-C55 and C69 apply), and never spoil the tables. *)
Theorem C70_storable_replies_partial :
  forall (E : Env) (d : Db) (r : SignedReply),
    Clean d -> storable r ->
    process_signed_reply_s E d r = process E d (MKeyStateNotice r)
    /\ process_escrow_s E d = process_escrow E d
    /\ Clean (fst (process E d (MKeyStateNotice r))).
Proof.
  intros E d r Hd Hr. split; [now apply reply_same|]. split; [now apply escrow_same|]. now apply Clean_reply.
Qed.
Print Assumptions C70_storable_replies_partial.
(** a reply about Bob, who has a delegator *)
Definition about_bob : IdentifierState := state_of toy (run toy db_empty with_dave) bob.
Definition dave_about_bob (t : Z) : SignedReply := by_keys d_rot [key x42] (reply_of dave (notice about_bob t) t).
Example C70_example :
  reread (dave_about_bob 5000) = Ok (dave_about_bob 5000)
  /\ Forall (fun x => Forall storable (snd x)) (db_rpy (run toy db_empty with_dave))
  /\ answer with_dave (dave_about_bob 5000) = Ok (Some about_bob)
  /\ snd (process_signed_reply_s toy (run_s toy (run toy db_empty with_dave) [dave_about_bob 5000]) (dave_about_bob 6000)) = Ok (Some about_bob).
Proof. split; [|split; [|split]]; [vm_compute; reflexivity|constructor|vm_compute; reflexivity|vm_compute; reflexivity]. Qed.
Example C70_refuted_example :
  let d := run toy db_empty with_dave in
  snd (process_signed_reply_s toy d bob_0) = Ok (Some about_alice)
  /\ st_delegator (ksn_state (rp_ksn (sr_reply bob_0))) = None
  /\ sr_prefix dave_1 = sr_prefix bob_0
  /\ snd (process_signed_reply_s toy db_empty early) = Err (EQuery QOutOfOrder)
  /\ put_off_s db_empty early = process_signed_reply_s toy db_empty early.
Proof. cbv zeta. ex_vm. Qed.
