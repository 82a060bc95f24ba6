(** * Prop_Whole: whole histories (C99-C101).

    See [Prop_State.v] for [run E db_empty cs] and [id_default]; [SpecWhole.v] for the
    vocabulary. *)
From Verif Require Import Base Base64 Codes NumFmt Types KeyConf SpecSig State Db Processor Spec SpecProc SpecQuery
  StateProofs LogProofs LogTheorems LogTheorems2 SigProofs ProcProofs ProcProofs2 ProcProofs3 QueryProofs SpecWhole WholeProofs WholeProofs2
  Demo Prop_Query.

(** ** C99: a log depends on the key events of its identifier and of its delegators, in the
    order in which they came, and on nothing else. *)
Theorem C99_log_depends_on_its_events :
  forall (E : Env) (S : IdentifierPrefix -> bool) (cs : list Call) (id : IdentifierPrefix),
    S id_default = false -> with_delegators S cs -> S id = true ->
    get_kel (run E db_empty cs) id = get_kel (run E db_empty (filter (concerns S) cs)) id
    /\ compute_state E (run E db_empty cs) id = compute_state E (run E db_empty (filter (concerns S) cs)) id.
Proof.
  intros E S cs id H0 Hd Hid.
  assert (A : alike S (run E db_empty cs) (run E db_empty (filter (concerns S) cs))).
  { apply projection; [|apply Inv_empty| |exact Hd|].
    - intros i Hi ->. congruence.
    - intros i e dl _ [].
    - intros i _. reflexivity. }
  specialize (A id Hid). split; [now symmetry|]. symmetry. now apply compute_state_ext.
Qed.
Print Assumptions C99_log_depends_on_its_events.
(** So does the answer to a further event. *)
Theorem C99_answer_depends_on_its_events :
  forall (E : Env) (S : IdentifierPrefix -> bool) (cs : list Call) (se : SignedEventMessage),
    S id_default = false -> with_delegators S (cs ++ [CProcess (MEvent se)]) -> S (em_prefix (sem_msg se)) = true ->
    snd (process E (run E db_empty cs) (MEvent se)) = snd (process E (run E db_empty (filter (concerns S) cs)) (MEvent se)).
Proof.
  intros E S cs se H0 Hd Hid.
  assert (HS : forall i, S i = true -> i <> id_default) by (intros i Hi ->; congruence).
  assert (Hd' : with_delegators S cs) by (intros x dl Hx; apply Hd; apply in_or_app; now left).
  assert (A : alike S (run E db_empty cs) (run E db_empty (filter (concerns S) cs))).
  { apply projection; [exact HS|apply Inv_empty| |exact Hd'|].
    - intros i e dl _ [].
    - intros i _. reflexivity. }
  cbn [process]. symmetry. apply (alike_event E S HS); [apply Inv_reachable| |exact A|exact Hid|].
  - apply delegators_run; [exact Hd'|]. intros i e dl _ [].
  - intros dl. apply Hd; [|exact Hid]. apply in_or_app. right. now left.
Qed.
Print Assumptions C99_answer_depends_on_its_events.
(** In particular the log of an identifier nobody delegates to. *)
Theorem C99_undelegated :
  forall (E : Env) (cs : list Call) (id : IdentifierPrefix),
    id <> id_default ->
    (forall se, In (CProcess (MEvent se)) cs -> em_prefix (sem_msg se) = id -> named_delegator (sem_msg se) = None) ->
    get_kel (run E db_empty cs) id
    = get_kel (run E db_empty (filter (concerns (fun i => if IdentifierPrefix_eq_dec i id then true else false)) cs)) id.
Proof.
  intros E cs id Hid Hd. apply C99_log_depends_on_its_events.
  - destruct (IdentifierPrefix_eq_dec id_default id); congruence.
  - intros se dl Hin Hp Hn. destruct (IdentifierPrefix_eq_dec _ id) as [Hp'|]; [|discriminate Hp]. rewrite (Hd se Hin Hp') in Hn. discriminate Hn.
  - destruct (IdentifierPrefix_eq_dec id id); congruence.
Qed.
Print Assumptions C99_undelegated.
Definition just_alice (i : IdentifierPrefix) : bool := if IdentifierPrefix_eq_dec i alice then true else false.
Definition both (i : IdentifierPrefix) : bool := just_alice i || if IdentifierPrefix_eq_dec i bob then true else false.
Definition delegators_inb (S : IdentifierPrefix -> bool) (cs : list Call) : bool :=
  forallb (fun c => match c with
                    | CProcess (MEvent se) => negb (S (em_prefix (sem_msg se))) || match named_delegator (sem_msg se) with Some dl => S dl | None => true end
                    | _ => true end) cs.
Lemma delegators_inb_ok S cs : delegators_inb S cs = true -> with_delegators S cs.
Proof.
  intros H se dl Hin Hs Hn. unfold delegators_inb in H. rewrite forallb_forall in H. specialize (H _ Hin). cbn in H. now rewrite Hs, Hn in H.
Qed.
Example C99_example :
  both id_default = false /\ with_delegators both demo_calls /\ both bob = true /\ just_alice id_default = false /\ with_delegators just_alice demo_calls
  /\ List.length demo_calls = 11 /\ List.length (filter (concerns both) demo_calls) = 6 /\ List.length (filter (concerns just_alice) demo_calls) = 4
  /\ option_map (@List.length _) (get_kel (run toy db_empty (filter (concerns both) demo_calls)) bob) = Some 2
  /\ option_map (@List.length _) (get_kel (run toy db_empty (filter (concerns just_alice) demo_calls)) alice) = Some 4.
Proof.
  apply conj; [vm_compute; reflexivity|]. apply conj; [apply delegators_inb_ok; vm_compute; reflexivity|]. apply conj; [vm_compute; reflexivity|].
  apply conj; [vm_compute; reflexivity|]. apply conj; [apply delegators_inb_ok; vm_compute; reflexivity|]. ex_vm.
Qed.

(** ** C100: what is stored is bounded by what was sent. *)
Definition C100_statement : Prop := forall (E : Env) (cs : list Call), records (run E db_empty cs) <= messages cs.
Theorem C100_one_record_per_message :
  forall (E : Env) (d : Db) (m : Message), records (fst (process E d m)) <= S (records d).
Proof. exact records_process. Qed.
Print Assumptions C100_one_record_per_message.
Theorem C100_bounded_partial :
  forall (E : Env) (cs : list Call), passes cs = 0 -> records (run E db_empty cs) <= messages cs.
Proof. intros E cs H. pose proof (records_run E cs db_empty) as R. rewrite H in R. cbn in R. lia. Qed.
Print Assumptions C100_bounded_partial.
(** An escrow pass can at most double the store. *)
Theorem C100_bounded_with_passes :
  forall (E : Env) (cs : list Call), records (run E db_empty cs) <= messages cs * 2 ^ passes cs.
Proof. intros E cs. exact (records_run E cs db_empty). Qed.
Print Assumptions C100_bounded_with_passes.
(** ... and does: the bound is reached for every number of passes. *)
Theorem C100_bound_is_reached :
  forall n, records (run toy db_empty (CProcess (MKeyStateNotice early) :: repeat CEscrow n)) = 2 ^ n
    /\ messages (CProcess (MKeyStateNotice early) :: repeat CEscrow n) = 1 /\ passes (CProcess (MKeyStateNotice early) :: repeat CEscrow n) = n.
Proof.
  intros n.
  assert (M : messages (repeat CEscrow n) = 0 /\ passes (repeat CEscrow n) = n).
  { unfold messages, passes. induction n as [|n [I1 I2]]; [split; reflexivity|]. cbn [repeat filter List.length]. split; [exact I1|]. now rewrite I2. }
  destruct M as [M1 M2].
  assert (P : messages (CProcess (MKeyStateNotice early) :: repeat CEscrow n) = 1 /\ passes (CProcess (MKeyStateNotice early) :: repeat CEscrow n) = n).
  { unfold messages, passes in *. cbn [filter List.length]. now rewrite M1, M2. }
  split; [|exact P]. apply Nat.le_antisymm.
  - pose proof (C100_bounded_with_passes toy (CProcess (MKeyStateNotice early) :: repeat CEscrow n)) as B. destruct P as [-> ->] in B. lia.
  - set (d := run toy db_empty [CProcess (MKeyStateNotice early)]).
    change (run toy db_empty (CProcess (MKeyStateNotice early) :: repeat CEscrow n)) with (run toy d (repeat CEscrow n)).
    assert (A : get_all_escrowed_replys d = [early]) by (vm_compute; reflexivity).
    pose proof (C55_passes_double_the_escrow toy d n) as D. rewrite A in D.
    assert (F : forall r, In r [early] -> process toy d (MKeyStateNotice r) = (add_escrowed_reply d r (sr_prefix r), Err (EQuery QOutOfOrder))).
    { intros r [<-|[]]. vm_compute. reflexivity. }
    specialize (D F). cbn [List.length] in D. rewrite Nat.mul_1_r in D. rewrite <- D. unfold get_all_escrowed_replys. fold (contents (db_esc_rpy (run toy d (repeat CEscrow n)))).
    unfold records. lia.
Qed.
Print Assumptions C100_bound_is_reached.
Theorem C100_refuted : ~ C100_statement.
Proof.
  intros H. specialize (H toy (CProcess (MKeyStateNotice early) :: repeat CEscrow 1)). destruct (C100_bound_is_reached 1) as (A & B & _). rewrite A, B in H. cbn in H. lia.
Qed.
Print Assumptions C100_refuted.
Example C100_example : passes demo_events = 0 /\ messages demo_events = 6 /\ records (run toy db_empty demo_events) = 6.
Proof. ex_vm. Qed.

(** ** C101: a message delivered again changes nothing. *)
Definition C101_statement : Prop :=
  forall (E : Env) (cs : list Call) (m : Message) (d1 : Db) (res : out (option IdentifierState)),
    process E (run E db_empty cs) m = (d1, res) -> res <> Panic -> fst (process E d1 m) = d1.
(** Key events, accepted or refused. *)
Theorem C101_event_again_partial :
  forall (E : Env) (cs : list Call) (se : SignedEventMessage) (d1 : Db) (res : out (option IdentifierState)),
    em_prefix (sem_msg se) <> id_default -> (forall m x, e_ser_event E m <> Err x) ->
    process E (run E db_empty cs) (MEvent se) = (d1, res) -> res <> Panic -> fst (process E d1 (MEvent se)) = d1.
Proof. intros E cs se d1 res Hid Hs H Hp. exact (again_event E cs se d1 res Hid Hs Hp H). Qed.
Print Assumptions C101_event_again_partial.
(** An accepted key event, however much later. *)
Theorem C101_accepted_event_later :
  forall (E : Env) (cs later : list Call) (se : SignedEventMessage) (d1 : Db) (s : option IdentifierState),
    em_prefix (sem_msg se) <> id_default ->
    process E (run E db_empty cs) (MEvent se) = (d1, Ok s) ->
    fst (process E (run E d1 later) (MEvent se)) = run E d1 later
    /\ forall s', snd (process E (run E d1 later) (MEvent se)) <> Ok s'.
Proof.
  intros E cs later se d1 s Hid H.
  assert (R : run E d1 later = run E db_empty (cs ++ CProcess (MEvent se) :: later)).
  { rewrite run_app. change (run E (run E db_empty cs) (CProcess (MEvent se) :: later)) with (run E (fst (process E (run E db_empty cs) (MEvent se))) later). now rewrite H. }
  pose proof (c19 E cs se d1 s Hid H) as (s' & -> & Hk & _).
  assert (Sn : em_sn (sem_msg se) = N.of_nat (List.length (log (run E db_empty cs) (em_prefix (sem_msg se))))).
  { destruct (N.eq_dec (em_sn (sem_msg se)) (N.of_nat (List.length (log (run E db_empty cs) (em_prefix (sem_msg se)))))) as [En|Hne]; [exact En|].
    destruct (c24_refused E cs se Hid Hne) as [_ K]. exfalso. apply (K (Some s')). now rewrite H. }
  rewrite R. apply c24_refused; [exact Hid|]. rewrite <- R.
  assert (I1 : Inv E d1) by (replace d1 with (run E db_empty (cs ++ [CProcess (MEvent se)])); [apply Inv_reachable|rewrite run_app; cbn [run fold_left call]; now rewrite H]).
  destruct (run_extends E later d1 _ I1 Hid) as [ext Hext]. rewrite Hext. unfold log at 1. rewrite Hk. cbn [olist]. rewrite Sn, !app_length. cbn [List.length]. lia.
Qed.
Print Assumptions C101_accepted_event_later.
(** Key-state replies, accepted or refused; only the escrowed ones are kept again. *)
Theorem C101_reply_again_partial :
  forall (E : Env) (d : Db) (r : SignedReply) (d1 : Db) (res : out (option IdentifierState)),
    process E d (MKeyStateNotice r) = (d1, res) -> res <> Err (EQuery QOutOfOrder) -> fst (process E d1 (MKeyStateNotice r)) = d1.
Proof. exact again_reply. Qed.
Print Assumptions C101_reply_again_partial.
(** Receipts of both kinds, stored or escrowed, and escrowed replies are kept once per delivery. *)
Theorem C101_receipts_pile_up :
  forall (E : Env) (d : Db) (m : Message) (n : nat),
    is_receipt m = true -> records d < records (fst (process E d m)) ->
    records (run E d (repeat (CProcess m) n)) = records d + n.
Proof. intros E d m n. apply again_receipt. Qed.
Print Assumptions C101_receipts_pile_up.
Theorem C101_escrowed_replies_pile_up :
  forall (E : Env) (d : Db) (r : SignedReply) (n : nat),
    process E d (MKeyStateNotice r) = (add_escrowed_reply d r (sr_prefix r), Err (EQuery QOutOfOrder)) ->
    records (run E d (repeat (CProcess (MKeyStateNotice r)) n)) = records d + n.
Proof. intros E d r n. apply again_escrowed. Qed.
Print Assumptions C101_escrowed_replies_pile_up.
Example C101_example :
  let d := run toy db_empty demo_events in
  (records d <? records (fst (process toy d (MTransferableRct b_rct)))) = true
  /\ (records d <? records (fst (process toy d (MNontransferableRct w_rct)))) = true
  /\ (records d <? records (fst (process toy d (MNontransferableRct w_rct_early)))) = true
  /\ (records d <? records (fst (process toy d (MTransferableRct b_rct_early)))) = true
  /\ (match snd (process toy (run toy db_empty (firstn 5 demo_events)) (MEvent s_drt)) with Ok _ => true | _ => false end) = true
  /\ (match snd (process toy d (MEvent s_drt)) with Err _ => true | _ => false end) = true
  /\ (match snd (process toy d (MKeyStateNotice early)) with Ok _ => true | _ => false end) = true
  /\ (match snd (process toy db_empty (MKeyStateNotice early)) with Err (EQuery QOutOfOrder) => true | _ => false end) = true.
Proof. cbv zeta. ex_vm. Qed.
Theorem C101_refuted : ~ C101_statement.
Proof.
  intros H. specialize (H toy demo_events (MTransferableRct b_rct)).
  destruct (process toy (run toy db_empty demo_events) (MTransferableRct b_rct)) as [d1 res] eqn:P.
  assert (Ok_ : (match snd (process toy (run toy db_empty demo_events) (MTransferableRct b_rct)) with Ok _ => true | _ => false end) = true) by (vm_compute; reflexivity).
  rewrite P in Ok_. cbn [snd] in Ok_. assert (Np : res <> Panic) by (intros ->; discriminate Ok_).
  specialize (H d1 res eq_refl Np). apply (f_equal records) in H.
  assert (L : records (run toy db_empty demo_events) < records (fst (process toy (run toy db_empty demo_events) (MTransferableRct b_rct)))) by (apply Nat.ltb_lt; vm_compute; reflexivity).
  pose proof (C101_receipts_pile_up toy (run toy db_empty demo_events) (MTransferableRct b_rct) 1 eq_refl L) as R1. pose proof (C101_receipts_pile_up toy (run toy db_empty demo_events) (MTransferableRct b_rct) 2 eq_refl L) as R2.
  cbn [repeat] in R1, R2. change (run toy (run toy db_empty demo_events) [CProcess (MTransferableRct b_rct)]) with (fst (process toy (run toy db_empty demo_events) (MTransferableRct b_rct))) in R1.
  change (run toy (run toy db_empty demo_events) [CProcess (MTransferableRct b_rct); CProcess (MTransferableRct b_rct)])
    with (fst (process toy (fst (process toy (run toy db_empty demo_events) (MTransferableRct b_rct))) (MTransferableRct b_rct))) in R2.
  rewrite P in R1, R2. cbn [fst] in R1, R2. lia.
Qed.
Print Assumptions C101_refuted.
