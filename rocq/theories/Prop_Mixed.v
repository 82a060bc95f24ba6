(** * Prop_Mixed: what others see of an event while it is being processed (C125).

    [together E sts s s' l] (Mixed.v): the messages and questions [sts], each in a thread of its
    own, all started on the store [s], can end with the store [s'] and the answers [l].
    [sprocess], [sask]: one message, one question, alone (Crash.v, Ask.v).  [cut k p s]: the store
    after the first [k] tree accesses of [p] (Crash.v). *)
From Verif Require Import Base Base64 Codes NumFmt Types KeyConf State Db Processor Prog ProgProofs Sled Crash CrashProofs
  SpecCodec SledProofs Spec SpecProc SpecStore StateProofs LogProofs StoreProofs Demo Threads ThreadProofs Ask SpecAsk Prop_Ask Mixed MixedProofs.

Section Lemmas.
  Context (E : Env).
  Lemma reach h : Forall message_ids_ok h -> exists d L, Rel (srun E sled_empty h) d L /\ store_ok d /\ Inv E d.
  Proof.
    intros Hh. destruct (process_refines E h Hh _ _ _ Rel_empty store_ok_empty) as (L & R & Hok & _). cbn [app] in R.
    exists (run E db_empty (map CProcess h)), L. split; [exact R|]. split; [exact Hok|]. apply Inv_run, Inv_empty.
  Qed.
  Lemma sprocess_rel s d L m : Rel s d L -> store_ok d -> message_ids_ok m ->
    exists M, Rel (fst (sprocess E s m)) (fst (process E d m)) (L ++ M) /\ snd (sprocess E s m) = snd (process E d m).
  Proof.
    intros R Hst Hm. destruct (expand_refines (p_process E m) s d L R (safe_process E m d Hst Hm)) as (M & R' & Er).
    rewrite interp_process in R', Er. exists M. split; [exact R'|exact Er].
  Qed.
  Lemma sask_rel s d L q : Rel s d L -> Forall id_ok (about q) -> snd (sask E s q) = truth E d q.
  Proof.
    intros R Hq. destruct (expand_refines (p_ask E q) s d L R (safe_ask E q d Hq)) as (M & _ & Er).
    rewrite interp_ask in Er. exact Er.
  Qed.
  Lemma cut_number s d L m id x k : Rel s d L -> store_ok d -> message_ids_ok m -> id_ok id -> number s id = Some x ->
    number (cut k (expand (p_process E m)) s) id = Some x.
  Proof.
    intros R Hst Hm Hid Hx. destruct (cut_refines (p_process E m) k s d L R (safe_process E m d Hst Hm)) as (j & M & R').
    rewrite (number_rel _ _ _ _ R' Hid). rewrite (number_rel _ _ _ _ R Hid) in Hx. now apply idx_app.
  Qed.
  Lemma verify_not_dup ns ser se e : verify_signatures E ns ser se = Err e -> e <> EDuplicate.
  Proof.
    unfold verify_signatures. destruct (kc_verify E (st_current ns) ser (sem_sigs se)) as [[|]|e'|] eqn:Hk; cbn; intros Hv; inversion Hv; subst; [discriminate|].
    apply kc_verify_err in Hk. destruct Hk as [->|[? ->]]; discriminate.
  Qed.
  (** what is done with an event that passes the checks before the signatures and is refused *)
  Lemma refused_event d se ns ser e : check_delegation E d se = Ok tt -> apply_to_state E d (sem_msg se) = Ok ns ->
    e_ser_event E (sem_msg se) = Ok ser -> snd (process E d (MEvent se)) = Err e ->
    verify_signatures E ns ser se = Err e
    /\ fst (process E d (MEvent se)) = remove_kel (add_kel d se (em_prefix (sem_msg se))) (em_prefix (sem_msg se)) se.
  Proof.
    intros Hc Ha Hs. cbn [process]. unfold process_event. rewrite Hc, Ha, Hs.
    destruct (verify_signatures E ns ser se) as [x|e'|] eqn:Hv; cbn [fst snd]; intros H; try discriminate H.
    injection H as ->. split; [reflexivity|]. apply verify_not_dup in Hv. destruct e; try reflexivity; congruence.
  Qed.
  (** an accepted copy tells that the checks before the signatures pass *)
  Lemma copy_passes d se se' st : sem_msg se' = sem_msg se -> sem_seal se' = sem_seal se ->
    snd (process E d (MEvent se')) = Ok (Some st) ->
    check_delegation E d se = Ok tt /\ apply_to_state E d (sem_msg se) = Ok st
    /\ fst (process E d (MEvent se')) = add_kel d se' (em_prefix (sem_msg se)) /\ exists ser, e_ser_event E (sem_msg se) = Ok ser.
  Proof.
    intros Hm Hs. cbn [process]. destruct (process_event_cases E d se') as [(r & -> & Hr)|(ns & Hc & Ha & [(ser & H1 & _ & ->)|[(r & -> & Hr & _)|(e & ser & _ & -> & _)]])];
      cbn [fst snd]; intros H; [now apply Hr in H| |now apply Hr in H|discriminate H].
    injection H as ->. rewrite Hm in *. split; [|split; [exact Ha|split; [reflexivity|eauto]]].
    revert Hc. unfold check_delegation. rewrite Hm, Hs. auto.
  Qed.
End Lemmas.

(** ** C125 *)
(** The full claim: while an event that is going to be refused is processed, questions are
    answered as if it had not arrived. *)
Definition C125_statement : Prop :=
  forall (E : Env) (h : list Message) (se : SignedEventMessage) (q : question) (e : error) (s' : Sled) (l : list answer),
    let s := srun E sled_empty h in
    Forall message_ids_ok h -> event_ids_ok (sem_msg se) -> Forall id_ok (about q) ->
    (forall id, In id (about q) -> number s id <> None) ->
    snd (sprocess E s (MEvent se)) = Err e ->
    together E [Tell (MEvent se); Ask q] s s' l -> l = [ADone (Err e); snd (sask E s q)].

(** It fails for every event whose signatures are the only thing wrong with it: for any history,
    an event that is refused although a copy of it with other signatures would be accepted.  There
    is a run in which the state the event would lead to is given out as the state of the
    identifier; nothing of it is left afterwards. *)
Theorem C125_refused_events_are_seen :
  forall (E : Env) (h : list Message) (se se' : SignedEventMessage) (e : error) (st : IdentifierState),
    let s := srun E sled_empty h in
    Forall message_ids_ok h -> event_ids_ok (sem_msg se) ->
    sem_msg se' = sem_msg se -> sem_seal se' = sem_seal se ->
    snd (sprocess E s (MEvent se)) = Err e ->
    snd (sprocess E s (MEvent se')) = Ok (Some st) ->
    together E [Tell (MEvent se); Ask (QState (em_prefix (sem_msg se)))] s (fst (sprocess E s (MEvent se)))
      [ADone (Err e); AState (Ok (Some st))]
    /\ forall id, id_ok id -> snd (sask E (fst (sprocess E s (MEvent se))) (QState id)) = snd (sask E s (QState id))
                  \/ id = em_prefix (sem_msg se) /\ snd (sask E s (QState id)) = AState (Ok None).
Proof.
  intros E h se se' e st s Hh Hok Hm Hs Hr Ha. destruct (reach E h Hh) as (d & L & R & Hst & HI). fold s in R. clearbody s.
  assert (Hok' : message_ids_ok (MEvent se')) by (cbn [message_ids_ok]; rewrite Hm; exact Hok).
  destruct (sprocess_rel E s d L (MEvent se) R Hst Hok) as (M1 & R1 & Er). rewrite Hr in Er.
  destruct (sprocess_rel E s d L (MEvent se') R Hst Hok') as (M2 & _ & Ea). rewrite Ha in Ea.
  destruct (copy_passes E d se se' st Hm Hs (eq_sym Ea)) as (Hc & Hap & _ & ser & Hser).
  set (id := em_prefix (sem_msg se)) in *. pose proof (proj1 Hok) as Hid. fold id in Hid.
  pose proof (id_ok_proper _ Hid) as Hne.
  destruct (adv_added E s d L se st R Hst Hok Hc Hap) as (s1 & M & Hadv & R3 & Hst3). fold id in R3, Hst3.
  assert (Hcs : compute_state E (add_kel d se id) id = Ok (Some st)).
  { eapply compute_state_good; [exact Hne| |apply (good_log_extend E d se st HI Hne Hap)].
    rewrite get_kel_add. destruct (IdentifierPrefix_eq_dec id id); [|congruence]. fold id. unfold olist. destruct (get_kel d id); reflexivity. }
  split.
  - unfold together. cbn [map].
    eapply (runs_adv _ _ _ _ Hadv _ 0); [reflexivity|]. cbn [replace p_step].
    eapply (runs_adv _ _ _ _ (adv_end (expand (p_ask E (QState id))) s1) _ 1); [reflexivity|]. cbn [replace].
    fold (sask E s1 (QState id)). rewrite (sask_rel E s1 _ _ (QState id) R3) by (repeat constructor; apply Hid).
    cbn [truth]. rewrite Hcs.
    assert (HQ : fst (sask E s1 (QState id)) = s1).
    { apply C124_known_identifiers_partial. intros x [<-|[]]. rewrite (number_rel _ _ _ _ R3 Hid).
      intros Hn. apply idx_none in Hn. apply Hn.
      destruct (in_dec IdentifierPrefix_eq_dec id (L ++ M)) as [Hi|Hi]; [exact Hi|]. exfalso.
      pose proof (r_tab _ _ _ R3 TKel id) as Ht. apply (idx_none _ 0%N) in Hi. rewrite Hi in Ht.
      change (get_kel (add_kel d se id) id = None) in Ht. rewrite get_kel_add in Ht. destruct (IdentifierPrefix_eq_dec id id); [|congruence].
      discriminate Ht. }
    rewrite HQ.
    pose proof (adv_end (expand (pbind (rest_of E se st) (fun r => Ret (ADone r)))) s1) as Hend.
    rewrite <- (adv_sinterp _ _ _ _ Hadv) in Hend. cbn [p_step] in Hend. rewrite sinterp_tail in Hend.
    fold (sprocess E s (MEvent se)) in Hend. cbn [fst snd] in Hend. rewrite Hr in Hend.
    eapply (runs_adv _ _ _ _ Hend _ 0); [reflexivity|]. exact (runs_ended [_; _] _).
  - intros i Hi. rewrite (sask_rel E _ _ _ (QState i) R1), (sask_rel E _ _ _ (QState i) R) by (repeat constructor; apply Hi). cbn [truth].
    assert (HD : fst (process E d (MEvent se)) = remove_kel (add_kel d se id) id se).
    { exact (proj2 (refused_event E d se st ser e Hc Hap Hser (eq_sym Er))). }
    rewrite HD. unfold compute_state. rewrite get_kel_remove, !get_kel_add. destruct (IdentifierPrefix_eq_dec i id) as [->|Hni].
    + destruct (IdentifierPrefix_eq_dec id id); [|congruence]. cbn [option_map].
      pose proof (remove_added E d se st HI Hne Hap) as Hrem. fold id in Hrem. unfold olist in Hrem.
      destruct (get_kel d id) as [l|]; [|right; split; reflexivity].
      left. cbn [olist]. rewrite Hrem. reflexivity.
    + left. reflexivity.
Qed.
Print Assumptions C125_refused_events_are_seen.

(** Nor is it only seen: other events are accepted on the strength of it.  Whenever [se2] would
    be accepted after an event of somebody else, it can be accepted, for good, beside a copy of
    that event with wrong signatures, which is itself refused and leaves no trace in its log. *)
Theorem C125_refused_events_are_relied_on :
  forall (E : Env) (h : list Message) (se1 se1' se2 : SignedEventMessage) (e : error) (st1 st2 : IdentifierState),
    let s := srun E sled_empty h in
    let id1 := em_prefix (sem_msg se1) in let id2 := em_prefix (sem_msg se2) in
    Forall message_ids_ok h -> event_ids_ok (sem_msg se1) -> event_ids_ok (sem_msg se2) -> id1 <> id2 ->
    sem_msg se1' = sem_msg se1 -> sem_seal se1' = sem_seal se1 ->
    snd (sprocess E s (MEvent se1)) = Err e ->
    snd (sprocess E s (MEvent se1')) = Ok (Some st1) ->
    snd (sprocess E (fst (sprocess E s (MEvent se1'))) (MEvent se2)) = Ok (Some st2) ->
    exists s',
      together E [Tell (MEvent se1); Tell (MEvent se2)] s s' [ADone (Err e); ADone (Ok (Some st2))]
      /\ lookup s' TKel id2 = Some (olist (lookup s TKel id2) ++ [stored se2])
      /\ olist (lookup s' TKel id1) = olist (lookup s TKel id1).
Proof.
  intros E h se1 se1' se2 e st1 st2 s id1 id2 Hh Hok1 Hok2 Hni Hm Hs Hr Ha H2.
  destruct (reach E h Hh) as (d & L & R & Hst & HI). fold s in R. clearbody s.
  assert (Hok1' : message_ids_ok (MEvent se1')) by (cbn [message_ids_ok]; rewrite Hm; exact Hok1).
  destruct (sprocess_rel E s d L (MEvent se1) R Hst Hok1) as (M1 & R1 & Er). rewrite Hr in Er.
  destruct (sprocess_rel E s d L (MEvent se1') R Hst Hok1') as (M2 & R2 & Ea). rewrite Ha in Ea.
  destruct (copy_passes E d se1 se1' st1 Hm Hs (eq_sym Ea)) as (Hc & Hap & HD' & ser & Hser). rewrite HD' in R2. fold id1 in R2.
  assert (Hst2 : store_ok (add_kel d se1' id1)).
  { pose proof (store_ok_add d se1' Hst) as Q. rewrite Hm in Q. exact (Q Hok1). }
  destruct (sprocess_rel E _ _ _ (MEvent se2) R2 Hst2 Hok2) as (M3 & _ & E2). rewrite H2 in E2. cbn [process] in E2.
  destruct (refused_event E d se1 st1 ser e Hc Hap Hser (eq_sym Er)) as [Hv HD].
  destruct (adv_added E s d L se1 st1 R Hst Hok1 Hc Hap) as (s1 & M & Hadv & R3 & Hst3). fold id1 in R3, Hst3.
  pose proof (proj1 Hok1) as Hid1. pose proof (proj1 Hok2) as Hid2. fold id1 in Hid1. fold id2 in Hid2.
  assert (Hacc : snd (process E (add_kel d se1 id1) (MEvent se2)) = Ok (Some st2)).
  { cbn [process]. rewrite E2. apply process_alike. apply add_alike. now rewrite Hm. }
  destruct (copy_passes E _ se2 se2 st2 eq_refl eq_refl Hacc) as (_ & _ & HD2 & _). fold id2 in HD2.
  destruct (sprocess_rel E s1 _ _ (MEvent se2) R3 Hst3 Hok2) as (M4 & R4 & E4). rewrite HD2 in R4. rewrite Hacc in E4.
  set (d2 := add_kel (add_kel d se1 id1) se2 id2) in *.
  assert (Hrest : interp (rest_of E se1 st1) d2 = (remove_kel d2 id1 se1, Err e) /\ safe (rest_of E se1 st1) d2).
  { unfold rest_of. rewrite Hser. unfold ptry. cbn [pbind]. rewrite Hv. apply verify_not_dup in Hv. destruct e; try congruence; split; reflexivity || (cbn; auto). }
  destruct Hrest as [Hi Hsafe].
  destruct (expand_refines (rest_of E se1 st1) _ d2 _ R4 Hsafe) as (M5 & R5 & E5). rewrite Hi in R5, E5. cbn [fst snd] in R5, E5.
  exists (fst (sinterp (expand (rest_of E se1 st1)) (fst (sprocess E s1 (MEvent se2))))).
  split.
  - unfold together. cbn [map].
    eapply (runs_adv _ _ _ _ Hadv _ 0); [reflexivity|]. cbn [replace p_step].
    pose proof (adv_end (expand (let* r := p_process E (MEvent se2) in Ret (ADone r))) s1) as Hend. rewrite sinterp_tail in Hend.
    fold (sprocess E s1 (MEvent se2)) in Hend. cbn [fst snd] in Hend. rewrite E4 in Hend.
    eapply (runs_adv _ _ _ _ Hend _ 1); [reflexivity|]. cbn [replace].
    pose proof (adv_end (expand (pbind (rest_of E se1 st1) (fun r => Ret (ADone r)))) (fst (sprocess E s1 (MEvent se2)))) as Hend2.
    rewrite sinterp_tail in Hend2. cbn [fst snd] in Hend2. rewrite E5 in Hend2.
    eapply (runs_adv _ _ _ _ Hend2 _ 0); [reflexivity|]. exact (runs_ended [_; _] _).
  - rewrite !(lookup_rel _ _ _ TKel _ R5), !(lookup_rel _ _ _ TKel _ R) by assumption.
    change (get_kel (remove_kel d2 id1 se1) id2 = Some (olist (get_kel d id2) ++ [stored se2]) /\ olist (get_kel (remove_kel d2 id1 se1) id1) = olist (get_kel d id1)).
    rewrite !get_kel_remove. unfold d2. rewrite !get_kel_add.
    destruct (IdentifierPrefix_eq_dec id2 id1) as [Q|_]; [congruence|]. destruct (IdentifierPrefix_eq_dec id2 id2) as [_|Q]; [|congruence].
    destruct (IdentifierPrefix_eq_dec id1 id1) as [_|Q]; [|congruence]. destruct (IdentifierPrefix_eq_dec id1 id2) as [Q|_]; [congruence|].
    split; [reflexivity|].
    cbn [option_map]. pose proof (remove_added E d se1 st1 HI (id_ok_proper _ Hid1) Hap) as Hrem. fold id1 in Hrem. unfold olist in *. exact Hrem.
Qed.
Print Assumptions C125_refused_events_are_relied_on.

(** What does hold.  A question beside a message does not disturb the message (answer and store
    are as when it is processed alone), and what it is told is what the store says after some
    number of the accesses of the message: every run is like that, and every number occurs. *)
Theorem C125_snapshots_partial :
  forall (E : Env) (h : list Message) (m : Message) (q : question) (s' : Sled) (l : list answer),
    let s := srun E sled_empty h in
    Forall message_ids_ok h -> message_ids_ok m -> Forall id_ok (about q) ->
    (forall id, In id (about q) -> number s id <> None) ->
    (together E [Tell m; Ask q] s s' l
     <-> exists k, l = [ADone (snd (sprocess E s m)); snd (sask E (cut k (expand (p_process E m)) s) q)]
                   /\ s' = fst (sprocess E s m)).
Proof.
  intros E h m q s' l s Hh Hm Hq Hn. destruct (reach E h Hh) as (d & L & R & Hst & _). fold s in R. clearbody s.
  unfold together. cbn [map p_step].
  rewrite (beside E (expand (let* r := p_process E m in Ret (ADone r))) s q).
  - unfold at_cut. rewrite sinterp_tail. cbn [fst snd]. fold (sprocess E s m).
    split; intros (k & -> & ->); exists k; rewrite cut_tail; split; reflexivity.
  - intros id Hi. specialize (Hn id Hi). destruct (number s id) as [x|] eqn:Hx; [|congruence]. exists x. intros k. rewrite cut_tail.
    rewrite Forall_forall in Hq. exact (cut_number E s d L m id x k R Hst Hm (Hq id Hi) Hx).
Qed.
Print Assumptions C125_snapshots_partial.
(** So, beside an event, one is told what holds before it or what holds after it, or, only if
    the event is not accepted, what would hold if it were in the log. *)
Theorem C125_beside_an_event_partial :
  forall (E : Env) (h : list Message) (se : SignedEventMessage) (q : question) (s' : Sled) (l : list answer),
    let s := srun E sled_empty h in let id := em_prefix (sem_msg se) in
    Forall message_ids_ok h -> event_ids_ok (sem_msg se) -> Forall id_ok (about q) ->
    (forall i, In i (about q) -> number s i <> None) ->
    together E [Tell (MEvent se); Ask q] s s' l ->
    s' = fst (sprocess E s (MEvent se))
    /\ exists a, l = [ADone (snd (sprocess E s (MEvent se))); a]
       /\ (a = snd (sask E s q)
           \/ a = snd (sask E s' q)
           \/ (forall os, snd (sprocess E s (MEvent se)) <> Ok os)
              /\ exists s1, a = snd (sask E s1 q)
                 /\ (forall n i, id_ok i -> n <> TKel \/ i <> id -> lookup s1 n i = lookup s n i)
                 /\ lookup s1 TKel id = Some (olist (lookup s TKel id) ++ [stored se])).
Proof.
  intros E h se q s' l s id Hh Hok Hq Hn Hr. apply (C125_snapshots_partial E h (MEvent se) q s' l Hh Hok Hq Hn) in Hr.
  fold s in Hr. destruct Hr as (k & -> & ->). split; [reflexivity|]. eexists. split; [reflexivity|].
  destruct (reach E h Hh) as (d & L & R & Hst & _). fold s in R. clearbody s.
  destruct (cut_refines (p_process E (MEvent se)) k s d L R (safe_process E (MEvent se) d Hst Hok)) as (j & M & R').
  destruct (sprocess_rel E s d L (MEvent se) R Hst Hok) as (M1 & R1 & Er).
  set (c := cut k (expand (p_process E (MEvent se))) s) in *. clearbody c. cbn [p_process process] in *.
  destruct (dcut_event E j d se) as [Hd|[Hd|(ns & Hc & Ha & Hd)]]; rewrite Hd in R'.
  - left. rewrite (sask_rel E _ _ _ q R' Hq), (sask_rel E _ _ _ q R Hq). reflexivity.
  - right. left. rewrite (sask_rel E _ _ _ q R' Hq), (sask_rel E _ _ _ q R1 Hq). reflexivity.
  - right. fold id in R'. destruct (snd (process_event E d se)) as [os|x|] eqn:Hres.
    + left. rewrite (sask_rel E _ _ _ q R' Hq), (sask_rel E _ _ _ q R1 Hq). f_equal.
      destruct (process_event_cases E d se) as [(r & Hp & Hx)|(ns' & _ & _ & [(ser & _ & _ & Hp)|[(r & Hp & Hx & _)|(e & ser & _ & Hp & _)]])];
        rewrite Hp in Hres |- *; cbn [fst snd] in *; try reflexivity; [exfalso; exact (Hx _ Hres)|discriminate Hres].
    + right. split; [rewrite Er; discriminate|]. exists c. split; [reflexivity|]. split.
      * intros n i Hi Hor. rewrite (lookup_rel _ _ _ n i R' Hi), (lookup_rel _ _ _ n i R Hi).
        destruct n; try reflexivity. change (get_kel (add_kel d se id) i = get_kel d i). rewrite get_kel_add.
        destruct (IdentifierPrefix_eq_dec i id); [destruct Hor; congruence|reflexivity].
      * rewrite (lookup_rel _ _ _ TKel id R' (proj1 Hok)), (lookup_rel _ _ _ TKel id R (proj1 Hok)). 
        change (get_kel (add_kel d se id) id = Some (olist (get_kel d id) ++ [stored se])). rewrite get_kel_add. destruct (IdentifierPrefix_eq_dec id id); [|congruence].
        reflexivity.
    + right. split; [rewrite Er; discriminate|]. exists c. split; [reflexivity|]. split.
      * intros n i Hi Hor. rewrite (lookup_rel _ _ _ n i R' Hi), (lookup_rel _ _ _ n i R Hi).
        destruct n; try reflexivity. change (get_kel (add_kel d se id) i = get_kel d i). rewrite get_kel_add.
        destruct (IdentifierPrefix_eq_dec i id); [destruct Hor; congruence|reflexivity].
      * rewrite (lookup_rel _ _ _ TKel id R' (proj1 Hok)), (lookup_rel _ _ _ TKel id R (proj1 Hok)). 
        change (get_kel (add_kel d se id) id = Some (olist (get_kel d id) ++ [stored se])). rewrite get_kel_add. destruct (IdentifierPrefix_eq_dec id id); [|congruence].
        reflexivity.
Qed.
Print Assumptions C125_beside_an_event_partial.

(** a case: alice has her inception and rotation in the log; the interaction that anchors bob's
    delegated inception arrives without signatures, with bob's inception beside it *)
Definition x_history : list Message := [MEvent s_icp; MEvent s_rot].
Definition x_unsigned : SignedEventMessage := mkSEM a_ixn [] None.
Definition ok_answer (r : out (option IdentifierState)) : bool := match r with Ok (Some _) => true | _ => false end.
Example C125_example :
  Forall message_ids_ok x_history /\ event_ids_ok (sem_msg x_unsigned) /\ event_ids_ok (sem_msg s_dip)
  /\ em_prefix (sem_msg x_unsigned) <> em_prefix (sem_msg s_dip)
  /\ sem_msg s_ixn = sem_msg x_unsigned /\ sem_seal s_ixn = sem_seal x_unsigned
  /\ (let s := srun toy sled_empty x_history in
      snd (sprocess toy s (MEvent x_unsigned)) = Err ENotEnoughSigs
      /\ ok_answer (snd (sprocess toy s (MEvent s_ixn))) = true
      /\ ok_answer (snd (sprocess toy (fst (sprocess toy s (MEvent s_ixn))) (MEvent s_dip))) = true
      (* one after the other, in either order, bob's inception is refused *)
      /\ ok_answer (snd (sprocess toy (fst (sprocess toy s (MEvent x_unsigned))) (MEvent s_dip))) = false
      /\ ok_answer (snd (sprocess toy s (MEvent s_dip))) = false
      /\ number s alice <> None).
Proof.
  apply conj.
  { repeat (apply Forall_cons || apply Forall_nil); cbn [message_ids_ok]; (split; [split; [discriminate|reflexivity]|exact I]). }
  apply conj; [split; [split; [discriminate|reflexivity]|exact I]|].
  apply conj; [split; [split; [discriminate|reflexivity]|split; [discriminate|reflexivity]]|].
  apply conj; [discriminate|]. apply conj; [reflexivity|]. apply conj; [reflexivity|].
  cbv zeta. apply conj; [vm_compute; reflexivity|]. apply conj; [vm_compute; reflexivity|]. apply conj; [vm_compute; reflexivity|].
  apply conj; [vm_compute; reflexivity|]. apply conj; [vm_compute; reflexivity|]. vm_compute; discriminate.
Qed.
Theorem C125_refuted : ~ C125_statement.
Proof.
  intros H. destruct C125_example as (H1 & H2 & _ & _ & H5 & H6 & H7 & H8 & _ & _ & _ & H12). cbv zeta in *.
  destruct (snd (sprocess toy (srun toy sled_empty x_history) (MEvent s_ixn))) as [[st|]|e|] eqn:Hst; try discriminate H8.
  destruct (C125_refused_events_are_seen toy x_history x_unsigned s_ixn ENotEnoughSigs st H1 H2 H5 H6 H7 Hst) as [Hr _].
  assert (Hq : Forall id_ok (about (QState alice))) by (apply Forall_cons; [exact (proj1 H2)|apply Forall_nil]).
  assert (Hk : forall i, In i (about (QState alice)) -> number (srun toy sled_empty x_history) i <> None) by (intros i [<-|[]]; exact H12).
  pose proof (H toy x_history x_unsigned (QState alice) ENotEnoughSigs _ _ H1 H2 Hq Hk H7 Hr) as Hl.
  assert (Q : AState (Ok (Some st)) = snd (sask toy (srun toy sled_empty x_history) (QState alice))) by congruence.
  assert (HS : match snd (sask toy (srun toy sled_empty x_history) (QState alice)) with AState (Ok (Some x)) => st_sn x | _ => 9%N end = 1%N) by (vm_compute; reflexivity).
  rewrite <- Q in HS.
  assert (HT : match snd (sprocess toy (srun toy sled_empty x_history) (MEvent s_ixn)) with Ok (Some x) => st_sn x | _ => 9%N end = 2%N) by (vm_compute; reflexivity).
  rewrite Hst in HT. rewrite HT in HS. discriminate HS.
Qed.
Print Assumptions C125_refuted.
