(** * C134: replies and escrow passes beside other calls. *)
From Verif Require Import Base Base64 Base64Proofs Codes NumFmt Types KeyConf SpecSig State Db Processor Prog ProgProofs Sled
  SpecCodec CodecProofs SledProofs Spec SpecProc SpecStore StateProofs LogProofs StoreProofs Crash CrashProofs Demo
  SpecQuery ProcProofs QueryProofs Prop_Query Threads SpecThreads ThreadProofs Ask SpecAsk Prop_Ask Mixed MixedProofs Prop_Mixed Desk SpecDesk DeskProofs DeskProofs2.

(** The full statement has two parts.  Nothing that is done about replies changes what happens to
    events and receipts: *)
Definition C134_events_statement : Prop :=
  forall (E : Env) (h : list Call) (ths : list (list Call)) (s' : Sled) (answers : list (list outcome)),
    at_once E ths (store_after E h) s' answers ->
    exists t', at_once E (map without_replies ths) (store_after E h) t' (map (fun p => answers_without (fst p) (snd p)) (combine ths answers))
      /\ forall n id, reply_table n = false -> lookup s' n id = lookup t' n id.
(** and a reply whose sender was told that it has to wait is waiting when all is done. *)
Definition C134_replies_statement : Prop :=
  forall (E : Env) (h : list Message) (r : SignedReply) (a : list outcome) (s' : Sled),
    let s := srun E sled_empty h in
    Forall message_ids_ok h -> message_ids_ok (MKeyStateNotice r) ->
    (forall id, names (MKeyStateNotice r) id -> number s id <> None) ->
    at_once E [[CEscrow]; [CProcess (MKeyStateNotice r)]] s s' [a; [AMessage (Err (EQuery QOutOfOrder))]] ->
    In r (olist (lookup s' TEscRpy (sr_prefix r))).

(** Any number of threads, each with any calls, in any interleaving: leave out the replies and
    the passes, and what remains is a run of the threads without them in which events and
    receipts get the same answers and leave the same logs, receipts and escrowed receipts.  The
    identifiers named by the threads' own replies must be ones the store has met. *)
Theorem C134_events_undisturbed_partial :
  forall (E : Env) (h : list Call) (ths : list (list Call)) (s' : Sled) (answers : list (list outcome)),
    let s := store_after E h in
    (forall cs r id, In cs ths -> In (CProcess (MKeyStateNotice r)) cs -> names (MKeyStateNotice r) id -> number s id <> None) ->
    at_once E ths s s' answers ->
    exists t', at_once E (map without_replies ths) s t' (map (fun p => answers_without (fst p) (snd p)) (combine ths answers))
      /\ Forall2 (fun cs l => List.length l = List.length cs) ths answers
      /\ forall n id, reply_table n = false -> lookup s' n id = lookup t' n id.
Proof.
  intros E h ths s' answers s Hn Hr. pose proof (settled_after E h) as HS. fold s in HS. clearbody s. pose proof HS as [HL _].
  assert (K : forall cs, In cs ths -> Forall (call_known (s_ids s)) cs).
  { intros cs Hcs. rewrite Forall_forall. intros c Hc. destruct c as [[e|e|e|r|q]|]; try exact I. intros id Hid. exact (Hn cs r id Hcs Hc Hid). }
  pose (R := fun (p q : list Call * list outcome) => fst q = fst p /\ snd q = answers_without (fst p) (snd p)).
  assert (SH : Forall2 (fun (p : list Call * _) q => shadow (s_ids s) (ends_like (fst p)) (snd p) q)
                 (map (fun cs => (cs, expand (p_calls E cs))) ths) (map (fun cs => expand (p_calls E (without_replies cs))) ths)).
  { clear Hr Hn. induction ths as [|cs ths IH]; cbn [map]; constructor.
    - cbn [fst snd]. apply oshadow_expand. apply calls_shadow. apply K. now left.
    - apply IH. intros cs' Hc. apply K. now right. }
  (* one relation for all threads: the answers carry the thread they belong to *)
  assert (G : forall ps s0 s1 l, runs ps s0 s1 l -> forall qs t,
    Forall2 (fun (p : list Call * _) q => shadow (s_ids s) (ends_like (fst p)) (snd p) q) (combine ths ps) qs ->
    List.length ps = List.length ths -> inv (s_ids s) s0 -> same s0 t ->
    exists t' l', runs qs t t' l' /\ Forall2 (fun p l' => ends_like (fst p) (snd p) l') (combine ths l) l' /\ same s1 t').
  { clear - HL. induction 1 as [l s0|ps i X o k s0 s1 x s2 l Hi Ho Hr IH]; intros qs t Hsh Hlen HI Hs.
    - enough (exists l', qs = map Ret l' /\ Forall2 (fun p l' => ends_like (fst p) (snd p) l') (combine ths l) l') as (l' & -> & Hl).
      { exists t, l'. split; [constructor|auto]. }
      clear -Hsh Hlen. revert ths qs Hsh Hlen. induction l as [|a l IHl]; intros ths qs Hsh Hlen.
      + destruct ths; [|discriminate Hlen]. inversion Hsh. exists []. split; constructor.
      + destruct ths as [|cs ths]; [discriminate Hlen|]. cbn [map combine] in Hsh. inversion Hsh as [|p q ps qs' Hpq Hrest]; subst.
        destruct Hpq as (b & -> & Hb). destruct (IHl ths qs' Hrest) as (l' & -> & Hl'); [cbn [map List.length] in Hlen; apply eq_add_S; exact Hlen|].
        exists (b :: l'). split; [reflexivity|]. constructor; [exact Hb|exact Hl'].
    - assert (Hi2 : exists cs, nth_error (combine ths ps) i = Some (cs, Do o k)).
      { clear -Hi Hlen. revert ths i Hi Hlen. induction ps as [|p ps IHp]; intros [|cs ths] [|i] Hi Hlen; try discriminate Hi; try discriminate Hlen; cbn [combine nth_error] in *.
        - injection Hi as ->. eauto.
        - eapply IHp; [exact Hi|apply eq_add_S; exact Hlen]. }
      destruct Hi2 as (cs & Hi2). destruct (Forall2_nth _ _ _ Hsh i _ Hi2) as (q & Hq & Hpq). cbn [fst snd shadow] in Hpq.
      pose proof (res_ok (s_ids s) HL o s0 HI) as Hres.
      assert (Hrep : forall p', combine ths (replace i p' ps) = replace i (cs, p') (combine ths ps)).
      { clear -Hi2. intros p'. revert ths i Hi2. induction ps as [|p ps IHp]; intros [|c ths] [|i] Hi2; try discriminate Hi2; cbn [combine replace nth_error] in *; try reflexivity.
        - injection Hi2 as -> _. reflexivity.
        - now rewrite IHp. }
      assert (Hlen' : forall p', List.length (replace i p' ps) = List.length ths).
      { intros p'. rewrite <- Hlen. clear. revert i. induction ps as [|p ps IHp]; intros [|i]; cbn; congruence. }
      destruct Hpq as [(He & k' & -> & Hk)|(He & Hk)].
      + pose proof (e_keeps _ o s0 He HI) as HI'. destruct (e_same _ o s0 t He Hs) as (E1 & E2).
        rewrite Ho in *. cbn [fst snd] in *. destruct (prim_sem o t) as [t1 y] eqn:Ht. cbn [fst snd] in *. subst y.
        destruct (IH (replace i (k' x) qs) t1) as (t' & l' & H1 & H2 & H3); [|apply Hlen'|exact HI'|exact E2|].
        * rewrite Hrep. apply Forall2_replace; [exact Hsh|]. cbn [fst snd]. apply Hk. exact Hres.
        * exists t', l'. split; [|auto]. eapply runs_access; eauto.
      + pose proof (r_keeps _ o s0 He HI) as HI'. pose proof (r_same _ o s0 t He Hs) as E2. rewrite Ho in *. cbn [fst snd] in *.
        apply (IH qs t); [|apply Hlen'|exact HI'|exact E2]. rewrite Hrep. eapply Forall2_replace_l; [exact Hsh|exact Hq|]. cbn [fst snd]. apply Hk. exact Hres. }
  assert (HC : forall A B (f : A -> B) l, combine l (map f l) = map (fun x => (x, f x)) l) by (induction l; cbn; congruence).
  destruct (G _ _ _ _ Hr (map (fun cs => expand (p_calls E (without_replies cs))) ths) s) as (t' & l' & H1 & H2 & H3).
  - rewrite HC. exact SH.
  - apply map_length.
  - now apply settled_inv.
  - split; reflexivity.
  - exists t'. split; [|split; [|intros n id Hnt; now apply same_lookup]].
    2:{ assert (Hla : List.length answers = List.length ths).
        { clear -Hr. unfold at_once in Hr. rewrite <- (map_length (fun cs => expand (p_calls E cs)) ths).
          induction Hr as [l s|ps i X o k s s1 x s2 l Hi Ho Hr IH]; [now rewrite map_length|]. rewrite IH. clear. revert i. induction ps as [|p ps IHp]; intros [|i]; cbn; congruence. }
        clear -H2 Hla. revert answers l' H2 Hla. induction ths as [|cs ths IH]; intros [|a answers] l' H2 Hla; try discriminate Hla; [constructor|].
        cbn [combine] in H2. inversion H2 as [|x y xs ys [_ Hx] Hxs]; subst. constructor; [exact Hx|]. eapply IH; [exact Hxs|cbn in Hla; congruence]. }
    unfold at_once. rewrite map_map.
    assert (l' = map (fun p => answers_without (fst p) (snd p)) (combine ths answers)) as <-; [|exact H1].
    clear -H2. induction H2 as [|p l1 ps l2 Hp Hl IH]; cbn [map]; [reflexivity|]. destruct Hp as [Hp _]. congruence.
Qed.
Print Assumptions C134_events_undisturbed_partial.

(** In particular: one thread with events and receipts, beside any number of threads with replies
    and passes, gets the answers it gets alone, and leaves what it leaves alone. *)
Lemma runs_one {A} ps s s' (l : list A) : runs ps s s' l -> forall p r, ps = p :: map Ret r ->
  s' = fst (sinterp p s) /\ l = snd (sinterp p s) :: r.
Proof.
  induction 1 as [l s|ps i X o k s s1 x s2 l Hi Ho Hr IH]; intros p r Hp.
  - destruct l as [|a l]; [discriminate Hp|]. cbn [map] in Hp. injection Hp as <- Hl. cbn [sinterp fst snd]. split; [reflexivity|].
    f_equal. clear -Hl. revert r Hl. induction l as [|b l IH]; intros [|c r] H; try discriminate H; [reflexivity|]. cbn in H. injection H as <- H. now rewrite (IH r H).
  - subst ps. destruct i as [|i]; cbn [nth_error] in Hi.
    + injection Hi as ->. cbn [replace] in IH. cbn [sinterp]. rewrite Ho. now apply IH.
    + exfalso. clear -Hi. revert r Hi. induction i as [|i IH]; intros [|b r] H; cbn in H; try discriminate H; eauto.
Qed.
(** the answers to calls made one after another *)
Fixpoint answers_of (E : Env) (s : Sled) (cs : list Call) : list outcome :=
  match cs with [] => [] | c :: r => snd (scall E s c) :: answers_of E (fst (scall E s c)) r end.
Lemma calls_alone E cs : forall s,
  sinterp (expand (p_calls E cs)) s = (fold_left (fun s c => fst (scall E s c)) cs s, answers_of E s cs).
Proof.
  induction cs as [|c cs IH]; intros s; cbn [p_calls fold_left answers_of]; [reflexivity|]. rewrite sinterp_expand_pbind.
  assert (Hc : sinterp (expand (p_call E c)) s = scall E s c).
  { destruct c as [m|]; cbn [p_call scall]; rewrite sinterp_expand_pbind; [unfold sprocess|unfold spass]; destruct (sinterp _ s); reflexivity. }
  rewrite Hc. destruct (scall E s c) as [s1 a]. cbn [fst snd]. rewrite sinterp_expand_pbind, IH. reflexivity.
Qed.
Theorem C134_one_thread_of_events_partial :
  forall (E : Env) (h : list Call) (events : list Call) (others : list (list Call)) (s' : Sled) (answers : list outcome) (l : list (list outcome)),
    let s := store_after E h in
    forallb (fun c => negb (reply_call c)) events = true -> forallb (forallb reply_call) others = true ->
    (forall cs r id, In cs others -> In (CProcess (MKeyStateNotice r)) cs -> names (MKeyStateNotice r) id -> number s id <> None) ->
    at_once E (events :: others) s s' (answers :: l) ->
    answers = answers_of E s events
    /\ forall n id, reply_table n = false -> lookup s' n id = lookup (store_after E (h ++ events)) n id.
Proof.
  intros E h events others s' answers l s He Ho Hn Hr.
  destruct (C134_events_undisturbed_partial E h (events :: others) s' (answers :: l)) as (t' & H1 & HF & H2); [|exact Hr|].
  { intros cs r id [<-|Hcs] Hc Hid; [|exact (Hn cs r id Hcs Hc Hid)]. rewrite forallb_forall in He. specialize (He _ Hc). discriminate He. }
  fold s in H1. cbn [map combine fst snd] in H1.
  assert (Hf : without_replies events = events).
  { clear -He. unfold without_replies. induction events as [|c cs IH]; [reflexivity|]. cbn [forallb filter] in *. apply andb_true_iff in He. destruct He as [-> He]. now rewrite IH. }
  assert (Ho' : map without_replies others = map (fun _ => []) others).
  { clear -Ho. induction others as [|cs r IH]; [reflexivity|]. cbn [forallb map] in *. apply andb_true_iff in Ho. destruct Ho as [Hc Ho]. rewrite IH by exact Ho. f_equal.
    clear -Hc. unfold without_replies. induction cs as [|c cs IH]; [reflexivity|]. cbn [forallb filter] in *. apply andb_true_iff in Hc. destruct Hc as [-> Hc]. cbn [negb]. now apply IH. }
  rewrite Hf, Ho' in H1. unfold at_once in H1. cbn [map] in H1. rewrite map_map in H1.
  destruct (runs_one _ _ _ _ H1 (expand (p_calls E events)) (map (fun _ => []) others)) as [E1 E2].
  { f_equal. rewrite map_map. reflexivity. }
  rewrite calls_alone in E1, E2. cbn [fst snd] in E1, E2.
  assert (Ea : answers_without events answers = answers_of E s events) by congruence.
  assert (Hlen : List.length answers = List.length events) by (inversion HF; assumption).
  split.
  - rewrite <- Ea. clear -He Hlen. revert answers Hlen. induction events as [|c cs IH]; intros [|a answers] Hlen; try discriminate Hlen; [reflexivity|].
    cbn [forallb answers_without] in *. apply andb_true_iff in He. destruct He as [Hc He]. apply negb_true_iff in Hc. rewrite Hc. f_equal. apply IH; [exact He|]. cbn in Hlen. congruence.
  - intros n id Hnt. rewrite (H2 n id Hnt), E1. unfold store_after. now rewrite fold_left_app.
Qed.
Print Assumptions C134_one_thread_of_events_partial.

(** But a reply can be lost.  Whenever one reply is waiting and would now be accepted, and another
    one about the same identifier would, after that, be told to wait, then a pass beside the
    second reply can end with both threads satisfied and the second reply gone. *)
Lemma adv_deep {A B C D} (p : prog op A) (k1 : A -> prog op B) (k2 : B -> prog op C) (k3 : C -> prog op D) : forall s,
  adv (expand (pbind (pbind (pbind p k1) k2) k3)) s
      (expand (pbind (pbind (k1 (snd (sinterp (expand p) s))) k2) k3)) (fst (sinterp (expand p) s)).
Proof.
  induction p as [r|X o c IH]; intros s; cbn [pbind expand]; [constructor|].
  rewrite sinterp_pbind. eapply adv_trans; [apply adv_bind|]. destruct (sinterp (expand_op o) s) as [s1 x]. cbn [fst snd]. apply IH.
Qed.
Lemma reply_kept_escrow E d r os : snd (process E d (MKeyStateNotice r)) = Ok os -> db_esc_rpy (fst (process E d (MKeyStateNotice r))) = db_esc_rpy d.
Proof.
  cbn [process]. unfold process_signed_reply. destruct (rp_route (sr_reply r)); try discriminate. destruct (IdentifierPrefix_eq_dec _ _); [|discriminate].
  destruct (e_ser_reply E _); try discriminate. destruct (proc_verify E d _ _) as [u|er|]; [|destruct er; discriminate|discriminate].
  destruct (obind _ _) as [u'|er|]; try discriminate. destruct (check_ksn E d _ _) as [u2|er|]; [|destruct er as [| |?| | | | |?| | | | | |q]; try discriminate; destruct q; discriminate|discriminate].
  intros _. cbn [fst]. unfold update_accepted_reply. destruct (tget (db_rpy d) _); reflexivity.
Qed.
Theorem C134_replies_lost :
  forall (E : Env) (h : list Message) (r1 r2 : SignedReply) (os : option IdentifierState),
    let s := srun E sled_empty h in let id := sr_prefix r1 in
    Forall message_ids_ok h -> message_ids_ok (MKeyStateNotice r1) -> message_ids_ok (MKeyStateNotice r2) -> sr_prefix r2 = id ->
    (* [r1] is what is waiting *)
    snd (sop (OAll TEscRpy) s) = [r1] -> lookup s TEscRpy id = Some [r1] ->
    (* it would be accepted now, and then [r2] would have to wait *)
    snd (sprocess E s (MKeyStateNotice r1)) = Ok os ->
    snd (sprocess E (fst (sprocess E s (MKeyStateNotice r1))) (MKeyStateNotice r2)) = Err (EQuery QOutOfOrder) ->
    exists s',
      at_once E [[CEscrow]; [CProcess (MKeyStateNotice r2)]] s s' [[APass (Ok tt)]; [AMessage (Err (EQuery QOutOfOrder))]]
      /\ lookup s' TEscRpy id = Some [].
Proof.
  intros E h r1 r2 os s id Hh Hok1 Hok2 Hid Hall Hl Ha Hw. destruct (reach E h Hh) as (d & L & R & Hst & _). fold s in R.
  assert (HS : settled s).
  { assert (G : forall h s0, settled s0 -> settled (srun E s0 h)).
    { clear. induction h as [|m h IH]; intros s0 H0; [exact H0|]. cbn [srun fold_left]. apply IH.
      pose proof (settled_call E (CProcess m) s0 H0) as G. cbn [scall] in G. destruct (sprocess E s0 m). exact G. }
    apply G, settled_empty. }
  clearbody s.
  destruct (sprocess_rel E s d L (MKeyStateNotice r1) R Hst Hok1) as (M1 & R1 & Er1). rewrite Ha in Er1.
  pose proof (reply_kept_escrow E d r1 os (eq_sym Er1)) as Hesc.
  set (s1 := fst (sprocess E s (MKeyStateNotice r1))) in *. set (d1 := fst (process E d (MKeyStateNotice r1))) in *.
  assert (HS1 : settled s1).
  { pose proof (settled_call E (CProcess (MKeyStateNotice r1)) s HS) as G. cbn [scall] in G. unfold s1. destruct (sprocess E s (MKeyStateNotice r1)). exact G. }
  assert (Hidok : id_ok id) by exact (proj1 Hok1).
  assert (Hl1 : tget (dtab TEscRpy d1) id = Some [r1]).
  { pose proof (lookup_rel _ _ _ TEscRpy id R Hidok) as Q. rewrite Hl in Q. change (dtab TEscRpy d1) with (db_esc_rpy d1). rewrite Hesc. symmetry. exact Q. }
  assert (Hk : exists k, number s1 id = Some k /\ tr_get (stab TEscRpy s1) k = Some [r1]).
  { rewrite (number_rel _ _ _ _ R1 Hidok). rewrite (r_tab _ _ _ R1) in Hl1. destruct (idx 0 (L ++ M1) id) as [k|]; [eauto|discriminate Hl1]. }
  destruct Hk as (k & Hk & Hg).
  (* the second thread, run in the middle *)
  set (s2 := fst (sprocess E s1 (MKeyStateNotice r2))) in *.
  assert (Hn2 : find_text (s_ids s2) (id_str id) = Some k).
  { unfold s2, sprocess. cbn [p_process]. destruct (tidy_settled _ s1 HS1 (tidy_reply E r2 s1 HS1)) as (_ & x & ->). now apply find_text_app. }
  exists (sset TEscRpy s2 (tr_put (stab TEscRpy s2) k [])). split.
  - unfold at_once. cbn [map].
    (* the pass: reads the escrow, accepts [r1], and is about to write the list without it *)
    assert (Hadv : exists fin, adv (expand (p_calls E [CEscrow])) s (Do (PPut TEscRpy k []) fin) s1 /\ fin tt = Ret [APass (Ok tt)]).
    { cbn [p_calls p_call]. eexists. split.
      - unfold p_process_escrow at 1, p_do at 1. cbn [pbind expand expand_op]. eapply adv_step; [reflexivity|].
        change (flat_map snd (stab TEscRpy s)) with (snd (sop (OAll TEscRpy) s)). rewrite Hall. cbn [pbind].
        cbn [p_escrow_loop]. 
        eapply adv_trans; [apply adv_deep|]. fold (sprocess E s (MKeyStateNotice r1)).
        change (sinterp (expand (p_process_signed_reply E r1)) s) with (sprocess E s (MKeyStateNotice r1)). rewrite Ha. fold s1.
        unfold p_do. cbn [pbind expand expand_op]. unfold designated. cbn [pbind].
        eapply adv_step; [reflexivity|]. fold id. unfold number in Hk. rewrite Hk. cbn [pbind].
        eapply adv_step; [reflexivity|]. rewrite Hg. cbn [pbind].
        assert (Hf : filter (fun e : tty TEscRpy => negb (teqb TEscRpy e r1)) [r1] = []).
        { cbn [filter teqb]. unfold srpy_eqb. destruct (SRpy_eq_dec r1 r1); [reflexivity|congruence]. }
        rewrite Hf. apply adv_refl.
      - reflexivity. }
    destruct Hadv as (fin & Hadv & Hfin).
    eapply (runs_adv _ _ _ _ Hadv _ 0); [reflexivity|]. cbn [replace].
    pose proof (adv_end (expand (p_calls E [CProcess (MKeyStateNotice r2)])) s1) as Hend.
    rewrite calls_alone in Hend. cbn [fst snd answers_of fold_left scall] in Hend.
    assert (Hsc : sprocess E s1 (MKeyStateNotice r2) = (s2, Err (EQuery QOutOfOrder))) by (unfold s2; rewrite <- Hw; apply surjective_pairing).
    rewrite Hsc in Hend. cbn [fst snd] in Hend.
    eapply (runs_adv _ _ _ _ Hend _ 1); [reflexivity|]. cbn [replace].
    eapply (runs_access _ 0); [reflexivity|reflexivity|]. cbn [replace]. rewrite Hfin. exact (runs_ended [_; _] _).
  - unfold lookup, sop. cbn [expand_op]. unfold designated. rewrite !sinterp_pbind. cbn [sinterp prim_sem]. rewrite ids_sset, Hn2. cbn [sinterp prim_sem snd].
    rewrite stab_sset_same, tr_get_put, N.eqb_refl. reflexivity.
Qed.
Print Assumptions C134_replies_lost.

(** a case: a key of its own, [watcher], reports about alice; her second event is not known when
    the first report comes, and her third when the second comes *)
Definition watcher : BasicPrefix := key x41.
Definition alice_at (cs : list Call) : IdentifierState := state_of toy (run toy db_empty cs) alice.
Definition report (s : IdentifierState) (t : Z) : SignedReply := by_bare watcher (reply_of (IdBasic watcher) (notice s t) t).
Definition report_2 : SignedReply := report (alice_at [CProcess (MEvent s_icp); CProcess (MEvent s_rot); CProcess (MEvent s_ixn)]) 100.
Definition report_3 : SignedReply := report (alice_at [CProcess (MEvent s_icp); CProcess (MEvent s_rot); CProcess (MEvent s_ixn); CProcess (MEvent s_ixn2)]) 200.
Definition desk_history : list Message := [MEvent s_icp; MEvent s_rot; MKeyStateNotice report_2; MEvent s_ixn].
Definition is_ok {A} (o : out A) : bool := match o with Ok _ => true | _ => false end.
Lemma report_ids r : sr_prefix r = alice -> signature_ids_ok (sr_sig r) -> message_ids_ok (MKeyStateNotice r).
Proof. intros H H2. cbn [message_ids_ok]. rewrite H. apply conj; [split; [discriminate|reflexivity]|exact H2]. Qed.
Lemma desk_ids : Forall message_ids_ok desk_history /\ message_ids_ok (MKeyStateNotice report_2) /\ message_ids_ok (MKeyStateNotice report_3).
Proof.
  assert (H2 : message_ids_ok (MKeyStateNotice report_2)) by (apply report_ids; [vm_compute; reflexivity|exact I]).
  assert (H3 : message_ids_ok (MKeyStateNotice report_3)) by (apply report_ids; [vm_compute; reflexivity|exact I]).
  apply conj; [|exact (conj H2 H3)].
  apply Forall_cons; [apply conj; [split; [discriminate|reflexivity]|exact I]|]. apply Forall_cons; [apply conj; [split; [discriminate|reflexivity]|exact I]|].
  apply Forall_cons; [exact H2|]. apply Forall_cons; [apply conj; [split; [discriminate|reflexivity]|exact I]|]. apply Forall_nil.
Qed.
Example C134_example :
  let s := srun toy sled_empty desk_history in
  sr_prefix report_2 = alice /\ sr_prefix report_3 = alice
  /\ snd (sop (OAll TEscRpy) s) = [report_2] /\ lookup s TEscRpy alice = Some [report_2]
  /\ is_ok (snd (sprocess toy s (MKeyStateNotice report_2))) = true
  /\ snd (sprocess toy (fst (sprocess toy s (MKeyStateNotice report_2))) (MKeyStateNotice report_3)) = Err (EQuery QOutOfOrder)
  (* one after the other, in either order, the second report is kept *)
  /\ lookup (fst (sprocess toy (fst (spass toy s)) (MKeyStateNotice report_3))) TEscRpy alice = Some [report_3]
  /\ lookup (fst (spass toy (fst (sprocess toy s (MKeyStateNotice report_3))))) TEscRpy alice <> Some []
  /\ number s alice <> None.
Proof. cbv zeta. repeat (apply conj; [vm_compute; first [reflexivity|discriminate]|]). vm_compute; discriminate. Qed.
Theorem C134_replies_refuted : ~ C134_replies_statement.
Proof.
  intros H. destruct desk_ids as (H1 & H2 & H3). destruct C134_example as (P1 & P2 & Q1 & Q2 & Q3 & Q4 & _ & _ & Q5). cbv zeta in *.
  destruct (snd (sprocess toy (srun toy sled_empty desk_history) (MKeyStateNotice report_2))) as [os|e|] eqn:Ha; try discriminate Q3.
  rewrite <- P1 in Q2, P2.
  destruct (C134_replies_lost toy desk_history report_2 report_3 os H1 H2 H3 P2 Q1 Q2 Ha Q4) as (s' & Hr & Hl).
  assert (Hn : forall id, names (MKeyStateNotice report_3) id -> number (srun toy sled_empty desk_history) id <> None).
  { intros id [->|[]]. rewrite P2, P1. exact Q5. }
  pose proof (H toy desk_history report_3 _ s' H1 H3 Hn Hr) as G. rewrite P2, Hl in G. exact G.
Qed.
Print Assumptions C134_replies_refuted.
(** And a reply about an identifier that the store has not met can make a new identifier's first
    event vanish although it is accepted: the two get the same number. *)
Theorem C134_events_refuted : ~ C134_events_statement.
Proof.
  intros H. set (ths := [[CProcess (MEvent s_icp)]; [CProcess (MKeyStateNotice (by_bare watcher (reply_of (IdBasic watcher) (notice (state_of toy (run toy db_empty [CProcess (MEvent s_icp); CProcess (MEvent s_rot); CProcess (MEvent s_ixn); CProcess (MEvent s_dip)]) bob) 100) 100)))]]).
  set (sch := [1; 1]).
  pose proof (pool_runs sch (map (fun cs => expand (p_calls toy cs)) ths) sled_empty) as Hr.
  destruct (H toy [] ths _ _ Hr) as (t' & H1 & H2). change (store_after toy []) with sled_empty in H1.
  assert (Ha : map (fun p => answers_without (fst p) (snd p)) (combine ths (snd (pool sch (map (fun cs => expand (p_calls toy cs)) ths) sled_empty)))
               = [answers_of toy sled_empty [CProcess (MEvent s_icp)]; []]) by (vm_compute; reflexivity).
  rewrite Ha in H1. destruct (runs_one _ _ _ _ H1 (expand (p_calls toy [CProcess (MEvent s_icp)])) [[]] eq_refl) as [Et _].
  specialize (H2 TKel alice eq_refl). rewrite Et in H2. 
  assert (N1 : option_map (@List.length SignedEventMessage) (lookup (fst (pool sch (map (fun cs => expand (p_calls toy cs)) ths) sled_empty)) TKel alice) = None) by (vm_compute; reflexivity).
  assert (N2 : option_map (@List.length SignedEventMessage) (lookup (fst (sinterp (expand (p_calls toy [CProcess (MEvent s_icp)])) sled_empty)) TKel alice) = Some 1) by (vm_compute; reflexivity).
  rewrite <- H2 in N2. rewrite N1 in N2. discriminate N2.
Qed.
Print Assumptions C134_events_refuted.
(** a case for the first theorems: alice's events and a receipt beside passes and a report *)
Example C134_example_undisturbed :
  let h := map CProcess desk_history in
  let events := [CProcess (MEvent s_dip); CProcess (MEvent s_ixn2); CProcess (MTransferableRct b_rct)] in
  let others := [[CEscrow; CProcess (MKeyStateNotice report_3)]; [CEscrow; CEscrow]] in
  forallb (fun c => negb (reply_call c)) events = true /\ forallb (forallb reply_call) others = true
  /\ (forall cs r id, In cs others -> In (CProcess (MKeyStateNotice r)) cs -> names (MKeyStateNotice r) id -> number (store_after toy h) id <> None)
  /\ map (fun a => match a with AMessage r => is_ok r | APass r => is_ok r end) (answers_of toy (store_after toy h) events) = [true; true; true].
Proof.
  cbv zeta. apply conj; [reflexivity|]. apply conj; [reflexivity|]. apply conj.
  - intros cs r id [<-|[<-|[]]] Hc Hn; destruct Hc as [Hc|[Hc|[]]]; try discriminate Hc. injection Hc as <-.
    destruct Hn as [->|[]]. destruct C134_example as (_ & -> & _). vm_compute; discriminate.
  - vm_compute. reflexivity.
Qed.
