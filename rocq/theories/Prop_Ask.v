(** * Prop_Ask: asking a node does not change what it knows (C124).

    [sask E s q]: question [q] put to the numeric-key store [s]; [ssteps], [sanswered]: a history
    of messages and questions on that store and everything that is returned; [truth],
    [expected], [messages]: SpecAsk.v.  [lookup], [number]: the entry of a table and the number of
    an identifier (SledProofs.v). *)
From Coq Require Import Permutation.
From Verif Require Import Base Base64 Codes NumFmt Types KeyConf State Db Processor Prog ProgProofs Sled Crash
  SpecCodec SledProofs Spec SpecProc SpecStore StateProofs LogProofs StoreProofs Demo Ask SpecAsk.

Section Asking.
  Context (E : Env).
  Lemma shape q : (exists a, p_ask E q = Ret a /\ about q = [])
    \/ exists n id k, p_ask E q = Do (OGet n id) k /\ about q = [id] /\ forall o, exists a, k o = Ret a.
  Proof.
    destruct q as [id|id sn|id|id|id sn|id sn dig|id sn v|data sig|n id]; try destruct sig as [seal sigs|bp sg];
      try (left; eexists; split; reflexivity);
      right; do 3 eexists; (split; [reflexivity|]); (split; [reflexivity|]); intros o; cbn [pbind]; try (eexists; reflexivity).
    match goal with |- context [match ?x with Ok _ => _ | Err _ => _ | Panic => _ end] => destruct x end; eexists; reflexivity.
  Qed.
  Lemma interp_ask q d : interp (p_ask E q) d = (d, truth E d q).
  Proof.
    destruct q as [id|id sn|id|id|id sn|id sn dig|id sn v|data sig|n id]; try destruct sig as [seal sigs|bp sg]; try reflexivity.
    cbn [p_ask truth]. rewrite interp_pbind, interp_verify. reflexivity.
  Qed.
  Lemma safe_ask q d : Forall id_ok (about q) -> safe (p_ask E q) d.
  Proof.
    intros H. destruct (shape q) as [(a & -> & _)|(n & id & k & -> & Ha & Hk)]; [exact I|].
    rewrite Ha in H. cbn [safe op_ok op_sem]. split; [now apply Forall_inv in H|]. split; [exact I|].
    destruct (Hk (tget (dtab n d) id)) as (a & ->). exact I.
  Qed.
  Lemma designated_tables id s n : stab n (fst (sinterp (designated id) s)) = stab n s.
  Proof.
    unfold designated. rewrite sinterp_pbind. cbn [sinterp prim_sem]. destruct (find_text _ _); [reflexivity|].
    rewrite sinterp_pbind. cbn [sinterp prim_sem]. rewrite sinterp_pbind. cbn [sinterp prim_sem fst]. apply stab_set_ids.
  Qed.
  Lemma ask_store q s : sask E s q = match about q with
    | id :: _ => (fst (sinterp (designated id) s), snd (sask E s q))
    | [] => (s, snd (sask E s q))
    end.
  Proof.
    unfold sask. destruct (shape q) as [(a & -> & ->)|(n & id & k & -> & -> & Hk)]; [reflexivity|].
    cbn [expand expand_op]. rewrite sinterp_pbind. rewrite sinterp_pbind.
    destruct (sinterp (designated id) s) as [s' x]. cbn [sinterp prim_sem fst].
    destruct (Hk (tr_get (stab n s') x)) as (a & ->). reflexivity.
  Qed.
  Lemma steps_rel h : Forall step_ids_ok h -> forall s d L, Rel s d L -> store_ok d ->
    exists d' L', Rel (ssteps E s h) d' L' /\ store_ok d'.
  Proof.
    induction 1 as [|st h Hst Hh IH]; intros s d L R Hd; [now exists d, L|]. cbn [ssteps fold_left].
    destruct st as [m|q]; cbn [step_ids_ok sstep] in *.
    - destruct (expand_refines (p_process E m) s d L R (safe_process E m d Hd Hst)) as (M & R' & Er).
      rewrite interp_process in R'. fold (sprocess E s m) in R'. destruct (sprocess E s m) as [s' r]. cbn [fst snd] in *.
      exact (IH _ _ _ R' (store_ok_process E m d Hd Hst)).
    - destruct (expand_refines (p_ask E q) s d L R (safe_ask q d Hst)) as (M & R' & Er).
      rewrite interp_ask in R'. fold (sask E s q) in R'. exact (IH _ _ _ R' Hd).
  Qed.
End Asking.

(** ** C124 *)
(** What was returned, in any history of messages and questions, is what the messages alone
    determine; and at the end every table holds what the messages alone put there. *)
Theorem C124_questions_disturb_nobody_partial :
  forall (E : Env) (h : list step), Forall step_ids_ok h ->
    sanswered E sled_empty h = expected E db_empty h
    /\ forall n id, id_ok id ->
         lookup (ssteps E sled_empty h) n id = tget (dtab n (run E db_empty (map CProcess (messages h)))) id.
Proof.
  intros E h Hh.
  assert (G : forall s d L, Rel s d L -> store_ok d ->
            (exists M, Rel (ssteps E s h) (run E d (map CProcess (messages h))) (L ++ M)) /\ sanswered E s h = expected E d h).
  { induction Hh as [|st h Hst Hh IH]; intros s d L R Hd; cbn [ssteps fold_left sanswered expected messages map run].
    - split; [exists []; now rewrite app_nil_r|reflexivity].
    - destruct st as [m|q]; cbn [step_ids_ok sstep] in *.
      + destruct (expand_refines (p_process E m) s d L R (safe_process E m d Hd Hst)) as (M & R' & Er).
        rewrite interp_process in R', Er. fold (sprocess E s m) in R', Er. destruct (sprocess E s m) as [s' r]. cbn [fst snd] in *.
        destruct (IH _ _ _ R' (store_ok_process E m d Hd Hst)) as ((M' & R2) & Er2). cbn [messages map run fold_left call].
        split; [exists (M ++ M'); rewrite app_assoc; exact R2|]. rewrite Er2, Er. reflexivity.
      + destruct (expand_refines (p_ask E q) s d L R (safe_ask E q d Hst)) as (M & R' & Er).
        rewrite interp_ask in R', Er. fold (sask E s q) in R', Er. cbn [fst snd] in *.
        destruct (IH _ _ _ R' Hd) as ((M' & R2) & Er2). cbn [messages].
        split; [exists (M ++ M'); rewrite app_assoc; exact R2|]. rewrite Er2, Er. reflexivity. }
  destruct (G _ _ _ Rel_empty (store_ok_empty)) as ((M & R) & Ea). split; [exact Ea|].
  intros n id Hid. exact (lookup_rel _ _ _ n id R Hid).
Qed.
Print Assumptions C124_questions_disturb_nobody_partial.
(** No question changes any of the nine tables, whatever the store. *)
Theorem C124_tables_untouched_partial :
  forall (E : Env) (s : Sled) (q : question) (n : tname), stab n (fst (sask E s q)) = stab n s.
Proof.
  intros E s q n. rewrite ask_store. destruct (about q) as [|id r]; cbn [fst]; [reflexivity|]. apply designated_tables.
Qed.
Print Assumptions C124_tables_untouched_partial.
(** The store is exactly the same when the identifier already has a number. *)
Theorem C124_known_identifiers_partial :
  forall (E : Env) (s : Sled) (q : question), (forall id, In id (about q) -> number s id <> None) -> fst (sask E s q) = s.
Proof.
  intros E s q H. rewrite ask_store. destruct (about q) as [|id r]; cbn [fst]; [reflexivity|].
  specialize (H id (or_introl eq_refl)). unfold number in H. unfold designated. rewrite sinterp_pbind. cbn [sinterp prim_sem].
  destruct (find_text _ _); [reflexivity|congruence].
Qed.
Print Assumptions C124_known_identifiers_partial.

(** The full claim: asking leaves the store as it was. *)
Definition C124_statement : Prop :=
  forall (E : Env) (h : list step) (q : question), Forall step_ids_ok h -> Forall id_ok (about q) ->
    fst (sask E (ssteps E sled_empty h) q) = ssteps E sled_empty h.
(** Every question about an identifier that was never mentioned leaves a permanent entry: asking
    about [n] unknown identifiers makes the identifier table [n] entries longer, in any history. *)
Theorem C124_asking_fills_the_store :
  forall (E : Env) (h : list step) (ids : list IdentifierPrefix),
    Forall step_ids_ok h -> Forall id_ok ids -> NoDup ids ->
    let s := ssteps E sled_empty h in
    (forall id, In id ids -> number s id = None) ->
    let s' := ssteps E s (map (fun id => Ask (QState id)) ids) in
    List.length (s_ids s') = List.length (s_ids s) + List.length ids
    /\ forall id, In id ids -> number s' id <> None.
Proof.
  intros E h ids Hh Hok Hnd s Hnew.
  destruct (steps_rel E h Hh _ _ _ Rel_empty store_ok_empty) as (d & L & R & _). fold s in R.
  clearbody s. clear Hh h. cbv zeta.
  revert s L R Hnew. induction Hok as [|id ids Hid Hids IH]; intros s L R Hnew; cbn [map ssteps fold_left List.length].
  { split; [clear; lia|intros id []]. }
  cbn [sstep]. rewrite ask_store. cbn [about fst].
  destruct (designated_spec s d L id R Hid) as (s1 & L1 & k & E1 & R1 & Hk & _ & HL). rewrite E1. cbn [fst].
  pose proof (Hnew id (or_introl eq_refl)) as Hn. rewrite (number_rel s d L id R Hid) in Hn. apply idx_none in Hn.
  destruct HL as [->|[_ ->]].
  { exfalso. apply Hn. destruct (in_dec IdentifierPrefix_eq_dec id L) as [Hi|Hi]; [exact Hi|]. apply (idx_none L 0%N) in Hi. congruence. }
  inversion Hnd as [|? ? Hni Hnd' Q]; subst.
  assert (LEN : forall i M, List.length (ids_from i M) = List.length M).
  { clear. intros i M. revert i. induction M as [|x M IH]; intros i; cbn [ids_from List.length]; [reflexivity|]. now rewrite IH. }
  destruct (IH Hnd' s1 (L ++ [id]) R1) as [Hlen Hall].
  { intros x Hx. rewrite Forall_forall in Hids. rewrite (number_rel s1 d _ x R1 (Hids x Hx)). apply idx_none.
    intros Hi. apply in_app_or in Hi. destruct Hi as [Hi|[->|[]]]; [|contradiction].
    pose proof (Hnew x (or_intror Hx)) as Hx'. rewrite (number_rel s d L x R (Hids x Hx)) in Hx'. now apply idx_none in Hx'. }
  unfold ssteps in Hlen, Hall. split.
  - rewrite Hlen, (r_ids _ _ _ R1), (r_ids _ _ _ R), !LEN, app_length. cbn [List.length]. clear; lia.
  - intros x [<-|Hx]; [|exact (Hall x Hx)].
    assert (G : forall l s d L, Rel s d L -> Forall id_ok l -> In id L ->
              number (fold_left (fun s st => fst (sstep E s st)) (map (fun i => Ask (QState i)) l) s) id <> None).
    { clear -Hid. induction l as [|y l IH]; intros s d L R Hl Hi; cbn [map fold_left].
      - rewrite (number_rel s d L id R Hid). intros Q. now apply idx_none in Q.
      - cbn [sstep]. rewrite ask_store. cbn [about fst].
        destruct (designated_spec s d L y R (Forall_inv Hl)) as (s1 & L1 & k & E1 & R1 & _ & _ & HL). rewrite E1. cbn [fst].
        apply (IH s1 d L1 R1 (Forall_inv_tail Hl)). destruct HL as [->|[_ ->]]; [exact Hi|apply in_or_app; now left]. }
    apply (G ids s1 d (L ++ [id]) R1 Hids). apply in_or_app. right. now left.
Qed.
Print Assumptions C124_asking_fills_the_store.
(** So does every event about such an identifier, also when it is refused or panics. *)
Theorem C124_refused_events_stay_too :
  forall (E : Env) (h : list step) (se : SignedEventMessage), Forall step_ids_ok h -> event_ids_ok (sem_msg se) ->
    SpecProc.is_delegated (sem_msg se) = false ->
    number (fst (sprocess E (ssteps E sled_empty h) (MEvent se))) (em_prefix (sem_msg se)) <> None.
Proof.
  intros E h se Hh Hok Hd. destruct (steps_rel E h Hh _ _ _ Rel_empty store_ok_empty) as (d & L & R & Hst). set (s := ssteps E sled_empty h) in *. clearbody s.
  pose proof (safe_process E (MEvent se) d Hst Hok) as Hs. unfold sprocess. cbn [p_process] in *.
  assert (SH : exists k, p_process_event E se = Do (OGet TKel (em_prefix (sem_msg se))) k).
  { unfold p_process_event, p_check_delegation. unfold SpecProc.is_delegated in Hd. destruct (em_data (sem_msg se)); try discriminate Hd; eexists; reflexivity. }
  destruct SH as (k & Hk). rewrite Hk in *. cbn [safe op_sem] in Hs. destruct Hs as (_ & _ & Hs).
  cbn [expand expand_op]. rewrite !sinterp_pbind. destruct Hok as [Hid _].
  destruct (designated_spec s d L _ R Hid) as (s1 & L1 & x & E1 & R1 & Hx & Ht & _). rewrite E1. cbn [sinterp prim_sem].
  replace (tr_get (stab TKel s1) x) with (tget (dtab TKel d) (em_prefix (sem_msg se))) by (rewrite (r_tab _ _ _ R1), Hx; reflexivity).
  destruct (expand_refines _ s1 d L1 R1 Hs) as (M & R2 & _).
  rewrite (number_rel _ _ _ _ R2 Hid). now rewrite (idx_app _ M _ _ _ Hx).
Qed.
Print Assumptions C124_refused_events_stay_too.

(** a case: alice's inception, a question about bob, alice's rotation, an event of dave that is
    refused, and a question about alice *)
Definition dave : IdentifierPrefix := IdBasic (key x77).
Definition d_ixn : EventMessage := mk_event dave 5 (Ixn (mkIxn (em_digest a_icp) [])).
Definition c124_steps : list step :=
  [Tell (MEvent s_icp); Ask (QState bob); Tell (MEvent s_rot); Tell (MEvent (mkSEM d_ixn [] None)); Ask (QKerl alice)].
Lemma c124_ok : Forall step_ids_ok c124_steps.
Proof.
  repeat (apply Forall_cons || apply Forall_nil); cbn [step_ids_ok message_ids_ok about];
    try (repeat (apply Forall_cons || apply Forall_nil)); try (split; [|exact I]); split; try discriminate; reflexivity.
Qed.
Example C124_example :
  Forall step_ids_ok c124_steps
  /\ (is_ok (snd (process toy db_empty (MEvent s_icp))) = true)
  /\ nth 3 (sanswered toy sled_empty c124_steps) (AYes false) = ADone (Err (ESemantic "Prefix does not match"))
  /\ map (number (ssteps toy sled_empty c124_steps)) [alice; bob; dave; IdBasic (key x78)] = [Some 0%N; Some 1%N; Some 2%N; None]
  /\ id_ok (IdBasic (key x78)) /\ event_ids_ok d_ixn /\ SpecProc.is_delegated d_ixn = false.
Proof.
  apply conj; [exact c124_ok|]. apply conj; [vm_compute; reflexivity|]. apply conj; [vm_compute; reflexivity|]. apply conj; [vm_compute; reflexivity|].
  apply conj; [split; [discriminate|reflexivity]|]. apply conj; [split; [split; [discriminate|reflexivity]|exact I]|reflexivity].
Qed.
Theorem C124_refuted : ~ C124_statement.
Proof.
  intros H. specialize (H toy [] (QState dave) (Forall_nil _)).
  assert (Hd : Forall id_ok (about (QState dave))) by (apply Forall_cons; [split; [discriminate|reflexivity]|apply Forall_nil]).
  specialize (H Hd). vm_compute in H. discriminate H.
Qed.
Print Assumptions C124_refuted.
