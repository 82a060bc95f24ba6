(** * C102: any number of threads that keep to their own identifiers. *)
From Verif Require Import Base Base64 Base64Proofs Codes NumFmt Types KeyConf SpecSig State Db Processor Prog Sled
  SpecCodec CodecProofs CodecProofs2 SledProofs Spec SpecProc SpecStore StoreProofs Crash CrashProofs Conc ConcProofs Demo
  SpecWhole Threads SpecThreads ThreadProofs Prop_Store.

(** [area i] is what thread [i] needs; no other thread has a message about an identifier in
    it; and the store has numbered what is in it.  Then, however the tree accesses of the
    threads interleave, every thread gets the answers it gets when it runs alone, and the
    store ends with the tables that the threads leave when they run one after another. *)
Theorem C102_threads :
  forall E h ths (area : nat -> IdentifierPrefix -> bool) s' answers,
    let s := srun E sled_empty h in
    Forall message_ids_ok h ->
    (forall i ms, nth_error ths i = Some ms -> enough_for (area i) h ms) ->
    (forall i id, i < List.length ths -> area i id = true -> id_ok id /\ number s id <> None) ->
    (forall i j ms m id, i <> j -> nth_error ths j = Some ms -> In m ms -> subject m = Some id -> area i id = false) ->
    runs (threads E ths) s s' answers ->
    answers = map (sresults E s) ths
    /\ forall n id, lookup s' n id = lookup (srun E s (List.concat ths)) n id.
Proof.
  intros E h ths area s' answers s Hh Hen Hnum Hsep Hr. destruct (runs_pool _ _ _ _ Hr) as (sch & Hp).
  destruct (threads_apart E h ths area sch Hh Hen Hnum Hsep) as [H1 H2]. unfold threads_process in *. fold s in H1, H2. rewrite Hp in H1, H2.
  split; [exact H1|exact H2].
Qed.
Print Assumptions C102_threads.
(** Every schedule belongs to such a run, which ends. *)
Theorem C102_runs_end :
  forall E s ths sch, exists s' answers, threads_process E sch s ths = (s', answers) /\ runs (threads E ths) s s' answers.
Proof.
  intros E s ths sch. exists (fst (threads_process E sch s ths)), (snd (threads_process E sch s ths)).
  split; [destruct (threads_process E sch s ths); reflexivity|]. apply pool_runs.
Qed.
Print Assumptions C102_runs_end.
(** The order in which the threads would run one after another does not matter either. *)
Theorem C102_any_order :
  forall E h ths (area : nat -> IdentifierPrefix -> bool) s1 s2 l1 l2,
    let s := srun E sled_empty h in
    Forall message_ids_ok h ->
    (forall i ms, nth_error ths i = Some ms -> enough_for (area i) h ms) ->
    (forall i id, i < List.length ths -> area i id = true -> id_ok id /\ number s id <> None) ->
    (forall i j ms m id, i <> j -> nth_error ths j = Some ms -> In m ms -> subject m = Some id -> area i id = false) ->
    runs (threads E ths) s s1 l1 -> runs (threads E ths) s s2 l2 ->
    l1 = l2 /\ forall n id, lookup s1 n id = lookup s2 n id.
Proof.
  intros E h ths area s1 s2 l1 l2 s Hh Hen Hnum Hsep H1 H2.
  destruct (C102_threads E h ths area s1 l1 Hh Hen Hnum Hsep H1) as [A1 B1].
  destruct (C102_threads E h ths area s2 l2 Hh Hen Hnum Hsep H2) as [A2 B2].
  split; [congruence|]. intros n id. now rewrite B1, B2.
Qed.
Print Assumptions C102_any_order.

(** A case: one thread offers bob's delegated rotation (which reads the log of his
    delegator alice) and a receipt, another offers carol's event twice. *)
Definition t_history : list Message := [MEvent s_icp; MEvent s_rot; MEvent s_ixn; MEvent s_dip; MEvent s_ixn2; MEvent s_c_icp].
Definition t_threads : list (list Message) :=
  [[MEvent s_drt; MTransferableRct b_rct]; [MEvent s_c_ixn; MEvent s_c_ixn]; []].
Definition is_id (a b : IdentifierPrefix) : bool := if IdentifierPrefix_eq_dec a b then true else false.
Definition t_area (i : nat) (id : IdentifierPrefix) : bool :=
  match i with 0 => is_id id alice || is_id id bob | 1 => is_id id carol | _ => false end.
Lemma is_id_iff a b : is_id a b = true <-> a = b.
Proof. unfold is_id. destruct (IdentifierPrefix_eq_dec a b); split; congruence. Qed.
Definition named (m : Message) : list IdentifierPrefix :=
  match m with
  | MEvent e => em_prefix (sem_msg e) :: match named_delegator (sem_msg e) with Some d => [d] | None => [] end
  | MNontransferableRct r => [rct_prefix (nr_body r)]
  | MTransferableRct r => [rct_prefix (tr_body r); es_prefix (tr_seal r)]
  | MKeyStateNotice r => sr_prefix r :: match sr_sig r with Transferable seal _ => [es_prefix seal] | _ => [] end
  | MQuery _ => []
  end.
Definition enough_forb (area : IdentifierPrefix -> bool) (h ms : list Message) : bool :=
  forallb (fun m => forallb area (named m)) ms
  && forallb (fun m => match m with
                       | MEvent se => match named_delegator (sem_msg se) with
                                      | Some dl => negb (area (em_prefix (sem_msg se))) || area dl
                                      | None => true
                                      end
                       | _ => true
                       end) (h ++ ms).
Lemma enough_forb_ok area h ms : enough_forb area h ms = true -> enough_for area h ms.
Proof.
  intros H. apply andb_true_iff in H. destruct H as [H1 H2]. rewrite forallb_forall in H1, H2. split.
  - intros m id Hm Hn. specialize (H1 m Hm). rewrite forallb_forall in H1. apply H1.
    destruct m as [e|r|r|r|q]; cbn [names named] in *; try contradiction.
    + destruct Hn as [->|Hn]; [now left|]. rewrite Hn. right. now left.
    + now left.
    + destruct Hn as [->| ->]; [now left|right; now left].
    + destruct Hn as [->|Hn]; [now left|]. right. destruct (sr_sig r); [subst; now left|contradiction].
  - intros se dl Hin Ha Hd. specialize (H2 _ Hin). cbn in H2. rewrite Hd, Ha in H2. exact H2.
Qed.
Example C102_example :
  Forall message_ids_ok t_history
  /\ (forall i ms, nth_error t_threads i = Some ms -> enough_for (t_area i) t_history ms)
  /\ (forall i id, i < List.length t_threads -> t_area i id = true -> id_ok id /\ number (srun toy sled_empty t_history) id <> None)
  /\ (forall i j ms m id, i <> j -> nth_error t_threads j = Some ms -> In m ms -> subject m = Some id -> t_area i id = false)
  /\ map (map (fun r => match r with Ok _ => true | _ => false end)) (map (sresults toy (srun toy sled_empty t_history)) t_threads)
     = [[true; true]; [true; false]; []].
Proof.
  apply conj.
  { repeat (apply Forall_cons || apply Forall_nil); cbn [message_ids_ok]; (split; [split; [discriminate|reflexivity]|]); try exact I.
    split; [discriminate|reflexivity]. }
  apply conj.
  { intros i ms H. apply enough_forb_ok. destruct i as [|[|[|i]]]; cbn in H; [injection H as <-..|destruct i; discriminate H]; vm_compute; reflexivity. }
  apply conj.
  { intros i id Hi Ha. destruct i as [|[|i]]; cbn [t_area] in Ha; [|apply is_id_iff in Ha; subst id|discriminate Ha].
    - apply orb_true_iff in Ha. destruct Ha as [Ha|Ha]; apply is_id_iff in Ha; subst id; (apply conj; [split; [discriminate|reflexivity]|vm_compute; discriminate]).
    - apply conj; [split; [discriminate|reflexivity]|vm_compute; discriminate]. }
  apply conj.
  { intros i j ms m id Hij Hj Hm Hs.
    destruct j as [|[|[|j]]]; cbn in Hj; [injection Hj as <-..|destruct j; discriminate Hj]; [| |destruct Hm].
    - destruct i as [|[|i]]; [congruence| |reflexivity]. cbn [t_area].
      destruct Hm as [<-|[<-|[]]]; cbn in Hs; injection Hs as <-; vm_compute; reflexivity.
    - destruct i as [|[|i]]; [|congruence|reflexivity]. cbn [t_area].
      destruct Hm as [<-|[<-|[]]]; cbn in Hs; injection Hs as <-; vm_compute; reflexivity. }
  vm_compute. reflexivity.
Qed.
