(** * Prop_Converge: agreement between nodes (C81, C82).

    See [Prop_State.v] for [run E db_empty cs] and [id_default]; [SpecProc.v] for the
    vocabulary; [accepts_each E d msgs] (ProcProofs2): processing [msgs] one after the other on
    [d], each is accepted. *)
From Verif Require Import Base Base64 Codes NumFmt Types KeyConf SpecSig State Db Processor Spec SpecProc
  StateProofs LogProofs LogTheorems LogTheorems2 SigProofs ProcProofs ProcProofs2 ConvergeProofs Prop_Proc Prop_State Demo.

(** ** C81: order, repetition and interleaving do not matter *)
(** Whatever a node is offered, as long as the events offered about the identifier are events of
    [msgs] (with whatever signatures), its log is a beginning of [msgs]; once the messages offered
    include [msgs] in this order, with anything before, between and after, its log is [msgs]. *)
Theorem C81_offered_in_any_order :
  forall E cs0 id msgs cs,
    let d := run E db_empty cs0 in
    id <> id_default -> log d id = [] -> msgs <> [] ->
    Forall (fun se => em_prefix (sem_msg se) = id) msgs ->
    (forall se dl, In se msgs -> named_delegator (sem_msg se) = Some dl -> dl <> id_default) ->
    accepts_each E d msgs ->
    (forall se, In (CProcess (MEvent se)) cs -> em_prefix (sem_msg se) = id -> In (sem_msg se) (log_of msgs)) ->
    (exists k, log_of (log (run E d cs) id) = firstn k (log_of msgs))
    /\ (subsequence (submit msgs) cs ->
        log_of (log (run E d cs) id) = log_of msgs
        /\ compute_state E (run E d cs) id = compute_state E (run E d (submit msgs)) id).
Proof.
  cbv zeta. intros E cs0 id msgs cs Hid H0 Hne Hpre Hdel Hacc Ho. pose proof (Inv_reachable E cs0) as HI. split.
  - now apply c81_prefix.
  - intros Hs. now apply c81_whole.
Qed.
Print Assumptions C81_offered_in_any_order.
(** In particular a node that is offered all the events of another node's log, in any order and
    in as many rounds as there are events, ends with that log and that key state. *)
Lemma subsequence_in {A} (x : A) l : In x l -> subsequence [x] l.
Proof.
  induction l as [|y l IH]; [intros []|]. intros [->|H]; [|apply sub_skip; auto]. apply sub_take. clear. induction l; constructor; auto.
Qed.
Lemma subsequence_app {A} (a b a' b' : list A) : subsequence a a' -> subsequence b b' -> subsequence (a ++ b) (a' ++ b').
Proof. induction 1; cbn; intros; [assumption|apply sub_skip; auto|apply sub_take; auto]. Qed.
Lemma subsequence_nil {A} (l : list A) : subsequence [] l.
Proof. induction l; constructor; auto. Qed.
Lemma rounds_cover m : forall rs, List.length rs = List.length m -> Forall (fun r => incl (submit m) r) rs -> subsequence (submit m) (List.concat rs).
Proof.
  induction m as [|a m IH]; intros [|r rs] Hlen H; try discriminate Hlen; [constructor|].
  inversion_clear H as [|? ? Hr Hrs]. cbn [List.concat]. change (submit (a :: m)) with ([CProcess (MEvent a)] ++ submit m).
  apply subsequence_app; [apply subsequence_in, Hr; now left|]. apply IH; [cbn in Hlen; lia|].
  eapply Forall_impl; [|exact Hrs]. intros r' Hr' x Hx. apply Hr'. now right.
Qed.
Theorem C81_catch_up_undelegated :
  forall E cs id l cs0 rounds,
    (forall m x, e_ser_event E m <> Err x) -> quiet E db_empty cs = true ->
    id <> id_default -> get_kel (run E db_empty cs) id = Some l -> l <> [] ->
    (forall e, In e l -> is_delegated (sem_msg e) = false) -> log (run E db_empty cs0) id = [] ->
    List.length rounds = List.length l ->
    Forall (fun r => incl (submit l) r /\ forall se, In (CProcess (MEvent se)) r -> em_prefix (sem_msg se) = id -> In (sem_msg se) (log_of l)) rounds ->
    log_of (log (run E db_empty (cs0 ++ List.concat rounds)) id) = log_of l
    /\ compute_state E (run E db_empty (cs0 ++ List.concat rounds)) id = compute_state E (run E db_empty cs) id.
Proof.
  intros E cs id l cs0 rounds Hser Hq Hid Hl Hne Hnd H0 Hlen Hr.
  destruct (c25_plain E cs id l (run E db_empty cs0) Hser Hq Hid Hl Hne Hnd H0) as (Hacc & _ & Hst).
  destruct (reach_good E _ _ _ Hid Hl) as (s & [Hpre _] & _).
  destruct (C81_offered_in_any_order E cs0 id l (List.concat rounds) Hid H0 Hne Hpre) as [_ G].
  - intros se dl Hin Hn. specialize (Hnd _ Hin). unfold is_delegated, named_delegator in *. destruct (em_data (sem_msg se)); discriminate.
  - exact Hacc.
  - intros se Hin Hp. apply in_concat in Hin as (r & Hin & Hin'). rewrite Forall_forall in Hr. destruct (Hr r Hin) as [_ Q]. now apply (Q se).
  - rewrite run_app. rewrite <- Hst. apply G. clear -Hlen Hr. revert Hr.
    intros Hr. apply rounds_cover; [exact Hlen|]. eapply Forall_impl; [|exact Hr]. now intros r [H _].
Qed.
Print Assumptions C81_catch_up_undelegated.
(** The same for delegated identifiers: the node has to know the delegator's log, and the events
    have to be offered with the source seals that a log does not keep ([msgs] are the events and
    signatures of the log with such seals). The delegator's log may grow meanwhile. *)
Theorem C81_catch_up :
  forall E cs id l cs0,
    (forall m x, e_ser_event E m <> Err x) -> quiet E db_empty cs = true ->
    id <> id_default -> get_kel (run E db_empty cs) id = Some l -> l <> [] -> log (run E db_empty cs0) id = [] ->
    (forall e dl, In e l -> named_delegator (sem_msg e) = Some dl ->
        dl <> id_default /\ log (run E db_empty cs0) dl = log (run E db_empty cs) dl) ->
    exists msgs, map sem_msg msgs = map sem_msg l /\ map sem_sigs msgs = map sem_sigs l
      /\ forall rounds, List.length rounds = List.length l ->
         Forall (fun r => incl (submit msgs) r /\ forall se, In (CProcess (MEvent se)) r -> em_prefix (sem_msg se) = id -> In (sem_msg se) (log_of l)) rounds ->
         log_of (log (run E db_empty (cs0 ++ List.concat rounds)) id) = log_of l
         /\ compute_state E (run E db_empty (cs0 ++ List.concat rounds)) id = compute_state E (run E db_empty cs) id.
Proof.
  intros E cs id l cs0 Hser Hq Hid Hl Hne H0 Hdel.
  destruct (C25_delegated_with_seals E cs id l (run E db_empty cs0) Hser Hq Hid Hl Hne) as (msgs & Hm & Hs & Hacc & _ & Hst); [|exact H0|].
  { intros e0 dl He. apply Hdel. now apply nth_error_In in He. }
  exists msgs. split; [exact Hm|]. split; [exact Hs|]. intros rounds Hlen Hr.
  destruct (reach_good E _ _ _ Hid Hl) as (s & [Hpre _] & _).
  assert (Hback : forall se, In se msgs -> exists e, In e l /\ sem_msg e = sem_msg se).
  { intros se Hin. apply (in_map sem_msg) in Hin. rewrite Hm in Hin. apply in_map_iff in Hin as (e & He & Hin). eauto. }
  destruct (C81_offered_in_any_order E cs0 id msgs (List.concat rounds) Hid H0) as [_ G].
  - intros ->. destruct l; [now apply Hne|discriminate].
  - apply Forall_forall. intros se Hin. destruct (Hback se Hin) as (e & He & <-). rewrite Forall_forall in Hpre. now apply Hpre.
  - intros se dl Hin Hn. destruct (Hback se Hin) as (e & He & Q). rewrite <- Q in Hn. now apply (Hdel e dl).
  - exact Hacc.
  - intros se Hin Hp. apply in_concat in Hin as (r & Hin & Hin'). rewrite Forall_forall in Hr. destruct (Hr r Hin) as [_ Q].
    unfold log_of. rewrite Hm. now apply (Q se).
  - rewrite run_app. rewrite <- Hst. unfold log_of at 2. rewrite <- Hm. apply G. apply rounds_cover.
    + rewrite Hlen. apply (f_equal (@List.length _)) in Hm. rewrite !map_length in Hm. congruence.
    + eapply Forall_impl; [|exact Hr]. now intros r [H _].
Qed.
Print Assumptions C81_catch_up.
(** bob, delegated by alice: a node that knows alice's log and is offered his events backwards *)
Example C81_delegated_example :
  exists l, get_kel demo bob = Some l /\ List.length l = 2 /\ log (run toy db_empty alice_calls) bob = []
    /\ log (run toy db_empty alice_calls) alice = log demo alice
    /\ log_of (log (run toy db_empty (alice_calls ++ submit [s_drt; s_dip])) bob) = firstn 1 (log_of l)
    /\ log_of (log (run toy db_empty (alice_calls ++ submit [s_drt; s_dip] ++ submit [s_drt; s_dip])) bob) = log_of l.
Proof. ex_vm. Qed.
(** two rounds of alice's events backwards, with bob's in between, do not suffice; the forward
    order with repetitions does *)
Definition shuffled : list Call :=
  submit [s_ixn2; s_ixn; s_dip; s_icp; s_ixn; s_rot; s_icp; s_ixn; s_rot; s_dip; s_ixn2; s_icp].
Lemma shuffled_covers : subsequence (submit [s_icp; s_rot; s_ixn; s_ixn2]) shuffled.
Proof. unfold shuffled. cbn [submit map]. do 3 apply sub_skip. apply sub_take. apply sub_skip. apply sub_take. apply sub_skip. apply sub_take. do 2 apply sub_skip. apply sub_take. apply subsequence_nil. Qed.
Example C81_example :
  accepts_each toy (run toy db_empty []) [s_icp; s_rot; s_ixn; s_ixn2]
  /\ subsequence (submit [s_icp; s_rot; s_ixn; s_ixn2]) shuffled
  /\ log_of (log (run toy db_empty shuffled) alice) = [a_icp; a_rot; a_ixn; a_ixn2]
  /\ log_of (log (run toy db_empty (submit (rev [s_icp; s_rot; s_ixn; s_ixn2]))) alice) = [a_icp].
Proof.
  apply conj.
  { intros pre se post H.
    destruct pre as [|p0 [|p1 [|p2 [|p3 pre]]]]; injection H as H; subst; [| | | |destruct pre; discriminate].
    all: eexists; eexists; vm_compute; reflexivity. }
  apply conj; [exact shuffled_covers|]. apply conj; vm_compute; reflexivity.
Qed.

(** ** C82: nodes disagree only if the controller signed two events *)
(** [e], as the event after the log [p], is signed by the keys that it puts (or leaves) in force,
    and if it is a rotation its keys are those that the last establishment event of [p] committed
    to. *)
Definition controller_signed (E : Env) (p : list EventMessage) (e : SignedEventMessage) : Prop :=
  (exists e0 kc ser, last_establishment (p ++ [sem_msg e]) = Some e0 /\ est_keys e0 = Some kc
     /\ e_ser_event E (sem_msg e) = Ok ser /\ enough_signatures (kc_threshold kc) (sem_sigs e) = Ok true
     /\ (rational_threshold (kc_threshold kc) -> satisfies E kc ser (sem_sigs e)))
  /\ (is_rotation (sem_msg e) = true ->
      exists e0 kc0 n kc, last_establishment p = Some e0 /\ est_keys e0 = Some kc0 /\ kc_next kc0 = Some n /\ est_keys (sem_msg e) = Some kc
      /\ sap_digest n = xor_all (e_digest E (sap_code n) (threshold_str (kc_threshold kc)))
                                (map (fun key => e_digest E (sap_code n) (bp_str key)) (kc_keys kc))
      /\ computable (sap_code n)).
Lemma first_difference {A} (dec : forall a b : A, {a = b} + {a <> b}) (l1 : list A) : forall l2,
  (exists x, l2 = l1 ++ x) \/ (exists x, l1 = l2 ++ x)
  \/ exists p a b r1 r2, l1 = p ++ a :: r1 /\ l2 = p ++ b :: r2 /\ a <> b.
Proof.
  induction l1 as [|a l1 IH]; intros l2; [left; now exists l2|]. destruct l2 as [|b l2]; [right; left; now exists (a :: l1)|].
  destruct (dec a b) as [->|Hab]; [|right; right; now exists [], a, b, l1, l2].
  destruct (IH l2) as [(x & ->)|[(x & ->)|(p & a' & b' & r1 & r2 & -> & -> & H)]]; [left; now exists x|right; left; now exists x|].
  right; right. exists (b :: p), a', b', r1, r2. auto.
Qed.
Theorem C82_disagreement_is_duplicity :
  forall E cs1 cs2 id l1 l2,
    (forall m x, e_ser_event E m <> Err x) -> quiet E db_empty cs1 = true -> quiet E db_empty cs2 = true ->
    id <> id_default -> get_kel (run E db_empty cs1) id = Some l1 -> get_kel (run E db_empty cs2) id = Some l2 ->
    (exists x, log_of l2 = log_of l1 ++ x) \/ (exists x, log_of l1 = log_of l2 ++ x)
    \/ exists p e1 e2 r1 r2,
         log_of l1 = p ++ sem_msg e1 :: r1 /\ log_of l2 = p ++ sem_msg e2 :: r2 /\ In e1 l1 /\ In e2 l2
         /\ sem_msg e1 <> sem_msg e2 /\ em_sn (sem_msg e1) = em_sn (sem_msg e2)
         /\ prev_digest (sem_msg e1) = prev_digest (sem_msg e2)
         /\ controller_signed E p e1 /\ controller_signed E p e2.
Proof.
  intros E cs1 cs2 id l1 l2 Hser Hq1 Hq2 Hid H1 H2.
  destruct (first_difference EM_eq_dec (log_of l1) (log_of l2)) as [H|[H|(p & m1 & m2 & r1 & r2 & P1 & P2 & Hne)]]; [auto|auto|].
  right; right.
  assert (G : forall cs l m r, quiet E db_empty cs = true -> get_kel (run E db_empty cs) id = Some l -> log_of l = p ++ m :: r ->
    exists e, sem_msg e = m /\ nth_error l (List.length p) = Some e /\ controller_signed E p e /\ em_sn (sem_msg e) = N.of_nat (List.length p)
      /\ prev_digest (sem_msg e) = option_map em_digest (nth_error (rev p) 0)).
  { clear -Hser Hid. intros cs l m r Hq Hl Hp.
    assert (Hn : nth_error (log_of l) (List.length p) = Some m) by (rewrite Hp, nth_error_app2, Nat.sub_diag by lia; reflexivity).
    unfold log_of in Hn. rewrite nth_error_map in Hn. destruct (nth_error l (List.length p)) as [e|] eqn:He; [|discriminate]. injection Hn as Hn.
    assert (F : log_of (firstn (List.length p) l) = p).
    { unfold log_of. rewrite <- firstn_map. change (map sem_msg l) with (log_of l). rewrite Hp, firstn_app, Nat.sub_diag, firstn_all. apply app_nil_r. }
    exists e. split; [exact Hn|]. split; [reflexivity|]. split; [|split].
    - split.
      + destruct (C21_partial E cs id l _ e Hser Hq Hid Hl He) as (e0 & kc & ser & A & B & C & D & Q). exists e0, kc, ser.
        rewrite (firstn_S_nth _ _ _ He), log_of_app, F in A. auto.
      + intros Hr. destruct (C04_rotation_matches_commitment E cs id l _ e Hid Hl He Hr) as (e0 & kc0 & n & kc & A & Q). rewrite F in A. exists e0, kc0, n, kc. auto.
    - exact (C01_log_sequence_numbers E cs id l _ e Hid Hl He).
    - destruct (rev p) as [|q rp] eqn:Hrev.
      + assert (p = []) by (rewrite <- (rev_involutive p), Hrev; reflexivity). subst p. cbn [nth_error option_map List.length] in *.
        destruct (c03_inception E cs id l 0 e Hid Hl He) as [Hi _]. assert (Hinc : is_inception (sem_msg e) = true) by now apply Hi.
        unfold is_inception in Hinc. unfold prev_digest. destruct (em_data (sem_msg e)); try discriminate; reflexivity.
      + assert (Hp' : p = rev rp ++ [q]) by (rewrite <- (rev_involutive p), Hrev; reflexivity).
        assert (Hlen : List.length p = S (List.length (rev rp))) by (rewrite Hp', app_length; cbn; lia). rewrite Hlen in He.
        assert (Hq' : nth_error (log_of l) (List.length (rev rp)) = Some q).
        { rewrite Hp, Hp', <- app_assoc, nth_error_app2, Nat.sub_diag by lia. reflexivity. }
        unfold log_of in Hq'. rewrite nth_error_map in Hq'. destruct (nth_error l (List.length (rev rp))) as [eq|] eqn:Heq; [|discriminate]. injection Hq' as Hq'.
        rewrite (C02_digest_chain E cs id l _ eq e Hid Hl Heq He). cbn. now rewrite Hq'. }
  destruct (G cs1 l1 m1 r1 Hq1 H1 P1) as (e1 & <- & N1 & S1 & Q1 & D1). destruct (G cs2 l2 m2 r2 Hq2 H2 P2) as (e2 & <- & N2 & S2 & Q2 & D2).
  exists p, e1, e2, r1, r2. split; [exact P1|]. split; [exact P2|]. split; [eapply nth_error_In; eauto|]. split; [eapply nth_error_In; eauto|].
  split; [exact Hne|]. split; [congruence|]. split; [congruence|]. now split.
Qed.
Print Assumptions C82_disagreement_is_duplicity.
(** Two nodes with conflicting logs of alice. *)
Definition s_fork : SignedEventMessage := signed (mk_event alice 2 (Ixn (mkIxn (em_digest a_rot) []))) [key x03; key x04] None.
Example C82_example :
  let c1 := submit [s_icp; s_rot; s_ixn] in let c2 := submit [s_icp; s_rot; s_fork] in
  quiet toy db_empty c1 = true /\ quiet toy db_empty c2 = true
  /\ log_of (log (run toy db_empty c1) alice) = [a_icp; a_rot; a_ixn]
  /\ log_of (log (run toy db_empty c2) alice) = [a_icp; a_rot; sem_msg s_fork]
  /\ sem_msg s_fork <> a_ixn.
Proof. cbv zeta. do 4 (apply conj; [vm_compute; reflexivity|]). vm_compute. discriminate. Qed.
