(** * Prop_Delegate: hierarchies of delegated identifiers (C131).

    [SpecDelegate.v] is the user's program: parties incept identifiers of their own or under
    the authority of another party, rotate and anchor data; a delegator anchors the events of
    its delegates in an interaction event of its own.  Every identifier is held by a group of
    keys with a signing threshold, plain or weighted.  [live] is [Ok] exactly when every
    event of every party was accepted. *)
From Coq Require Import QArith.
From Verif Require Import Base Base64 Codes NumFmt Types KeyConf SpecSig State Db Processor Spec SpecProc LogProofs ProcProofs ProcProofs2
  Cesr Message Keri Builder SpecKeri SpecDelegate KeriProofs KeriProofs2 DelegateProofs Demo Prop_Keri.
Local Open Scope nat_scope.

(** ** C131: delegation works, at any depth and for life *)
Theorem C131_hierarchies_live :
  forall (E : Env) (K : KEnv) (cs : list Call) (steps : list Step),
    events_serialize E K -> (forall msg, e_digest E Blake3_256 msg <> []) ->
    let w0 := mkWorld (run E db_empty cs) [] in
    steps_ok E K w0 steps ->
    exists w, live E K w0 steps = Ok w
      /\ (forall i p, nth_error (w_parties w) i = Some p ->
            exists s, compute_state E (w_db w) (pa_id p) = Ok (Some s)
              /\ kc_keys (st_current s) = g_keys (pa_cur p) /\ kc_threshold (st_current s) = g_threshold (pa_cur p)
              /\ kc_next (st_current s) = Some (nxt_commitment E (g_threshold (pa_next p)) (g_keys (pa_next p)) Blake3_256)
              /\ st_delegator s = boss_id w (pa_boss p)
              /\ (st_delegator s = None <-> pa_boss p = None)).
Proof.
  cbv zeta. intros E K cs steps HS HD Hok.
  destruct (live_fine E K HS HD steps _ (WOK_start E K _) Hok) as (w & Hl & Hw). exists w. split; [exact Hl|].
  intros i p Hi. destruct (proj1 Hw i p Hi) as [Hp _]. destruct (PartyOk_state E K _ _ _ Hp) as (s & Hs & _ & Hd & Hc).
  exists s. split; [exact Hs|]. rewrite Hc. split; [reflexivity|]. split; [reflexivity|]. split; [reflexivity|].
  split; [exact Hd|]. rewrite Hd. pose proof (boss_known E K w i p Hw Hi). tauto.
Qed.
Print Assumptions C131_hierarchies_live.
(** And every step puts its events, and nothing else, into the logs of the parties: one for the
    acting party, one (the anchor) for its delegator, none for the others. *)
Theorem C131_every_event_is_logged :
  forall (E : Env) (K : KEnv) (cs : list Call) (steps : list Step) (w : World) (x : Step),
    events_serialize E K -> (forall msg, e_digest E Blake3_256 msg <> []) ->
    let w0 := mkWorld (run E db_empty cs) [] in
    steps_ok E K w0 steps -> live E K w0 steps = Ok w -> step_ok E K w x ->
    exists w', step E K w x = Ok w' /\ newcomer w w' x
      /\ forall k p, nth_error (w_parties w) k = Some p -> grew (w_db w) (w_db w') (pa_id p) (made w x k).
Proof.
  cbv zeta. intros E K cs steps w x HS HD Hok Hl Hx.
  destruct (live_fine E K HS HD steps _ (WOK_start E K _) Hok) as (w1 & Hl1 & Hw).
  assert (w1 = w) by congruence. subst w1.
  destruct (step_fine E K HS HD w x Hw Hx) as (w' & H1 & _ & H2 & H3). eauto.
Qed.
Print Assumptions C131_every_event_is_logged.
(** Enough signatures are not only enough but needed: a careful step goes through exactly when the
    acting party and, for a delegated one, its delegator exist and both agree. *)
Theorem C131_quorums_decide :
  forall (E : Env) (K : KEnv) (cs : list Call) (steps : list Step) (w : World) (x : Step),
    events_serialize E K -> (forall msg, e_digest E Blake3_256 msg <> []) ->
    let w0 := mkWorld (run E db_empty cs) [] in
    steps_ok E K w0 steps -> live E K w0 steps = Ok w -> careful E K w x ->
    ((exists w', step E K w x = Ok w') <-> agreed w x).
Proof.
  cbv zeta. intros E K cs steps w x HS HD Hok Hl Hx.
  destruct (live_fine E K HS HD steps _ (WOK_start E K _) Hok) as (w1 & Hl1 & Hw).
  assert (w1 = w) by congruence. subst w1. split.
  - intros [w' H]. exact (step_needs E K HS HD w x w' Hw Hx H).
  - intros Ha. destruct (step_fine E K HS HD w x Hw (conj Hx Ha)) as (w' & H & _). eauto.
Qed.
Print Assumptions C131_quorums_decide.
(** The same hierarchy is refused without the anchor. *)
Theorem C131_needs_the_anchor :
  forall (E : Env) (K : KEnv) (d : Db) (g : Group) (who : list nat) (m : EventMessage),
    SpecProc.is_delegated m = true -> forall d', deliver E d (sign_by E K g who m) <> Ok d'.
Proof.
  intros E K d g who m Hm d' H. unfold deliver, sign_by in H.
  destruct (e_ser_event E m) as [ser| |]; [|discriminate H..]. cbn [obind] in H.
  destruct (signatures K g who ser) as [sigs| |]; [|discriminate H..]. cbn [obind process] in H.
  unfold process_event in H. cbn [sem_msg] in H.
  assert (Hc : forall u, check_delegation E d (mkSEM m sigs None) <> Ok u).
  { intros u. unfold check_delegation. cbn [sem_msg sem_seal]. unfold SpecProc.is_delegated in Hm.
    destruct (em_data m); try discriminate Hm; [discriminate|].
    destruct (compute_state E d (em_prefix m)) as [[s|]| |]; cbn [obind ok_or]; try discriminate.
    destruct (st_delegator s); cbn [obind ok_or]; discriminate. }
  destruct (check_delegation E d _) as [u| |] eqn:Hz; [now destruct (Hc u)|discriminate H..].
Qed.
Print Assumptions C131_needs_the_anchor.

(** Three levels: a head held by three people of whom two must sign, a branch under it whose boss
    counts for all and whose two clerks count half each, a shop under the branch with one key; the shop rotates twice
    (the branch anchoring), the branch once (the head anchoring), the head twice on its own, the second time
    to a single key.  Another identifier incepts meanwhile. *)
Definition one (a : byte) : Group := mkGroup [pair_of a] (Simple 1).
Definition two_of_three (a b c : byte) : Group := mkGroup [pair_of a; pair_of b; pair_of c] (Simple 2).
Definition boss_or_clerks (a b c : byte) : Group :=
  mkGroup [pair_of a; pair_of b; pair_of c] (Weighted (WSingle [FRat 1 1; FRat 1 2; FRat 1 2])).
Definition head1 := two_of_three xa1 xa2 xa3. Definition head2 := two_of_three xa4 xa5 xa6.
Definition head3 := one xa7. Definition head4 := two_of_three xa8 xa9 xaa.
Definition branch1 := boss_or_clerks xb1 xb2 xb3. Definition branch2 := boss_or_clerks xb4 xb5 xb6.
Definition branch3 := two_of_three xb7 xb8 xb9.
Definition tree : list Step :=
  [Incept head1 head2 [2; 0] None [] [] [] [];
   Incept branch1 branch2 [1; 2] (Some 0) [0; 1] [] [] [CProcess (MEvent w_icp)];
   Rotate 0 head3 [0; 1; 2] [] [] [] [] [];
   Incept (one xc1) (one xc2) [0] (Some 1) [0] [] [] [];
   Rotate 2 (one xc3) [0] [2; 1] [] [] [] [CEscrow];
   Anchor 2 [0] [SealDigest (mkSAP Blake3_256 (repeat x01 32))] [] [];
   Others (CProcess (MEvent w_icp));
   Rotate 1 branch3 [0; 1] [1; 2] [SealDigest (mkSAP Blake3_256 (repeat x02 32))] [] [] [];
   Rotate 2 (one xc4) [0] [0] [] [] [] [];
   Rotate 0 head4 [0] [] [] [] [] []].
Definition the_world : World := of_ok (mkWorld db_empty []) (live etoy ktoy (mkWorld db_empty []) tree).
Definition foreign_b (id : IdentifierPrefix) (c : Call) : bool :=
  match c with CProcess (MEvent e) => if IdentifierPrefix_eq_dec (em_prefix (sem_msg e)) id then false else true | _ => true end.
Fixpoint distinct (l : list nat) : bool :=
  match l with [] => true | x :: r => negb (existsb (Nat.eqb x) r) && distinct r end.
Definition quorum_b (g : Group) (who : list nat) : bool :=
  distinct who && forallb (fun i => Nat.ltb i (List.length (g_pairs g))) who
  && match g_threshold g with
     | Simple n => (n <=? N.of_nat (List.length who))%N
     | Weighted w => forallb (fun sc => Qle_bool 1 (fold_right Qplus 0%Q (map (key_weight (fst sc) (snd sc)) who))) (clauses_of w)
     end
  && match g_threshold g with
     | Weighted (WSingle c) => forallb (fun i => Nat.ltb i (List.length c)) who
     | _ => true
     end.
Definition boss_b (w : World) (boss : option nat) (bwho : list nat) : bool :=
  match boss with
  | None => true
  | Some j => match nth_error (w_parties w) j with Some p => quorum_b (pa_cur p) bwho | None => false end
  end.
Definition step_ok_b (w : World) (s : Step) : bool :=
  let ours c := forallb (fun p => foreign_b (pa_id p) c) (w_parties w) in
  match s with
  | Incept cur next who boss bwho pk npk between =>
      quorum_b cur who && boss_b w boss bwho
      && match first_event etoy ktoy w cur next boss pk npk with
         | Ok m => match olist (get_kel (w_db w) (em_prefix m)) with [] => forallb (foreign_b (em_prefix m)) between | _ => false end
         | _ => true end
      && forallb ours between
  | Rotate i _ who bwho _ _ _ between =>
      match nth_error (w_parties w) i with Some p => quorum_b (pa_next p) who && boss_b w (pa_boss p) bwho | None => false end
      && forallb ours between
  | Anchor i who _ _ _ => match nth_error (w_parties w) i with Some p => quorum_b (pa_cur p) who | None => false end
  | Others c => ours c
  end.
Fixpoint steps_ok_b (w : World) (l : list Step) : bool :=
  match l with
  | [] => true
  | s :: r => step_ok_b w s && match step etoy ktoy w s with Ok w' => steps_ok_b w' r | _ => true end
  end.
Definition sound_keys (s : Step) : Prop :=
  match s with
  | Incept cur next _ _ _ _ _ _ => sound_group etoy ktoy cur /\ sound_group etoy ktoy next
  | Rotate _ fresh _ _ _ _ _ _ => sound_group etoy ktoy fresh
  | _ => True
  end.
Lemma distinct_ok l : distinct l = true -> NoDup l.
Proof.
  induction l as [|x l IH]; intros H; [constructor|]. cbn [distinct] in H. apply andb_prop in H. destruct H as [H1 H2].
  constructor; [|now apply IH]. intros Hin. apply Bool.negb_true_iff in H1.
  assert (existsb (Nat.eqb x) l = true) by (apply existsb_exists; exists x; split; [exact Hin|apply Nat.eqb_refl]). congruence.
Qed.
Lemma below_ok n l : forallb (fun i => Nat.ltb i n) l = true -> Forall (fun i => i < n) l.
Proof. intros H. apply Forall_forall. intros i Hi. rewrite forallb_forall in H. apply Nat.ltb_lt. now apply H. Qed.
Lemma quorum_b_ok g who : quorum_b g who = true -> quorum g who.
Proof.
  unfold quorum_b, quorum. intros H. apply andb_prop in H. destruct H as [H H4]. apply andb_prop in H. destruct H as [H H3].
  apply andb_prop in H. destruct H as [H1 H2]. split; [now apply distinct_ok|]. split; [now apply below_ok|]. split.
  - destruct (g_threshold g) as [n|w]; [now apply N.leb_le|]. apply Forall_forall. intros sc Hsc.
    rewrite forallb_forall in H3. apply Qle_bool_iff. now apply H3.
  - destruct (g_threshold g) as [n|[c|cs]]; try exact I. now apply below_ok.
Qed.
Lemma boss_b_ok w boss bwho : boss_b w boss bwho = true -> boss_agrees w boss bwho.
Proof.
  intros H j ->. cbn [boss_b] in H. destruct (nth_error (w_parties w) j) as [p|]; [|discriminate H]. exists p.
  split; [reflexivity|now apply quorum_b_ok].
Qed.
Lemma foreign_b_ok id c : foreign_b id c = true -> foreign id c.
Proof. destruct c as [[e| | | |]|]; cbn; auto. destruct (IdentifierPrefix_eq_dec _ _); congruence. Qed.
Lemma ours_ok (w : World) cs : forallb (fun c => forallb (fun p => foreign_b (pa_id p) c) (w_parties w)) cs = true ->
  Forall (fun c => forall p, In p (w_parties w) -> foreign (pa_id p) c) cs.
Proof.
  intros H. apply Forall_forall. intros c Hc p Hp. rewrite forallb_forall in H. specialize (H c Hc).
  rewrite forallb_forall in H. apply foreign_b_ok. exact (H p Hp).
Qed.
Lemma step_ok_b_ok w s : sound_keys s -> step_ok_b w s = true -> step_ok etoy ktoy w s.
Proof.
  destruct s as [cur next who boss bwho pk npk between|i fresh who bwho seals pk npk between|i who seals pk npk|c];
    cbn [sound_keys step_ok_b]; intros Hk H; (split; [cbn [careful]|cbn [agreed]]).
  - apply andb_prop in H. destruct H as [H H4]. apply andb_prop in H. destruct H as [_ H3].
    destruct Hk as [K1 K2]. split; [exact K1|]. split; [exact K2|]. split; [|now apply ours_ok]. intros m Hm. rewrite Hm in H3.
    destruct (olist (get_kel (w_db w) (em_prefix m))); [|discriminate H3]. split; [reflexivity|].
    apply Forall_forall. intros c Hc. rewrite forallb_forall in H3. apply foreign_b_ok. exact (H3 c Hc).
  - apply andb_prop in H. destruct H as [H _]. apply andb_prop in H. destruct H as [H _]. apply andb_prop in H. destruct H as [H1 H2].
    split; [now apply quorum_b_ok|now apply boss_b_ok].
  - apply andb_prop in H. destruct H as [_ H]. split; [exact Hk|now apply ours_ok].
  - apply andb_prop in H. destruct H as [H _]. destruct (nth_error (w_parties w) i) as [p|]; [|discriminate H]. exists p.
    apply andb_prop in H. destruct H as [H1 H2]. split; [reflexivity|]. split; [now apply quorum_b_ok|now apply boss_b_ok].
  - exact I.
  - destruct (nth_error (w_parties w) i) as [p|]; [|discriminate H]. exists p. split; [reflexivity|now apply quorum_b_ok].
  - intros p Hp. rewrite forallb_forall in H. apply foreign_b_ok. exact (H p Hp).
  - exact I.
Qed.
Lemma steps_ok_b_ok l : forall w, Forall sound_keys l -> steps_ok_b w l = true -> steps_ok etoy ktoy w l.
Proof.
  induction l as [|s l IH]; intros w Hk H; [exact I|]. pose proof (Forall_inv Hk) as Hk1. pose proof (Forall_inv_tail Hk) as Hk2. cbn [steps_ok_b] in H.
  apply andb_prop in H. destruct H as [A1 A2]. split; [now apply step_ok_b_ok|].
  intros w' Hw. rewrite Hw in A2. now apply IH.
Qed.
Lemma toy_two_of_three a b c : sound_group etoy ktoy (two_of_three a b c).
Proof. split; [|exact I]. constructor; [apply toy_works|]. constructor; [apply toy_works|]. constructor; [apply toy_works|]. constructor. Qed.
Lemma toy_clerks a b c : sound_group etoy ktoy (boss_or_clerks a b c).
Proof.
  split; [constructor; [apply toy_works|]; constructor; [apply toy_works|]; constructor; [apply toy_works|]; constructor|].
  cbn. constructor; [discriminate|]. constructor; [discriminate|]. constructor; [discriminate|]. constructor.
Qed.
Lemma toy_one a : sound_group etoy ktoy (one a).
Proof. split; [|exact I]. constructor; [apply toy_works|]. constructor. Qed.
Example C131_example :
  steps_ok etoy ktoy (mkWorld (run etoy db_empty []) []) tree
  /\ live etoy ktoy (mkWorld (run etoy db_empty []) []) tree = Ok the_world
  /\ map (fun p => List.length (olist (get_kel (w_db the_world) (pa_id p)))) (w_parties the_world) = [5; 5; 4]
  /\ map pa_cur (w_parties the_world) = [head3; branch2; one xc3].
Proof.
  split.
  { apply steps_ok_b_ok.
    - unfold tree, head1, head2, head3, head4, branch1, branch2, branch3.
      repeat (apply Forall_cons; [cbn [sound_keys]; auto using toy_two_of_three, toy_clerks, toy_one|]). constructor.
    - vm_compute. reflexivity. }
  apply conj; [vm_compute; reflexivity|]. apply conj; [vm_compute; reflexivity|]. vm_compute. reflexivity.
Qed.
(** one clerk alone is refused *)
Example C131_one_clerk :
  careful etoy ktoy the_world (Anchor 1 [1] [] [] []) /\ ~ agreed the_world (Anchor 1 [1] [] [] []).
Proof.
  split; [exact I|]. cbn [agreed]. intros (p & Hp & Hq).
  assert (Hc : pa_cur p = branch2).
  { assert (Hn : option_map pa_cur (nth_error (w_parties the_world) 1) = Some branch2) by (vm_compute; reflexivity).
    rewrite Hp in Hn. cbn [option_map] in Hn. congruence. }
  rewrite Hc in Hq. destruct Hq as (_ & _ & Hq & _). cbn [branch2 boss_or_clerks g_threshold] in Hq.
  apply Forall_inv in Hq. apply Qle_bool_iff in Hq. vm_compute in Hq. discriminate Hq.
Qed.
