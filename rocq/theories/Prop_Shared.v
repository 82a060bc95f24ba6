(** * Prop_Shared: C137, controllers made over one key manager. *)
From Verif Require Import Base Base64 Codes NumFmt Types KeyConf SpecSig State Db Processor Spec SpecProc
  StateProofs LogProofs LogTheorems LogTheorems2 SigProofs ProcProofs ProcProofs2 ProcProofs3
  Cesr Message Keri SpecKeri KeriProofs KeriProofs2 SpecShared SharedProofs Demo Prop_Keri.

(** Full statement: what careful controllers over one key manager do never makes an operation of
    one of them fail. *)
Definition C137_statement : Prop :=
  forall (E : Env) (K : KEnv) (o : Office) (cs : list Member) (ops : list (Member * Op)),
    (forall c, In c cs -> careful E K (controller o c)) ->
    Forall (agreeable E K cs) ops ->
    no_failure (snd (work E K o ops)).

(** ** It holds until one of them rotates *)
Section Until.
  Context (E : Env) (K : KEnv) (cs : list Member).
  Lemma one_ixn (o : Office) c payload pk npk :
    (forall m, In m cs -> careful E K (controller o m)) -> In c cs ->
    let k := fst (make_ixn E K (controller o c) payload pk npk) in
    (exists se, snd (make_ixn E K (controller o c) payload pk npk) = Ok se)
    /\ of_box (after_call o c k) = of_box o
    /\ forall m, In m cs -> careful E K (controller (after_call o c k) m).
  Proof.
    intros Hall Hc k.
    assert (HS : events_serialize E K) by (destruct (careful_working E K _ (Hall c Hc)) as (HS & _); exact HS).
    destruct (careful_working E K _ (Hall c Hc)) as (_ & (l & Hw) & _).
    destruct (ixn_step E K HS _ l payload pk npk Hw) as (se & Hx & _ & _).
    assert (Hcare : careful E K k).
    { pose proof (careful_more E K (controller o c) [OIxn payload pk npk] (Hall c Hc) ltac:(constructor; [exact I|constructor])) as H.
      rewrite operate_ixn in H. exact H. }
    assert (Hk : k = mkKeri (fst c) (of_box o) (add_kel (of_store o (snd c)) se (fst c))) by (unfold k; rewrite Hx; reflexivity).
    split; [rewrite Hx; eexists; reflexivity|]. split; [unfold after_call; cbn [of_box]; now rewrite Hk|].
    intros m Hm. destruct (Nat.eqb (snd m) (snd c)) eqn:Hn.
    2:{ unfold controller, after_call. cbn [of_box of_store]. rewrite Hn, Hk. cbn [k_box]. exact (Hall m Hm). }
    apply Nat.eqb_eq in Hn.
    destruct (IdentifierPrefix_eq_dec (fst m) (fst c)) as [Hp|Hp].
    { unfold controller, after_call. cbn [of_box of_store]. rewrite Hn, Nat.eqb_refl, Hp. rewrite Hk. cbn [k_box k_db].
      rewrite Hk in Hcare. exact Hcare. }
    (* a member with another identifier over the same store sees a call about somebody else *)
    destruct (ixn_outcome E K HS (controller o c) payload pk npk (wk_id _ _ _ _ Hw)) as [[_ H]|(s & y & ser & sig & seals & _ & Hy & _ & _ & H)].
    { exfalso. apply (H se). now rewrite Hx. }
    set (se' := mkSEM y [mkASP 0 (mkSSP Ed25519Sha512 sig)] None) in *.
    assert (Hdb : k_db k = call E (of_store o (snd c)) (CProcess (MEvent se'))).
    { unfold k. rewrite H. destruct (submit_db E (controller o c) se') as (-> & _). reflexivity. }
    pose proof (careful_more E K (controller o m) [OCall (CProcess (MEvent se'))] (Hall m Hm)) as Hmore.
    assert (Hok : Forall (op_ok E K (k_prefix (controller o m))) [OCall (CProcess (MEvent se'))]).
    { constructor; [|constructor]. cbn [op_ok foreign se' sem_msg]. rewrite Hy. cbn [em_prefix controller k_prefix]. congruence. }
    specialize (Hmore Hok). cbn [operate fst set_db controller k_db k_prefix k_box] in Hmore.
    unfold controller, after_call. cbn [of_box of_store]. rewrite Hn, Nat.eqb_refl, Hdb.
    replace (k_box k) with (of_box o) by (now rewrite Hk). rewrite Hn in Hmore. exact Hmore.
  Qed.
End Until.

Theorem C137_until_a_rotation_partial :
  forall (E : Env) (K : KEnv) (o : Office) (cs : list Member) (ops : list (Member * Op)),
    (forall c, In c cs -> careful E K (controller o c)) ->
    Forall (agreeable E K cs) ops -> (forall x, In x ops -> ~ rotates x) ->
    let o' := fst (work E K o ops) in
    no_failure (snd (work E K o ops))
    /\ of_box o' = of_box o
    /\ forall c, In c cs -> careful E K (controller o' c).
Proof.
  intros E K o cs ops. revert o. induction ops as [|[c x] ops IH]; intros o Hall Hag Hrot.
  - cbn. split; [intros a y []|]. split; [reflexivity|exact Hall].
  - inversion Hag as [|? ? [Hc Hx] Hag']; subst. cbn [fst snd] in Hc, Hx.
    assert (Hrot' : forall x0, In x0 ops -> ~ rotates x0) by (intros x0 H0; apply Hrot; right; exact H0).
    destruct x as [fresh|payload pk npk|peer|cl].
    + exfalso. apply (Hrot (c, ORotate fresh) (or_introl eq_refl)). exists fresh. reflexivity.
    + cbn [work]. rewrite operate_ixn.
      destruct (one_ixn E K cs o c payload pk npk Hall Hc) as ([se Hse] & Hb & Hall').
      set (k := fst (make_ixn E K (controller o c) payload pk npk)) in *.
      specialize (IH _ Hall' Hag' Hrot'). cbv zeta in IH. destruct (work E K (after_call o c k) ops) as [o' l].
      cbn [fst snd] in *. destruct IH as (H1 & H2 & H3). split.
      { intros a y [<-|Ha] Hy; [|exact (H1 a y Ha Hy)]. destruct Hy as [<-|[]]. exists se. exact Hse. }
      split; [congruence|exact H3].
    + destruct Hx.
    + cbn [work operate].
      assert (Hall' : forall m, In m cs -> careful E K (controller (after_call o c (set_db (controller o c) (call E (k_db (controller o c)) cl))) m)).
      { intros m Hm. unfold controller at 1, after_call. cbn [of_box of_store set_db k_box k_db controller].
        destruct (Nat.eqb (snd m) (snd c)) eqn:Hn; [|exact (Hall m Hm)].
        apply Nat.eqb_eq in Hn. rewrite <- Hn.
        exact (careful_more E K (controller o m) [OCall cl] (Hall m Hm) ltac:(constructor; [exact (Hx m Hm Hn)|constructor])). }
      specialize (IH _ Hall' Hag' Hrot'). cbv zeta in IH.
      destruct (work E K (after_call o c _) ops) as [o' l]. cbn [fst snd] in *. destruct IH as (H1 & H2 & H3). split.
      { intros a y [<-|Ha] Hy; [destruct Hy|exact (H1 a y Ha Hy)]. }
      split; [exact H2|exact H3].
Qed.
Print Assumptions C137_until_a_rotation_partial.

(** ** The first rotation locks all others out, for ever *)
(** [b] is any other member, over the same store or over another.  Nothing that anybody does
    afterwards makes an operation of [b] succeed, and the log of [b] stays as it is; a further
    rotation, of [b] or of anybody else, does not help.  The hypotheses about key pairs say that
    distinct keys are distinct. *)
Section Lockout.
  Context (E : Env) (K : KEnv) (b : Member) (cur next : bytes) (l : list SignedEventMessage).
  Definition useless (p : KeyPair) : Prop := cannot_sign_for E K cur p /\ does_not_open E next p.
  Definition tame (x : Member * Op) : Prop :=
    fst (fst x) <> id_default
    /\ match snd x with
       | ORotate fresh => useless fresh
       | OInteract _ => fst x <> b
       | OCall c => snd (fst x) = snd b -> foreign (fst b) c
       | OIxn _ _ _ => True
       end.
  Definition out_of_reach (o : Office) : Prop :=
    Held E (fst b) (of_store o (snd b)) l cur next
    /\ cannot_sign_for E K cur (cb_cur (of_box o)) /\ useless (cb_next (of_box o)).

  Lemma locked_step (HS : events_serialize E K) o x : out_of_reach o -> tame x ->
    let r := operate E K (controller o (fst x)) [snd x] in
    out_of_reach (after_call o (fst x) (fst r)) /\ (fst x = b -> forall se, ~ In (Ok se) (snd r)).
  Proof.
    intros (Hh & Hs & Hu) (Hid & Hx) r. destruct x as [[p n] x]. cbn [fst snd] in *.
    assert (Hbox : k_box (fst r) = match x with ORotate f => box_rotate (of_box o) f | _ => of_box o end)
      by (exact (operate_box E K HS p (of_box o) (of_store o n) x Hid)).
    assert (Hkel : n = snd b -> get_kel (k_db (fst r)) (fst b) = get_kel (of_store o (snd b)) (fst b)).
    { intros ->. destruct (IdentifierPrefix_eq_dec p (fst b)) as [->|Hne].
      - destruct x as [fresh|payload pk npk|peer|c].
        + unfold r. rewrite operate_rot. cbn [fst].
          exact (proj2 (wrong_rotate E K HS _ _ _ _ _ _ fresh Hh (proj2 Hu))).
        + unfold r. rewrite operate_ixn. cbn [fst].
          exact (proj2 (wrong_ixn E K HS _ _ _ _ _ _ payload pk npk Hh Hs)).
        + exfalso. apply Hx. now destruct b.
        + cbn [r operate fst set_db controller k_db]. apply foreign_call. now apply Hx.
      - apply (other_kel E K HS (fst b) p (of_box o) (of_store o (snd b)) x Hid Hne).
        intros c ->. now apply Hx. }
    split.
    - split; [|split].
      + unfold after_call. cbn [of_store snd]. destruct (Nat.eqb (snd b) n) eqn:Hn; [|exact Hh].
        apply Nat.eqb_eq in Hn. apply (held_same E (fst b) (of_store o (snd b))); [now apply Hkel|exact Hh].
      + unfold after_call. cbn [of_box]. rewrite Hbox. destruct x; try exact Hs. exact (proj1 Hu).
      + unfold after_call. cbn [of_box]. rewrite Hbox. destruct x; try exact Hu. exact Hx.
    - intros Heq. destruct x as [fresh|payload pk npk|peer|c].
      + unfold r. rewrite operate_rot. cbn [snd]. rewrite Heq. intros se [H|[]].
        exact (proj1 (wrong_rotate E K HS _ _ _ _ _ _ fresh Hh (proj2 Hu)) se H).
      + unfold r. rewrite operate_ixn. cbn [snd]. rewrite Heq. intros se [H|[]].
        exact (proj1 (wrong_ixn E K HS _ _ _ _ _ _ payload pk npk Hh Hs) se H).
      + exfalso. now apply Hx.
      + intros se [].
  Qed.
  Lemma locked (HS : events_serialize E K) ops : forall o, out_of_reach o -> Forall tame ops ->
    out_of_reach (fst (work E K o ops))
    /\ Forall2 (fun x answer => fst x = b -> forall se, ~ In (Ok se) answer) ops (snd (work E K o ops)).
  Proof.
    induction ops as [|[c x] ops IH]; intros o Ho Ht; [split; [exact Ho|constructor]|].
    inversion Ht as [|? ? H1 H2]; subst. destruct (locked_step HS o (c, x) Ho H1) as [Ho' Ha]. cbn [fst snd] in Ho', Ha.
    cbn [work]. destruct (operate E K (controller o c) [x]) as [k ans]. cbn [fst snd] in *.
    destruct (IH _ Ho' H2) as [H3 H4]. destruct (work E K (after_call o c k) ops) as [o' r]. cbn [fst snd] in *.
    split; [exact H3|]. constructor; [exact Ha|exact H4].
  Qed.
End Lockout.

Theorem C137_first_rotation_locks_others_out :
  forall (E : Env) (K : KEnv) (o : Office) (a b : Member) (fresh : KeyPair),
    careful E K (controller o a) -> careful E K (controller o b) -> a <> b -> works E K fresh ->
    let cur := kp_pub (cb_cur (of_box o)) in let next := kp_pub (cb_next (of_box o)) in
    cannot_sign_for E K cur (cb_next (of_box o)) ->
    cannot_sign_for E K cur fresh -> does_not_open E next fresh ->
    forall ops : list (Member * Op),
      (forall c x, In (c, x) ops -> fst c <> id_default
         /\ match x with
            | ORotate fresh' => cannot_sign_for E K cur fresh' /\ does_not_open E next fresh'
            | OInteract _ => c <> b
            | OCall cl => snd c = snd b -> foreign (fst b) cl
            | OIxn _ _ _ => True
            end) ->
      let w := work E K o ((a, ORotate fresh) :: ops) in
      (exists se, hd [] (snd w) = [Ok se])
      /\ Forall2 (fun x answer => fst x = b -> forall se, ~ In (Ok se) answer) ops (tl (snd w))
      /\ log (of_store (fst w) (snd b)) (fst b) = log (of_store o (snd b)) (fst b).
Proof.
  intros E K o a b fresh Ha Hb Hab Hf cur next H1 H2 H3 ops Hops w.
  destruct (careful_working E K _ Hb) as (HS & (l & Hw) & _).
  destruct (careful_working E K _ Ha) as (_ & (la & Hwa) & _).
  pose proof (working_held E K _ l Hw) as Hh. cbn [controller k_prefix k_db k_box] in Hh. fold cur next in Hh.
  destruct (rotate_step E K HS _ la fresh Hwa Hf) as (se & Hr & _ & _).
  assert (Hid : fst a <> id_default) by exact (wk_id _ _ _ _ Hwa).
  assert (Ho : out_of_reach E K b cur next l (after_call o a (fst (rotate E K (controller o a) fresh)))).
  { split; [|split].
    - unfold after_call. cbn [of_store]. destruct (Nat.eqb (snd b) (snd a)) eqn:Hn; [|exact Hh].
      apply Nat.eqb_eq in Hn. apply (held_same E (fst b) (of_store o (snd b))); [|exact Hh].
      pose proof (other_kel E K HS (fst b) (fst a) (of_box o) (of_store o (snd b)) (ORotate fresh) Hid) as Hk.
      rewrite operate_rot in Hk. cbn [fst] in Hk. unfold controller. rewrite <- Hn. apply Hk; [|discriminate].
      intros Heq. apply Hab. destruct a, b. cbn [fst snd] in *. congruence.
    - unfold after_call. cbn [of_box]. rewrite (rotate_box E K). exact H1.
    - unfold after_call. cbn [of_box]. rewrite (rotate_box E K). exact (conj H2 H3). }
  assert (Ht : Forall (tame E K b cur next) ops).
  { apply Forall_forall. intros [c x] Hx. exact (Hops c x Hx). }
  destruct (locked E K b cur next l HS ops _ Ho Ht) as [H4 H5].
  subst w. cbn [work]. rewrite operate_rot.
  destruct (work E K (after_call o a (fst (rotate E K (controller o a) fresh))) ops) as [o' r]. cbn [fst snd hd tl] in *.
  split; [rewrite Hr; eexists; reflexivity|]. split; [exact H5|].
  destruct H4 as [[_ H4 _ _] _]. destruct Hh as [_ Hh _ _]. unfold log. now rewrite H4, Hh.
Qed.
Print Assumptions C137_first_rotation_locks_others_out.

(** ** One manager, no extra keys: one identifier *)
(** Whatever the stores, all controllers incepted before a rotation have the same identifier. *)
Theorem C137_same_identifier :
  forall (E : Env) (K : KEnv) (b : CryptoBox) (d1 d2 : Db) (ws1 ws2 : list BasicPrefix) (se1 se2 : SignedEventMessage),
    events_serialize E K ->
    snd (incept_with E K (keri_new b d1) [] ws1) = Ok se1 -> snd (incept_with E K (keri_new b d2) [] ws2) = Ok se2 ->
    em_prefix (sem_msg se1) = IdBasic (mkBP Ed25519 (kp_pub (cb_cur b))) /\ em_prefix (sem_msg se2) = em_prefix (sem_msg se1).
Proof.
  assert (Hone : forall (E : Env) (K : KEnv) b d ws se, events_serialize E K ->
    snd (incept_with E K (keri_new b d) [] ws) = Ok se -> em_prefix (sem_msg se) = IdBasic (mkBP Ed25519 (kp_pub (cb_cur b)))).
  { intros E K b d ws se HS H. unfold incept_with in H. cbn [keri_new k_prefix k_box] in H.
    destruct (build_icp E K HS (kp_pub (cb_cur b)) [] (kp_pub (cb_next b)) ws) as (info & dig & p & Hb & _ & ->).
    rewrite Hb in H. cbn [obind] in H. unfold sign_own in H.
    destruct (e_ser_event E _) as [ser|e|]; cbn [obind] in H; try discriminate H.
    destruct (box_sign K b ser) as [sig|e|]; cbn [obind] in H; try discriminate H.
    match type of H with context [submit E ?k ?se] => destruct (submit E k se) as [k1 [x|e|]] eqn:Hx;
      cbn [snd] in H; try discriminate H;
      pose proof (submit_answer E k se x ltac:(rewrite Hx; reflexivity)) as [Hy _] end.
    assert (se = x) by congruence. subst se x. reflexivity. }
  intros E K b d1 d2 ws1 ws2 se1 se2 HS H1 H2.
  rewrite (Hone E K b d1 ws1 se1 HS H1), (Hone E K b d2 ws2 se2 HS H2). split; reflexivity.
Qed.
Print Assumptions C137_same_identifier.

(** ** Two controllers over one manager and one store *)
Definition s_first := incept_with etoy ktoy (keri_new c_box db_empty) [] [].
Definition s_second := incept_with etoy ktoy (keri_new c_box (k_db (fst s_first))) [key x44] [].
Definition s_icp1 : SignedEventMessage := of_ok s_icp (snd s_first).
Definition s_icp2 : SignedEventMessage := of_ok s_icp (snd s_second).
Definition s_one : Member := (em_prefix (sem_msg s_icp1), 0).
Definition s_two : Member := (em_prefix (sem_msg s_icp2), 0).
Definition s_office : Office := mkOffice c_box (fun _ => k_db (fst s_second)).
Example s_one_careful : careful etoy ktoy (controller s_office s_one).
Proof.
  exists [], c_box, [], [], (fst s_first), s_icp1, [OCall (CProcess (MEvent s_icp2))].
  split; [exact toy_serializes|]. split; [apply toy_works|]. split; [apply toy_works|].
  split; [intros H; exfalso; now apply H|].
  assert (H : is_ok (snd s_first) = true) by (vm_compute; reflexivity).
  split.
  { change (run etoy db_empty []) with db_empty. fold s_first. unfold s_icp1. destruct s_first as [k [x|x|]]; [reflexivity|discriminate H..]. }
  apply conj; [vm_compute; reflexivity|]. split; [|vm_compute; reflexivity].
  constructor; [|constructor]. vm_compute. discriminate.
Qed.
Example s_two_careful : careful etoy ktoy (controller s_office s_two).
Proof.
  exists [CProcess (MEvent s_icp1)], c_box, [key x44], [], (fst s_second), s_icp2, [].
  split; [exact toy_serializes|]. split; [apply toy_works|]. split; [apply toy_works|].
  split; [intros _; exact toy_digest_ne|].
  assert (H : is_ok (snd s_second) = true) by (vm_compute; reflexivity).
  assert (Hd : run etoy db_empty [CProcess (MEvent s_icp1)] = k_db (fst s_first)) by (vm_compute; reflexivity).
  split.
  { rewrite Hd. fold s_second. unfold s_icp2. destruct s_second as [k [x|x|]]; [reflexivity|discriminate H..]. }
  rewrite Hd. apply conj; [vm_compute; reflexivity|]. split; [constructor|vm_compute; reflexivity].
Qed.
(** before a rotation both can interact; after it only the one that rotated *)
Definition s_ops : list (Member * Op) :=
  [(s_one, OIxn None [] []); (s_two, OIxn (Some (bstr "hi")) [] []); (s_one, ORotate (pair_of x53));
   (s_one, OIxn None [] []); (s_two, OIxn None [] []); (s_two, ORotate (pair_of x54)); (s_two, OIxn None [] [])].
Example s_answers : s_one <> s_two
  /\ map (map is_ok) (snd (work etoy ktoy s_office s_ops)) = [[true]; [true]; [true]; [true]; [false]; [false]; [false]].
Proof. apply conj; [intros H; vm_compute in H; discriminate H|vm_compute; reflexivity]. Qed.
Theorem C137_refuted : ~ C137_statement.
Proof.
  intros H. specialize (H etoy ktoy s_office [s_one; s_two] s_ops).
  assert (Hn : no_failure (snd (work etoy ktoy s_office s_ops))).
  { apply H.
    - intros c [<-|[<-|[]]]; [exact s_one_careful|exact s_two_careful].
    - repeat (apply Forall_cons; [split; [first [left; reflexivity|right; left; reflexivity]|first [apply toy_works|exact I]]|]). apply Forall_nil. }
  clear H. destruct s_answers as [_ Ha].
  assert (Hall : forall l, no_failure l -> forallb (forallb is_ok) l = true).
  { intros l Hl. apply forallb_forall. intros a Hin. apply forallb_forall. intros x Hx.
    destruct (Hl a x Hin Hx) as [se ->]. reflexivity. }
  specialize (Hall _ Hn). revert Ha Hall. generalize (snd (work etoy ktoy s_office s_ops)). clear.
  intros l Ha Hall.
  assert (Hm : forallb (forallb (fun b => b)) (map (map is_ok) l) = true).
  { rewrite <- Hall. clear. induction l as [|x l IH]; [reflexivity|]. cbn [map forallb]. rewrite IH. f_equal.
    induction x as [|y x IHx]; [reflexivity|]. cbn [map forallb]. now rewrite IHx. }
  rewrite Ha in Hm. discriminate Hm.
Qed.
Print Assumptions C137_refuted.
(** the hypotheses about the key pairs *)
Lemma toy_other b c : b <> c -> cannot_sign_for etoy ktoy (repeat b 32) (pair_of c).
Proof.
  intros H msg sig Hs. cbn [k_sign_ed ktoy ktoy_with] in Hs. assert (sig = repeat c 32 ++ toy_digest Blake3_256 msg) by (cbn [kp_priv pair_of] in Hs; congruence).
  subst sig. cbn [e_verify_ed etoy]. unfold short_verify. cbn [repeat app].
  destruct (bytes_eqb _ _) eqn:Hb; [|reflexivity]. apply bytes_eqb_eq in Hb. exfalso. congruence.
Qed.
Example C137_locked_example :
  careful etoy ktoy (controller s_office s_one) /\ careful etoy ktoy (controller s_office s_two) /\ s_one <> s_two
  /\ works etoy ktoy (pair_of x53)
  /\ cannot_sign_for etoy ktoy (kp_pub (cb_cur (of_box s_office))) (cb_next (of_box s_office))
  /\ cannot_sign_for etoy ktoy (kp_pub (cb_cur (of_box s_office))) (pair_of x53)
  /\ does_not_open etoy (kp_pub (cb_next (of_box s_office))) (pair_of x53).
Proof.
  split; [exact s_one_careful|]. split; [exact s_two_careful|]. split; [exact (proj1 s_answers)|]. split; [apply toy_works|].
  split; [apply (toy_other x51 x52); discriminate|]. split; [apply (toy_other x51 x53); discriminate|].
  intros H. vm_compute in H. discriminate H.
Qed.
(** two controllers with the same manager over different stores write two logs of one identifier *)
Example C137_two_logs :
  let a := incept etoy ktoy (keri_new c_box db_empty) [] in
  let b := incept etoy ktoy (keri_new c_box db_empty) [] in
  let x := make_ixn etoy ktoy (fst a) (Some (bstr "one")) [] [] in
  let y := make_ixn etoy ktoy (fst b) (Some (bstr "two")) [] [] in
  k_prefix (fst a) = k_prefix (fst b) /\ is_ok (snd x) = true /\ is_ok (snd y) = true
  /\ option_map (fun e => em_sn (sem_msg e)) (match snd x with Ok e => Some e | _ => None end)
     = option_map (fun e => em_sn (sem_msg e)) (match snd y with Ok e => Some e | _ => None end)
  /\ snd x <> snd y.
Proof. cbv zeta. apply conj; [vm_compute; reflexivity|]. apply conj; [vm_compute; reflexivity|]. apply conj; [vm_compute; reflexivity|].
  apply conj; [vm_compute; reflexivity|]. intros H. vm_compute in H. discriminate H. Qed.
