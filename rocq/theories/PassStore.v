(** * PassStore: escrow passes on the numeric-key store. *)
From Coq Require Import Permutation Sorted.
From Verif Require Import Base Base64 Base64Proofs Codes NumFmt Types KeyConf State Db Processor Prog ProgProofs Sled
  SpecCodec CodecProofs SledProofs Spec SpecProc SpecStore StateProofs LogProofs Crash StoreProofs PassProofs.

(** every escrowed reply is filed under its subject and names proper identifiers *)
Definition escrow_ok (d : Db) : Prop :=
  forall id l r, tget (db_esc_rpy d) id = Some l -> In r l -> sr_prefix r = id /\ message_ids_ok (MKeyStateNotice r).
Lemma escrow_ok_empty : escrow_ok db_empty.
Proof. intros id l r H. discriminate H. Qed.

(** ** operations that keep this *)
Definition files_well {A} (o : op A) : Prop :=
  match o in op A return Prop with
  | OPush n id x => (match n return tty n -> Prop with
                     | TEscRpy => fun r => sr_prefix r = id /\ message_ids_ok (MKeyStateNotice r)
                     | _ => fun _ => True end) x
  | OPut n _ _ => n <> TEscRpy
  | _ => True
  end.
Fixpoint filing {R} (p : prog op R) : Prop :=
  match p with Ret _ => True | Do o k => files_well o /\ forall a, filing (k a) end.
Lemma filing_pbind {A B} (p : prog op A) (c : A -> prog op B) : filing p -> (forall a, filing (c a)) -> filing (pbind p c).
Proof.
  induction p as [r|X o c' IH]; intros Hp Hc; cbn [pbind]; [apply Hc|].
  destruct Hp as [Ho Hk]. split; [exact Ho|]. intros a. apply IH; auto.
Qed.
Lemma filing_ptry {A B} (p : prog op (out A)) (c : A -> prog op (out B)) : filing p -> (forall a, filing (c a)) -> filing (ptry p c).
Proof. intros Hp Hc. apply filing_pbind; [exact Hp|]. intros [a|e|]; cbn; auto. Qed.
Lemma escrow_ok_op {A} (o : op A) d : files_well o -> escrow_ok d -> escrow_ok (fst (op_sem o d)).
Proof.
  intros Ho Hd. destruct o as [n id|n id x|n id x|n id l|n]; cbn [op_sem fst]; try exact Hd.
  - destruct n; try exact Hd. intros i l r Hg Hin. cbn [dset dtab set_esc_rpy db_esc_rpy files_well] in *. rewrite LogProofs.tget_tpush in Hg.
    destruct (IdentifierPrefix_eq_dec i id) as [->|]; [|eapply Hd; eauto]. injection Hg as <-.
    apply in_app_or in Hin as [Hin|[<- | []]]; [|exact Ho].
    destruct (tget (db_esc_rpy d) id) eqn:Hg2; [|contradiction]. eapply Hd; eauto.
  - destruct n; try exact Hd. intros i l r Hg Hin. cbn [dset dtab set_esc_rpy db_esc_rpy] in *. rewrite tget_tremove in Hg.
    destruct (IdentifierPrefix_eq_dec i id) as [->|]; [|eapply Hd; eauto].
    destruct (tget (db_esc_rpy d) id) as [l0|] eqn:Hg2; [|discriminate Hg]. cbn in Hg. injection Hg as <-.
    apply filter_In in Hin as (Hin & _). eapply Hd; eauto.
  - destruct n; try exact Hd. now destruct Ho.
Qed.
Lemma escrow_ok_interp {R} (p : prog op R) : forall d, filing p -> escrow_ok d -> escrow_ok (fst (interp p d)).
Proof.
  induction p as [r|X o k IH]; intros d Hf Hd; [exact Hd|]. cbn [interp]. destruct Hf as [Ho Hk].
  pose proof (escrow_ok_op o d Ho Hd) as H. destruct (op_sem o d) as [d' a]. now apply IH.
Qed.

Section WithEnv.
  Context (E : Env).
  Lemma filing_reads_compute id : filing (p_compute_state E id).
  Proof. cbn. auto. Qed.
  Lemma filing_event_at id sn : filing (p_event_at_sn id sn).
  Proof. cbn. auto. Qed.
  Lemma filing_delegation se : filing (p_check_delegation E se).
  Proof.
    unfold p_check_delegation. cbv zeta. destruct (em_data (sem_msg se)); try exact I.
    - apply filing_ptry; [exact I|]. intros src. cbn. auto.
    - apply filing_ptry; [apply filing_reads_compute|]. intros os. apply filing_ptry; [exact I|]. intros s.
      apply filing_ptry; [exact I|]. intros dl. apply filing_ptry; [exact I|]. intros src. cbn. auto.
  Qed.
  Lemma filing_reply r : message_ids_ok (MKeyStateNotice r) -> filing (p_process_signed_reply E r).
  Proof.
    intros Hm. unfold p_process_signed_reply. destruct (rp_route (sr_reply r)) as [| |aid]; try exact I.
    destruct (IdentifierPrefix_eq_dec _ _); [|exact I].
    apply filing_ptry; [exact I|]. intros ser. apply filing_pbind.
    { unfold p_verify. destruct (sr_sig r); [|exact I]. apply filing_ptry; [cbn; auto|intros; exact I]. }
    assert (Esc : filing (let* _ := p_escrow_reply r in Ret (@Err (option IdentifierState) (EQuery QOutOfOrder)))).
    { apply filing_pbind; [|intros; exact I]. split; [|intros; exact I]. split; [reflexivity|exact Hm]. }
    intros [u|er|]; [|destruct er; try exact I; exact Esc|exact I].
    apply filing_ptry; [exact I|]. intros _. apply filing_pbind; [cbn; auto|]. intros br.
    apply filing_ptry; [exact I|]. intros _. apply filing_pbind.
    { unfold p_check_ksn. cbv zeta. apply filing_pbind; [apply filing_event_at|]. intros oe.
      apply filing_ptry; [exact I|]. intros ev. apply filing_ptry; [exact I|]. intros b.
      apply filing_ptry; [exact I|]. intros _. apply filing_pbind; [cbn; auto|]. intros rt.
      apply filing_ptry; [exact I|]. intros _. apply filing_ptry; [apply filing_reads_compute|]. intros os.
      apply filing_ptry; [exact I|]. intros s. exact I. }
    intros [u'|er|]; [|destruct er as [ | | | | | | | | | | | | |q]; try exact I; destruct q; try exact I; exact Esc|exact I].
    apply filing_pbind; [|intros; exact I]. unfold p_update_accepted_reply. apply filing_pbind; [cbn; auto|].
    intros [|]; cbn; split; auto. discriminate.
  Qed.
  Lemma filing_process m : message_ids_ok m -> filing (p_process E m).
  Proof.
    intros Hm. destruct m as [se|r|r|r|q]; cbn [p_process]; [| | |now apply filing_reply|exact I].
    - unfold p_process_event. cbv zeta. apply filing_ptry; [apply filing_delegation|]. intros _.
      apply filing_ptry; [apply filing_ptry; [apply filing_reads_compute|intros; exact I]|]. intros ns.
      apply filing_pbind; [cbn; auto|]. intros _. apply filing_ptry; [exact I|]. intros ser.
      destruct (verify_signatures E ns ser se) as [s|e|]; try exact I.
      apply filing_pbind; [destruct e; cbn; auto|]. intros _. apply filing_pbind; [cbn; auto|]. intros; exact I.
    - unfold p_process_witness_receipt. cbv zeta. apply filing_pbind; [apply filing_event_at|]. intros [ev|].
      + apply filing_ptry; [exact I|]. intros ser. destruct (rev _); [|exact I].
        apply filing_pbind; [cbn; auto|intros; apply filing_reads_compute].
      + apply filing_pbind; [cbn; auto|intros; apply filing_reads_compute].
    - unfold p_process_validator_receipt. cbv zeta. apply filing_pbind; [apply filing_event_at|]. intros [ev|].
      + apply filing_ptry; [cbn; auto|]. intros kc. apply filing_ptry; [exact I|]. intros ser.
        apply filing_ptry; [exact I|]. intros [|]; [|exact I]. apply filing_pbind; [cbn; auto|intros; apply filing_reads_compute].
      + apply filing_pbind; [cbn; auto|]. intros; exact I.
  Qed.
  Definition replies_ok (l : list SignedReply) : Prop := Forall (fun r => message_ids_ok (MKeyStateNotice r)) l.
  Lemma filing_loop l : replies_ok l -> filing (p_escrow_loop E l).
  Proof.
    induction 1 as [|r l Hr Hl IH]; [exact I|]. cbn [p_escrow_loop]. apply filing_pbind; [now apply filing_reply|].
    assert (Rm : filing (let* _ := p_do (ORemove TEscRpy (sr_prefix r) r) in p_escrow_loop E l)).
    { apply filing_pbind; [cbn; auto|]. intros; exact IH. }
    intros [os|er|]; [exact Rm| |exact I].
    destruct er as [ | | | | | | | | | | | | |q]; try exact IH; try exact Rm. destruct q; try exact IH; exact Rm.
  Qed.

  (** ** a pass over given entries touches proper identifiers only *)
  Lemma safe_reply r d : message_ids_ok (MKeyStateNotice r) -> safe (p_process_signed_reply E r) d.
  Proof.
    intros (H1 & H2). apply along_safe, alg_reply; [|exact H1]. intros id [->|H]; [exact H1|].
    unfold signature_ids_ok in H2. destruct (sr_sig r); [now subst|contradiction].
  Qed.
  Lemma safe_loop l : replies_ok l -> forall d, safe (p_escrow_loop E l) d.
  Proof.
    induction 1 as [|r l Hr Hl IH]; intros d; [exact I|]. cbn [p_escrow_loop]. apply safe_pbind. split; [now apply safe_reply|].
    destruct (interp (p_process_signed_reply E r) d) as [d' res].
    assert (Rm : forall x, safe (let* _ := p_do (ORemove TEscRpy (sr_prefix r) r) in p_escrow_loop E l) x).
    { intros x. apply safe_pbind. split; [cbn; split; [apply Hr|auto]|]. cbn. apply IH. }
    destruct res as [os|er|]; [apply Rm| |exact I].
    destruct er as [ | | | | | | | | | | | | |q]; try apply IH; try apply Rm. destruct q; try apply IH; apply Rm.
  Qed.

  (** ** the two tables list the replies about an identifier in the same order *)
  Lemma about_app id l l' : about id (l ++ l') = about id l ++ about id l'.
  Proof. apply filter_app. Qed.
  Lemma about_all id l : (forall r, In r l -> sr_prefix r = id) -> about id l = l.
  Proof.
    induction l as [|r l IH]; intros H; [reflexivity|]. rewrite about_cons. destruct (IdentifierPrefix_eq_dec _ _) as [_|Hn].
    - cbn [app]. f_equal. apply IH. intros x Hx. apply H. now right.
    - exfalso. apply Hn, H. now left.
  Qed.
  Lemma about_none id l : (forall r, In r l -> sr_prefix r <> id) -> about id l = [].
  Proof.
    induction l as [|r l IH]; intros H; [reflexivity|]. rewrite about_cons. destruct (IdentifierPrefix_eq_dec _ _) as [He|_].
    - exfalso. apply (H r); [now left|exact He].
    - cbn [app]. apply IH. intros x Hx. apply H. now right.
  Qed.
  Lemma about_entries {K} (t : list (K * list SignedReply)) id k0 :
    NoDup (map fst t) -> (forall k l r, In (k, l) t -> In r l -> (sr_prefix r = id <-> k = k0)) ->
    (forall l, In (k0, l) t -> about id (flat_map snd t) = l) /\ (~ In k0 (map fst t) -> about id (flat_map snd t) = []).
  Proof.
    induction t as [|[k l] t IH]; intros Hn Hk; [split; [intros l []|reflexivity]|].
    cbn [map fst] in Hn. inversion_clear Hn as [|? ? Hnk Hnt]. destruct (IH Hnt) as (IH1 & IH2).
    { intros k' l' r' Hin. apply Hk. now right. }
    cbn [flat_map snd]. rewrite about_app. split.
    - intros l0 [He|Hin].
      + injection He as -> ->. rewrite IH2 by exact Hnk. rewrite app_nil_r. apply about_all. intros r Hr.
        apply (Hk k0 l0 r); [now left|exact Hr|reflexivity].
      + rewrite (IH1 _ Hin). rewrite about_none; [reflexivity|]. intros r Hr Heq.
        assert (k = k0) by (apply (Hk k l r); [now left|exact Hr|exact Heq]). subst k. apply Hnk. change k0 with (fst (k0, l0)). now apply in_map.
    - intros Hni. cbn [map fst In] in Hni. rewrite IH2 by tauto. rewrite about_none; [reflexivity|]. intros r Hr Heq. apply Hni. left.
      apply (Hk k l r); [now left|exact Hr|exact Heq].
  Qed.
  Lemma tr_get_in {V} (t : tree V) k v : tr_get t k = Some v -> In (k, v) t.
  Proof.
    induction t as [|[a x] t IH]; cbn [tr_get]; [discriminate|]. destruct (N.eqb_spec k a) as [->|_].
    - intros H; injection H as ->. now left.
    - intros H. right. now apply IH.
  Qed.
  Lemma tr_in_get {V} (t : tree V) k v : NoDup (map fst t) -> In (k, v) t -> tr_get t k = Some v.
  Proof.
    induction t as [|[a x] t IH]; intros Hn; [intros []|]. cbn [map fst] in Hn. inversion_clear Hn as [|? ? Ha Ht].
    intros [He|Hin]; cbn [tr_get].
    - injection He as -> ->. now rewrite N.eqb_refl.
    - destruct (N.eqb_spec k a) as [->|_]; [|now apply IH]. exfalso. apply Ha. change a with (fst (a, v)). now apply in_map.
  Qed.
  Lemma aget_in_pair {V} (t : list (IdentifierPrefix * V)) k v : aget IdentifierPrefix_eq_dec t k = Some v -> In (k, v) t.
  Proof.
    induction t as [|[a x] t IH]; cbn [aget]; [discriminate|]. destruct (IdentifierPrefix_eq_dec _ _) as [->|_].
    - intros H; injection H as ->. now left.
    - intros H. right. now apply IH.
  Qed.
  Lemma aget_pair_in {V} (t : list (IdentifierPrefix * V)) k v : NoDup (map fst t) -> In (k, v) t -> aget IdentifierPrefix_eq_dec t k = Some v.
  Proof.
    induction t as [|[a x] t IH]; intros Hn; [intros []|]. cbn [map fst] in Hn. inversion_clear Hn as [|? ? Ha Ht].
    intros [He|Hin]; cbn [aget].
    - injection He as -> ->. destruct (IdentifierPrefix_eq_dec _ _); congruence.
    - destruct (IdentifierPrefix_eq_dec _ _) as [->|_]; [|now apply IH]. exfalso. apply Ha. change a with (fst (a, v)). now apply in_map.
  Qed.
  Lemma aget_none_notin {V} (t : list (IdentifierPrefix * V)) k : aget IdentifierPrefix_eq_dec t k = None -> ~ In k (map fst t).
  Proof.
    induction t as [|[a x] t IH]; cbn [aget map fst In]; [tauto|]. destruct (IdentifierPrefix_eq_dec _ _) as [->|Hne]; [discriminate|].
    intros H [He|Hin]; [congruence|now apply IH].
  Qed.
  Lemma idx_surj L : NoDup L -> forall i k, (i <= k < i + N.of_nat (List.length L))%N -> exists x, In x L /\ idx i L x = Some k.
  Proof.
    induction 1 as [|x L Hx Hn IH]; intros i k Hk; cbn [List.length] in Hk; [lia|].
    destruct (N.eq_dec k i) as [->|Hne].
    - exists x. split; [now left|]. cbn [idx]. destruct (IdentifierPrefix_eq_dec x x); congruence.
    - destruct (IH (i + 1)%N k ltac:(lia)) as (y & Hy & Hi). exists y. split; [now right|]. cbn [idx].
      destruct (IdentifierPrefix_eq_dec x y) as [->|_]; [contradiction|exact Hi].
  Qed.
  Lemma same_order s d L : Rel s d L -> escrow_ok d ->
    forall id, about id (flat_map snd (s_esc_rpy s)) = about id (flat_map snd (db_esc_rpy d)).
  Proof.
    intros R Hd id.
    assert (Hn : NoDup (map fst (s_esc_rpy s))) by exact (ascending_nodup _ (r_asc _ _ _ R TEscRpy)).
    pose proof (r_dnodup _ _ _ R TEscRpy) as Hn'. cbn [dtab] in Hn'.
    pose proof (r_tab _ _ _ R TEscRpy) as Ht. cbn [dtab] in Ht. change (stab TEscRpy s) with (s_esc_rpy s) in Ht.
    assert (H1 : about id (flat_map snd (db_esc_rpy d)) = olist (tget (db_esc_rpy d) id)).
    { destruct (about_entries (db_esc_rpy d) id id Hn') as (A1 & A2).
      { intros k l r Hin Hr. apply aget_pair_in in Hin; [|exact Hn']. destruct (Hd k l r Hin Hr) as (He & _). rewrite He. tauto. }
      destruct (tget (db_esc_rpy d) id) as [l|] eqn:Hg; cbn [olist].
      - apply A1. now apply aget_in_pair.
      - apply A2. now apply aget_none_notin. }
    rewrite H1, Ht.
    assert (Hown : forall k l, In (k, l) (s_esc_rpy s) -> exists x, idx 0 L x = Some k /\ tget (db_esc_rpy d) x = Some l).
    { intros k l Hin. apply tr_in_get in Hin; [|exact Hn].
      destruct (N.le_gt_cases (N.of_nat (List.length L)) k) as [Hge|Hlt].
      - pose proof (r_fresh _ _ _ R TEscRpy k Hge) as Hf. cbn in Hf. change (stab TEscRpy s) with (s_esc_rpy s) in Hf. congruence.
      - destruct (idx_surj L (r_nodup _ _ _ R) 0%N k ltac:(lia)) as (x & _ & Hx). exists x. split; [exact Hx|]. rewrite Ht, Hx. exact Hin. }
    destruct (idx 0 L id) as [k0|] eqn:Hi.
    - destruct (about_entries (s_esc_rpy s) id k0 Hn) as (A1 & A2).
      { intros k l r Hin Hr. destruct (Hown k l Hin) as (x & Hx & Hg). destruct (Hd x l r Hg Hr) as (He & _). rewrite He. split.
        - intros ->. congruence.
        - intros ->. eapply idx_inj; eauto. }
      assert (Hc : about id (flat_map snd (s_esc_rpy s)) = olist (@tr_get (list SignedReply) (s_esc_rpy s) k0)); [|exact Hc].
      clear Ht H1 Hown. destruct (@tr_get (list SignedReply) (s_esc_rpy s) k0) as [l|] eqn:Hg; cbn [olist].
      + apply A1. exact (tr_get_in (s_esc_rpy s) k0 l Hg).
      + apply A2. now apply tr_get_none.
    - cbn [olist]. apply about_none. intros r Hr. apply in_flat_map in Hr as ([k l] & Hin & Hr). cbn [snd] in Hr.
      destruct (Hown k l Hin) as (x & Hx & Hg). destruct (Hd x l r Hg Hr) as (He & _). rewrite He. intros ->. congruence.
  Qed.
  Lemma escrowed_ok s d L : Rel s d L -> escrow_ok d -> replies_ok (flat_map snd (s_esc_rpy s)).
  Proof.
    intros R Hd. apply Forall_forall. intros r Hr.
    pose proof (all_perm s d L TEscRpy R) as Hp. change (stab TEscRpy s) with (s_esc_rpy s) in Hp. cbn [dtab] in Hp.
    apply (Permutation_in _ Hp) in Hr. apply in_flat_map in Hr as ([k l] & Hin & Hr). cbn [snd] in Hr.
    apply (aget_pair_in _ _ _ (r_dnodup _ _ _ R TEscRpy)) in Hin. exact (proj2 (Hd k l r Hin Hr)).
  Qed.

  (** ** [Rel] speaks of the contents of the tables only *)
  Definition keyed (d : Db) : Prop := forall n, NoDup (map fst (dtab n d)).
  Lemma keyed_put {V} (t : list (IdentifierPrefix * V)) k v : NoDup (map fst t) -> NoDup (map fst (aput IdentifierPrefix_eq_dec t k v)).
  Proof.
    intros H. destruct (aput_keys t k v) as [(-> & _)|(-> & Hk)]; [exact H|]. apply (Permutation_NoDup (Permutation_cons_append _ k)). now constructor.
  Qed.
  Lemma keyed_set n d t : keyed d -> NoDup (map fst t) -> keyed (dset n d t).
  Proof.
    intros Hd Ht m. destruct (tname_eq_dec n m) as [<-|Hne]; [now rewrite dtab_dset_same|]. rewrite dtab_dset_other by exact Hne. apply Hd.
  Qed.
  Lemma keyed_op {A} (o : op A) d : keyed d -> keyed (fst (op_sem o d)).
  Proof.
    intros Hd. destruct o as [n id|n id x|n id x|n id l|n]; cbn [op_sem fst]; try exact Hd; apply keyed_set; try exact Hd.
    - unfold tpush, tput. destruct (tget _ _); apply keyed_put, Hd.
    - unfold tremove, tput. destruct (tget _ _); [apply keyed_put|]; apply Hd.
    - unfold tput. apply keyed_put, Hd.
  Qed.
  Lemma keyed_interp {R} (p : prog op R) : forall d, keyed d -> keyed (fst (interp p d)).
  Proof.
    induction p as [r|X o k IH]; intros d Hd; [exact Hd|]. cbn [interp].
    pose proof (keyed_op o d Hd) as H. destruct (op_sem o d) as [d' a]. now apply IH.
  Qed.
  Lemma Rel_same s d d' L : Rel s d L -> keyed d' -> (forall n id, tget (dtab n d') id = tget (dtab n d) id) -> Rel s d' L.
  Proof.
    intros R Hk Ht. destruct R as [R1 R2 R3 R4 R5 R6 R7 R8]. split; auto.
    - intros n id Hin. destruct (tget (dtab n d) id) as [l|] eqn:Hg.
      + apply (R7 n). apply aget_in_pair in Hg. change id with (fst (id, l)). now apply in_map.
      + rewrite <- Ht in Hg. apply aget_none_notin in Hg. contradiction.
    - intros n id. rewrite Ht. apply R8.
  Qed.
  (** a pass leaves the other tables alone *)
  Lemma loop_tables l n : n <> TRpy -> n <> TEscRpy -> forall d, dtab n (fst (process_escrow_loop E l d)) = dtab n d.
  Proof.
    intros N1 N2. induction l as [|r l IH]; intros d; [reflexivity|]. rewrite loop_cons.
    assert (Hr : dtab n (fst (process_signed_reply E d r)) = dtab n d).
    { destruct (process_signed_reply E d r) as [d1 res] eqn:He. unfold process_signed_reply in He.
      assert (Hu : forall x id, dtab n (update_accepted_reply d x id) = dtab n d).
      { intros x id. unfold update_accepted_reply. destruct (tget _ _); destruct n; try reflexivity; congruence. }
      assert (Hs : dtab n (escrow_reply d r) = dtab n d) by (destruct n; reflexivity || congruence).
      destruct (rp_route (sr_reply r)) as [| |aid]; try (injection He as <- _; reflexivity).
      destruct (IdentifierPrefix_eq_dec _ _); [|injection He as <- _; reflexivity].
      destruct (e_ser_reply E (sr_reply r)) as [ser| |]; try (injection He as <- _; reflexivity).
      destruct (proc_verify E d ser (sr_sig r)) as [u|er|]; [| |injection He as <- _; reflexivity].
      2: { destruct er; injection He as <- _; try reflexivity; exact Hs. }
      destruct (obind _ _) as [u'| |]; try (injection He as <- _; reflexivity).
      destruct (check_ksn E d _ aid) as [u2|er|]; [injection He as <- _; apply Hu| |injection He as <- _; reflexivity].
      destruct er as [ | | | | | | | | | | | | |q]; try (injection He as <- _; reflexivity).
      destruct q; injection He as <- _; try reflexivity; exact Hs. }
    destruct (is_panic _); [exact Hr|]. rewrite IH. unfold pass_step. destruct (process_signed_reply E d r) as [d1 res]. cbn [fst] in Hr.
    destruct (drops res); [|exact Hr]. rewrite <- Hr. destruct n; reflexivity || congruence.
  Qed.

  (** ** one pass *)
  Lemma pass_expands s : spass E s = sinterp (expand (p_escrow_loop E (flat_map snd (s_esc_rpy s)))) s.
  Proof. reflexivity. Qed.
  Lemma pass_refines s d L : Rel s d L -> escrow_ok d -> is_panic (snd (process_escrow E d)) = false ->
    snd (process_escrow E d) = Ok tt
    /\ exists M, Rel (fst (spass E s)) (fst (process_escrow E d)) (L ++ M)
       /\ snd (spass E s) = Ok tt.
  Proof.
    intros R Hd Hp.
    assert (Hok : forall l x, snd (process_escrow_loop E l x) = Ok tt \/ snd (process_escrow_loop E l x) = Panic).
    { induction l as [|r l IH]; intros x; [now left|]. rewrite loop_cons. destruct (is_panic (snd (process_signed_reply E x r))); [now right|apply IH]. }
    assert (Hs : snd (process_escrow E d) = Ok tt).
    { unfold process_escrow in *. destruct (Hok (get_all_escrowed_replys d) d) as [H|H]; [exact H|]. rewrite H in Hp. discriminate Hp. }
    split; [exact Hs|]. rewrite pass_expands.
    set (l := flat_map snd (s_esc_rpy s)).
    destruct (expand_refines (p_escrow_loop E l) s d L R (safe_loop l (escrowed_ok s d L R Hd) d)) as (M & R' & Er).
    rewrite interp_escrow_loop in R', Er. exists M.
    unfold process_escrow in *. destruct (process_escrow_loop E (get_all_escrowed_replys d) d) as [d2 res] eqn:H2. cbn [fst snd] in *. subst res.
    destruct (loop_order E _ l d d2 (fun id => eq_sym (same_order s d L R Hd id)) H2) as (d1 & H1 & Hal).
    rewrite H1 in R', Er. cbn [fst snd] in R', Er. split; [|exact Er].
    apply (Rel_same _ d1); [exact R'| |].
    - pose proof (keyed_interp (p_process_escrow E) d (fun n => r_dnodup _ _ _ R n)) as Hk. rewrite interp_process_escrow in Hk.
      unfold process_escrow in Hk. rewrite H2 in Hk. exact Hk.
    - intros n id. destruct (Hal id) as [_ A2 A3].
      destruct (tname_eq_dec n TRpy) as [->|N1]; [symmetry; exact A2|]. destruct (tname_eq_dec n TEscRpy) as [->|N2]; [symmetry; exact A3|].
      pose proof (loop_tables l n N1 N2 d) as T1. rewrite H1 in T1. cbn [fst] in T1.
      pose proof (loop_tables (get_all_escrowed_replys d) n N1 N2 d) as T2. rewrite H2 in T2. cbn [fst] in T2. now rewrite T1, T2.
  Qed.
  Lemma escrow_ok_pass d : keyed d -> escrow_ok d -> escrow_ok (fst (process_escrow E d)).
  Proof.
    intros Hk Hd. unfold process_escrow. rewrite <- interp_escrow_loop. apply escrow_ok_interp; [|exact Hd]. apply filing_loop.
    apply Forall_forall. intros r Hr. unfold get_all_escrowed_replys in Hr. apply in_flat_map in Hr as ([k l] & Hin & Hr).
    apply (aget_pair_in _ _ _ (Hk TEscRpy)) in Hin. exact (proj2 (Hd k l r Hin Hr)).
  Qed.

  (** ** histories of calls *)
  Fixpoint sanswers (s : Sled) (cs : list Call) : list outcome :=
    match cs with [] => [] | c :: r => snd (scall E s c) :: sanswers (fst (scall E s c)) r end.
  Definition scalls (s : Sled) (cs : list Call) : Sled := fold_left (fun s c => fst (scall E s c)) cs s.
  Definition danswer (d : Db) (c : Call) : outcome :=
    match c with CProcess m => AMessage (snd (process E d m)) | CEscrow => APass (snd (process_escrow E d)) end.
  Fixpoint danswers (d : Db) (cs : list Call) : list outcome :=
    match cs with [] => [] | c :: r => danswer d c :: danswers (call E d c) r end.
  Lemma escrow_ok_process d m : message_ids_ok m -> escrow_ok d -> escrow_ok (fst (process E d m)).
  Proof. intros Hm Hd. rewrite <- interp_process. apply escrow_ok_interp; [now apply filing_process|exact Hd]. Qed.
  Lemma store_ok_pass d : store_ok d -> store_ok (fst (process_escrow E d)).
  Proof. intros Hd id l e. unfold get_kel. rewrite process_escrow_kel. apply Hd. Qed.
  Theorem calls_refine cs : Forall call_ids_ok cs -> forall s d L, Rel s d L -> store_ok d -> escrow_ok d -> quiet E d cs = true ->
    exists M, Rel (scalls s cs) (run E d cs) (L ++ M) /\ sanswers s cs = danswers d cs.
  Proof.
    induction 1 as [|c cs Hc Hcs IH]; intros s d L R Hd He Hq; cbn [scalls fold_left run sanswers danswers].
    - exists []. rewrite app_nil_r. auto.
    - cbn [quiet] in Hq. apply andb_prop in Hq as (Hp & Hq). apply negb_true_iff in Hp.
      assert (St : exists M, Rel (fst (scall E s c)) (call E d c) (L ++ M) /\ snd (scall E s c) = danswer d c
                   /\ store_ok (call E d c) /\ escrow_ok (call E d c)).
      { destruct c as [m|]; cbn [call_ids_ok scall call danswer panics] in *.
        - destruct (expand_refines (p_process E m) s d L R (safe_process E m d Hd Hc)) as (M & R' & Er).
          rewrite interp_process in R', Er. fold (sprocess E s m) in R', Er. exists M.
          destruct (sprocess E s m) as [s' r]. cbn [fst snd] in *. subst r.
          split; [exact R'|]. split; [reflexivity|]. split; [now apply store_ok_process|now apply escrow_ok_process].
        - destruct (pass_refines s d L R He Hp) as (Hok & M & R' & Er). exists M. rewrite Hok.
          destruct (spass E s) as [s' r]. cbn [fst snd] in *. subst r.
          split; [exact R'|]. split; [reflexivity|]. split; [now apply store_ok_pass|].
          apply escrow_ok_pass; [exact (r_dnodup _ _ _ R)|exact He]. }
      destruct St as (M & R' & Er & Hd' & He'). destruct (IH _ _ _ R' Hd' He' Hq) as (M' & R2 & Er2).
      exists (M ++ M'). rewrite app_assoc. split; [exact R2|]. now rewrite Er, Er2.
  Qed.
End WithEnv.
