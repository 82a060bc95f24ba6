(** * HonestProofs *)
From Verif Require Import Base Base64 Codes NumFmt Types KeyConf SpecSig State Db Processor Spec SpecProc SpecRules SpecHonest
  StateProofs LogProofs LogTheorems LogTheorems2 SigProofs ProcProofs.
Local Open Scope nat_scope.

Lemma last_such_in p l x : last_such p l = Some x -> In x l /\ p x = true.
Proof.
  induction l as [|y l IH]; cbn; [discriminate|]. destruct (last_such p l) as [z|].
  - intros H. injection H as ->. destruct (IH eq_refl). auto.
  - destruct (p y) eqn:Hy; [|discriminate]. intros H. injection H as ->. auto.
Qed.

Section S.
  Context (E : Env).
  Definition from_calls (cs : list Call) (d : Db) : Prop :=
    forall id e, id <> id_default -> In e (log d id) ->
      exists se, submitted cs id se /\ sem_msg se = sem_msg e /\ sem_sigs se = sem_sigs e.
  Lemma from_calls_event cs d se :
    Inv E d -> from_calls cs d -> from_calls (cs ++ [CProcess (MEvent se)]) (fst (process_event E d se)).
  Proof.
    intros HI HF.
    assert (Hw : from_calls (cs ++ [CProcess (MEvent se)]) d).
    { intros id e Hid He. destruct (HF id e Hid He) as (x & (H1 & H2) & H3 & H4). exists x. split; [|auto].
      split; [apply in_app_iff; auto|exact H2]. }
    assert (Hadd : from_calls (cs ++ [CProcess (MEvent se)]) (add_kel d se (em_prefix (sem_msg se)))).
    { intros id e Hid He. unfold log in He. rewrite get_kel_add in He.
      destruct (IdentifierPrefix_eq_dec id (em_prefix (sem_msg se))) as [->|Hne]; [|now apply (Hw id e)].
      cbn [olist] in He. apply in_app_iff in He as [He|[<-|[]]]; [now apply (Hw _ e)|].
      exists se. split; [split; [apply in_app_iff; right; now left|reflexivity]|auto]. }
    destruct (process_event_cases E d se) as [(r & -> & _)|(ns & _ & Ha & H)]; [exact Hw|].
    destruct H as [(ser & Hs & Hv & ->)|[(r & -> & _)|(e & ser & _ & -> & _)]]; [exact Hadd|exact Hadd|].
    cbn [fst]. intros id e' Hid He. unfold log in He. rewrite get_kel_remove in He.
    destruct (IdentifierPrefix_eq_dec id (em_prefix (sem_msg se))) as [->|Hne].
    - rewrite get_kel_add in He. destruct (IdentifierPrefix_eq_dec _ _); [|congruence]. cbn [option_map] in He.
      rewrite (remove_added E _ _ _ HI Hid Ha) in He. now apply (Hw _ e').
    - now apply Hadd.
  Qed.
  Lemma from_calls_call cs d c : Inv E d -> from_calls cs d -> from_calls (cs ++ [c]) (call E d c).
  Proof.
    intros HI HF.
    assert (Hk : forall d', db_kel d' = db_kel d -> from_calls (cs ++ [c]) d').
    { intros d' H id e Hid He. unfold log, get_kel in He. rewrite H in He.
      destruct (HF id e Hid He) as (x & (H1 & H2) & H3 & H4). exists x. split; [|auto].
      split; [apply in_app_iff; auto|exact H2]. }
    destruct c as [m|]; cbn; [|apply Hk, process_escrow_kel].
    destruct m as [e|r|r|r|q]; [now apply from_calls_event|..]; apply Hk; apply process_other_kel; discriminate.
  Qed.
  Lemma from_calls_run cs : from_calls cs (run E db_empty cs).
  Proof.
    induction cs as [|c cs IH] using rev_ind; [intros id e _ []|]. unfold run. rewrite fold_left_app. cbn [fold_left].
    apply from_calls_call; [apply Inv_reachable|exact IH].
  Qed.

  Context (id : IdentifierPrefix) (L : list EventMessage) (K : BasicPrefix -> Prop) (cs : list Call).
  Lemma honest_prefix l :
    id <> id_default -> (forall m x, e_ser_event E m <> Err x) -> quiet E db_empty cs = true ->
    own_log id L -> owned id K cs -> no_forgery E id L K cs -> no_other_opening E id L K cs -> thresholds_ask id cs ->
    get_kel (run E db_empty cs) id = Some l ->
    forall k, k <= List.length l ->
      firstn k (log_of l) = firstn k L
      /\ (forall m kc, In m (firstn k (log_of l)) -> est_keys m = Some kc -> Forall K (kc_keys kc) /\ nonzero (kc_threshold kc)).
  Proof.
    intros Hid Hser Hq HL Hown Hnf Hno Ht Hl. induction k as [|k IH]; intros Hk; [split; [reflexivity|intros m kc []]|].
    destruct (IH ltac:(lia)) as (IH1 & IH2).
    destruct (nth_error l k) as [e|] eqn:He; [|apply nth_error_None in He; lia].
    pose proof (c01_sns E _ _ _ _ _ Hid Hl He) as Hsn.
    destruct (c03_inception E _ _ _ _ _ Hid Hl He) as (Hinc & Hpre).
    assert (Hm : nth_error (log_of l) k = Some (sem_msg e)) by (unfold log_of; rewrite nth_error_map, He; reflexivity).
    assert (Hlog : log (run E db_empty cs) id = l) by (unfold log; now rewrite Hl).
    destruct (from_calls_run cs id e Hid) as (se & Hsub & Hse & Hss); [rewrite Hlog; eapply nth_error_In; eauto|].
    destruct (SigInv_reachable E cs Hser Hq _ _ _ _ Hid Hl He) as (s & ser & Hg & Hs & Hv).
    destruct (good_keys E _ _ _ Hid Hg) as (e0 & H1 & H2).
    { rewrite (firstn_S_nth _ _ _ He). destruct (firstn k l); discriminate. }
    assert (Hfl : log_of (firstn (S k) l) = firstn k (log_of l) ++ [sem_msg e]).
    { rewrite (firstn_S_nth _ _ _ He). unfold log_of. rewrite map_app, firstn_map. reflexivity. }
    rewrite Hfl in H1. unfold last_establishment in H1. rewrite last_such_app in H1.
    change (last_such is_establishment [sem_msg e]) with (if is_establishment (sem_msg e) then Some (sem_msg e) else None) in H1.
    (* the keys that had to sign are the controller's *)
    assert (HK : Forall K (kc_keys (st_current s)) /\ nonzero (kc_threshold (st_current s))).
    { destruct (is_establishment (sem_msg e)) eqn:Hest.
      - injection H1 as <-. split; [|apply (Ht se); [exact Hsub|now rewrite Hse]].
        unfold is_establishment in Hest. destruct (is_inception (sem_msg e)) eqn:Hi.
        + destruct Hown as [(kk & -> & HKk)|Hown]; [|apply (Hown se); [exact Hsub|now rewrite Hse..]].
          assert (k = 0) by now apply Hinc. subst k.
          destruct l as [|e' l']; [discriminate|]. injection He as ->.
          pose proof (c09_binding E cs (IdBasic kk) (e :: l') e Hid Hl eq_refl) as Hb. cbv beta iota in Hb.
          destruct Hb as (i & Hd & Hks). unfold est_keys in H2. rewrite Hd in H2. injection H2 as <-. rewrite Hks. auto.
        + cbn in Hest. destruct (c04_commit E cs id l k e Hid Hl He Hest) as (e1 & kc1 & n & kc & C1 & C2 & C3 & C4 & C5 & C6).
          apply (Hno se e1); [exact Hsub|now rewrite Hse| | |now rewrite Hse].
          * unfold log_of in C1. rewrite <- firstn_map in C1. change (map sem_msg l) with (log_of l) in C1. rewrite IH1 in C1.
            unfold last_establishment in C1. apply last_such_in in C1 as (C1 & _).
            rewrite <- (firstn_skipn k L). apply in_app_iff. now left.
          * rewrite Hse. exists kc1, n, kc. auto.
      - apply last_such_in in H1 as (H1 & _). now apply (IH2 e0). }
    destruct HK as (HK & Hnz).
    destruct (verify_ok_parts _ _ _ _ Hv) as (Hen & _ & Hf).
    pose proof (nonzero_nonempty _ _ Hnz Hen) as Hne. destruct (sem_sigs e) as [|sg r] eqn:Hsg; [congruence|].
    inversion Hf as [|? ? (kk & Hkk & Hok) _]; subst.
    assert (HinL : In (sem_msg se) L).
    { apply (Hnf se sg kk ser); [exact Hsub|rewrite Hss; now left| |now rewrite Hse|exact Hok].
      rewrite Forall_forall in HK. apply HK. eapply nth_error_In; eauto. }
    rewrite Hse in HinL. apply In_nth_error in HinL as (j & Hj). destruct (HL j _ Hj) as (_ & Hsn').
    rewrite Hsn in Hsn'. apply Nat2N.inj in Hsn'. subst j.
    rewrite (firstn_S_nth _ _ _ Hm), (firstn_S_nth _ _ _ Hj), IH1. split; [reflexivity|].
    intros m kc Hin Hkc. apply in_app_iff in Hin as [Hin|[<-|[]]].
    - apply (IH2 m kc); [now rewrite IH1|exact Hkc].
    - assert (Hest : is_establishment (sem_msg e) = true).
      { unfold est_keys in Hkc. unfold is_establishment, is_inception, is_rotation. destruct (em_data (sem_msg e)); auto; discriminate. }
      rewrite Hest in H1. injection H1 as <-. rewrite H2 in Hkc. injection Hkc as <-. auto.
  Qed.
End S.
