(** * DeskProofs2: the identifiers of waiting replies have numbers. *)
From Verif Require Import Base Base64 Codes NumFmt Types KeyConf State Db Processor Prog ProgProofs Sled Crash
  SpecCodec SledProofs Spec SpecProc Threads SpecThreads ThreadProofs Desk SpecDesk DeskProofs.

Record settled (s : Sled) : Prop := {
  se_last : last_max (s_ids s);
  se_known : Forall (fun kv => Forall (known (s_ids s)) (snd kv)) (s_esc_rpy s) }.
Lemma settled_inv s : settled s -> inv (s_ids s) s.
Proof. intros [H1 H2]. constructor; [|exact H2]. exists []. rewrite app_nil_r. split; [reflexivity|constructor]. Qed.
Lemma settled_empty : settled sled_empty.
Proof. constructor; [reflexivity|constructor]. Qed.
Lemma kn_app t x id : kn t id -> kn (t ++ x) id.
Proof. unfold kn. destruct (find_text t (id_str id)) eqn:Ef; [|congruence]. intros _. rewrite (find_text_app _ x _ _ Ef). discriminate. Qed.
Lemma known_app t x r : known t r -> known (t ++ x) r.
Proof. intros H id Hn. apply kn_app. now apply H. Qed.
Lemma knowns_app t x (e : tree (list SignedReply)) : Forall (fun kv => Forall (known t) (snd kv)) e -> Forall (fun kv => Forall (known (t ++ x)) (snd kv)) e.
Proof. intros H. eapply Forall_impl; [|exact H]. intros [k l] Hl. cbn [snd] in *. eapply Forall_impl; [|exact Hl]. intros r. apply known_app. Qed.
Lemma find_snoc t k v : find_text (t ++ [(k, v)]) v <> None.
Proof.
  induction t as [|[j w] t IH]; cbn [app find_text]; [destruct (bytes_eq_dec v v); congruence|].
  destruct (bytes_eq_dec w v); [discriminate|exact IH].
Qed.
(** numbering an identifier *)
Lemma designated_settled s id : last_max (s_ids s) -> exists x k,
  sinterp (designated id) s = (set_ids s (s_ids s ++ x), k) /\ last_max (s_ids s ++ x) /\ kn (s_ids s ++ x) id.
Proof.
  intros HL. unfold designated. rewrite sinterp_pbind. cbn [sinterp prim_sem]. destruct (find_text (s_ids s) (id_str id)) as [k|] eqn:Ef.
  - exists [], k. cbn [sinterp]. rewrite app_nil_r. unfold kn. rewrite Ef. destruct s. repeat split; try exact HL; discriminate.
  - rewrite !sinterp_pbind. cbn [sinterp prim_sem]. rewrite !sinterp_pbind. cbn [sinterp prim_sem].
    set (k := match tr_last (s_ids s) with Some x => (x + 1)%N | None => 0%N end).
    exists [(k, id_str id)], k.
    assert (Hab : Forall (fun kv => (fst kv < k)%N) (s_ids s)).
    { unfold last_max in HL. unfold k. destruct (tr_last (s_ids s)); [|rewrite HL; constructor]. eapply Forall_impl; [|exact HL]. cbn. intros; lia. }
    assert (Hput : tr_put (s_ids s) k (id_str id) = s_ids s ++ [(k, id_str id)]).
    { rewrite <- (app_nil_r (s_ids s)) at 1. rewrite put_above by exact Hab. reflexivity. }
    rewrite Hput. split; [reflexivity|]. split; [|apply find_snoc].
    unfold last_max. rewrite last_app by discriminate. cbn [tr_last]. apply Forall_app. split; [|repeat constructor; cbn; lia].
    eapply Forall_impl; [|exact Hab]. cbn. intros; lia.
Qed.
(** what is put in the escrow names identifiers that have, or with it get, a number *)
Definition side (s : Sled) {X} (o : op X) : Prop :=
  match o with
  | OPush n id x => (match n return tty n -> Prop with TEscRpy => fun r => forall i, reply_names r i -> kn (s_ids s) i \/ i = id | _ => fun _ => True end) x
  | OPut n _ _ => n <> TEscRpy
  | _ => True
  end.
Definition touched {X} (o : op X) (id : IdentifierPrefix) : Prop :=
  match o with OGet _ i | OPush _ i _ | ORemove _ i _ | OPut _ i _ => id = i | OAll _ => False end.
Lemma settled_put s n k l : settled s -> (n = TEscRpy -> good (s_ids s) n l) -> settled (sset n s (tr_put (stab n s) k l)).
Proof.
  intros [H1 H2] Hl. constructor; [rewrite ids_sset; exact H1|]. rewrite ids_sset. destruct s, n; try exact H2. apply esc_put; [exact H2|]. exact (Hl eq_refl).
Qed.
Lemma settled_get s n k : settled s -> good (s_ids s) n (match tr_get (stab n s) k with Some l => l | None => [] end).
Proof.
  intros [H1 H2]. destruct n; try exact I. change (Forall (known (s_ids s)) (match tr_get (s_esc_rpy s) k with Some l => l | None => [] end)).
  pose proof (esc_get (s_ids s) (s_esc_rpy s) k) as G. destruct (tr_get (s_esc_rpy s) k) as [l|]; [exact (G l H2 eq_refl)|constructor].
Qed.
Lemma sop_settled {X} (o : op X) s : settled s -> side s o ->
  settled (fst (sop o s)) /\ (exists x, s_ids (fst (sop o s)) = s_ids s ++ x) /\ (forall id, touched o id -> kn (s_ids (fst (sop o s))) id).
Proof.
  intros HS Ho. pose proof HS as [HL HK].
  assert (D : forall id, exists s1 k, sinterp (designated id) s = (s1, k) /\ settled s1 /\ (exists x, s_ids s1 = s_ids s ++ x) /\ kn (s_ids s1) id /\ forall n, stab n s1 = stab n s).
  { intros id. destruct (designated_settled s id HL) as (x & k & Hd & Hl & Hk). exists (set_ids s (s_ids s ++ x)), k.
    split; [exact Hd|]. split; [constructor; [exact Hl|exact (knowns_app _ x _ HK)]|]. split; [exists x; reflexivity|]. split; [exact Hk|]. intros n. apply stab_set_ids. }
  unfold sop. destruct o as [n id|n id x|n id x|n id l|n]; cbn [expand_op touched side] in *.
  5:{ cbn [sinterp prim_sem fst]. split; [exact HS|]. split; [exists []; now rewrite app_nil_r|]. intros ? []. }
  all: destruct (D id) as (s1 & k & Hd & H1 & (y & Hy) & Hk & Ht); rewrite sinterp_pbind, Hd; cbn [pbind sinterp prim_sem fst].
  - split; [exact H1|]. split; [eauto|]. intros i ->. exact Hk.
  - rewrite ids_sset. split; [|split; [eauto|intros i ->; exact Hk]]. apply settled_put; [exact H1|]. intros ->.
    apply (good_push _ TEscRpy); [exact (settled_get s1 TEscRpy k H1)|]. intros i Hi. destruct (Ho i Hi) as [Hi'| ->]; [|exact Hk]. rewrite Hy. now apply kn_app.
  - pose proof (settled_get s1 n k H1) as G. destruct (tr_get (stab n s1) k) as [l|]; cbn [sinterp prim_sem fst].
    + rewrite ids_sset. split; [|split; [eauto|intros i ->; exact Hk]]. apply settled_put; [exact H1|]. intros _. now apply good_filter.
    + split; [exact H1|]. split; [eauto|]. intros i ->. exact Hk.
  - rewrite ids_sset. split; [|split; [eauto|intros i ->; exact Hk]]. apply settled_put; [exact H1|]. intros Hn. contradiction.
Qed.
Fixpoint tidy {A} (p : prog op A) (s : Sled) : Prop :=
  match p with Ret _ => True | Do o k => side s o /\ tidy (k (snd (sop o s))) (fst (sop o s)) end.
Lemma tidy_settled {A} (p : prog op A) : forall s, settled s -> tidy p s -> settled (fst (sinterp (expand p) s)) /\ exists x, s_ids (fst (sinterp (expand p) s)) = s_ids s ++ x.
Proof.
  induction p as [a|X o k IH]; intros s HS Ht; cbn [expand sinterp tidy] in *; [split; [exact HS|exists []; now rewrite app_nil_r]|].
  destruct Ht as [Ho Ht]. destruct (sop_settled o s HS Ho) as (H1 & (x & Hx) & _). rewrite sinterp_pbind. unfold sop in *.
  destruct (sinterp (expand_op o) s) as [s1 a]. cbn [fst snd] in *. destruct (IH a s1 H1 Ht) as (H2 & y & Hy). split; [exact H2|]. exists (x ++ y). now rewrite Hy, Hx, app_assoc.
Qed.
(** programs that are tidy from any store in which [K] is numbered *)
Definition put_ok (K : IdentifierPrefix -> Prop) {X} (o : op X) : Prop :=
  match o with
  | OPush n id x => (match n return tty n -> Prop with TEscRpy => fun r => forall i, reply_names r i -> K i \/ i = id | _ => fun _ => True end) x
  | OPut n _ _ => n <> TEscRpy
  | _ => True
  end.
Fixpoint puts (K : IdentifierPrefix -> Prop) {A} (p : prog op A) : Prop :=
  match p with Ret _ => True | Do o k => put_ok K o /\ forall a, puts K (k a) end.
Lemma puts_tidy {A} (p : prog op A) K : puts K p -> forall s, settled s -> (forall i, K i -> kn (s_ids s) i) -> tidy p s.
Proof.
  induction p as [a|X o k IH]; intros Hp s HS HK; cbn [tidy puts] in *; [exact I|]. destruct Hp as [Ho Hk].
  assert (So : side s o).
  { destruct o as [n id|n id x|n id x|n id l|n]; cbn [put_ok side] in *; try exact I; [|exact Ho]. destruct n; try exact I. intros i Hi. destruct (Ho i Hi); auto. }
  split; [exact So|]. destruct (sop_settled o s HS So) as (H1 & (x & Hx) & _). apply IH; [apply Hk|exact H1|]. intros i Hi. rewrite Hx. apply kn_app. auto.
Qed.
Lemma puts_bind {A B} K (p : prog op A) (k : A -> prog op B) : puts K p -> (forall a, puts K (k a)) -> puts K (pbind p k).
Proof. intros Hp Hk. induction p as [a|X o c IH]; cbn [pbind puts] in *; [apply Hk|]. destruct Hp as [Ho Hc]. split; [exact Ho|]. intros a. apply IH, Hc. Qed.
Lemma puts_try {A B} K (p : prog op (out A)) (k : A -> prog op (out B)) : puts K p -> (forall a, puts K (k a)) -> puts K (ptry p k).
Proof. intros Hp Hk. apply puts_bind; [exact Hp|]. intros [a|e|]; [apply Hk|exact I..]. Qed.
Section Calls.
  Context (E : Env) (K : IdentifierPrefix -> Prop).
  Ltac pu := first [exact I | apply puts_bind; [pu|intros; pu] | apply puts_try; [pu|intros; pu]].
  Lemma pu_get n id : puts K (p_get n id).
  Proof. split; [exact I|]. intros a. exact I. Qed.
  Lemma pu_op {X} (o : op X) : put_ok K o -> puts K (p_do o).
  Proof. intros H. split; [exact H|]. intros a. exact I. Qed.
  Lemma pu_compute id : puts K (p_compute_state E id).
  Proof. apply puts_bind; [apply pu_get|intros; exact I]. Qed.
  Lemma pu_at id sn : puts K (p_event_at_sn id sn).
  Proof. apply puts_bind; [apply pu_get|intros; exact I]. Qed.
  Lemma pu_seal sl m : puts K (p_validate_seal E sl m).
  Proof. apply puts_bind; [apply pu_at|intros; exact I]. Qed.
  Lemma pu_delegation se : puts K (p_check_delegation E se).
  Proof.
    unfold p_check_delegation. destruct (em_data (sem_msg se)); try exact I.
    - apply puts_try; [exact I|]. intros; apply pu_seal.
    - apply puts_try; [apply pu_compute|]. intros. repeat (apply puts_try; [exact I|]; intros). apply pu_seal.
  Qed.
  Lemma pu_event se : puts K (p_process_event E se).
  Proof.
    unfold p_process_event. apply puts_try; [apply pu_delegation|]. intros _. apply puts_try.
    { apply puts_try; [apply pu_compute|]. intros; exact I. }
    intros ns. apply puts_bind; [now apply (pu_op (OPush TKel _ _))|]. intros _. apply puts_try; [exact I|]. intros ser.
    destruct (verify_signatures E ns ser se) as [s|e|]; try exact I.
    apply puts_bind; [|intros _; apply puts_bind; [now apply (pu_op (ORemove TKel _ _))|intros; exact I]].
    destruct e; try exact I. now apply (pu_op (OPush TDup _ _)).
  Qed.
  Lemma pu_vrc r : puts K (p_process_validator_receipt E r).
  Proof.
    unfold p_process_validator_receipt. apply puts_bind; [apply pu_at|]. intros [ev|].
    - apply puts_try; [apply puts_bind; [apply pu_at|intros; exact I]|]. intros kc. apply puts_try; [exact I|]. intros ser. apply puts_try; [exact I|]. intros [|]; [|exact I].
      apply puts_bind; [now apply (pu_op (OPush TRctT _ _))|]. intros; apply pu_compute.
    - apply puts_bind; [now apply (pu_op (OPush TEscT _ _))|]. intros; exact I.
  Qed.
  Lemma pu_wrc r : puts K (p_process_witness_receipt E r).
  Proof.
    unfold p_process_witness_receipt. apply puts_bind; [apply pu_at|]. intros [ev|].
    - apply puts_try; [exact I|]. intros ser. destruct (rev _); [|exact I].
      apply puts_bind; [now apply (pu_op (OPush TRctNt _ _))|]. intros; apply pu_compute.
    - apply puts_bind; [now apply (pu_op (OPush TEscNt _ _))|]. intros; apply pu_compute.
  Qed.
  (** a reply, once the identifier of its seal is numbered *)
  Definition sealed (r : SignedReply) : Prop := match sr_sig r with Transferable seal _ => K (es_prefix seal) | _ => True end.
  Lemma pu_escrow r : sealed r -> puts K (p_escrow_reply r).
  Proof.
    intros H. apply (pu_op (OPush TEscRpy _ _)). intros i [->|Hi]; [now right|]. left. unfold sealed in H. destruct (sr_sig r); [subst; exact H|contradiction].
  Qed.
  Lemma pu_after r : sealed r -> forall vr : out unit, puts K (match vr with
    | Err EOutOfOrder => let* _ := p_escrow_reply r in Ret (Err (EQuery QOutOfOrder))
    | Err e => Ret (Err e)
    | Panic => Ret Panic
    | Ok _ =>
        let*? _ := Ret (reply_check_digest E (sr_reply r)) in
        let* br := p_bada_logic r in
        let*? _ := Ret (match br with Err (EQuery QNoSavedReply) => Ok tt | x => x end) in
        let* kr := p_check_ksn E (rp_ksn (sr_reply r)) (get_signer (sr_sig r)) in
        match kr with
        | Err (EQuery QOutOfOrder) => let* _ := p_escrow_reply r in Ret (Err (EQuery QOutOfOrder))
        | Err e => Ret (Err e)
        | Panic => Ret Panic
        | Ok _ =>
            let* _ := p_update_accepted_reply r (sr_prefix r) in
            Ret (Ok (Some (ksn_state (rp_ksn (sr_reply r)))))
        end
    end).
  Proof.
    intros H [u|er|]; [|destruct er; try exact I|exact I].
    2:{ apply puts_bind; [now apply pu_escrow|]. intros; exact I. }
    apply puts_try; [exact I|]. intros _. apply puts_bind; [apply puts_bind; [apply pu_get|intros; exact I]|].
    intros br. apply puts_try; [exact I|]. intros _. apply puts_bind.
    { unfold p_check_ksn. apply puts_bind; [apply pu_at|]. intros oe. repeat (apply puts_try; [exact I|]; intros).
      apply puts_bind; [apply puts_bind; [apply pu_get|intros; exact I]|]. intros rt.
      apply puts_try; [exact I|]. intros _. apply puts_try; [apply pu_compute|]. intros os. apply puts_try; [exact I|]. intros; exact I. }
    intros kr. destruct kr as [u'|er|]; [|destruct er as [| |?| | | | |?| | | | | |q]; try exact I|exact I].
    - apply puts_bind; [|intros; exact I]. unfold p_update_accepted_reply. apply puts_bind; [apply pu_get|].
      intros [rs|]; [apply (pu_op (OPut TRpy _ _)); discriminate|apply (pu_op (OPush TRpy _ _)); exact I].
    - destruct q; try exact I. apply puts_bind; [now apply pu_escrow|]. intros; exact I.
  Qed.
End Calls.
Section Calls2.
  Context (E : Env).
  Lemma tidy_reply r s : settled s -> tidy (p_process_signed_reply E r) s.
  Proof.
    intros HS. unfold p_process_signed_reply. destruct (rp_route (sr_reply r)) as [| |aid]; try exact I. destruct (IdentifierPrefix_eq_dec _ _) as [<-|]; [|exact I].
    destruct (e_ser_reply E (sr_reply r)) as [ser|e|]; try exact I. unfold ptry at 1. cbn [pbind].
    unfold p_verify. destruct (sr_sig r) as [seal sigs|bp sg] eqn:Es.
    - unfold ptry at 1, p_keys_at_event, p_event_at_sn, p_get. cbn [pbind tidy]. split; [exact I|].
      destruct (sop_settled (OGet TKel (es_prefix seal)) s HS I) as (H1 & _ & Ht). specialize (Ht _ eq_refl).
      set (s1 := fst (sop (OGet TKel (es_prefix seal)) s)) in *.
      pose proof (pu_after E (fun i => i = es_prefix seal) r) as G. unfold sealed in G. rewrite Es in G. specialize (G eq_refl).
      apply (puts_tidy _ (fun i => i = es_prefix seal)); [|exact H1|intros i ->; exact Ht]. apply puts_bind; [|exact G].
      match goal with |- puts _ (match ?x with Ok _ => _ | Err _ => _ | Panic => _ end) => destruct x; exact I end.
    - cbn [pbind]. eapply (puts_tidy _ (fun _ => False)); [|exact HS|contradiction].
      pose proof (pu_after E (fun _ => False) r) as G. unfold sealed in G. rewrite Es in G. apply G. exact I.
  Qed.
  Lemma settled_reply r s : settled s -> settled (fst (sinterp (expand (p_process_signed_reply E r)) s)).
  Proof. intros HS. apply tidy_settled; [exact HS|now apply tidy_reply]. Qed.
  Lemma sinterp_expand_pbind {A B} (p : prog op A) (k : A -> prog op B) : forall s,
    sinterp (expand (pbind p k)) s = let (s', a) := sinterp (expand p) s in sinterp (expand (k a)) s'.
  Proof.
    induction p as [a|X o c IH]; intros s; cbn [pbind expand sinterp]; [reflexivity|]. rewrite !sinterp_pbind.
    destruct (sinterp (expand_op o) s) as [s1 x]. apply IH.
  Qed.
  Lemma settled_loop l : forall s, settled s -> settled (fst (sinterp (expand (p_escrow_loop E l)) s)).
  Proof.
    induction l as [|r l IH]; intros s HS; cbn [p_escrow_loop]; [exact HS|]. rewrite sinterp_expand_pbind.
    pose proof (settled_reply r s HS) as H1. destruct (sinterp (expand (p_process_signed_reply E r)) s) as [s1 res]. cbn [fst] in H1.
    assert (G : settled (fst (sinterp (expand (let* _ := p_do (ORemove TEscRpy (sr_prefix r) r) in p_escrow_loop E l)) s1))).
    { rewrite sinterp_expand_pbind. pose proof (tidy_settled (p_do (ORemove TEscRpy (sr_prefix r) r)) s1 H1 (conj I I)) as [H2 _].
      destruct (sinterp (expand (p_do (ORemove TEscRpy (sr_prefix r) r))) s1) as [s2 []]. now apply IH. }
    destruct res as [a|er|]; [exact G| |exact H1].
    destruct er as [| |?| | | | |?| | | | | |q]; try (apply IH; exact H1); try exact G. destruct q; try (apply IH; exact H1); exact G.
  Qed.
  Lemma settled_call c s : settled s -> settled (fst (scall E s c)).
  Proof.
    intros HS. destruct c as [m|]; cbn [scall].
    - assert (G : settled (fst (sprocess E s m))).
      { unfold sprocess. destruct m as [e|r|r|r|q]; cbn [p_process].
        1-3: (apply tidy_settled; [exact HS|]; apply (puts_tidy _ (fun _ => False)); [first [apply pu_event|apply pu_wrc|apply pu_vrc]|exact HS|contradiction]).
        - now apply settled_reply.
        - exact HS. }
      destruct (sprocess E s m). exact G.
    - assert (G : settled (fst (spass E s))).
      { unfold spass, p_process_escrow, p_do. cbn [pbind expand expand_op]. cbn [pbind sinterp prim_sem]. now apply settled_loop. }
      destruct (spass E s). exact G.
  Qed.
  Theorem settled_after cs : settled (store_after E cs).
  Proof.
    unfold store_after. generalize settled_empty. generalize sled_empty. induction cs as [|c cs IH]; intros s HS; cbn [fold_left]; [exact HS|]. apply IH. now apply settled_call.
  Qed.
End Calls2.
