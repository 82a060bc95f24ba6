(** * PassProofs: the order in which an escrow pass meets the identifiers is immaterial. *)
From Coq Require Import Permutation.
From Verif Require Import Base Base64 Codes NumFmt Types KeyConf State Db Processor Prog Spec SpecProc LogProofs.

Section S.
  Context (E : Env).
  (** the two stores look the same to replies about [id] *)
  Record alike (id : IdentifierPrefix) (d d' : Db) : Prop := {
    a_kel : db_kel d' = db_kel d;
    a_rpy : tget (db_rpy d') id = tget (db_rpy d) id;
    a_esc : tget (db_esc_rpy d') id = tget (db_esc_rpy d) id }.
  Lemma alike_refl id d : alike id d d.
  Proof. now split. Qed.
  Lemma alike_trans id a b c : alike id a b -> alike id b c -> alike id a c.
  Proof. intros [A1 A2 A3] [B1 B2 B3]. split; congruence. Qed.
  Lemma alike_sym id a b : alike id a b -> alike id b a.
  Proof. intros [A1 A2 A3]. now split. Qed.

  Lemma update_alike_other id d r i : i <> id -> alike i d (update_accepted_reply d r id).
  Proof.
    intros H. unfold update_accepted_reply. destruct (tget (db_rpy d) id) eqn:Hg; split; try reflexivity; cbn [set_rpy db_rpy].
    - rewrite tget_tput. destruct (IdentifierPrefix_eq_dec _ _); congruence.
    - rewrite tget_tpush. destruct (IdentifierPrefix_eq_dec _ _); congruence.
  Qed.
  Lemma update_alike d d' r : alike (sr_prefix r) d d' ->
    alike (sr_prefix r) (update_accepted_reply d r (sr_prefix r)) (update_accepted_reply d' r (sr_prefix r)).
  Proof.
    intros [A1 A2 A3]. unfold update_accepted_reply. rewrite A2. destruct (tget (db_rpy d) _) eqn:Hg; split; try assumption; cbn [set_rpy db_rpy].
    - rewrite !tget_tput. destruct (IdentifierPrefix_eq_dec _ _); congruence.
    - rewrite !tget_tpush. destruct (IdentifierPrefix_eq_dec _ _); congruence.
  Qed.
  Lemma escrow_alike_other r d i : i <> sr_prefix r -> alike i d (escrow_reply d r).
  Proof.
    intros H. split; try reflexivity. unfold escrow_reply, add_escrowed_reply. cbn [set_esc_rpy db_esc_rpy].
    rewrite tget_tpush. destruct (IdentifierPrefix_eq_dec _ _); congruence.
  Qed.
  Lemma escrow_alike r d d' : alike (sr_prefix r) d d' -> alike (sr_prefix r) (escrow_reply d r) (escrow_reply d' r).
  Proof.
    intros [A1 A2 A3]. split; try assumption. unfold escrow_reply, add_escrowed_reply. cbn [set_esc_rpy db_esc_rpy].
    rewrite !tget_tpush. destruct (IdentifierPrefix_eq_dec _ _); congruence.
  Qed.
  Lemma remove_alike_other r d i : i <> sr_prefix r -> alike i d (remove_escrowed_reply d (sr_prefix r) r).
  Proof.
    intros H. split; try reflexivity. unfold remove_escrowed_reply. cbn [set_esc_rpy db_esc_rpy].
    rewrite tget_tremove. destruct (IdentifierPrefix_eq_dec _ _); congruence.
  Qed.
  Lemma remove_alike r d d' : alike (sr_prefix r) d d' ->
    alike (sr_prefix r) (remove_escrowed_reply d (sr_prefix r) r) (remove_escrowed_reply d' (sr_prefix r) r).
  Proof.
    intros [A1 A2 A3]. split; try assumption. unfold remove_escrowed_reply. cbn [set_esc_rpy db_esc_rpy].
    rewrite !tget_tremove. destruct (IdentifierPrefix_eq_dec _ _); [|congruence]. now rewrite A3.
  Qed.

  Lemma proc_verify_kel d d' ser sg : db_kel d' = db_kel d -> proc_verify E d' ser sg = proc_verify E d ser sg.
  Proof.
    intros H. unfold proc_verify, get_keys_at_event, get_event_at_sn, get_kel. now rewrite H.
  Qed.
  Lemma bada_ext d d' r : alike (sr_prefix r) d d' -> bada_logic d' r = bada_logic d r.
  Proof. intros [A1 A2 A3]. unfold bada_logic, get_accepted_replys. now rewrite A2. Qed.
  Lemma ksn_ext d d' r aid : alike (sr_prefix r) d d' -> check_ksn E d' (rp_ksn (sr_reply r)) aid = check_ksn E d (rp_ksn (sr_reply r)) aid.
  Proof.
    intros [A1 A2 A3]. unfold check_ksn. fold (sr_prefix r). unfold check_timestamp_with_last_ksn, get_accepted_replys. rewrite A2.
    unfold compute_state, get_event_at_sn, get_kel. now rewrite A1.
  Qed.
  Lemma reply_ext d d' r : alike (sr_prefix r) d d' ->
    snd (process_signed_reply E d' r) = snd (process_signed_reply E d r)
    /\ alike (sr_prefix r) (fst (process_signed_reply E d r)) (fst (process_signed_reply E d' r)).
  Proof.
    intros A. unfold process_signed_reply. destruct (rp_route (sr_reply r)) as [| |aid]; try (split; [reflexivity|exact A]).
    destruct (IdentifierPrefix_eq_dec _ _); [|split; [reflexivity|exact A]].
    destruct (e_ser_reply E (sr_reply r)) as [ser| |]; try (split; [reflexivity|exact A]).
    rewrite (proc_verify_kel d d' _ _ (a_kel _ _ _ A)).
    destruct (proc_verify E d ser (sr_sig r)) as [u|er|]; [| |split; [reflexivity|exact A]].
    2: { destruct er; try (split; [reflexivity|exact A]). split; [reflexivity|]. now apply escrow_alike. }
    rewrite (bada_ext d d' r A). destruct (obind _ _) as [u'| |]; try (split; [reflexivity|exact A]).
    rewrite (ksn_ext d d' r aid A). destruct (check_ksn E d _ aid) as [u2|er|]; [| |split; [reflexivity|exact A]].
    - split; [reflexivity|]. now apply update_alike.
    - destruct er as [ | | | | | | | | | | | | |q]; try (split; [reflexivity|exact A]).
      destruct q; try (split; [reflexivity|exact A]). split; [reflexivity|]. now apply escrow_alike.
  Qed.
  Lemma reply_other d r i : i <> sr_prefix r -> alike i d (fst (process_signed_reply E d r)).
  Proof.
    intros Hi. unfold process_signed_reply. destruct (rp_route (sr_reply r)) as [| |aid]; try apply alike_refl.
    destruct (IdentifierPrefix_eq_dec _ _); [|apply alike_refl].
    destruct (e_ser_reply E (sr_reply r)) as [ser| |]; try apply alike_refl.
    destruct (proc_verify E d ser (sr_sig r)) as [u|er|]; [| |apply alike_refl].
    2: { destruct er; try apply alike_refl. now apply escrow_alike_other. }
    destruct (obind _ _) as [u'| |]; try apply alike_refl.
    destruct (check_ksn E d _ aid) as [u2|er|]; [| |apply alike_refl].
    - now apply update_alike_other.
    - destruct er as [ | | | | | | | | | | | | |q]; try apply alike_refl. destruct q; try apply alike_refl. now apply escrow_alike_other.
  Qed.

  (** one entry of a pass *)
  Definition drops (res : out (option IdentifierState)) : bool :=
    match res with Ok _ | Err ESignatureVerification | Err (EQuery QStaleRpy) => true | _ => false end.
  Definition pass_step (d : Db) (r : SignedReply) : Db :=
    let (d1, res) := process_signed_reply E d r in if drops res then remove_escrowed_reply d1 (sr_prefix r) r else d1.
  Lemma loop_cons r l d :
    process_escrow_loop E (r :: l) d =
    if is_panic (snd (process_signed_reply E d r)) then (fst (process_signed_reply E d r), Panic)
    else process_escrow_loop E l (pass_step d r).
  Proof.
    cbn [process_escrow_loop]. unfold pass_step. destruct (process_signed_reply E d r) as [d1 [os|er|]]; cbn [fst snd is_panic drops]; try reflexivity.
    destruct er as [ | | | | | | | | | | | | |q]; try reflexivity. destruct q; reflexivity.
  Qed.
  Lemma step_other d r i : i <> sr_prefix r -> alike i d (pass_step d r).
  Proof.
    intros Hi. pose proof (reply_other d r i Hi) as H. unfold pass_step. destruct (process_signed_reply E d r) as [d1 res]. cbn [fst] in H.
    destruct (drops res); [|exact H]. eapply alike_trans; [exact H|]. now apply remove_alike_other.
  Qed.
  Lemma step_ext d d' r : alike (sr_prefix r) d d' ->
    snd (process_signed_reply E d' r) = snd (process_signed_reply E d r) /\ alike (sr_prefix r) (pass_step d r) (pass_step d' r).
  Proof.
    intros A. destruct (reply_ext d d' r A) as (H1 & H2). split; [exact H1|]. unfold pass_step.
    destruct (process_signed_reply E d r) as [d1 res], (process_signed_reply E d' r) as [d1' res']. cbn [fst snd] in *. subst res'.
    destruct (drops res); [|exact H2]. now apply remove_alike.
  Qed.

  Definition about (id : IdentifierPrefix) (l : list SignedReply) : list SignedReply :=
    filter (fun r => if IdentifierPrefix_eq_dec (sr_prefix r) id then true else false) l.
  Lemma about_cons id r l : about id (r :: l) = (if IdentifierPrefix_eq_dec (sr_prefix r) id then [r] else []) ++ about id l.
  Proof. unfold about. cbn [filter]. destruct (IdentifierPrefix_eq_dec _ _); reflexivity. Qed.

  (** what a pass does to the replies about [id] is what the pass over those alone does *)
  Lemma loop_part id l : forall d d0 d', alike id d d0 -> process_escrow_loop E l d = (d', Ok tt) ->
    exists d0', process_escrow_loop E (about id l) d0 = (d0', Ok tt) /\ alike id d' d0'.
  Proof.
    induction l as [|r l IH]; intros d d0 d' A H.
    - cbn in H. injection H as <-. exists d0. split; [reflexivity|exact A].
    - rewrite loop_cons in H. destruct (is_panic _) eqn:Hp; [discriminate H|]. rewrite about_cons.
      destruct (IdentifierPrefix_eq_dec (sr_prefix r) id) as [<-|Hne].
      + destruct (step_ext d d0 r A) as (H1 & H2). cbn [app]. rewrite loop_cons, H1, Hp. now apply (IH (pass_step d r)).
      + cbn [app]. apply (IH (pass_step d r)); [|exact H]. eapply alike_trans; [apply alike_sym, step_other; congruence|exact A].
  Qed.
  Lemma loop_whole l : forall d,
    (forall id, exists d0 d0', alike id d d0 /\ process_escrow_loop E (about id l) d0 = (d0', Ok tt)) ->
    exists d', process_escrow_loop E l d = (d', Ok tt).
  Proof.
    induction l as [|r l IH]; intros d H; [exists d; reflexivity|]. rewrite loop_cons.
    destruct (H (sr_prefix r)) as (d0 & d0' & A & Hl). rewrite about_cons in Hl.
    destruct (IdentifierPrefix_eq_dec _ _) as [_|Hn]; [|now destruct Hn]. cbn [app] in Hl. rewrite loop_cons in Hl.
    destruct (step_ext d d0 r A) as (H1 & H2). rewrite H1 in Hl. destruct (is_panic _) eqn:Hp; [discriminate Hl|].
    apply IH. intros id. destruct (IdentifierPrefix_eq_dec id (sr_prefix r)) as [->|Hne]; [eauto|].
    destruct (H id) as (d1 & d1' & A1 & Hl1). rewrite about_cons in Hl1. destruct (IdentifierPrefix_eq_dec _ _) as [He|_]; [congruence|].
    exists d1, d1'. split; [|exact Hl1]. eapply alike_trans; [apply alike_sym, step_other; exact Hne|exact A1].
  Qed.
  (** two orders that agree on every identifier *)
  Lemma loop_order l l' d d' :
    (forall id, about id l = about id l') -> process_escrow_loop E l d = (d', Ok tt) ->
    exists d2, process_escrow_loop E l' d = (d2, Ok tt) /\ forall id, alike id d' d2.
  Proof.
    intros Hl H.
    destruct (loop_whole l' d) as (d2 & H2).
    { intros id. destruct (loop_part id l d d d' (alike_refl id d) H) as (d0' & H0 & _). rewrite Hl in H0. exists d, d0'.
      split; [apply alike_refl|exact H0]. }
    exists d2. split; [exact H2|]. intros id.
    destruct (loop_part id l d d d' (alike_refl id d) H) as (a & Ha & A1).
    destruct (loop_part id l' d d d2 (alike_refl id d) H2) as (b & Hb & A2).
    rewrite <- Hl, Ha in Hb. injection Hb as <-. eapply alike_trans; [exact A1|]. now apply alike_sym.
  Qed.
End S.
