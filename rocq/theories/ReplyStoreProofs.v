(** * ReplyStoreProofs: the codec of key-state notices and the tables that use it (C56, C70). *)
From Coq Require Import ZifyBool ZifyN ZifyNat.
From Verif Require Import Base Base64 Codes NumFmt NumProofs Types KeyConf State Db Processor Spec SpecProc SpecQuery
  StateProofs LogProofs ProcProofs3 QueryProofs ReplyStore.
Ltac Zify.zify_post_hook ::= Z.div_mod_to_equations.

(** ** Numbers *)
Lemma radix10 : radix 10. Proof. unfold radix. lia. Qed.
Lemma radix16 : radix 16. Proof. unfold radix. lia. Qed.
Lemma char_10_16 c d : char_digit 10 c = Some d -> char_digit 16 c = Some d /\ (d < 10)%N.
Proof.
  rewrite char_digit_any. destruct (char_digit 16 c) as [v|]; [|discriminate]. destruct (N.ltb_spec v 10); [|discriminate].
  intros H'. injection H' as <-. auto.
Qed.
Lemma rvalue_10_16 s v : rvalue 10 s = Some v ->
  exists w, rvalue 16 s = Some w /\ (v <= w)%N /\ (v < 10 -> w = v)%N /\ (10 <= v -> v < w)%N.
Proof.
  revert v. induction s as [|c s IH]; intros v; cbn [rvalue].
  - intros H; injection H as <-. exists 0%N. split; [reflexivity|]. split; [lia|]. split; lia.
  - destruct (char_digit 10 c) as [d|] eqn:Hd; [|discriminate]. destruct (rvalue 10 s) as [v'|]; [|discriminate].
    apply char_10_16 in Hd. destruct Hd as [Hd Hlt]. destruct (IH v' eq_refl) as (w' & Hw & Hle & Hs & Hb).
    intros H. assert (Hv : v = (d + 10 * v')%N) by congruence. subst v. clear H. rewrite Hd, Hw. exists (d + 16 * w')%N. split; [reflexivity|].
    assert (v' = 0 \/ 1 <= v')%N as [->|Hp] by lia.
    + assert (w' = 0)%N by (apply Hs; lia). subst w'. split; [lia|]. split; intros; lia.
    + clear Hs Hb. split; [lia|]. split; intros; lia.
Qed.
Lemma fmt_dec_rvalue n : rvalue 10 (rev_digits (S (N.size_nat n)) 10 n) = Some n.
Proof. apply rev_digits_value; [exact radix10|apply size_bound]. Qed.
Lemma read_written n : exists w,
  (n <= w)%N /\ (n < 10 -> w = n)%N /\ (10 <= n -> n < w)%N
  /\ read_number (write_number n) = (if (w <=? u64_max)%N then Ok w else Err EIntegerParse).
Proof.
  destruct (rvalue_10_16 _ _ (fmt_dec_rvalue n)) as (w & Hw & H1 & H2 & H3). exists w.
  split; [exact H1|]. split; [exact H2|]. split; [exact H3|].
  apply parse_rev in Hw. unfold read_number, write_number, fmt_dec.
  destruct (N.leb_spec w u64_max).
  - apply parse_radix_value; [exact radix16|apply fmt_ne|exact Hw|assumption].
  - unfold parse_radix. pose proof (fmt_ne 10 n) as Hne. unfold fmt_radix in *.
    set (s := rev (rev_digits (S (N.size_nat n)) 10 n)) in *.
    destruct s as [|c s']; [congruence|].
    pose proof (parse_no_plus 16 w 0 _ Hw radix16 s') as Hplus.
    assert (E : match parse_digits 16 0 (c :: s') with
                | Some n0 => if (n0 <=? u64_max)%N then Ok n0 else Err EIntegerParse
                | None => Err EIntegerParse end = Err EIntegerParse).
    { rewrite Hw. replace (w <=? u64_max)%N with false by lia. reflexivity. }
    destruct c; try exact E. congruence.
Qed.
Lemma number_iff n : (n <= u64_max)%N -> (read_number (write_number n) = Ok n <-> (n < 10)%N).
Proof.
  intros Hn. destruct (read_written n) as (w & H1 & H2 & H3 & ->). split.
  - intros H. destruct (N.leb_spec w u64_max); [|discriminate H]. injection H as ->.
    destruct (N.lt_ge_cases n 10); [assumption|]. specialize (H3 H). lia.
  - intros H. rewrite (H2 H). replace (n <=? u64_max)%N with true by lia. reflexivity.
Qed.
Lemma number_wrong n w : read_number (write_number n) = Ok w -> (10 <= n)%N -> (n < w)%N.
Proof.
  destruct (read_written n) as (w' & H1 & H2 & H3 & ->). destruct (w' <=? u64_max)%N; [|discriminate].
  intros H; injection H as <-. exact H3.
Qed.

(** ** Delegators, instants, notices *)
Lemma no_delegator : read_delegator (write_delegator None) = Err (EDeserialize "Empty prefix").
Proof. reflexivity. Qed.
Lemma delegator_iff o : read_delegator (write_delegator o) = Ok o <-> exists i, o = Some i /\ id_from (id_str i) = Ok i.
Proof.
  destruct o as [i|].
  - unfold read_delegator, write_delegator. split.
    + intros H. exists i. split; [reflexivity|]. destruct (id_from (id_str i)); try discriminate H. cbn in H. congruence.
    + intros (j & Hj & H). injection Hj as <-. rewrite H. reflexivity.
  - rewrite no_delegator. split; [discriminate|]. intros (i & H & _). discriminate H.
Qed.
Lemma instant_iff t : write_instant t = t <-> (t mod 1000 = 0)%Z.
Proof. unfold write_instant. lia. Qed.

Definition u64s (k : KeyStateNotice) : Prop :=
  (st_sn (ksn_state k) <= u64_max /\ ksn_first_seen k <= u64_max /\ st_tally (ksn_state k) <= u64_max)%N.
Lemma notice_iff k : u64s k ->
  reread_notice k = Ok k <->
  (exists n, kc_next (st_current (ksn_state k)) = Some n)
  /\ (st_sn (ksn_state k) < 10 /\ ksn_first_seen k < 10 /\ st_tally (ksn_state k) < 10)%N
  /\ (exists i, st_delegator (ksn_state k) = Some i /\ id_from (id_str i) = Ok i)
  /\ (ksn_timestamp k mod 1000 = 0)%Z.
Proof.
  intros (U1 & U2 & U3). unfold reread_notice. destruct k as [info s f t cfg]. cbn [ksn_state ksn_first_seen ksn_timestamp ksn_info ksn_config] in *.
  destruct s as [p sn ld lp lt cur bt ws di le]. cbn [st_prefix st_sn st_last_digest st_last_previous st_last_type st_current st_tally st_witnesses st_delegator st_last_est] in *.
  destruct (kc_next cur) as [n|]; [|split; [discriminate|intros [[n H] _]; discriminate H]].
  split.
  - intros H. apply obind_ok in H. destruct H as (sn' & E1 & H). apply obind_ok in H. destruct H as (f' & E2 & H).
    apply obind_ok in H. destruct H as (bt' & E3 & H). apply obind_ok in H. destruct H as (di' & E4 & H).
    injection H as -> -> -> -> Ht.
    apply number_iff in E1; [|exact U1]. apply number_iff in E2; [|exact U2]. apply number_iff in E3; [|exact U3].
    split; [eauto|]. split; [auto|]. split; [now apply delegator_iff|]. now apply instant_iff.
  - intros (_ & (E1 & E2 & E3) & E4 & E5). apply number_iff in E1; [|exact U1]. apply number_iff in E2; [|exact U2].
    apply number_iff in E3; [|exact U3]. apply delegator_iff in E4. apply instant_iff in E5.
    rewrite E1. cbn [obind]. rewrite E2. cbn [obind]. rewrite E3. cbn [obind]. rewrite E4. cbn [obind]. rewrite E5. reflexivity.
Qed.
(** a notice about an identifier without delegator is never read *)
Lemma notice_no_delegator k : st_delegator (ksn_state k) = None -> forall k', reread_notice k <> Ok k'.
Proof.
  intros Hd k'. unfold reread_notice. rewrite Hd, no_delegator.
  destruct (kc_next _); [|discriminate]. destruct (read_number (write_number (st_sn _))); cbn [obind]; try discriminate.
  destruct (read_number (write_number (ksn_first_seen _))); cbn [obind]; try discriminate.
  destruct (read_number (write_number (st_tally _))); cbn [obind]; discriminate.
Qed.
Lemma read_number_np s : read_number s <> Panic.
Proof.
  unfold read_number, parse_radix. cbv zeta. destruct (match s with "+"%byte :: s' => s' | _ => s end); [discriminate|].
  destruct (parse_digits _ _ _); [|discriminate]. destruct (_ <=? _)%N; discriminate.
Qed.
Lemma notice_no_delegator_err k : st_delegator (ksn_state k) = None -> kc_next (st_current (ksn_state k)) <> None ->
  exists e, reread_notice k = Err e.
Proof.
  intros Hd Hn. unfold reread_notice. rewrite Hd, no_delegator.
  destruct (kc_next _); [|congruence].
  destruct (read_number (write_number (st_sn (ksn_state k)))) eqn:E1; cbn [obind]; [|eauto|now apply read_number_np in E1].
  destruct (read_number (write_number (ksn_first_seen k))) eqn:E2; cbn [obind]; [|eauto|now apply read_number_np in E2].
  destruct (read_number (write_number (st_tally (ksn_state k)))) eqn:E3; cbn [obind]; [|eauto|now apply read_number_np in E3]. eauto.
Qed.

(** ** Tables of replies that read back unchanged *)
Definition storable (r : SignedReply) : Prop := reread r = Ok r.
Lemma storable_writable r : storable r -> writable r = true.
Proof.
  unfold storable, reread, reread_notice, writable. destruct (kc_next _); [reflexivity|discriminate].
Qed.
Lemma reread_all_storable l : Forall storable l -> reread_all l = Ok l.
Proof.
  induction 1 as [|r l H _ IH]; [reflexivity|]. cbn [reread_all]. rewrite H, IH. reflexivity.
Qed.
Lemma reread_all_in l r e : In r l -> reread r = Err e -> forall l', reread_all l <> Ok l'.
Proof.
  induction l as [|x l IH]; [intros []|]. intros [<-|Hin] He l'; cbn [reread_all].
  - rewrite He. discriminate.
  - destruct (reread x); cbn [obind]; try discriminate. destruct (reread_all l) as [l0| |] eqn:Hl; cbn [obind]; try discriminate.
    exfalso. now apply (IH Hin He l0).
Qed.
Definition clean (t : table SignedReply) : Prop := Forall (fun x => Forall storable (snd x)) t.
Definition Clean (d : Db) : Prop := clean (db_rpy d) /\ clean (db_esc_rpy d).
Lemma clean_get t id l : clean t -> tget t id = Some l -> Forall storable l.
Proof.
  unfold tget. induction t as [|[k v] t IH]; intros Hc; [discriminate|]. inversion Hc as [|? ? H1 H2]; subst. cbn.
  destruct (IdentifierPrefix_eq_dec id k); [intros H; injection H as <-; exact H1|now apply IH].
Qed.
Lemma clean_put t id l : clean t -> Forall storable l -> clean (tput t id l).
Proof.
  unfold tput. intros Hc Hl. induction t as [|[k v] t IH]; cbn; [constructor; [exact Hl|constructor]|].
  inversion Hc as [|? ? H1 H2]; subst. destruct (IdentifierPrefix_eq_dec id k); constructor; auto. now apply IH.
Qed.
Lemma put_get t id (l : list SignedReply) : tget t id = Some l -> tput t id l = t.
Proof.
  unfold tget, tput. induction t as [|[k v] t IH]; [discriminate|]. cbn.
  destruct (IdentifierPrefix_eq_dec id k) as [->|]; [intros H; injection H as <-; reflexivity|].
  intros H. f_equal. now apply IH.
Qed.
Lemma put_put t id (l l' : list SignedReply) : tput (tput t id l) id l' = tput t id l'.
Proof.
  unfold tput. induction t as [|[k v] t IH]; cbn; [destruct (IdentifierPrefix_eq_dec id id); congruence|].
  destruct (IdentifierPrefix_eq_dec id k) as [->|]; cbn.
  - destruct (IdentifierPrefix_eq_dec k k); congruence.
  - destruct (IdentifierPrefix_eq_dec id k); [congruence|]. now rewrite IH.
Qed.
Lemma push_clean t id r : clean t -> storable r -> push t id r = Ok (tpush t id r).
Proof.
  intros Hc Hr. unfold push, tpush. rewrite (storable_writable _ Hr). destruct (tget t id) as [l|] eqn:Hg; [|reflexivity].
  rewrite (reread_all_storable l) by (eapply clean_get; eauto). reflexivity.
Qed.
Lemma clean_push t id r : clean t -> storable r -> clean (tpush t id r).
Proof.
  intros Hc Hr. unfold tpush. destruct (tget t id) as [l|] eqn:Hg; apply clean_put; auto.
  apply Forall_app. split; [eapply clean_get; eauto|auto].
Qed.
Lemma clean_remove t id r : clean t -> clean (tremove srpy_eqb t id r).
Proof.
  intros Hc. unfold tremove. destruct (tget t id) as [l|] eqn:Hg; [|exact Hc]. apply clean_put; [exact Hc|].
  apply (clean_get _ _ _ Hc) in Hg. rewrite Forall_forall in *. intros x Hx. apply filter_In in Hx. apply Hg, Hx.
Qed.
Lemma remove_clean t id r : clean t -> remove t id r = Ok (tremove srpy_eqb t id r).
Proof.
  intros Hc. unfold remove, tremove. destruct (tget t id) as [l|] eqn:Hg; [|reflexivity].
  rewrite (reread_all_storable l) by (eapply clean_get; eauto). reflexivity.
Qed.
Lemma as_read_clean d id : clean (db_rpy d) -> as_read d id = Ok d.
Proof.
  intros Hc. unfold as_read, iter_values. destruct (tget (db_rpy d) id) as [l|] eqn:Hg; [|reflexivity].
  rewrite (reread_all_storable l) by (eapply clean_get; eauto). rewrite (put_get _ _ _ Hg). now destruct d.
Qed.

Section WithEnv.
  Context (E : Env).
  Lemma put_off_clean d r : Clean d -> storable r -> put_off_s d r = (escrow_reply d r, Err (EQuery QOutOfOrder)).
  Proof.
    intros [_ Hc] Hr. unfold put_off_s, escrow_reply_s. rewrite (push_clean _ _ _ Hc Hr). reflexivity.
  Qed.
  Lemma reply_same d r : Clean d -> storable r -> process_signed_reply_s E d r = process_signed_reply E d r.
  Proof.
    intros Hd Hr. pose proof Hd as [Hc _]. unfold process_signed_reply_s, process_signed_reply.
    destruct (rp_route (sr_reply r)) as [| |aid]; try reflexivity. destruct (IdentifierPrefix_eq_dec _ _); [|reflexivity].
    destruct (e_ser_reply E (sr_reply r)) as [ser| |]; try reflexivity. rewrite (put_off_clean d r Hd Hr).
    destruct (proc_verify E d ser (sr_sig r)) as [u|er|]; try reflexivity.
    destruct (reply_check_digest E (sr_reply r)) as [u'|er|]; cbn [obind]; try reflexivity.
    rewrite (as_read_clean _ _ Hc). unfold update_accepted_reply_s. rewrite (storable_writable _ Hr), (as_read_clean _ _ Hc).
    reflexivity.
  Qed.
  Lemma Clean_reply d r : Clean d -> storable r -> Clean (fst (process_signed_reply E d r)).
  Proof.
    intros [H1 H2] Hr. destruct (reply_cases E d r) as [->|[->| ->]]; [split; assumption| |].
    - split; [exact H1|]. now apply clean_push.
    - unfold update_accepted_reply. destruct (tget (db_rpy d) (sr_prefix r)) as [l|] eqn:Hg; split; try exact H2; cbn [db_rpy set_rpy].
      + apply clean_put; [exact H1|]. apply Forall_app. split; [|auto]. apply (clean_get _ _ _ H1) in Hg.
        rewrite Forall_forall in *. intros x Hx. apply filter_In in Hx. apply Hg, Hx.
      + now apply clean_push.
  Qed.
  Lemma Clean_remove d id r : Clean d -> Clean (remove_escrowed_reply d id r).
  Proof. intros [H1 H2]. split; [exact H1|]. now apply clean_remove. Qed.
  Lemma entry_same l d : Clean d -> Forall storable l -> escrow_entry_s E l d = process_escrow_loop E l d
    /\ Clean (fst (process_escrow_loop E l d)).
  Proof.
    intros Hd Hl. revert d Hd. induction Hl as [|r l Hr Hl IH]; intros d Hd; [split; [reflexivity|exact Hd]|].
    cbn [escrow_entry_s process_escrow_loop]. rewrite (reply_same d r Hd Hr). pose proof (Clean_reply d r Hd Hr) as Hc.
    destruct (process_signed_reply E d r) as [d1 res]. cbn [fst] in Hc.
    assert (G : forall d2, Clean d2 -> escrow_entry_s E l d2 = process_escrow_loop E l d2 /\ Clean (fst (process_escrow_loop E l d2))) by exact IH.
    assert (R : match remove (db_esc_rpy d1) (sr_prefix r) r with
                | Ok t => escrow_entry_s E l (set_esc_rpy d1 t)
                | _ => (d1, Panic)
                end = process_escrow_loop E l (remove_escrowed_reply d1 (sr_prefix r) r)
                /\ Clean (fst (process_escrow_loop E l (remove_escrowed_reply d1 (sr_prefix r) r)))).
    { destruct Hc as [Hc1 Hc2]. rewrite (remove_clean _ _ _ Hc2). apply (G (remove_escrowed_reply d1 (sr_prefix r) r)).
      apply Clean_remove. split; assumption. }
    destruct res as [a|e|]; [exact R| |split; [reflexivity|exact Hc]].
    destruct e as [ | | | | | | | | | | | | |q]; try exact R; try (now apply G). destruct q; try exact R; now apply G.
  Qed.
  Lemma loop_app l1 l2 d :
    process_escrow_loop E (l1 ++ l2) d
    = match process_escrow_loop E l1 d with (d1, Ok _) => process_escrow_loop E l2 d1 | x => x end.
  Proof.
    revert d. induction l1 as [|r l1 IH]; intros d; [reflexivity|]. cbn [app]. rewrite !escrow_loop_cons.
    destruct (snd (process_signed_reply E d r)); [apply IH|apply IH|reflexivity].
  Qed.
  Lemma pass_same t d : Clean d -> Forall (Forall storable) t -> escrow_pass_s E t d = process_escrow_loop E (List.concat t) d.
  Proof.
    intros Hd Ht. revert d Hd. induction Ht as [|l t Hl Ht IH]; intros d Hd; [reflexivity|].
    cbn [escrow_pass_s List.concat]. rewrite (reread_all_storable l Hl), loop_app.
    destruct (entry_same l d Hd Hl) as [-> Hc]. destruct (process_escrow_loop E l d) as [d1 [u|e|]]; [|reflexivity..].
    now apply IH.
  Qed.
  Lemma escrow_same d : Clean d -> process_escrow_s E d = process_escrow E d.
  Proof.
    intros Hd. unfold process_escrow_s, process_escrow, get_all_escrowed_replys. rewrite flat_map_concat_map.
    apply pass_same; [exact Hd|]. destruct Hd as [_ Hc]. unfold all_entries, clean in *. rewrite Forall_map. exact Hc.
  Qed.

  (** ** Unreadable entries *)
  (** a reply that passes the checks made before the table is read *)
  Definition authentic (d : Db) (r : SignedReply) : Prop :=
    rp_route (sr_reply r) = RReplyKsn (get_signer (sr_sig r))
    /\ (exists ser, e_ser_reply E (sr_reply r) = Ok ser /\ proc_verify E d ser (sr_sig r) = Ok tt)
    /\ reply_check_digest E (sr_reply r) = Ok tt.
  Lemma unread_panics d r l :
    authentic d r -> tget (db_rpy d) (sr_prefix r) = Some l -> (forall l', reread_all l <> Ok l') ->
    process_signed_reply_s E d r = (d, Panic).
  Proof.
    intros (Hr & (ser & Hs & Hv) & Hd) Hg Hl. unfold process_signed_reply_s. rewrite Hr.
    destruct (IdentifierPrefix_eq_dec _ _) as [_|]; [|congruence]. rewrite Hs, Hv, Hd.
    unfold as_read, iter_values. rewrite Hg. destruct (reread_all l) as [l'| |]; [now destruct (Hl l')|reflexivity|reflexivity].
  Qed.
  Lemma accept_s d r d' res :
    process_signed_reply_s E d r = (d', Ok res) -> exists l, tget (db_rpy d') (sr_prefix r) = Some (l ++ [r]).
  Proof.
    unfold process_signed_reply_s. destruct (rp_route (sr_reply r)) as [| |aid]; try discriminate.
    destruct (IdentifierPrefix_eq_dec _ _); [|discriminate]. destruct (e_ser_reply _ _); try discriminate.
    assert (Hno : forall x, put_off_s d r <> (d', Ok x)).
    { intros x. unfold put_off_s. destruct (escrow_reply_s d r) as [d1 [| |]]; discriminate. }
    destruct (proc_verify _ _ _ _) as [u|er|]; [|destruct er; try discriminate; intros H; now destruct (Hno res)|discriminate].
    destruct (reply_check_digest _ _); try discriminate. destruct (as_read d (sr_prefix r)) as [v| |] eqn:Hv; try discriminate.
    destruct (match bada_logic v r with Err (EQuery QNoSavedReply) => Ok tt | x => x end); try discriminate.
    destruct (check_ksn _ _ _ _) as [u'|er|]; [| |discriminate].
    2:{ destruct er as [ | | | | | | | | | | | | |q]; try discriminate. destruct q; try discriminate. intros H; now destruct (Hno res). }
    unfold update_accepted_reply_s. rewrite Hv. destruct (writable r); [|discriminate]. cbn [obind].
    intros H. injection H as <- _. unfold update_accepted_reply. destruct (tget (db_rpy v) (sr_prefix r)) as [l|] eqn:Hl; cbn [db_rpy set_rpy].
    - rewrite tget_tput. destruct (IdentifierPrefix_eq_dec _ _); [|congruence]. eauto.
    - rewrite tget_tpush_same, Hl. cbn. exists []. reflexivity.
  Qed.
  Lemma reread_no_delegator r : st_delegator (ksn_state (rp_ksn (sr_reply r))) = None -> writable r = true -> exists e, reread r = Err e.
  Proof.
    intros Hd Hw. destruct (notice_no_delegator_err (rp_ksn (sr_reply r)) Hd) as [e He].
    { unfold writable in Hw. now destruct (kc_next _). }
    exists e. unfold reread. rewrite He. reflexivity.
  Qed.
  Lemma no_delegator_unread l r : st_delegator (ksn_state (rp_ksn (sr_reply r))) = None -> forall l', reread_all (l ++ [r]) <> Ok l'.
  Proof.
    intros Hd l'. destruct (writable r) eqn:Hw.
    - destruct (reread_no_delegator r Hd Hw) as [e He]. eapply reread_all_in; [|exact He]. apply in_or_app. right. now left.
    - assert (Hp : reread r = Panic).
      { unfold reread, reread_notice. unfold writable in Hw. destruct (kc_next _); [discriminate|reflexivity]. }
      revert l'. induction l as [|x l IH]; intros l'; cbn [app reread_all]; [rewrite Hp; discriminate|].
      destruct (reread x); cbn [obind]; try discriminate. destruct (reread_all (l ++ [r])) as [l0| |]; cbn [obind]; try discriminate.
      now destruct (IH l0).
  Qed.
  Lemma c70_accept d r d' res r2 :
    process_signed_reply_s E d r = (d', Ok res) -> st_delegator (ksn_state (rp_ksn (sr_reply r))) = None ->
    sr_prefix r2 = sr_prefix r -> authentic d' r2 ->
    process_signed_reply_s E d' r2 = (d', Panic).
  Proof.
    intros H Hd Hp Ha. destruct (accept_s _ _ _ _ H) as [l Hl]. eapply unread_panics; [exact Ha|rewrite Hp; exact Hl|].
    now apply no_delegator_unread.
  Qed.
  (** a pass panics when any entry of the escrow cannot be read *)
  Lemma pass_panics t l d : In l t -> (forall l', reread_all l <> Ok l') -> snd (escrow_pass_s E t d) = Panic.
  Proof.
    intros Hin Hl. revert d. induction t as [|l0 t IH]; intros d; [destruct Hin|]. cbn [escrow_pass_s].
    destruct (reread_all l0) as [l'| |] eqn:H0; [|reflexivity|reflexivity].
    assert (Hr : forall l d, match snd (escrow_entry_s E l d) with Err _ => False | _ => True end).
    { clear. induction l as [|r l IH]; intros d; [exact I|]. cbn [escrow_entry_s].
      destruct (process_signed_reply_s E d r) as [d1 [a|e|]]; [| |exact I].
      - destruct (remove _ _ _); [apply IH|exact I|exact I].
      - destruct e as [ | | | | | | | | | | | | |q]; try apply IH; try (destruct (remove _ _ _); [apply IH|exact I|exact I]).
        destruct q; try apply IH. destruct (remove _ _ _); [apply IH|exact I|exact I]. }
    specialize (Hr l' d). destruct (escrow_entry_s E l' d) as [d1 [u|e|]]; [|destruct Hr|reflexivity].
    apply IH. destruct Hin as [->|Hin]; [now destruct (Hl l')|exact Hin].
  Qed.
  Lemma put_off_entry d r d' : put_off_s d r = (d', Err (EQuery QOutOfOrder)) -> exists l, tget (db_esc_rpy d') (sr_prefix r) = Some (l ++ [r]).
  Proof.
    unfold put_off_s, escrow_reply_s, push. destruct (writable r); [|discriminate].
    destruct (tget (db_esc_rpy d) (sr_prefix r)) as [l|].
    - destruct (reread_all l) as [l'| |]; intros H; try discriminate H; injection H as <-; cbn [db_esc_rpy set_esc_rpy]; rewrite tget_tput;
        (destruct (IdentifierPrefix_eq_dec _ _); [|congruence]); eauto. exists []. reflexivity.
    - intros H; injection H as <-; cbn [db_esc_rpy set_esc_rpy]; rewrite tget_tput.
      destruct (IdentifierPrefix_eq_dec _ _); [|congruence]. exists []. reflexivity.
  Qed.
  Lemma tget_in {T} (t : table T) id l : tget t id = Some l -> In l (map snd t).
  Proof.
    unfold tget. induction t as [|[k v] t IH]; [discriminate|]. cbn. destruct (IdentifierPrefix_eq_dec id k); [intros H; injection H as <-; now left|].
    intros H. right. now apply IH.
  Qed.
  Lemma c70_escrow d r d' :
    put_off_s d r = (d', Err (EQuery QOutOfOrder)) -> st_delegator (ksn_state (rp_ksn (sr_reply r))) = None ->
    snd (process_escrow_s E d') = Panic.
  Proof.
    intros H Hd. destruct (put_off_entry _ _ _ H) as [l Hl]. unfold process_escrow_s. eapply pass_panics; [eapply tget_in; exact Hl|].
    now apply no_delegator_unread.
  Qed.
  (** escrowing on top of an unreadable entry erases it *)
  Lemma c70_lost d r d' r2 d2 :
    tget (db_esc_rpy d) (sr_prefix r) = None ->
    put_off_s d r = (d', Err (EQuery QOutOfOrder)) -> st_delegator (ksn_state (rp_ksn (sr_reply r))) = None ->
    sr_prefix r2 = sr_prefix r -> put_off_s d' r2 = (d2, Err (EQuery QOutOfOrder)) ->
    tget (db_esc_rpy d2) (sr_prefix r) = Some [r2].
  Proof.
    intros Hg H Hd Hp H2.
    assert (Hw : writable r = true) by (unfold put_off_s, escrow_reply_s, push in H; destruct (writable r); [reflexivity|discriminate H]).
    assert (Hw2 : writable r2 = true) by (unfold put_off_s, escrow_reply_s, push in H2; destruct (writable r2); [reflexivity|discriminate H2]).
    unfold put_off_s, escrow_reply_s, push in H. rewrite Hw, Hg in H. injection H as <-.
    destruct (reread_no_delegator r Hd Hw) as [e He].
    unfold put_off_s, escrow_reply_s, push in H2. rewrite Hw2, Hp in H2. cbn [db_esc_rpy set_esc_rpy] in H2.
    rewrite tget_tput in H2. destruct (IdentifierPrefix_eq_dec _ _) as [_|]; [|congruence].
    cbn [reread_all] in H2. rewrite He in H2. cbn [obind] in H2. injection H2 as <-. cbn [db_esc_rpy set_esc_rpy].
    rewrite tget_tput. destruct (IdentifierPrefix_eq_dec _ _); [reflexivity|congruence].
  Qed.
End WithEnv.
