(** * WholeProofs2: how much a store holds, and repeated deliveries. *)
From Coq Require Import Lia.
From Verif Require Import Base Base64 Codes NumFmt Types KeyConf SpecSig State Db Processor Spec SpecProc
  StateProofs LogProofs LogTheorems ProcProofs ProcProofs2 ProcProofs3 SpecQuery QueryProofs SpecWhole.

Lemma contents_tput {T} (t : table T) id l :
  List.length (contents (tput t id l)) + List.length (olist (tget t id)) = List.length (contents t) + List.length l.
Proof.
  unfold contents, tput, tget. induction t as [|[k v] t IH]; cbn [aput aget flat_map snd olist List.length]; [rewrite app_nil_r; lia|].
  destruct (IdentifierPrefix_eq_dec id k); cbn [flat_map snd olist]; rewrite !app_length; [lia|]. lia.
Qed.
Lemma contents_tpush {T} (t : table T) id x : List.length (contents (tpush t id x)) = S (List.length (contents t)).
Proof.
  unfold tpush. destruct (tget t id) as [l|] eqn:H.
  - pose proof (contents_tput t id (l ++ [x])) as K. rewrite H, app_length in K. cbn in K. lia.
  - pose proof (contents_tput t id [x]) as K. rewrite H in K. cbn in K. lia.
Qed.
Lemma filter_length_le {A} (f : A -> bool) l : List.length (filter f l) <= List.length l.
Proof. induction l as [|x l IH]; cbn; [lia|]. destruct (f x); cbn; lia. Qed.
Lemma contents_tremove {T} eqb (t : table T) id x : List.length (contents (tremove eqb t id x)) <= List.length (contents t).
Proof.
  unfold tremove. destruct (tget t id) as [l|] eqn:H; [|lia].
  pose proof (contents_tput t id (filter (fun e => negb (eqb e x)) l)) as K. rewrite H in K. cbn in K.
  pose proof (filter_length_le (fun e => negb (eqb e x)) l). lia.
Qed.

Ltac recs := unfold records, set_kel, set_dup, set_rct_nt, set_esc_nt, set_rct_t, set_esc_t, set_rpy, set_esc_rpy;
  cbn [db_kel db_ldup db_dup db_rct_nt db_esc_nt db_rct_t db_esc_t db_rpy db_esc_rpy fst].
Section WithEnv.
  Variable E : Env.
  Lemma records_reply d r :
    records (fst (process_signed_reply E d r)) <= S (records d)
    /\ List.length (contents (db_esc_rpy (fst (process_signed_reply E d r)))) <= S (List.length (contents (db_esc_rpy d))).
  Proof.
    destruct (reply_cases E d r) as [-> |[-> | ->]].
    - lia.
    - unfold escrow_reply, add_escrowed_reply. recs. rewrite contents_tpush. lia.
    - unfold update_accepted_reply. destruct (tget (db_rpy d) (sr_prefix r)) as [l|] eqn:H; recs; [|rewrite contents_tpush; lia].
      match goal with |- context [tput (db_rpy d) ?i ?l1] => pose proof (contents_tput (db_rpy d) i l1) as K end.
      rewrite H, app_length in K. cbn in K.
      match type of K with context [filter ?f l] => pose proof (filter_length_le f l) end. lia.
  Qed.
  Lemma records_process d m : records (fst (process E d m)) <= S (records d).
  Proof.
    destruct m as [se|r|r|r|q]; cbn [process].
    - assert (A : records (add_kel d se (em_prefix (sem_msg se))) = S (records d)).
      { unfold add_kel. recs. rewrite contents_tpush. lia. }
      destruct (process_event_cases E d se) as [(x & -> & _)|(ns & _ & _ & [(ser & _ & _ & ->)|[(x & -> & _)|(e & ser & _ & -> & _)]])]; cbn [fst]; try lia.
      enough (records (remove_kel (add_kel d se (em_prefix (sem_msg se))) (em_prefix (sem_msg se)) se) <= records (add_kel d se (em_prefix (sem_msg se)))) by lia.
      generalize (add_kel d se (em_prefix (sem_msg se))). intros d1. unfold remove_kel. recs.
      pose proof (contents_tremove sem_eqb (db_kel d1) (em_prefix (sem_msg se)) se). lia.
    - unfold process_witness_receipt. destruct (get_event_at_sn _ _ _).
      + destruct (e_ser_signed E s); cbn [fst]; try lia. destruct (rev _); cbn [fst]; [|lia]. unfold add_receipt_nt. recs. rewrite contents_tpush. lia.
      + cbn [fst]. unfold add_escrow_nt. recs. rewrite contents_tpush. lia.
    - unfold process_validator_receipt. destruct (get_event_at_sn _ _ _).
      + destruct (obind _ _) as [[|]| |]; cbn [fst]; try lia. unfold add_receipt_t. recs. rewrite contents_tpush. lia.
      + cbn [fst]. unfold add_escrow_t. recs. rewrite contents_tpush. lia.
    - apply records_reply.
    - cbn [fst]. lia.
  Qed.
  Lemma records_remove d id r :
    records (remove_escrowed_reply d id r) <= records d.
  Proof.
    unfold remove_escrowed_reply. recs. pose proof (contents_tremove srpy_eqb (db_esc_rpy d) id r). lia.
  Qed.
  Lemma records_loop l : forall d, records (fst (process_escrow_loop E l d)) <= List.length l + records d.
  Proof.
    induction l as [|r l IH]; intros d; cbn [process_escrow_loop List.length]; [cbn; lia|].
    pose proof (proj1 (records_reply d r)) as H. destruct (process_signed_reply E d r) as [d1 res]. cbn [fst] in H.
    assert (A : records (fst (process_escrow_loop E l d1)) <= S (List.length l) + records d) by (specialize (IH d1); lia).
    assert (B : records (fst (process_escrow_loop E l (remove_escrowed_reply d1 (sr_prefix r) r))) <= S (List.length l) + records d).
    { pose proof (records_remove d1 (sr_prefix r) r). specialize (IH (remove_escrowed_reply d1 (sr_prefix r) r)). lia. }
    destruct res as [|e|]; [exact B| |cbn; lia]. destruct e; try exact A; try exact B. destruct q; try exact A; exact B.
  Qed.
  Lemma records_escrow d : records (fst (process_escrow E d)) <= records d + List.length (contents (db_esc_rpy d)).
  Proof. unfold process_escrow. pose proof (records_loop (get_all_escrowed_replys d) d) as H. unfold get_all_escrowed_replys, contents in *. lia. Qed.
  Lemma records_run cs : forall d, records (run E d cs) <= (records d + messages cs) * 2 ^ passes cs.
  Proof.
    induction cs as [|c cs IH]; intros d; [cbn; lia|]. change (run E d (c :: cs)) with (run E (call E d c) cs). specialize (IH (call E d c)).
    assert (P : 1 <= 2 ^ passes cs) by (apply Nat.neq_0_lt_0, Nat.pow_nonzero; lia).
    destruct c as [m|]; unfold messages, passes in *; cbn [filter List.length call] in *.
    - pose proof (records_process d m) as H. etransitivity; [exact IH|]. apply Nat.mul_le_mono_r. lia.
    - pose proof (records_escrow d) as H. etransitivity; [exact IH|]. cbn [Nat.pow].
      assert (List.length (contents (db_esc_rpy d)) <= records d) by (unfold records; lia).
      set (k := 2 ^ _) in *. set (m := List.length _) in *. rewrite (Nat.mul_comm 2 k), Nat.mul_assoc.
      rewrite (Nat.mul_comm (_ * k) 2), Nat.mul_assoc. apply Nat.mul_le_mono_r. lia.
  Qed.

  (** *** Delivering an event again *)
  Lemma tput_same {T} (t : table T) id l : tget t id = Some l -> tput t id l = t.
  Proof.
    unfold tget, tput. induction t as [|[k v] t IH]; cbn; [discriminate|]. destruct (IdentifierPrefix_eq_dec id k) as [->|]; [now intros [= ->]|].
    intros H. now rewrite IH.
  Qed.
  Lemma tput_twice {T} (t : table T) id l l' : tput (tput t id l) id l' = tput t id l'.
  Proof.
    unfold tput. induction t as [|[k v] t IH]; cbn; [destruct (IdentifierPrefix_eq_dec id id); congruence|].
    destruct (IdentifierPrefix_eq_dec id k) as [->|]; cbn; [destruct (IdentifierPrefix_eq_dec k k); congruence|].
    destruct (IdentifierPrefix_eq_dec id k); [congruence|]. now rewrite IH.
  Qed.
  (** A refused event leaves the store with its log rewritten as it was. *)
  Lemma remove_added_db d se ns :
    Inv E d -> em_prefix (sem_msg se) <> id_default -> apply_to_state E d (sem_msg se) = Ok ns ->
    let id := em_prefix (sem_msg se) in
    remove_kel (add_kel d se id) id se = set_kel d (tput (db_kel d) id (olist (get_kel d id))).
  Proof.
    intros HI Hid Ha id. pose proof (remove_added E d se ns HI Hid Ha) as R. fold id in R.
    unfold remove_kel, add_kel. cbn [db_kel set_kel]. unfold set_kel. cbn. f_equal.
    unfold tremove, get_kel in *. rewrite tget_tpush. destruct (IdentifierPrefix_eq_dec id id); [|congruence].
    rewrite R. unfold tpush. destruct (tget (db_kel d) id); cbn [olist]; apply tput_twice.
  Qed.
  Lemma again_event cs se d1 res :
    em_prefix (sem_msg se) <> id_default -> (forall m x, e_ser_event E m <> Err x) -> res <> Panic ->
    process E (run E db_empty cs) (MEvent se) = (d1, res) -> fst (process E d1 (MEvent se)) = d1.
  Proof.
    intros Hid Hser Hp H. set (d := run E db_empty cs) in *. assert (HI : Inv E d) by apply Inv_reachable.
    cbn [process] in H. pose proof (process_event_cases E d se) as C. cbv zeta in C.
    destruct C as [(x & C & _)|(ns & Hc & Ha & C)].
    { rewrite C in H. injection H as <- <-. cbn [process]. now rewrite C. }
    destruct C as [(ser & _ & _ & C)|[(x & C & _ & C2 & C3)|(e & ser & He & C & Hv)]]; rewrite C in H; injection H as <- <-.
    - replace (add_kel d se (em_prefix (sem_msg se))) with (run E db_empty (cs ++ [CProcess (MEvent se)])).
      2:{ rewrite run_app. cbn. fold d. now rewrite C. }
      apply c24_refused; [exact Hid|]. rewrite run_app. cbn. fold d. rewrite C. cbn [fst]. unfold log. rewrite get_kel_add.
      destruct (IdentifierPrefix_eq_dec _ _); [|congruence]. cbn [olist]. rewrite app_length. cbn [List.length].
      destruct (N.eq_dec (em_sn (sem_msg se)) (N.of_nat (List.length (log d (em_prefix (sem_msg se)))))) as [En|Hne].
      + unfold log in En. rewrite En. lia.
      + destruct (c24_refused E cs se Hid Hne) as [_ K]. exfalso. apply (K (Some ns)). cbn [process]. fold d. now rewrite C.
    - exfalso. destruct (e_ser_event E (sem_msg se)) as [ser|e|] eqn:He.
      + destruct (C2 ser eq_refl) as [-> _]. congruence.
      + eapply Hser; eauto.
      + destruct x as [os|e|]; [|destruct (Hser (sem_msg se) e); rewrite He; now apply C3|congruence].
        revert C. unfold process_event. rewrite Hc, Ha, He. discriminate.
    - rewrite (remove_added_db d se ns HI Hid Ha). set (id := em_prefix (sem_msg se)) in *.
      set (d1 := set_kel d _). cbn [process].
      assert (K : get_kel d1 id = Some (olist (get_kel d id))).
      { unfold d1, get_kel, set_kel. cbn [db_kel]. rewrite tget_tput. destruct (IdentifierPrefix_eq_dec id id); [reflexivity|congruence]. }
      assert (I1 : Inv E d1).
      { intros i l Hi Hl. destruct (IdentifierPrefix_eq_dec i id) as [->|Hne].
        - rewrite K in Hl. injection Hl as <-. destruct (get_kel d id) as [l|] eqn:Hl; [now apply HI|]. exists state_default. now apply good_log_nil.
        - unfold d1, get_kel, set_kel in Hl. cbn [db_kel] in Hl. rewrite tget_tput in Hl. destruct (IdentifierPrefix_eq_dec i id); [congruence|]. now apply HI. }
      pose proof (process_event_cases E d1 se) as C1. cbv zeta in C1. fold id in C1.
      assert (Ha1 : apply_to_state E d1 (sem_msg se) = Ok ns).
      { unfold apply_to_state in *. fold id in Ha |- *. unfold compute_state in *. rewrite K. destruct (get_kel d id) as [l|]; [exact Ha|]. exact Ha. }
      destruct C1 as [(x & C1 & _)|(ns1 & _ & Ha1' & C1)]; [now rewrite C1|].
      rewrite Ha1 in Ha1'. injection Ha1' as <-.
      destruct C1 as [(ser1 & Hs1 & Hk1 & C1)|[(x & C1 & _ & C2 & C3)|(e1 & ser1 & _ & C1 & _)]].
      + exfalso. rewrite He in Hs1. injection Hs1 as <-. unfold verify_signatures in Hv. rewrite Hk1 in Hv. discriminate Hv.
      + exfalso. destruct (C2 ser He) as [_ C2']. unfold verify_signatures in Hv. rewrite C2' in Hv. discriminate Hv.
      + rewrite C1. cbn [fst]. unfold id. rewrite (remove_added_db d1 se ns I1 Hid Ha1). fold id. rewrite K. cbn [olist].
        unfold set_kel. rewrite (tput_same (db_kel d1) id) by exact K. now destruct d1.
  Qed.

  (** *** Delivering a reply again *)
  Lemma update_twice d r id : update_accepted_reply (update_accepted_reply d r id) r id = update_accepted_reply d r id.
  Proof.
    set (d1 := update_accepted_reply d r id).
    set (f := fun s => if Route_eq_dec (rp_route (sr_reply s)) (rp_route (sr_reply r)) then false else true).
    assert (F : f r = false) by (unfold f; destruct (Route_eq_dec _ _); congruence).
    assert (K : exists l, tget (db_rpy d1) id = Some (filter f l ++ [r])).
    { unfold d1, update_accepted_reply. fold f. destruct (tget (db_rpy d) id) as [l|] eqn:H.
      - exists l. unfold set_rpy. cbn [db_rpy]. rewrite tget_tput. destruct (IdentifierPrefix_eq_dec id id); congruence.
      - exists []. unfold set_rpy. cbn [db_rpy]. rewrite tget_tpush, H. destruct (IdentifierPrefix_eq_dec id id); [reflexivity|congruence]. }
    destruct K as [l K]. unfold update_accepted_reply. rewrite K. fold f.
    assert (G : filter f (filter f l ++ [r]) ++ [r] = filter f l ++ [r]).
    { rewrite filter_app. cbn [filter]. rewrite F, app_nil_r. f_equal. clear K. induction l as [|x l IH]; [reflexivity|]. cbn [filter].
      destruct (f x) eqn:Hx; [|exact IH]. cbn [filter]. rewrite Hx. now rewrite IH. }
    rewrite G, (tput_same _ _ _ K). now destruct d1.
  Qed.
  Lemma update_kel d r id : db_kel (update_accepted_reply d r id) = db_kel d.
  Proof. unfold update_accepted_reply. destruct (tget _ _); reflexivity. Qed.
  Lemma event_at_kel d d' id sn : db_kel d' = db_kel d -> get_event_at_sn d' id sn = get_event_at_sn d id sn.
  Proof. unfold get_event_at_sn, get_kel. now intros ->. Qed.
  Lemma keys_at_kel d d' id sn g : db_kel d' = db_kel d -> get_keys_at_event E d' id sn g = get_keys_at_event E d id sn g.
  Proof. intros K. unfold get_keys_at_event. now rewrite (event_at_kel d d' _ _ K). Qed.
  Lemma after_ok (X X' : out unit) (rest : out unit) e :
    obind X (fun _ => rest) = Ok tt -> X' <> Err (EQuery QOutOfOrder) -> obind X' (fun _ => rest) = Err e -> e <> EQuery QOutOfOrder.
  Proof.
    intros H N. destruct X; try discriminate H. cbn [obind] in H. rewrite H. destruct X'; cbn [obind]; [discriminate| |discriminate].
    intros [= ->] ->. now apply N.
  Qed.
  Lemma again_reply d r d1 res :
    process E d (MKeyStateNotice r) = (d1, res) -> res <> Err (EQuery QOutOfOrder) -> fst (process E d1 (MKeyStateNotice r)) = d1.
  Proof.
    cbn [process]. intros H Hn. pose proof H as H0. apply (reply_outcome E) in H.
    destruct H as [(HA & Hd & Hr)|[(_ & Hr & _)|(-> & _)]]; [|now rewrite Hr in Hn|now rewrite H0].
    destruct HA as (A1 & (ser & A2 & A3) & A4 & A5 & A6).
    assert (K : db_kel d1 = db_kel d) by (rewrite Hd; apply update_kel).
    destruct (process_signed_reply E d1 r) as [d2 res2] eqn:H2. cbn [fst]. pose proof H2 as H3. apply (reply_outcome E) in H2.
    destruct H2 as [(_ & -> & _)|[(Hesc & _ & _)|(-> & _)]]; [|exfalso|reflexivity].
    { rewrite Hd. apply update_twice. }
    assert (K' : forall i, get_kel d1 i = get_kel d i) by (intros i; unfold get_kel; now rewrite K).
    assert (V : proc_verify E d1 ser (sr_sig r) = Ok tt).
    { rewrite <- A3. unfold proc_verify. destruct (sr_sig r) as [seal sigs|bp sg]; [|reflexivity].
      now rewrite (keys_at_kel d d1 _ _ _ K). }
    assert (W : forall e, check_ksn E d1 (rp_ksn (sr_reply r)) (replier r) = Err e -> e <> EQuery QOutOfOrder).
    { unfold check_ksn in *. rewrite (event_at_kel d d1 _ _ K). destruct (ok_or (get_event_at_sn d _ _) _) as [ev| |]; try discriminate A6. cbn [obind] in *.
      destruct (check_digest E (sem_msg ev) _) as [b| |]; try discriminate A6. cbn [obind] in *. destruct (ok_if b EIncorrectDigest); try discriminate A6. cbn [obind] in *.
      rewrite (compute_state_ext E d d1 _ (K' _)). intros e. refine (after_ok _ _ _ e A6 _).
      destruct (check_timestamp_with_last_ksn d1 _ _ _) as [| [ | | | | | | | | | | | | |[]] |]; discriminate. }
    revert H3. unfold process_signed_reply. unfold reply_route in A1. rewrite A1. rewrite signer_replier.
    destruct (IdentifierPrefix_eq_dec (replier r) (replier r)) as [_|]; [|congruence]. rewrite A2, V, A4. cbn [obind].
    assert (Ne : d1 <> escrow_reply d1 r) by apply escrow_ne.
    destruct (match bada_logic d1 r with Err (EQuery QNoSavedReply) => Ok tt | x => x end) as [u|er|]; [|intros [= -> _]; contradiction..].
    destruct (check_ksn E d1 (rp_ksn (sr_reply r)) (replier r)) as [u'|er|] eqn:Hk; [| |intros [= -> _]; contradiction].
    - intros [= X _]. apply (f_equal (fun d => List.length (contents (db_esc_rpy d)))) in X. rewrite Hesc in X.
      revert X. unfold escrow_reply, add_escrowed_reply, set_esc_rpy. cbn [db_esc_rpy]. rewrite contents_tpush.
      unfold update_accepted_reply. destruct (tget _ _); unfold set_rpy; cbn [db_esc_rpy]; lia.
    - specialize (W er eq_refl). destruct er as [ | | | | | | | | | | | | |[]]; try (intros [= -> _]; contradiction). congruence.
  Qed.

  (** *** Delivering a receipt again *)
  Lemma receipt_step m d :
    is_receipt m = true -> records d < records (fst (process E d m)) ->
    forall d', db_kel d' = db_kel d -> records (fst (process E d' m)) = S (records d') /\ db_kel (fst (process E d' m)) = db_kel d.
  Proof.
    intros Hm H d' K. destruct m as [se|r|r|r|q]; try discriminate Hm.
    - split; [|rewrite process_other_kel by discriminate; exact K]. revert H. cbn [process]. unfold process_witness_receipt. rewrite (event_at_kel d d' _ _ K).
      destruct (get_event_at_sn d _ _).
      + destruct (e_ser_signed E s); cbn [fst]; try lia. destruct (rev _); cbn [fst]; try lia. intros _. unfold add_receipt_nt. recs. rewrite contents_tpush. lia.
      + intros _. unfold add_escrow_nt. recs. rewrite contents_tpush. lia.
    - split; [|rewrite process_other_kel by discriminate; exact K]. revert H. cbn [process]. unfold process_validator_receipt. rewrite (event_at_kel d d' _ _ K), (keys_at_kel d d' _ _ _ K).
      destruct (get_event_at_sn d _ _).
      + destruct (obind _ _) as [[|]| |]; cbn [fst]; try lia. intros _. unfold add_receipt_t. recs. rewrite contents_tpush. lia.
      + intros _. unfold add_escrow_t. recs. rewrite contents_tpush. lia.
  Qed.
  Lemma again_receipt m d n :
    is_receipt m = true -> records d < records (fst (process E d m)) -> records (run E d (repeat (CProcess m) n)) = records d + n.
  Proof.
    intros Hm H. enough (G : forall d', db_kel d' = db_kel d -> records (run E d' (repeat (CProcess m) n)) = records d' + n) by now apply G.
    induction n as [|n IH]; intros d' K; [cbn; lia|]. change (run E d' (repeat (CProcess m) (S n))) with (run E (fst (process E d' m)) (repeat (CProcess m) n)).
    destruct (receipt_step m d Hm H d' K) as [A B]. rewrite (IH _ B), A. lia.
  Qed.
  Lemma again_escrowed r d n :
    process E d (MKeyStateNotice r) = (add_escrowed_reply d r (sr_prefix r), Err (EQuery QOutOfOrder)) ->
    records (run E d (repeat (CProcess (MKeyStateNotice r)) n)) = records d + n.
  Proof.
    cbn [process]. intros H. fold (escrow_reply d r) in H.
    enough (G : forall d', db_kel d' = db_kel d -> db_rpy d' = db_rpy d -> records (run E d' (repeat (CProcess (MKeyStateNotice r)) n)) = records d' + n) by now apply G.
    induction n as [|n IH]; intros d' K R; [cbn; lia|].
    change (run E d' (repeat (CProcess (MKeyStateNotice r)) (S n))) with (run E (fst (process_signed_reply E d' r)) (repeat (CProcess (MKeyStateNotice r)) n)).
    assert (P : put_off E d' r) by (eapply put_off_same; [exact K|exact R|exact H]). unfold put_off in P.
    rewrite P. cbn [fst]. rewrite IH; [|exact K|exact R]. unfold escrow_reply, add_escrowed_reply. recs. rewrite contents_tpush. lia.
  Qed.
End WithEnv.
