(** * Prop_Answer: what happens to a witness's key state answer at the node that asked (C114). *)
From Coq Require Import ZifyBool ZifyN ZifyNat.
From Verif Require Import Base Base64 Codes NumFmt Types SpecCodec KeyConf SpecSig Version Cesr CesrProofs SpecCesr CesrProofs2 CesrProofs3 Message Keri Json JsonRead
  JsonProofs SpecJson State Db Processor Spec SpecProc SpecQuery SpecRules2 StateProofs LogProofs LogTheorems SigProofs ProcProofs QueryProofs AcceptProofs RulesProofs
  SpecKeri KeriProofs KeriProofs2 Prop_Message Prop_Keri Demo ReplyStore SpecJsonQ JsonQuery JsonProofs11 Prop_JsonQ.

(** ** The answer *)
Lemma deriv_draft tw E f n n' g b g' t r k :
  f = JSON ->
  e_deriv_reply (with_json_q tw E) (mkReply (si_new f n) (mkSAP g b) t r k)
  = e_deriv_reply (with_json_q tw E) (mkReply (si_new f n') (mkSAP g g') t r k).
Proof. intros ->. reflexivity. Qed.
Lemma answer_made tw E K b d q t1 t2 a :
  q_route q = RKsn -> works (with_json_q tw E) K (cb_cur b) ->
  process_query (with_json_q tw E) K (witness_new b d) q t1 t2 = Ok (Rep a) ->
  exists s rpy sg ser, compute_state (with_json_q tw E) d (q_i q) = Ok (Some s) /\ kc_next (st_current s) <> None
    /\ a = mkSRpy rpy (NonTransferable (ed_key (kp_pub (cb_cur b))) sg)
    /\ rp_ksn rpy = new_ksn s t1 /\ rp_route rpy = RReplyKsn (IdBasic (ed_key (kp_pub (cb_cur b)))) /\ rp_timestamp rpy = t2
    /\ si_kind (rp_info rpy) = JSON
    /\ e_ser_reply (with_json_q tw E) rpy = Ok ser /\ sig_ok (with_json_q tw E) (ed_key (kp_pub (cb_cur b))) ser sg
    /\ exists data, e_deriv_reply (with_json_q tw E) rpy = Ok data
         /\ computable (sap_code (rp_digest rpy)) /\ e_digest E (sap_code (rp_digest rpy)) data = sap_digest (rp_digest rpy).
Proof.
  intros Hq Hw H. unfold process_query in H. rewrite Hq in H. cbn [w_db witness_new] in H.
  destruct (compute_state (with_json_q tw E) d (q_i q)) as [[s|]|e|]; cbn [ounwrap obind ok_or] in H; try discriminate.
  apply obind_ok in H. destruct H as (sr & Hsr & H). assert (sr = a) by congruence. subst sr. clear H.
  unfold signed_notice in Hsr. apply obind_ok in Hsr. destruct Hsr as (rpy & Hrpy & Hsr).
  apply obind_ok in Hsr. destruct Hsr as (ser & Hser & Hsr). apply obind_ok in Hsr. destruct Hsr as (sig & Hsig & Hsr).
  assert (Ha : a = mkSRpy rpy (NonTransferable (w_prefix (witness_new b d)) (mkSSP Ed25519Sha512 sig))) by congruence. clear Hsr.
  unfold new_reply in Hrpy. apply obind_ok in Hrpy. destruct Hrpy as (b0 & Hb0 & Hrpy). cbn [digest_aborts] in Hrpy.
  assert (Er : rpy = mkReply (si_new JSON (List.length b0)) (derive (with_json_q tw E) Blake3_256 b0) t2 (RReplyKsn (IdBasic (w_prefix (witness_new b d)))) (new_ksn s t1)) by congruence.
  clear Hrpy. exists s, rpy, (mkSSP Ed25519Sha512 sig), ser. split; [reflexivity|].
  split. { intros Hn. cbn [e_deriv_reply with_json_q rp_info si_kind si_new] in Hb0. unfold reply_fields, notice_val in Hb0.
    cbn [rp_ksn new_ksn ksn_state] in Hb0. rewrite Hn in Hb0. discriminate Hb0. }
  split; [exact Ha|]. subst rpy. split; [reflexivity|]. split; [reflexivity|]. split; [reflexivity|]. split; [reflexivity|]. split; [exact Hser|]. split.
  - left. cbn [w_prefix witness_new ed_key bp_code bp_key ssp_code ssp_sig]. split; [now left|]. split; [reflexivity|].
    unfold box_sign in Hsig. cbn [w_box witness_new] in Hsig. destruct (Hw ser) as (sig' & Hs' & Hv). congruence.
  - exists b0. unfold derive. rewrite <- Hb0. split; [symmetry; now apply deriv_draft|]. split; [exact I|reflexivity].
Qed.

(** ** At the node that asked *)
Lemma taken_iff tw E cs cs' id s me r sg ser data :
  let E' := with_json_q tw E in
  let d := run E' db_empty cs in let d' := run E' db_empty cs' in
  id <> id_default -> compute_state E' d id = Ok (Some s) -> kc_next (st_current s) <> None ->
  ksn_state (rp_ksn r) = s -> rp_route r = RReplyKsn (IdBasic me) ->
  e_ser_reply E' r = Ok ser -> sig_ok E' me ser sg ->
  e_deriv_reply E' r = Ok data ->
  computable (sap_code (rp_digest r)) /\ e_digest E (sap_code (rp_digest r)) data = sap_digest (rp_digest r) ->
  (forall m, In m (log_of (log d' id)) -> exists x, e_deriv_data E' m = Ok x) ->
  ((exists d'' o, process E' d' (MKeyStateNotice (mkSRpy r (NonTransferable me sg))) = (d'', Ok o)) <->
   (exists e e', last_event (log_of (log d id)) = Some e /\ last_event (log_of (log d' id)) = Some e'
      /\ em_sn e' = em_sn e /\ digest_of_event E' e' (em_digest e))
   /\ (forall old, In old (accepted d' id) -> reply_route old = RReplyKsn (IdBasic me) ->
         (reply_time old <= ksn_timestamp (rp_ksn r))%Z /\ (reply_time old <= rp_timestamp r)%Z)).
Proof.
  intros E' d d' Hid Hs Hk Hst Hrt Hser Hsig Hdv Hdg Hx.
  assert (Hl : exists l, get_kel d id = Some l /\ l <> []).
  { unfold compute_state in Hs. destruct (get_kel d id) as [[|e l]|]; [|exists (e :: l); split; [reflexivity|discriminate]|discriminate Hs].
    exfalso. cbn in Hs. apply Hk. assert (Z : s = state_default) by congruence. rewrite Z. reflexivity. }
  destruct Hl as (l & Hl & Hne).
  pose proof (c03_prefix E' cs id l s Hid Hl Hne Hs) as Hp.
  pose proof (c01_state E' cs id l s Hid Hl Hne Hs) as Hsn.
  assert (Hlast : exists e, last_event (log_of (log d id)) = Some e /\ em_sn e = st_sn s /\ em_digest e = st_last_digest s).
  { unfold log. rewrite Hl. cbn [olist]. destruct l as [|x l _] using rev_ind; [now destruct Hne|].
    exists (sem_msg x). assert (Hle : last_event (log_of (l ++ [x])) = Some (sem_msg x)) by (rewrite log_of_app; cbn; apply last_event_snoc).
    split; [exact Hle|]. split; [|symmetry; eapply (c02_state E' cs id (l ++ [x])); eauto].
    assert (Hn : nth_error (l ++ [x]) (List.length l) = Some x) by (rewrite nth_error_app2 by lia; now rewrite Nat.sub_diag).
    rewrite (c01_sns E' cs id _ _ x Hid Hl Hn). rewrite app_length in Hsn. cbn in Hsn. lia. }
  destruct Hlast as (e & He1 & He2 & He3).
  set (a := mkSRpy r (NonTransferable me sg)).
  assert (Hap : sr_prefix a = id) by (unfold sr_prefix, a; cbn [sr_reply]; now rewrite Hst).
  transitivity (reply_allowed E' (fun i => log_of (log d' i)) (accepted d' (sr_prefix a)) a).
  { apply (reply_iff E' cs' a); [now rewrite Hap|intros seal sigs Hf; discriminate Hf|now rewrite Hap]. }
  assert (Har : reply_route a = RReplyKsn (IdBasic me)) by exact Hrt.
  unfold reply_allowed. rewrite Hap, Har. unfold supersedes, replier. cbn [a sr_sig sr_reply]. split.
  - intros (_ & _ & _ & H4 & (e' & H5 & H6 & H7)). split.
    + exists e, e'. rewrite Hst in H6, H7. rewrite He3. repeat apply conj; auto. congruence.
    + intros old Ho Hr. destruct (H4 old Ho Hr) as [H8 H9]. split; assumption.
  - intros ((e0 & e' & H1 & H2 & H3 & H4) & H5). assert (e0 = e) by congruence. subst e0.
    split; [reflexivity|]. split; [exists ser; now split|]. split; [exists data; now split|]. split.
    + intros old Ho Hr. destruct (H5 old Ho Hr) as [H8 H9]. split; assumption.
    + exists e'. rewrite Hst, <- He3, <- He2. now repeat apply conj.
Qed.

(** A witness's answer to a key state query is accepted by a node exactly when the last event of
    the identifier is, by number and digest, the same at both, and the node has not yet
    accepted an answer of that witness made after this one. *)
Theorem C114_answer_accepted_exactly :
  forall (tw : Z -> bytes) (E : Env) (K : KEnv) (b : CryptoBox) (cs cs' : list Call) (q : QueryMessage) (t1 t2 : Z) (a : SignedReply),
    let E' := with_json_q tw E in
    let witness := run E' db_empty cs in let asker := run E' db_empty cs' in
    let me := ed_key (kp_pub (cb_cur b)) in
    works E' K (cb_cur b) -> q_route q = RKsn -> q_i q <> id_default ->
    (forall m, In m (log_of (log asker (q_i q))) -> exists x, e_deriv_data E' m = Ok x) ->
    process_query E' K (witness_new b witness) q t1 t2 = Ok (Rep a) ->
    ((exists d s, process E' asker (MKeyStateNotice a) = (d, Ok s)) <->
     (exists e e', last_event (log_of (log witness (q_i q))) = Some e /\ last_event (log_of (log asker (q_i q))) = Some e'
        /\ em_sn e' = em_sn e /\ digest_of_event E' e' (em_digest e))
     /\ (forall old, In old (accepted asker (q_i q)) -> reply_route old = RReplyKsn (IdBasic me) ->
           (reply_time old <= t1)%Z /\ (reply_time old <= t2)%Z)).
Proof.
  intros tw E K b cs cs' q t1 t2 a E' d d' me Hw Hq Hid Hx Ha.
  destruct (answer_made tw E K b d q t1 t2 a Hq Hw Ha) as (s & rpy & sg & ser & H1 & H2 & -> & H4 & H5 & H6 & H7 & H8 & H9 & data & H10 & H11).
  pose proof (taken_iff tw E cs cs' (q_i q) s me rpy sg ser data Hid H1 H2) as T. cbv zeta in T. fold E' d d' in T.
  rewrite H4, H6 in T. apply T; auto.
Qed.
Print Assumptions C114_answer_accepted_exactly.
(** In particular a node with the same log, and with no later answer of the witness, takes it. *)
Theorem C114_same_log_accepts :
  forall (tw : Z -> bytes) (E : Env) (K : KEnv) (b : CryptoBox) (cs cs' : list Call) (q : QueryMessage) (t1 t2 : Z) (a : SignedReply),
    let E' := with_json_q tw E in
    let witness := run E' db_empty cs in let asker := run E' db_empty cs' in
    let me := ed_key (kp_pub (cb_cur b)) in
    works E' K (cb_cur b) -> q_route q = RKsn -> q_i q <> id_default ->
    (forall m, In m (log_of (log asker (q_i q))) -> exists x, e_deriv_data E' m = Ok x) ->
    log_of (log asker (q_i q)) = log_of (log witness (q_i q)) ->
    (forall old, In old (accepted asker (q_i q)) -> reply_route old = RReplyKsn (IdBasic me) ->
       (reply_time old <= t1)%Z /\ (reply_time old <= t2)%Z) ->
    process_query E' K (witness_new b witness) q t1 t2 = Ok (Rep a) ->
    exists d s, process E' asker (MKeyStateNotice a) = (d, Ok s).
Proof.
  intros tw E K b cs cs' q t1 t2 a E' d d' me Hw Hq Hid Hx Hl Ho Ha.
  apply (proj2 (C114_answer_accepted_exactly tw E K b cs cs' q t1 t2 a Hw Hq Hid Hx Ha)). split; [|exact Ho].
  fold E'. fold d d'. rewrite Hl.
  destruct (answer_made tw E K b d q t1 t2 a Hq Hw Ha) as (s & _ & _ & _ & H1 & H2 & _). fold E' in H1.
  unfold compute_state in H1. destruct (get_kel d (q_i q)) as [l|] eqn:El; [|discriminate H1].
  destruct l as [|x l _] using rev_ind; [exfalso; apply H2; cbn in H1; assert (Z : s = state_default) by congruence; now rewrite Z|].
  assert (Hle : last_event (log_of (log d (q_i q))) = Some (sem_msg x)).
  { unfold log. rewrite El. cbn [olist]. rewrite log_of_app. cbn. apply last_event_snoc. }
  exists (sem_msg x), (sem_msg x). repeat apply conj; auto. now left.
Qed.
Print Assumptions C114_same_log_accepts.

(** ** Over the wire *)
Lemma micros_same tw tr E m :
  reply_stable tw tr m -> si_kind (rp_info m) = JSON ->
  e_deriv_reply (with_json_q tw E) (reply_at_micros m) = e_deriv_reply (with_json_q tw E) m.
Proof.
  intros (_ & _ & (_ & _ & T1) & _ & (_ & (_ & _ & T2) & _)) Hk.
  cbn [e_deriv_reply with_json_q reply_at_micros rp_info]. rewrite Hk. f_equal.
  - unfold reply_fields, envelope_fields, notice_val, reply_at_micros.
    cbn [rp_info rp_digest rp_timestamp rp_route rp_ksn ksn_info ksn_state ksn_first_seen ksn_timestamp ksn_config]. now rewrite T1, T2.
Qed.
(** What the witness sends for an answer about a delegated identifier with small numbers is read
    by the node that asked as a reply that it accepts under the same conditions, the times cut to
    microseconds.  For the other identifiers the text cannot be read ([C95_witness_answer_unreadable])
    or is read as something else ([C95_large_numbers_change]). *)
Theorem C114_over_the_wire_partial :
  forall (hx : bytes -> option N) (tw : Z -> bytes) (tr : bytes -> option Z) (bk : bytes -> pres EventMessage) (bp : bytes -> pres ReplyMessage)
         (bq : bytes -> pres QueryMessage) (br : bytes -> pres ReceiptMessage), outside hx bk bp bq br -> reads_digits hx ->
  forall (E : Env) (K : KEnv) (b : CryptoBox) (cs cs' : list Call) (q : QueryMessage) (t1 t2 : Z) (a : SignedReply) (i : IdentifierPrefix),
    let E' := with_json_q tw E in
    let witness := run E' db_empty cs in let asker := run E' db_empty cs' in
    let me := ed_key (kp_pub (cb_cur b)) in
    works E' K (cb_cur b) -> q_route q = RKsn -> q_i q <> id_default ->
    (forall m, In m (log_of (log asker (q_i q))) -> exists x, e_deriv_data E' m = Ok x) ->
    process_query E' K (witness_new b witness) q t1 t2 = Ok (Rep a) ->
    reply_stable tw tr (sr_reply a) -> Forall (fun n => (n < 10)%N) (notice_numbers (rp_ksn (sr_reply a))) ->
    st_delegator (ksn_state (rp_ksn (sr_reply a))) = Some i -> id_stable i ->
    Forall (fun x => att_fits x /\ att_small x) (sed_atts (sed_of_reply a)) ->
  forall r, ends r ->
  exists t c a', sed_cesr (writes_all E' K) (sed_of_reply a) = Ok t
    /\ signed_message (read_event_type_q hx tr bk bp bq br) (t ++ r) = POk r c /\ to_message c = Ok (MKeyStateNotice a')
    /\ ((exists d s, process E' asker (MKeyStateNotice a') = (d, Ok s)) <->
        (exists e e', last_event (log_of (log witness (q_i q))) = Some e /\ last_event (log_of (log asker (q_i q))) = Some e'
           /\ em_sn e' = em_sn e /\ digest_of_event E' e' (em_digest e))
        /\ (forall old, In old (accepted asker (q_i q)) -> reply_route old = RReplyKsn (IdBasic me) ->
              (reply_time old <= micros t1)%Z /\ (reply_time old <= micros t2)%Z)).
Proof.
  intros hx tw tr bk bp bq br Ho Hdx E K b cs cs' q t1 t2 a i E' d d' me Hw Hq Hid Hx Ha Hst Hn Hdl Hi Hf r Hr.
  destruct (answer_made tw E K b d q t1 t2 a Hq Hw Ha) as (s & rpy & sg & ser & H1 & H2 & Ea & H4 & H5 & H6 & H7 & H8 & H9 & data & H10 & H11).
  subst a. cbn [sr_reply] in *. destruct (C95_reply_round_trip_partial hx tw tr bk bp bq br Ho Hdx E rpy i ser Hst H7 Hn Hdl Hi H8) as [Hread Hsame].
  set (r' := reply_at_micros rpy) in *.
  destruct (attachments_read (fun _ => PErr) _ Hf r Hr) as (atts & Hatts & Hmany).
  exists (ser ++ atts), (mkSED (RpyT r') [ReceiptCouplets [(me, sg)]]), (mkSRpy r' (NonTransferable me sg)).
  split. { unfold sed_cesr. cbn [sed_of_reply sed_event sed_atts sr_sig sr_reply] in *. rewrite Hatts. cbn [obind writes_all]. unfold E'. rewrite H8. reflexivity. }
  split. { unfold signed_message. rewrite <- app_assoc, Hread. cbn [pbnd]. unfold many0. rewrite Hmany by (rewrite app_length; lia). reflexivity. }
  split; [reflexivity|].
  assert (Hk' : ksn_state (rp_ksn r') = s) by (unfold r', reply_at_micros; cbn [rp_ksn ksn_state]; now rewrite H4).
  assert (Hd' : e_deriv_reply (with_json_q tw E) r' = Ok data) by (unfold r'; rewrite (micros_same tw tr E rpy Hst H7); exact H10).
  pose proof (taken_iff tw E cs cs' (q_i q) s me r' sg ser data Hid H1 H2 Hk' H5 Hsame H9 Hd' H11 Hx) as T. cbv zeta in T. fold E' d d' in T.
  assert (T1 : ksn_timestamp (rp_ksn r') = micros t1) by (unfold r', reply_at_micros; cbn [rp_ksn ksn_timestamp]; now rewrite H4).
  assert (T2 : rp_timestamp r' = micros t2) by (unfold r', reply_at_micros; cbn [rp_timestamp]; now rewrite H6).
  rewrite T1, T2 in T. exact T.
Qed.
Print Assumptions C114_over_the_wire_partial.

(** ** A query can stop the witness *)
(** A key state query about a known identifier gets no answer but a panic exactly when the
    identifier has given up rotating (it has no next keys), and for an identifier of which
    only a failed inception is known. *)
Theorem C114_query_panics_exactly :
  forall (tw : Z -> bytes) (E : Env) (K : KEnv) (b : CryptoBox) (d : Db) (q : QueryMessage) (t1 t2 : Z) (s : IdentifierState),
    let E' := with_json_q tw E in
    works E' K (cb_cur b) -> q_route q = RKsn -> compute_state E' d (q_i q) = Ok (Some s) ->
    (kc_next (st_current s) = None -> process_query E' K (witness_new b d) q t1 t2 = Panic)
    /\ (kc_next (st_current s) <> None -> exists a, process_query E' K (witness_new b d) q t1 t2 = Ok (Rep a)).
Proof.
  intros tw E K b d q t1 t2 s E' Hw Hq Hs. unfold process_query. rewrite Hq. cbn [w_db witness_new]. rewrite Hs. cbn [ounwrap obind ok_or]. split.
  - intros Hn. unfold signed_notice, new_reply, E'. cbn [e_deriv_reply with_json_q rp_info si_kind si_new].
    unfold reply_fields, notice_val. cbn [rp_ksn new_ksn ksn_state]. rewrite Hn. reflexivity.
  - intros Hn.
    assert (Hd : forall m, ksn_state (rp_ksn m) = s -> si_kind (rp_info m) = JSON -> (exists x, e_deriv_reply E' m = Ok x) /\ (exists x, e_ser_reply E' m = Ok x)).
    { intros m Hm Hk. unfold E'. cbn [e_ser_reply e_deriv_reply with_json_q]. rewrite Hk. unfold reply_val, reply_fields, notice_val. rewrite Hm.
      destruct (kc_next (st_current s)); [|now destruct Hn]. cbn [obind omap]. eauto. }
    unfold signed_notice, new_reply.
    match goal with |- context [e_deriv_reply E' ?m] => destruct (proj1 (Hd m eq_refl eq_refl)) as [x ->] end. cbn [obind digest_aborts].
    match goal with |- context [e_ser_reply E' ?m] => destruct (proj2 (Hd m eq_refl eq_refl)) as [y ->] end. cbn [obind].
    unfold box_sign. cbn [w_box witness_new]. destruct (Hw y) as (sig & -> & _). cbn [obind]. eauto.
Qed.
Print Assumptions C114_query_panics_exactly.

(** ** Examples *)
(** Boss incepts, Baby incepts under Boss, Boss anchors Baby's inception *)
From Verif Require Import Builder Prop_Build Prop_Query Prop_Rules.
Notation reply_taken := Prop_Rules.reply_taken.
Definition aenv : Env := with_json_q tw0 etoy.
Definition akenv : KEnv := with_json_k ktoy.
Definition a_build (t : EventTypeTag) (l : list Setting) : EventMessage :=
  of_ok g_dummy (build_with aenv akenv t (repeat x01 32) (repeat x02 32) l).
Definition a_signed (b : byte) (m : EventMessage) (s : option SourceSeal) : SignedEventMessage :=
  mkSEM m [mkASP 0 (mkSSP Ed25519Sha512 (repeat b 32 ++ toy_digest Blake3_256 (of_ok [] (e_ser_event aenv m))))] s.
Definition boss_icp : EventMessage := a_build TIcp [SKeys [key x51]; SNextKeys [key x52]].
Definition boss : IdentifierPrefix := em_prefix boss_icp.
Definition baby_dip : EventMessage := a_build TDip [SKeys [key x61]; SNextKeys [key x62]; SDelegator boss].
Definition baby : IdentifierPrefix := em_prefix baby_dip.
Definition boss_ixn : EventMessage :=
  a_build TIxn [SPrefix boss; SSn 1; SPrevious (em_digest boss_icp); SSeals [SealEvent (mkES baby 0 (em_digest baby_dip))]].
Definition a_calls : list Call :=
  map (fun e => CProcess (MEvent e)) [a_signed x51 boss_icp None; a_signed x51 boss_ixn None; a_signed x61 baby_dip (Some (mkSrc 1 (em_digest boss_ixn)))].
Definition a_db : Db := run aenv db_empty a_calls.
Definition a_box : CryptoBox := mkBox (pair_of x71) (pair_of x72).
Definition a_query (id : IdentifierPrefix) : QueryMessage := mkQry (mkSI 1 0 0 JSON) (mkSAP Blake3_256 []) 7 RKsn (bstr "route") id.
Definition a_answer (id : IdentifierPrefix) (t1 t2 : Z) : SignedReply :=
  match process_query aenv akenv (witness_new a_box a_db) (a_query id) t1 t2 with Ok (Rep a) => a | _ => bob_0 end.
Lemma a_works b : works aenv akenv (pair_of b).
Proof. intros msg. eexists. split; [reflexivity|]. apply bytes_eqb_refl. Qed.
Lemma a_deriv id cs : (forall m, In m (log_of (log (run aenv db_empty cs) id)) -> exists x, e_deriv_data aenv m = Ok x).
Proof. intros m _. unfold aenv. cbn [e_deriv_data with_json_q with_json etoy]. destruct (si_kind (em_info m)); eexists; reflexivity. Qed.
Example C114_example :
  process_query aenv akenv (witness_new a_box a_db) (a_query baby) 5000 7000 = Ok (Rep (a_answer baby 5000 7000))
  /\ process_query aenv akenv (witness_new a_box a_db) (a_query boss) 5000 7000 = Ok (Rep (a_answer boss 5000 7000))
  /\ reply_taken aenv a_calls (a_answer baby 5000 7000) = true
  /\ reply_taken aenv (a_calls ++ [CProcess (MKeyStateNotice (a_answer baby 5000 7000))]) (a_answer baby 4000 9000) = false
  /\ reply_taken aenv (a_calls ++ [CProcess (MKeyStateNotice (a_answer baby 5000 7000))]) (a_answer baby 8000 9000) = true
  /\ reply_taken aenv (firstn 1 a_calls) (a_answer boss 5000 7000) = false.
Proof. repeat (apply conj; [vm_compute; reflexivity|]). vm_compute. reflexivity. Qed.
Example C114_example_hypotheses :
  q_route (a_query baby) = RKsn /\ baby <> id_default /\ boss <> id_default
  /\ st_delegator (ksn_state (rp_ksn (sr_reply (a_answer baby 5000 7000)))) = Some boss
  /\ Forall (fun n => (n < 10)%N) (notice_numbers (rp_ksn (sr_reply (a_answer baby 5000 7000)))).
Proof.
  split; [reflexivity|]. split; [intros H; vm_compute in H; discriminate H|]. split; [intros H; vm_compute in H; discriminate H|].
  split; [vm_compute; reflexivity|]. unfold notice_numbers. repeat (apply Forall_cons; [apply N.ltb_lt; vm_compute; reflexivity|]). apply Forall_nil.
Qed.
Example C114_example_wire :
  reply_stable tw0 tr0 (sr_reply (a_answer baby 5000 7000)) /\ id_stable boss
  /\ Forall (fun x => att_fits x /\ att_small x) (sed_atts (sed_of_reply (a_answer baby 5000 7000)))
  /\ ends [].
Proof.
  split; [|split; [vm_compute; reflexivity|split; [|vm_compute; reflexivity]]].
  - assert (Z : exists n g h, a_answer baby 5000 7000 = mkSRpy (mkReply (mkSI 1 0 n JSON) g 7000 (RReplyKsn (IdBasic (key x71))) (mkKsn (mkSI 1 0 0 JSON) h 0 5000 []))
        (NonTransferable (key x71) (mkSSP Ed25519Sha512 (ssp_sig (match sr_sig (a_answer baby 5000 7000) with NonTransferable _ x => x | _ => mkSSP Ed25519Sha512 [] end))))
        /\ (n <=? u16_max)%N = true /\ sap_from (sap_str g) = Ok g
        /\ id_from (id_str (st_prefix h)) = Ok (st_prefix h) /\ forallb (fun p => if SAP_eq_dec (of_ok (mkSAP Blake3_256 []) (sap_from (sap_str p))) p then true else false) (state_digests h) = true
        /\ existsb (fun p => if SAP_eq_dec (mkSAP Blake3_256 []) p then true else false) (state_digests h) = false
        /\ state_keys h = [key x61] /\ kc_threshold (st_current h) = Simple 1 /\ le_sn (st_last_est h) = 0%N).
    { eexists _, _, _. split; [vm_compute; reflexivity|]. repeat (apply conj; [vm_compute; reflexivity|]). vm_compute. reflexivity. }
    destruct Z as (n & g & h & -> & Hn & Hg & Hi & Hd & Hd0 & Hk & Ht & Hl). cbn [sr_reply].
    apply N.leb_le in Hn. unfold reply_stable. cbn [rp_info rp_digest rp_timestamp rp_route rp_ksn route_ids].
    split; [split; [split; reflexivity|exact Hn]|]. split; [exact Hg|]. split; [apply kept0; lia|].
    split; [apply Forall_cons; [vm_compute; reflexivity|apply Forall_nil]|].
    unfold notice_stable. cbn [ksn_info ksn_timestamp ksn_config ksn_state]. split; [split; [split; reflexivity|apply N.leb_le; vm_compute; reflexivity]|].
    split; [apply kept0; lia|]. split; [apply Forall_nil|]. split; [exact Hi|]. split; [|split; [|split]].
    + apply Forall_forall. intros x Hx. rewrite forallb_forall in Hd. specialize (Hd x Hx).
      assert (H0 : mkSAP Blake3_256 [] <> x).
      { intros Q. assert (existsb (fun p => if SAP_eq_dec (mkSAP Blake3_256 []) p then true else false) (state_digests h) = true); [|congruence].
        apply existsb_exists. exists x. split; [exact Hx|]. destruct (SAP_eq_dec (mkSAP Blake3_256 []) x); [reflexivity|contradiction]. }
      unfold sap_stable. destruct (sap_from (sap_str x)) as [y| |]; cbn [of_ok] in Hd; destruct (SAP_eq_dec _ _) as [Q|]; try discriminate; try contradiction. now rewrite Q.
    + rewrite Hk. apply Forall_cons; [vm_compute; reflexivity|apply Forall_nil].
    + rewrite Ht. unfold threshold_readable, u64. apply N.leb_le. vm_compute. reflexivity.
    + rewrite Hl. unfold u64. apply N.leb_le. vm_compute. reflexivity.
  - assert (Z : exists sg, sed_atts (sed_of_reply (a_answer baby 5000 7000)) = [ReceiptCouplets [(key x71, mkSSP Ed25519Sha512 sg)]] /\ List.length sg = 64).
    { eexists. split; [vm_compute; reflexivity|]. vm_compute. reflexivity. }
    destruct Z as (sg & -> & Hl). apply Forall_cons; [|apply Forall_nil]. cbn [att_fits att_small]. split; [split; [cbn; lia|]|split; [cbn; lia|apply Forall_cons; [exact I|apply Forall_nil]]].
    apply Forall_cons; [|apply Forall_nil]. unfold couplet_fits. cbn [fst snd]. repeat split; auto.
Qed.
(** a stranger's inception with a wrong signature is enough *)
Example C114_example_panics :
  (match run aenv db_empty [CProcess (MEvent (a_signed x55 boss_icp None))] with d =>
   process_query aenv akenv (witness_new a_box d) (a_query boss) 5000 7000 end) = Panic
  /\ process_query aenv akenv (witness_new a_box db_empty) (a_query boss) 5000 7000 = Err (ESemantic "No id in database").
Proof. apply conj; vm_compute; reflexivity. Qed.
