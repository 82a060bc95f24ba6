(** * Queries and key state replies as JSON on the wire (feature [query]): C94, C95. *)
From Coq Require Import ZifyBool ZifyN ZifyNat.
From Verif Require Import Base Base64 Base64Proofs Codes NumFmt NumProofs Types SpecCodec CodecProofs CodecProofs2 KeyConf Version Cesr CesrProofs SpecCesr CesrProofs2 CesrProofs3 Message Keri Json JsonRead JsonProofs SpecJson JsonProofs2 JsonProofs3 JsonProofs4 JsonProofs5 JsonProofs6 JsonProofs7 JsonProofs10 Prop_Version Prop_Message Prop_Json Prop_Json2
  State Db Processor Spec StateProofs SpecKeri KeriProofs KeriProofs2 Prop_Keri Demo ReplyStore ReplyStoreProofs SpecJsonQ JsonQuery JsonProofs11.
Notation json := Json.json.

(** what a node with the feature knows from outside: hex numbers, instants, and CBOR and
    MessagePack readers that refuse text *)
Definition outside (hx : bytes -> option N) (bk : bytes -> pres EventMessage) (bp : bytes -> pres ReplyMessage)
    (bq : bytes -> pres QueryMessage) (br : bytes -> pres ReceiptMessage) : Prop :=
  reads_hex hx /\ refuses_text bk /\ refuses_text bp /\ refuses_text bq /\ refuses_text br.
Definition refused {A} (p : bytes -> pres A) t : Prop := forall r, p (t ++ r) = PErr.
Lemma opened {A} (p : bytes -> pres A) l : l <> [] -> refuses_text p -> refused p (json (VMap l)).
Proof. intros H [_ Hp] r. destruct (obj_opens l H) as [t ->]. change (bstr "{""") with (bstr "{" ++ bstr """"). rewrite <- !app_assoc. apply Hp. Qed.
Lemma query_opened {A} (p : bytes -> pres A) tw q : refuses_text p -> refused p (json (query_val tw q)).
Proof. intros H. apply opened; [discriminate|exact H]. Qed.

Lemma as_sap_stable d : sap_readable d -> sap_stable d.
Proof. intros [H1 H2]. unfold sap_stable. rewrite c42 by assumption. rewrite H2. destruct d; reflexivity. Qed.
Lemma as_id_stable d : id_readable d -> id_stable d.
Proof. intros (H1 & H2 & H3). unfold id_stable. rewrite c44 by assumption. now rewrite H3. Qed.

Section Read.
  Context (hx : bytes -> option N) (tr : bytes -> option Z) (bk : bytes -> pres EventMessage) (bp : bytes -> pres ReplyMessage)
    (bq : bytes -> pres QueryMessage) (br : bytes -> pres ReceiptMessage) (Ho : outside hx bk bp bq br) (tw : Z -> bytes).
  Lemma plain_q : forall q, Forall (fun kv : bytes * jval => plain_key (fst kv))
    [(bstr "dt", JStr (tw (q_timestamp q))); (bstr "r", JStr (route_str (q_route q))); (bstr "rr", JStr (q_reply_route q)); (bstr "q", JObj [(bstr "i", JStr (id_str (q_i q)))])].
  Proof. intros q. repeat (constructor; [repeat split|]). constructor. Qed.
  Lemma plain_r : forall m a, Forall (fun kv : bytes * jval => plain_key (fst kv))
    [(bstr "dt", JStr (tw (rp_timestamp m))); (bstr "r", JStr (route_str (rp_route m))); (bstr "a", a)].
  Proof. intros m a. repeat (constructor; [repeat split|]). constructor. Qed.
  Lemma query_back q r : query_stable tw tr q ->
    read_event_type_q hx tr bk bp bq br (json (query_val tw q) ++ r) = POk r (QryT (query_at_micros q)).
  Proof.
    intros (Hv & Hd & Ht & Hr & Hrr & Hi). destruct Ho as (Hhx & Hbk & Hbp & Hbq & Hbr).
    unfold read_event_type_q, palt at 1, key_event_message, palt at 1.
    rewrite query_result by (apply Ht || assumption). rewrite version_back by assumption. cbn [custom obind].
    destruct (key_event_refuses hx (q_info q) (JStr (bstr "qry")) (JStr (sap_str (q_digest q))) _ (ex_intro _ _ (as_sap_st _ Hd)) (plain_q q)) as [e ->]. cbn [to_pres].
    rewrite (query_opened bk tw q Hbk r). cbn [pmap]. unfold palt at 1, reply_message, palt at 1.
    rewrite query_result by (apply Ht || assumption). rewrite version_back by assumption. cbn [custom obind].
    assert (R : exists e, read_reply hx tr (q_info q) [(bstr "t", JStr (bstr "qry")); (bstr "d", JStr (sap_str (q_digest q))); (bstr "dt", JStr (tw (q_timestamp q)));
              (bstr "r", JStr (route_str (q_route q))); (bstr "rr", JStr (q_reply_route q)); (bstr "q", JObj [(bstr "i", JStr (id_str (q_i q)))])] = Err e).
    { unfold read_reply. erewrite (envelope_text tw tr); [|assumption|assumption|assumption|reflexivity|reflexivity]. cbn [obind]. eexists. reflexivity. }
    destruct R as [e' ->]. cbn [to_pres]. rewrite (query_opened bp tw q Hbp r). cbn [pmap]. unfold palt at 1, query_message, palt at 1.
    rewrite query_result by (apply Ht || assumption). rewrite version_back by assumption. cbn [custom obind].
    rewrite (query_text tw tr) by assumption. reflexivity.
  Qed.
  Lemma reply_got m t r : reply_stable tw tr m -> reads_digits hx -> omap json (reply_val tw m) = Ok t ->
    read_event_type_q hx tr bk bp bq br (t ++ r)
    = match reread_notice (rp_ksn m) with
      | Ok k => POk r (RpyT (mkReply (rp_info m) (rp_digest m) (micros (rp_timestamp m)) (rp_route m) k))
      | Err _ => PErr | Panic => PPanic end.
  Proof.
    intros (Hv & Hd & Ht & Hr & Hk) Hdx Et. destruct Ho as (Hhx & Hbk & Hbp & Hbq & Hbr).
    assert (Ha : exists a, notice_val tw (rp_ksn m) = Ok a).
    { unfold reply_val, reply_fields in Et. destruct (notice_val tw (rp_ksn m)); [eauto|discriminate|discriminate]. }
    destruct Ha as [a Ha].
    pose proof (fun D read => reply_result (D := D) read tw m a r (proj1 Ht) (proj1 (proj1 (proj2 Hk))) (proj1 (proj2 (proj2 Hk))) Ha) as R.
    set (l := head_fields _ _ _ ++ _) in R. assert (t = json (VMap l)) by (destruct (R unit (fun _ _ => Ok tt)) as [R1 _]; congruence). subst t.
    assert (Hl : l <> []) by (subst l; discriminate).
    unfold read_event_type_q, palt at 1, key_event_message, palt at 1.
    rewrite (proj2 (R _ _)). rewrite version_back by assumption. cbn [custom obind].
    destruct (key_event_refuses hx (rp_info m) (JStr (bstr "rpy")) (JStr (sap_str (rp_digest m))) _ (ex_intro _ _ (as_sap_st _ Hd)) (plain_r m (erase a))) as [e ->]. cbn [to_pres].
    rewrite (opened bk l Hl Hbk r). cbn [pmap]. unfold palt at 1, reply_message, palt at 1.
    rewrite (proj2 (R _ _)). rewrite version_back by assumption. cbn [custom obind].
    rewrite (reply_text hx Hhx Hdx tw tr _ _ _ _ _ (rp_ksn m)) by assumption.
    destruct (reread_notice (rp_ksn m)) as [k|e'|] eqn:Ek; cbn [custom jerr obind to_pres pmap]; [reflexivity| |reflexivity].
    rewrite (opened bp l Hl Hbp r). cbn [pmap]. unfold palt at 1, query_message, palt at 1.
    rewrite (proj2 (R _ _)). rewrite version_back by assumption. cbn [custom obind].
    assert (Q : exists e, read_query tr (rp_info m) [(bstr "t", JStr (bstr "rpy")); (bstr "d", JStr (sap_str (rp_digest m))); (bstr "dt", JStr (tw (rp_timestamp m)));
              (bstr "r", JStr (route_str (rp_route m))); (bstr "a", erase a)] = Err e).
    { unfold read_query. erewrite (envelope_text tw tr); [|assumption|assumption|assumption|reflexivity|reflexivity]. cbn [obind]. eexists. reflexivity. }
    destruct Q as [e'' ->]. cbn [to_pres]. rewrite (opened bq l Hl Hbq r). cbn [pmap].
    unfold receipt_message, palt. rewrite (proj2 (R _ _)). rewrite version_back by assumption. cbn [custom obind].
    destruct (receipt_refuses hx (rp_info m) (JStr (bstr "rpy")) (JStr (sap_str (rp_digest m))) _ (ex_intro _ _ (as_sap_st _ Hd)) (plain_r m (erase a))) as [e3 ->]. cbn [to_pres].
    rewrite (opened br l Hl Hbr r). reflexivity.
  Qed.
  Lemma receipt_back c r : receipt_readable c ->
    read_event_type_q hx tr bk bp bq br (json (receipt_val c) ++ r) = POk r (ReceiptT c).
  Proof.
    intros H. destruct Ho as (Hhx & Hbk & Hbp & Hbq & Hbr). pose proof H as (Hv & Hd & Hi & Hs).
    assert (Op : forall A (p : bytes -> pres A), refuses_text p -> refused p (json (receipt_val c))) by (intros A p Hp; apply opened; [discriminate|exact Hp]).
    assert (En : exists e, read_envelope tr [(bstr "t", JStr (bstr "rct")); (bstr "d", JStr (sap_str (rct_digest c)));
                       (bstr "i", JStr (id_str (rct_prefix c))); (bstr "s", JStr (fmt_hex (rct_sn c)))] = Err e).
    { unfold read_envelope. erewrite scan_rest; [|reflexivity|].
      2:{ eapply scan_mine; [reflexivity|reflexivity|eapply chk_ok, as_sap_ok; eassumption|].
          eapply scan_rest; [reflexivity|]. eapply scan_rest; [reflexivity|]. apply scan_nil. }
      cbn [obind]. erewrite got_ok; [|reflexivity|now apply as_sap_ok]. cbn [obind]. eexists. reflexivity. }
    destruct En as [e En].
    unfold read_event_type_q, palt at 1, key_event_message, palt at 1. rewrite receipt_no_key_event by assumption. rewrite (Op _ bk Hbk r). cbn [pmap].
    unfold palt at 1, reply_message, palt at 1. rewrite receipt_result, version_back by assumption. cbn [custom obind]. unfold read_reply. rewrite En. cbn [obind to_pres].
    rewrite (Op _ bp Hbp r). cbn [pmap].
    unfold palt at 1, query_message, palt at 1. rewrite receipt_result, version_back by assumption. cbn [custom obind]. unfold read_query. rewrite En. cbn [obind to_pres].
    rewrite (Op _ bq Hbq r). cbn [pmap]. unfold receipt_message, palt. now rewrite receipt_reads_back.
  Qed.
End Read.

(** ** C94: a query arrives as it was sent *)
(** what a node writes for each kind of message *)
Definition writes_all (E : Env) (K : KEnv) (e : EventType) : out bytes :=
  match e with
  | KeyEventT m => e_ser_event E m
  | ReceiptT c => k_ser_rct K c
  | QryT q => e_ser_query E q
  | RpyT m => e_ser_reply E m
  end.
Theorem C94_query_round_trip :
  forall (hx : bytes -> option N) (tw : Z -> bytes) (tr : bytes -> option Z) (bk : bytes -> pres EventMessage) (bp : bytes -> pres ReplyMessage)
         (bq : bytes -> pres QueryMessage) (br : bytes -> pres ReceiptMessage), outside hx bk bp bq br ->
  forall (E : Env) (q : QueryMessage) (t : bytes),
    query_stable tw tr q -> si_kind (q_info q) = JSON -> e_ser_query (with_json_q tw E) q = Ok t ->
    (forall r, read_event_type_q hx tr bk bp bq br (t ++ r) = POk r (QryT (query_at_micros q)))
    /\ e_ser_query (with_json_q tw E) (query_at_micros q) = Ok t.
Proof.
  intros hx tw tr bk bp bq br Ho E q t Hq Hk Ht. cbn [e_ser_query with_json_q] in *. rewrite Hk in Ht.
  assert (t = json (query_val tw q)) by congruence. subst t. split; [intros r; now apply query_back|].
  cbn [query_at_micros q_info]. rewrite Hk. f_equal. f_equal. unfold query_val, query_fields, query_at_micros, envelope_fields.
  cbn [q_info q_digest q_timestamp q_route q_reply_route q_i]. destruct Hq as (_ & _ & (_ & _ & ->) & _). reflexivity.
Qed.
Print Assumptions C94_query_round_trip.
(** A signed query in the wire format becomes a query message that every witness treats as
    the one that was sent; [r] is what follows, which is not another attachment. *)
Theorem C94_query_answered_as_sent_partial :
  forall (hx : bytes -> option N) (tw : Z -> bytes) (tr : bytes -> option Z) (bk : bytes -> pres EventMessage) (bp : bytes -> pres ReplyMessage)
         (bq : bytes -> pres QueryMessage) (br : bytes -> pres ReceiptMessage), outside hx bk bp bq br ->
  forall (E : Env) (K : KEnv) (q : QueryMessage) (signer : IdentifierPrefix) (sigs : list AttachedSignaturePrefix) (t : bytes),
    query_stable tw tr q -> si_kind (q_info q) = JSON -> att_fits (LastEstSignaturesGroups [(signer, sigs)]) ->
    e_ser_query (with_json_q tw E) q = Ok t ->
  forall r, ends r ->
  exists d sq, signed_message (read_event_type_q hx tr bk bp bq br) (t ++ att_text (LastEstSignaturesGroups [(signer, sigs)]) ++ r) = POk r d
    /\ to_message d = Ok (MQuery sq)
    /\ forall (w : Witness) (t1 t2 : Z),
         process_signed_query (with_json_q tw E) K w sq t1 t2 = process_signed_query (with_json_q tw E) K w (mkSQry q signer sigs) t1 t2.
Proof.
  intros hx tw tr bk bp bq br Ho E K q signer sigs t Hq Hk Hf Ht r Hr.
  set (a := LastEstSignaturesGroups [(signer, sigs)]) in *.
  destruct (C94_query_round_trip hx tw tr bk bp bq br Ho E q t Hq Hk Ht) as [Hb Hm].
  exists (mkSED (QryT (query_at_micros q)) [a]), (mkSQry (query_at_micros q) signer sigs). split; [|split].
  - unfold signed_message. rewrite Hb. cbn [pbnd]. unfold many0.
    assert (Hn : List.length (att_text a) <> 0) by discriminate.
    assert (Hf1 : exists f, List.length (att_text a ++ r) = S f) by (destruct (List.length (att_text a ++ r)) as [|f] eqn:El; [rewrite app_length in El; lia|eauto]).
    destruct Hf1 as [f El]. rewrite El. change (many0_f attachment (S (S f)) (att_text a ++ r)) with
      (match attachment (att_text a ++ r) with PErr => POk (att_text a ++ r) [] | POk r' x => if List.length r' =? List.length (att_text a ++ r) then PErr else let! (r'', l) := many0_f attachment (S f) r' in POk r'' (x :: l) | PFail => PFail | PInc => PInc | PPanic => PPanic end).
    rewrite (att_read a Hf r). replace (List.length r =? List.length (att_text a ++ r)) with false by (rewrite !app_length; lia).
    cbn [many0_f]. unfold ends in Hr. rewrite Hr. reflexivity.
  - reflexivity.
  - intros w t1 t2. unfold process_signed_query. cbn [sq_signer sq_envelope sq_sigs]. rewrite Hm, Ht. reflexivity.
Qed.
(** A node cannot write that format itself: writing a signed query panics. *)
Theorem C94_node_cannot_send :
  forall (E : Env) (K : KEnv) (q : QueryMessage) (l : list (IdentifierPrefix * list AttachedSignaturePrefix)),
    sed_cesr (writes_all E K) (mkSED (QryT q) [LastEstSignaturesGroups l]) = Panic.
Proof. intros E K q l. unfold sed_cesr. cbn [sed_atts oconcat]. now rewrite last_est_panics. Qed.
Print Assumptions C94_node_cannot_send.
Print Assumptions C94_query_answered_as_sent_partial.
(** The messages of the other kinds are read as without the feature. *)
Theorem C94_other_kinds_unchanged :
  forall (hx : bytes -> option N) (tr : bytes -> option Z) (bk : bytes -> pres EventMessage) (bp : bytes -> pres ReplyMessage)
         (bq : bytes -> pres QueryMessage) (br : bytes -> pres ReceiptMessage), outside hx bk bp bq br ->
  (forall (s r : bytes) (m : EventMessage), read_event_type hx bk br s = POk r (KeyEventT m) -> read_event_type_q hx tr bk bp bq br s = POk r (KeyEventT m))
  /\ (forall (K : KEnv) (c : ReceiptMessage) (t r : bytes), receipt_readable c -> si_kind (rct_info c) = JSON -> k_ser_rct (with_json_k K) c = Ok t ->
      read_event_type_q hx tr bk bp bq br (t ++ r) = POk r (ReceiptT c)).
Proof.
  intros hx tr bk bp bq br Ho. split.
  - intros s r m H. unfold read_event_type in H. unfold read_event_type_q, palt at 1. unfold palt at 1 in H.
    destruct (key_event_message hx bk s); try congruence.
    exfalso. unfold receipt_message, pmap in H. destruct (palt (json_message (read_receipt hx)) br s); discriminate H.
  - intros K c t r Hc Hk Ht. cbn [k_ser_rct with_json_k] in Ht. rewrite Hk in Ht. assert (t = json (receipt_val c)) by congruence. subst t.
    now apply (receipt_back hx tr bk bp bq br Ho).
Qed.
Print Assumptions C94_other_kinds_unchanged.
(** [new_query] makes such queries: it states its length and the digest of its text. *)
Lemma sizes_any v d1 d2 t l n :
  plain d1 -> plain d2 -> List.length d1 = List.length d2 ->
  n = List.length (json (VMap (head_fields (si_new JSON 0) t d1 ++ l))) -> v = si_new JSON n ->
  let text := json (VMap (head_fields v t d2 ++ l)) in
  (N.of_nat (List.length text) < 16777216)%N -> si_size v = N.of_nat (List.length text).
Proof.
  intros P1 P2 E1 -> -> text Ht.
  set (b0 := json (VMap (head_fields (si_new JSON 0) t d1 ++ l))) in *. set (v := si_new JSON (List.length b0)) in *.
  assert (F : List.length b0 + List.length (si_str v) = List.length text + List.length (si_str (si_new JSON 0))).
  { unfold b0, text, head_fields. cbn [app]. rewrite !json_v_len by apply si_plain. unfold tail_text. cbn [flat_map]. rewrite !app_length. cbn [List.length].
    rewrite (member_len "d" d1 d2) by assumption. lia. }
  rewrite (si_new_len 0) in F by reflexivity. pose proof (si_new_ge (List.length b0)) as G. fold v in G.
  assert (Hb : (N.of_nat (List.length b0) < 16777216)%N) by lia.
  rewrite (si_new_len _ Hb : List.length (si_str v) = 17) in F. unfold v, si_new. cbn [si_size]. f_equal. lia.
Qed.
Lemma head_layout v t d l : plain d ->
  json (VMap (head_fields v t d ++ l))
  = (bstr "{""v"":" ++ quote (si_str v) ++ bstr ",""t"":" ++ quote (tag_str t) ++ bstr ",""d"":""") ++ d ++ bstr """" ++ tail_text l ++ bstr "}".
Proof.
  intros Hd. rewrite json_obj. unfold head_fields. cbn [app]. rewrite join_members. unfold tail_text. cbn [flat_map]. fold (tail_text l).
  unfold member, sfld, fld. cbn [fst snd json]. rewrite (quote_plain d Hd).
  change (quote (bstr "v")) with (bstr """v"""). change (quote (bstr "t")) with (bstr """t"""). change (quote (bstr "d")) with (bstr """d""").
  generalize (quote (si_str v)) (quote (tag_str t)) (tail_text l). intros a b c. cbn [bstr list_byte_of_string]. cbn.
  repeat (rewrite <- !app_assoc; cbn [app]). reflexivity.
Qed.
Definition queried (tw : Z -> bytes) (E : Env) (route : Route) (id : IdentifierPrefix) (g : SelfAddressing) (t : Z) : QueryMessage :=
  let q := mkQry (si_new JSON 0) (mkSAP g []) t route (bstr "route") id in
  mkQry (si_new JSON (List.length (json (dummy_val (si_new JSON 0) TQry g (query_fields tw q)))))
    (derive E g (json (dummy_sized JSON TQry g (query_fields tw q)))) t route (bstr "route") id.
Lemma new_query_queried tw E route id g t : new_query tw E route id g t = if digest_aborts g then Panic else Ok (queried tw E route id g t).
Proof. reflexivity. Qed.
(** (it does so for the algorithms that are [computable], see C133) *)
Theorem C94_new_query_made :
  forall (E : Env) (tw : Z -> bytes) (route : Route) (id : IdentifierPrefix) (g : SelfAddressing) (now : Z),
    (exists q, new_query tw E route id g now = Ok q) <-> computable g.
Proof.
  intros E tw route id g now. rewrite new_query_queried. destruct g; cbn [digest_aborts computable]; split; auto;
    try (intros (q & H); discriminate H); try contradiction; eexists; reflexivity.
Qed.
Print Assumptions C94_new_query_made.
Theorem C94_new_query :
  forall (E : Env) (tw : Z -> bytes) (tr : bytes -> option Z) (route : Route) (id : IdentifierPrefix) (g : SelfAddressing) (now : Z) (q : QueryMessage) (t : bytes),
    digests_sized E -> unkeyed g = g -> instant_kept tw tr now -> Forall id_stable (route_ids route) -> id_stable id ->
    new_query tw E route id g now = Ok q ->
    e_ser_query (with_json_q tw E) q = Ok t -> List.length t <= N.to_nat u16_max ->
    query_stable tw tr q /\ si_kind (q_info q) = JSON /\ q_route q = route /\ q_i q = id /\ q_timestamp q = now
    /\ si_size (q_info q) = N.of_nat (List.length t)
    /\ exists x z, t = x ++ sap_str (q_digest q) ++ z
         /\ q_digest q = mkSAP g (e_digest E g (x ++ blank (List.length (sap_str (q_digest q))) ++ z)).
Proof.
  intros E tw tr route id g now q t HE Hg Hn Hr Hi Hq Ht Hl. rewrite new_query_queried in Hq.
  destruct (digest_aborts g); [discriminate Hq|]. apply ok_inj in Hq. subst q. set (q := queried tw E route id g now) in *.
  assert (Hs : sap_readable (q_digest q)).
  { split; [unfold sap_sized, q, queried, derive; cbn [q_digest sap_digest sap_code]; apply HE|exact Hg]. }
  cbn [e_ser_query with_json_q] in Ht. change (si_kind (q_info q)) with JSON in Ht. cbv iota in Ht.
  assert (t = json (query_val tw q)) by congruence. subst t. clear Ht.
  assert (Ld : List.length (dummy_prefix g) = List.length (sap_str (q_digest q))).
  { symmetry. apply digest_text_len. apply HE. }
  assert (Sz : si_size (q_info q) = N.of_nat (List.length (json (query_val tw q)))).
  { unfold query_val. eapply (sizes_any (q_info q) (dummy_prefix g) (sap_str (q_digest q)) TQry (query_fields tw q));
      [apply dummy_plain|apply sap_plain|exact Ld|reflexivity|reflexivity|].
    change (N.of_nat (List.length (json (query_val tw q))) < 16777216)%N. change u16_max with 65535%N in Hl. lia. }
  split; [|split; [reflexivity|split; [reflexivity|split; [reflexivity|split; [reflexivity|split; [exact Sz|]]]]]].
  - split; [|split; [now apply as_sap_stable|split; [exact Hn|split; [exact Hr|split; [reflexivity|exact Hi]]]]].
    split; [split; reflexivity|]. rewrite Sz. lia.
  - unfold query_val. rewrite (head_layout _ _ _ _ (sap_plain (q_digest q))).
    eexists _, _. split; [reflexivity|].
    replace (blank (List.length (sap_str (q_digest q)))) with (dummy_prefix g) by (rewrite <- Ld; unfold dummy_prefix, blank; now rewrite repeat_length).
    rewrite <- (head_layout _ _ _ _ (dummy_plain g)). reflexivity.
Qed.
Print Assumptions C94_new_query.

(** ** C95: a key state reply arrives as it was sent *)
Definition C95_statement : Prop :=
  forall (hx : bytes -> option N) (tw : Z -> bytes) (tr : bytes -> option Z) (bk : bytes -> pres EventMessage) (bp : bytes -> pres ReplyMessage)
         (bq : bytes -> pres QueryMessage) (br : bytes -> pres ReceiptMessage), outside hx bk bp bq br -> reads_digits hx ->
  forall (E : Env) (m : ReplyMessage) (t : bytes),
    reply_stable tw tr m -> si_kind (rp_info m) = JSON -> Forall u64 (notice_numbers (rp_ksn m)) ->
    (forall i, st_delegator (ksn_state (rp_ksn m)) = Some i -> id_stable i) ->
    e_ser_reply (with_json_q tw E) m = Ok t ->
    (forall r, read_event_type_q hx tr bk bp bq br (t ++ r) = POk r (RpyT (reply_at_micros m)))
    /\ e_ser_reply (with_json_q tw E) (reply_at_micros m) = Ok t.
Lemma reply_ser E tw m t : si_kind (rp_info m) = JSON -> e_ser_reply (with_json_q tw E) m = Ok t -> omap json (reply_val tw m) = Ok t.
Proof. intros Hk H. cbn [e_ser_reply with_json_q] in H. now rewrite Hk in H. Qed.
Theorem C95_reply_round_trip_partial :
  forall (hx : bytes -> option N) (tw : Z -> bytes) (tr : bytes -> option Z) (bk : bytes -> pres EventMessage) (bp : bytes -> pres ReplyMessage)
         (bq : bytes -> pres QueryMessage) (br : bytes -> pres ReceiptMessage), outside hx bk bp bq br -> reads_digits hx ->
  forall (E : Env) (m : ReplyMessage) (i : IdentifierPrefix) (t : bytes),
    reply_stable tw tr m -> si_kind (rp_info m) = JSON ->
    Forall (fun n => (n < 10)%N) (notice_numbers (rp_ksn m)) -> st_delegator (ksn_state (rp_ksn m)) = Some i -> id_stable i ->
    e_ser_reply (with_json_q tw E) m = Ok t ->
    (forall r, read_event_type_q hx tr bk bp bq br (t ++ r) = POk r (RpyT (reply_at_micros m)))
    /\ e_ser_reply (with_json_q tw E) (reply_at_micros m) = Ok t.
Proof.
  intros hx tw tr bk bp bq br Ho Hdx E m i t Hm Hk Hn Hd Hi Ht. pose proof (reply_ser E tw m t Hk Ht) as Et. split.
  - intros r. rewrite (reply_got hx tr bk bp bq br Ho tw m t r Hm Hdx Et).
    assert (Sm : forall n, (n < 10)%N -> ReplyStore.read_number (write_number n) = Ok n).
    { intros n H. apply number_iff; [|exact H]. transitivity 10%N; [lia|]. vm_compute. discriminate. }
    unfold notice_numbers in Hn. inversion_clear Hn as [|? ? N1 Hn']. inversion_clear Hn' as [|? ? N2 Hn'']. inversion_clear Hn'' as [|? ? N3 _].
    unfold reply_val, reply_fields, notice_val in Et. unfold reread_notice.
    destruct (kc_next (st_current (ksn_state (rp_ksn m)))); [|discriminate Et].
    rewrite (Sm _ N1), (Sm _ N2), (Sm _ N3). cbn [obind].
    assert (D : read_delegator (write_delegator (st_delegator (ksn_state (rp_ksn m)))) = Ok (st_delegator (ksn_state (rp_ksn m)))).
    { apply delegator_iff. exists i. now split. }
    rewrite D. cbn [obind]. unfold reply_at_micros. destruct (rp_ksn m) as [v st f u c]. now destruct st.
  - cbn [e_ser_reply with_json_q reply_at_micros rp_info]. rewrite Hk. rewrite <- Et. f_equal.
    destruct Hm as (_ & _ & (_ & _ & T1) & _ & (_ & (_ & _ & T2) & _)).
    unfold reply_val, reply_fields, reply_at_micros, envelope_fields, notice_val.
    cbn [rp_info rp_digest rp_timestamp rp_route rp_ksn ksn_info ksn_state ksn_first_seen ksn_timestamp ksn_config]. now rewrite T1, T2.
Qed.
Print Assumptions C95_reply_round_trip_partial.
(** The full statement is false.  No node can read a reply about an identifier that is not
    delegated, *)
Theorem C95_undelegated_unreadable :
  forall (hx : bytes -> option N) (tw : Z -> bytes) (tr : bytes -> option Z) (bk : bytes -> pres EventMessage) (bp : bytes -> pres ReplyMessage)
         (bq : bytes -> pres QueryMessage) (br : bytes -> pres ReceiptMessage), outside hx bk bp bq br -> reads_digits hx ->
  forall (E : Env) (m : ReplyMessage) (t : bytes),
    reply_stable tw tr m -> si_kind (rp_info m) = JSON -> st_delegator (ksn_state (rp_ksn m)) = None ->
    e_ser_reply (with_json_q tw E) m = Ok t ->
    forall r, read_event_type_q hx tr bk bp bq br (t ++ r) = PErr.
Proof.
  intros hx tw tr bk bp bq br Ho Hdx E m t Hm Hk Hd Ht r. pose proof (reply_ser E tw m t Hk Ht) as Et.
  rewrite (reply_got hx tr bk bp bq br Ho tw m t r Hm Hdx Et).
  destruct (notice_no_delegator_err (rp_ksn m) Hd) as [e ->]; [|reflexivity].
  intros H. unfold reply_val, reply_fields, notice_val in Et. rewrite H in Et. discriminate Et.
Qed.
(** in particular not the answer of a witness to a query about one; *)
Theorem C95_witness_answer_unreadable :
  forall (hx : bytes -> option N) (tw : Z -> bytes) (tr : bytes -> option Z) (bk : bytes -> pres EventMessage) (bp : bytes -> pres ReplyMessage)
         (bq : bytes -> pres QueryMessage) (br : bytes -> pres ReceiptMessage), outside hx bk bp bq br -> reads_digits hx ->
  forall (E : Env) (K : KEnv) (w : Witness) (q : QueryMessage) (t1 t2 : Z) (s : IdentifierState) (a : SignedReply) (t : bytes),
    q_route q = RKsn -> compute_state (with_json_q tw E) (w_db w) (q_i q) = Ok (Some s) -> st_delegator s = None ->
    process_query (with_json_q tw E) K w q t1 t2 = Ok (Rep a) -> reply_stable tw tr (sr_reply a) ->
    e_ser_reply (with_json_q tw E) (sr_reply a) = Ok t ->
    forall r, read_event_type_q hx tr bk bp bq br (t ++ r) = PErr.
Proof.
  intros hx tw tr bk bp bq br Ho Hdx E K w q t1 t2 s a t Hr Hs Hd Hp Ha Ht.
  unfold process_query in Hp. rewrite Hr, Hs in Hp. cbn [ounwrap obind ok_or] in Hp.
  apply obind_ok in Hp as (x & Hx & Hp). assert (x = a) by congruence. subst x.
  unfold signed_notice in Hx. apply obind_ok in Hx as (rpy & Hrpy & Hx). apply obind_ok in Hx as (ser & _ & Hx). apply obind_ok in Hx as (sig & _ & Hx).
  assert (Ea : sr_reply a = rpy) by (injection Hx as <-; reflexivity). rewrite Ea in *. clear Hx Hp Ea.
  unfold new_reply in Hrpy. apply obind_ok in Hrpy as (b & _ & Hrpy).
  eapply (C95_undelegated_unreadable hx tw tr bk bp bq br Ho Hdx E rpy t); try eassumption; injection Hrpy as <-; [reflexivity|exact Hd].
Qed.
(** nor one with a number of ten or more: it is refused, or read as a different reply, whose
    text is not the one that was signed. *)
Lemma dec_same a b : fmt_dec a = fmt_dec b -> a = b.
Proof. apply JsonProofs4.dec_inj. Qed.
Lemma notice_written tw m t : omap json (reply_val tw m) = Ok t -> exists a, notice_val tw (rp_ksn m) = Ok a.
Proof. unfold reply_val, reply_fields. destruct (notice_val tw (rp_ksn m)); [eauto|discriminate|discriminate]. Qed.
Lemma notice_numbers_written tw k k' a a' : notice_val tw k = Ok a -> notice_val tw k' = Ok a' -> erase a = erase a' -> notice_numbers k = notice_numbers k'.
Proof.
  unfold notice_val, notice_numbers. destruct (kc_next (st_current (ksn_state k))); [|discriminate]. destruct (kc_next (st_current (ksn_state k'))); [|discriminate].
  assert (X : forall b c : sval, Ok b = Ok c -> c = b) by (intros b c Q; now injection Q). intros H1 H2. apply X in H1, H2. subst a a'.
  cbn [erase map fst snd sfld fld]. intros H. injection H as _ _ H1 _ _ H2 _ _ _ _ _ H3 _ _ _ _.
  apply dec_same in H1, H2, H3. congruence.
Qed.
Theorem C95_large_numbers_change :
  forall (hx : bytes -> option N) (tw : Z -> bytes) (tr : bytes -> option Z) (bk : bytes -> pres EventMessage) (bp : bytes -> pres ReplyMessage)
         (bq : bytes -> pres QueryMessage) (br : bytes -> pres ReceiptMessage), outside hx bk bp bq br -> reads_digits hx ->
  forall (E : Env) (m : ReplyMessage) (t : bytes),
    reply_stable tw tr m -> si_kind (rp_info m) = JSON -> (forall i, st_delegator (ksn_state (rp_ksn m)) = Some i -> id_stable i) ->
    Exists (fun n => (10 <= n)%N) (notice_numbers (rp_ksn m)) ->
    e_ser_reply (with_json_q tw E) m = Ok t ->
    forall r, read_event_type_q hx tr bk bp bq br (t ++ r) = PErr
      \/ exists m', read_event_type_q hx tr bk bp bq br (t ++ r) = POk r (RpyT m')
           /\ notice_numbers (rp_ksn m') <> notice_numbers (rp_ksn m) /\ e_ser_reply (with_json_q tw E) m' <> Ok t.
Proof.
  intros hx tw tr bk bp bq br Ho Hdx E m t Hm Hk Hd Hn Ht r. pose proof (reply_ser E tw m t Hk Ht) as Et.
  rewrite (reply_got hx tr bk bp bq br Ho tw m t r Hm Hdx Et).
  destruct (reread_notice (rp_ksn m)) as [k|e|] eqn:Ek; [|now left|].
  - right. eexists. split; [reflexivity|]. cbn [rp_ksn].
    assert (Dif : notice_numbers k <> notice_numbers (rp_ksn m)).
    { unfold reread_notice in Ek. destruct (kc_next (st_current (ksn_state (rp_ksn m)))); [|discriminate Ek].
      apply obind_ok in Ek as (sn & E1 & Ek). apply obind_ok in Ek as (f & E2 & Ek). apply obind_ok in Ek as (bt & E3 & Ek). apply obind_ok in Ek as (di & _ & Ek).
      injection Ek as <-. cbn [notice_numbers ksn_state ksn_first_seen st_sn st_tally]. unfold notice_numbers. intros Q. injection Q as Q1 Q2 Q3. subst.
      unfold notice_numbers in Hn. inversion Hn as [? ? N|? ? Hn1]; subst; [pose proof (number_wrong _ _ E1 N); lia|].
      inversion Hn1 as [? ? N|? ? Hn2]; subst; [pose proof (number_wrong _ _ E2 N); lia|].
      inversion Hn2 as [? ? N|? ? Hn3]; subst; [pose proof (number_wrong _ _ E3 N); lia|]. inversion Hn3. }
    split; [exact Dif|]. intros Ht'. cbn [e_ser_reply with_json_q rp_info] in Ht'. rewrite Hk in Ht'. clear Ht.
    destruct Hm as (Hv & Hd' & Hi & Hr & Hks). pose proof Hks as (_ & Hkt & Hkc & _).
    assert (Hkt' : rust_string (tw (ksn_timestamp k)) /\ ksn_config k = ksn_config (rp_ksn m)).
    { unfold reread_notice in Ek. destruct (kc_next (st_current (ksn_state (rp_ksn m)))); [|discriminate Ek].
      apply obind_ok in Ek as (sn & E1 & Ek). apply obind_ok in Ek as (f & E2 & Ek). apply obind_ok in Ek as (bt & E3 & Ek). apply obind_ok in Ek as (di & _ & Ek).
      injection Ek as <-. cbn [ksn_timestamp ksn_config]. split; [|reflexivity]. destruct Hkt as (H1 & _ & H2). change (write_instant (ksn_timestamp (rp_ksn m))) with (micros (ksn_timestamp (rp_ksn m))). now rewrite H2. }
    destruct Hkt' as [Hkt' Hc'].
    destruct (notice_written tw m t Et) as [a Ha]. unfold reply_val, reply_fields in Et, Ht'. cbn [rp_ksn rp_info rp_digest rp_timestamp rp_route] in Et, Ht'.
    rewrite Ha in Et. cbn [obind omap] in Et. destruct (notice_val tw k) as [a'|e'|] eqn:Ha'; cbn [obind omap] in Ht'; [|discriminate Ht'|discriminate Ht'].
    assert (Eq : json (VMap (head_fields (rp_info m) TRpy (sap_str (rp_digest m)) ++ envelope_fields tw (micros (rp_timestamp m)) (rp_route m) ++ [fld "a" a'])) ++ []
               = json (VMap (head_fields (rp_info m) TRpy (sap_str (rp_digest m)) ++ envelope_fields tw (rp_timestamp m) (rp_route m) ++ [fld "a" a])) ++ []) by congruence.
    assert (Fi : forall u b, rust_string (tw u) -> fits 3 b -> fits 4 (VMap (head_fields (rp_info m) TRpy (sap_str (rp_digest m)) ++ envelope_fields tw u (rp_route m) ++ [fld "a" b]))).
    { intros u b Hu Hb. apply fits_map. apply Forall_app. split; [apply head_fits, sap_str_ascii|]. apply Forall_app. split; [now apply envelope_fits|].
      constructor; [split; [reflexivity|exact Hb]|constructor]. }
    apply (json_prefix_free 4) in Eq as [Eq _].
    + apply Dif. apply (notice_numbers_written tw k (rp_ksn m) a' a Ha' Ha).
      unfold head_fields, envelope_fields in Eq. cbn [app erase map fst snd sfld fld] in Eq. injection Eq as _ Eq. exact Eq.
    + apply Fi; [destruct Hi as (H1 & _ & ->); exact H1|]. apply (fits_notice tw k); [exact Hkt'|rewrite Hc'; exact Hkc|exact Ha'].
    + apply Fi; [apply Hi|]. apply (fits_notice tw (rp_ksn m)); [apply Hkt|exact Hkc|exact Ha].
  - exfalso. unfold reread_notice in Ek. destruct (notice_written tw m t Et) as [a Ha]. unfold notice_val in Ha. destruct (kc_next (st_current (ksn_state (rp_ksn m)))); [|discriminate Ha].
    destruct (ReplyStore.read_number (write_number (st_sn (ksn_state (rp_ksn m))))) eqn:E1; cbn [obind] in Ek; [|discriminate Ek|now apply read_number_np in E1].
    destruct (ReplyStore.read_number (write_number (ksn_first_seen (rp_ksn m)))) eqn:E2; cbn [obind] in Ek; [|discriminate Ek|now apply read_number_np in E2].
    destruct (ReplyStore.read_number (write_number (st_tally (ksn_state (rp_ksn m))))) eqn:E3; cbn [obind] in Ek; [|discriminate Ek|now apply read_number_np in E3].
    destruct (st_delegator (ksn_state (rp_ksn m))) as [i|]; [|discriminate Ek].
    unfold read_delegator, write_delegator in Ek. rewrite (Hd i eq_refl) in Ek. discriminate Ek.
Qed.
Print Assumptions C95_undelegated_unreadable.
Print Assumptions C95_witness_answer_unreadable.
Print Assumptions C95_large_numbers_change.
(** a clock text for the examples: the microseconds in decimal *)
Definition tw0 (t : Z) : bytes := fmt_dec (Z.to_N (t / 1000)).
Definition tr0 (s : bytes) : option Z := match parse_radix 10 u64_max s with Ok n => Some (Z.of_N n * 1000)%Z | _ => None end.
Lemma kept0 t : (0 <= t < 1000000000000)%Z -> instant_kept tw0 tr0 t.
Proof.
  intros H. unfold instant_kept, tw0, tr0, micros. split; [apply ascii_valid, dec_ascii|]. split.
  - unfold fmt_dec. rewrite (fmt_parse 10 u64_max _ JsonProofs2.radix10); [|change u64_max with 18446744073709551615%N; lia]. f_equal. lia.
  - f_equal. lia.
Qed.
Lemma hx0_digits : reads_digits hx0. Proof. intros s _ _. reflexivity. Qed.
Definition no_rpy : bytes -> pres ReplyMessage := fun _ => PErr.
Definition no_qry : bytes -> pres QueryMessage := fun _ => PErr.
Lemma outside0 : outside hx0 no_key no_rpy no_qry no_rct.
Proof. split; [apply hx0_reads|]. split; [apply no_key_refuses|]. split; [now split|]. split; [now split|apply no_rct_refuses]. Qed.
Definition q0 : QueryMessage := queried tw0 jtoy RKsn j_id Blake3_256 1234567890.
Lemma ser_query E tw q : si_kind (q_info q) = JSON -> e_ser_query (with_json_q tw E) q = Ok (json (query_val tw q)).
Proof. intros H. cbn [e_ser_query with_json_q]. now rewrite H. Qed.
Lemma j_id_stable : id_stable j_id. Proof. apply as_id_stable, jid_readable. Qed.
Example C94_example :
  query_stable tw0 tr0 q0 /\ si_kind (q_info q0) = JSON /\ e_ser_query (with_json_q tw0 jtoy) q0 = Ok (json (query_val tw0 q0))
  /\ si_size (q_info q0) = 181%N /\ query_at_micros q0 <> q0
  /\ att_fits (LastEstSignaturesGroups [(IdBasic (jk x11), j_sig)]).
Proof.
  assert (L : List.length (json (query_val tw0 q0)) = 181) by (vm_compute; reflexivity).
  destruct (C94_new_query jtoy tw0 tr0 RKsn j_id Blake3_256 1234567890 q0 (json (query_val tw0 q0)) jtoy_sized eq_refl (kept0 1234567890 ltac:(lia)) (Forall_nil _) j_id_stable eq_refl) as (H & Hk & _ & _ & _ & Hs & _).
  - now apply ser_query.
  - rewrite L. change u16_max with 65535%N. lia.
  - split; [exact H|]. split; [exact Hk|]. split; [now apply ser_query|]. change (si_size (q_info q0) = N.of_nat (List.length (json (query_val tw0 q0)))) in Hs. rewrite L in Hs. split; [exact Hs|]. split.
    + intros Q. apply (f_equal q_timestamp) in Q. vm_compute in Q. discriminate Q.
    + split; [cbn; lia|]. constructor; [|constructor]. cbn [fst snd]. split; [split; [reflexivity|split; [reflexivity|split; [reflexivity|discriminate]]]|]. apply j_sig_fits.
Qed.
(** replies for the examples *)
Definition r_state (sn : N) (di : option IdentifierPrefix) : IdentifierState :=
  mkState j_id sn (jd x02) (Some (jd x01)) (Some TRot) (mkKC (Simple 1) [jk x11; jk x12] (Some (jd x21))) 1 [mkBP Ed25519NT (repeat x31 32)] di
    (mkLE 2 (jd x05) [] [mkBP Ed25519NT (repeat x31 32)]).
Definition r_reply (sn : N) (di : option IdentifierPrefix) : ReplyMessage :=
  mkReply (mkSI 1 0 500 JSON) (jd x09) 7000 (RReplyKsn (IdBasic (jk x15))) (mkKsn (mkSI 1 0 0 JSON) (r_state sn di) 0 5000 [bstr "EO"]).
Lemma r_stable sn di : reply_stable tw0 tr0 (r_reply sn di).
Proof.
  split; [split; [split; reflexivity|vm_compute; discriminate]|]. split; [apply as_sap_stable, jd_readable|]. split; [apply kept0; cbn [r_reply rp_timestamp]; lia|].
  split; [constructor; [apply as_id_stable, jkid_readable|constructor]|].
  split; [split; [split; reflexivity|vm_compute; discriminate]|]. split; [apply kept0; cbn [r_reply rp_ksn ksn_timestamp]; lia|].
  split; [constructor; [reflexivity|constructor]|]. split; [exact j_id_stable|].
  split. { cbn [state_digests r_reply rp_ksn ksn_state r_state st_last_digest st_last_est le_digest st_last_previous st_current kc_next opt_list app]. all_of; apply as_sap_stable, jd_readable. }
  split. { cbn [state_keys r_reply rp_ksn ksn_state r_state st_current kc_keys st_witnesses st_last_est le_br le_ba app]. all_of; vm_compute; reflexivity. }
  split; unfold threshold_readable, u64; vm_compute; (discriminate || reflexivity).
Qed.
Lemma r_written sn di : exists t, e_ser_reply (with_json_q tw0 toy) (r_reply sn di) = Ok t.
Proof. eexists. reflexivity. Qed.
Example C95_example :
  reply_stable tw0 tr0 (r_reply 7 (Some j_id)) /\ Forall (fun n => (n < 10)%N) (notice_numbers (rp_ksn (r_reply 7 (Some j_id))))
  /\ reply_stable tw0 tr0 (r_reply 7 None) /\ st_delegator (ksn_state (rp_ksn (r_reply 7 None))) = None
  /\ reply_stable tw0 tr0 (r_reply 10 (Some j_id)) /\ Exists (fun n => (10 <= n)%N) (notice_numbers (rp_ksn (r_reply 10 (Some j_id)))).
Proof.
  split; [apply r_stable|]. split; [repeat constructor|]. split; [apply r_stable|]. split; [reflexivity|]. split; [apply r_stable|]. left. vm_compute. discriminate.
Qed.
Theorem C95_refuted : ~ C95_statement.
Proof.
  intros H. destruct (r_written 7 None) as [t Ht].
  destruct (H hx0 tw0 tr0 no_key no_rpy no_qry no_rct outside0 hx0_digits toy (r_reply 7 None) t (r_stable 7 None) eq_refl) as [R _]; [|discriminate|exact Ht|].
  - unfold notice_numbers. repeat (apply Forall_cons; [apply N.leb_le; vm_compute; reflexivity|]). apply Forall_nil.
  - pose proof (C95_undelegated_unreadable hx0 tw0 tr0 no_key no_rpy no_qry no_rct outside0 hx0_digits toy (r_reply 7 None) t (r_stable 7 None) eq_refl eq_refl Ht []) as Q.
    rewrite R in Q. discriminate Q.
Qed.
Print Assumptions C95_refuted.
