(** * What reading does to arbitrary text in a build with queries: C96. *)
From Coq Require Import ZifyBool ZifyN ZifyNat.
From Verif Require Import Base Base64 Base64Proofs Codes NumFmt NumProofs Types SpecCodec CodecProofs CodecProofs2 KeyConf Version Cesr CesrProofs SpecCesr CesrProofs3 Message Keri Json JsonRead JsonProofs SpecJson JsonProofs2 JsonProofs3 JsonProofs4 JsonProofs5 JsonProofs7 JsonProofs8 JsonProofs9 JsonProofs10 Prop_Version Prop_Message Prop_Json Prop_Json2 Prop_Json4
  State Db Processor Spec StateProofs SpecKeri Prop_Keri Demo SpecJsonQ JsonQuery JsonProofs11 JsonProofs12 Prop_JsonQ.
Notation json := Json.json.

(** the readers of the other formats do not panic on the text *)
Definition others_calm (bk : bytes -> pres EventMessage) (bp : bytes -> pres ReplyMessage) (bq : bytes -> pres QueryMessage)
    (br : bytes -> pres ReceiptMessage) (t : bytes) : Prop :=
  bk t <> PPanic /\ bp t <> PPanic /\ bq t <> PPanic /\ br t <> PPanic.
Definition C96_statement : Prop :=
  forall (hx : bytes -> option N) (tr : bytes -> option Z) (bk : bytes -> pres EventMessage) (bp : bytes -> pres ReplyMessage)
         (bq : bytes -> pres QueryMessage) (br : bytes -> pres ReceiptMessage) (t : bytes),
    others_calm bk bp bq br t -> read_event_type_q hx tr bk bp bq br t <> PPanic.
(** The only causes: a version string, or a string where a version string is looked for, that
    is not ASCII or shorter than sixteen characters; a prefix cut off inside its code; a route
    "/ksn/..." that does not go on with an identifier. *)
Theorem C96_panics_partial :
  forall (hx : bytes -> option N) (tr : bytes -> option Z) (bk : bytes -> pres EventMessage) (bp : bytes -> pres ReplyMessage)
         (bq : bytes -> pres QueryMessage) (br : bytes -> pres ReceiptMessage) (t : bytes),
    others_calm bk bp bq br t -> read_event_type_q hx tr bk bp bq br t = PPanic ->
    (exists x, (has_version t x \/ has_literal t x) /\ (~ ascii x \/ List.length x < 16) /\ si_from x = Panic)
    \/ (exists x, has_literal t x /\ bad_prefix x)
    \/ (exists s, has_literal t (bstr "/ksn/" ++ s) /\ forall i, id_from s <> Ok i).
Proof.
  intros hx tr bk bp bq br t (Hbk & Hbp & Hbq & Hbr) H.
  assert (G : (exists x, version_at t x /\ si_from x = Panic) \/ blame_q (literal_of t)).
  { assert (K : json_message (read_key_event hx) t = PPanic -> (exists x, version_at t x /\ si_from x = Panic) \/ blame_q (literal_of t)).
    { apply json_message_calm_q. intros info l Hl E. left. eapply read_key_event_calm; eassumption. }
    assert (R : json_message (read_receipt hx) t = PPanic -> (exists x, version_at t x /\ si_from x = Panic) \/ blame_q (literal_of t)).
    { apply json_message_calm_q. intros info l Hl E. left. eapply read_receipt_calm; eassumption. }
    assert (Y : json_message (read_reply hx tr) t = PPanic -> (exists x, version_at t x /\ si_from x = Panic) \/ blame_q (literal_of t)).
    { apply json_message_calm_q. intros info l Hl E. eapply read_reply_calm; eassumption. }
    assert (Q : json_message (read_query tr) t = PPanic -> (exists x, version_at t x /\ si_from x = Panic) \/ blame_q (literal_of t)).
    { apply json_message_calm_q. intros info l Hl E. eapply read_query_calm; eassumption. }
    unfold read_event_type_q, reply_message, query_message, key_event_message, receipt_message, palt in H.
    destruct (json_message (read_key_event hx) t); cbn [pmap] in H; try discriminate H; [|exact (K eq_refl)]. clear K.
    destruct (bk t); cbn [pmap] in H; try congruence.
    destruct (json_message (read_reply hx tr) t); cbn [pmap] in H; try discriminate H; [|exact (Y eq_refl)]. clear Y.
    destruct (bp t); cbn [pmap] in H; try congruence.
    destruct (json_message (read_query tr) t); cbn [pmap] in H; try discriminate H; [|exact (Q eq_refl)]. clear Q.
    destruct (bq t); cbn [pmap] in H; try congruence.
    destruct (json_message (read_receipt hx) t); cbn [pmap] in H; try discriminate H; [|exact (R eq_refl)].
    destruct (br t); cbn [pmap] in H; congruence. }
  assert (V : forall x, si_from x = Panic -> ~ ascii x \/ List.length x < 16).
  { intros x Hx. destruct (Nat.le_gt_cases 16 (List.length x)) as [L|L]; [|now right]. left. intros Ha. now apply (C65_version_no_panic_partial x Ha L). }
  assert (L : forall x, literal_of t x -> has_literal t x) by (intros x (w & r & (u & Hu) & A); now exists u, w, r).
  destruct G as [(x & (w & r1 & r2 & r3 & r & (u & Hu) & A & B & C & D) & Hx)|[(s & Hl & Hs)|[(s & Hl & Hs)|(s & Hl & Hs)]]].
  - left. exists x. split; [left; exists u, w, r1, r2, r3, r; auto|]. auto.
  - right. left. exists s. split; [now apply L|]. destruct Hl as (w & r & Hl & A). apply read_string_utf8, valid_shape in A. unfold bad_prefix.
    destruct Hs as [Hs|[Hs|Hs]]; [apply bp_panic in Hs|apply sap_panic in Hs|apply id_panic in Hs]; auto.
  - left. exists s. auto.
  - right. right. exists s. auto.
Qed.
Print Assumptions C96_panics_partial.

(** ** The full statement is false *)
(** the text of a query whose route is "/ksn/" and [s] *)
Definition query_with_route (tw : Z -> bytes) (q : QueryMessage) (s : bytes) : bytes :=
  json (VMap (head_fields (q_info q) TQry (sap_str (q_digest q))
    ++ [sfld "dt" (tw (q_timestamp q)); sfld "r" (bstr "/ksn/" ++ s); sfld "rr" (q_reply_route q); fld "q" (VStruct [sfld "i" (id_str (q_i q))])])).
Lemma routed_result {D} (read : SerializationInfo -> list (bytes * jval) -> out D) tw q s r :
  rust_string (tw (q_timestamp q)) -> rust_string (q_reply_route q) -> rust_string (bstr "/ksn/" ++ s) ->
  json_message read (query_with_route tw q s ++ r)
  = to_pres r (let? v := custom (si_from (si_str (q_info q))) in
      read v [(bstr "t", JStr (bstr "qry")); (bstr "d", JStr (sap_str (q_digest q))); (bstr "dt", JStr (tw (q_timestamp q)));
              (bstr "r", JStr (bstr "/ksn/" ++ s)); (bstr "rr", JStr (q_reply_route q)); (bstr "q", JObj [(bstr "i", JStr (id_str (q_i q)))])]).
Proof.
  intros Ht Hr Hs. unfold query_with_route, head_fields. cbn [app]. (etransitivity; [apply json_message_deep|reflexivity]).
  - repeat match goal with
    | |- Forall _ (_ :: _) => constructor
    | |- Forall _ [] => constructor
    | |- fits_kv _ (sfld "dt" _) => now apply str_kv
    | |- fits_kv _ (sfld "rr" _) => now apply str_kv
    | |- fits_kv _ (sfld "r" _) => now apply str_kv
    | |- fits_kv _ (bstr "v", VStr _) => apply (kv_ascii 126 "v"); [first [apply si_ascii]|reflexivity]
    | |- fits_kv _ (sfld _ _) => apply kv_ascii; [first [apply tag_ascii|apply sap_str_ascii]|reflexivity]
    end.
    split; [reflexivity|]. apply fits_struct. constructor; [|constructor]. apply kv_ascii; [apply id_str_ascii|reflexivity].
  - repeat constructor.
Qed.
(** Every query whose route goes on with something that is not an identifier stops the
    reader, whatever follows; no signature is looked at before. *)
Theorem C96_bad_route_panics :
  forall (hx : bytes -> option N) (tw : Z -> bytes) (tr : bytes -> option Z) (bk : bytes -> pres EventMessage) (bp : bytes -> pres ReplyMessage)
         (bq : bytes -> pres QueryMessage) (br : bytes -> pres ReceiptMessage), outside hx bk bp bq br ->
  forall (q : QueryMessage) (s r : bytes),
    query_stable tw tr q -> rust_string (bstr "/ksn/" ++ s) -> (forall i, id_from s <> Ok i) ->
    read_event_type_q hx tr bk bp bq br (query_with_route tw q s ++ r) = PPanic.
Proof.
  intros hx tw tr bk bp bq br (Hhx & Hbk & Hbp & Hbq & Hbr) q s r (Hv & Hd & Ht & _ & Hrr & Hi) Hs Hn.
  unfold read_event_type_q, palt at 1, key_event_message, palt at 1.
  rewrite routed_result by (apply Ht || assumption). rewrite version_back by assumption. cbn [custom obind].
  match goal with |- context [read_key_event hx (q_info q) (_ :: _ :: ?l)] =>
    assert (Hl : Forall (fun kv : bytes * jval => plain_key (fst kv)) l) by (repeat (constructor; [repeat split|]); constructor);
    destruct (key_event_refuses hx (q_info q) (JStr (bstr "qry")) (JStr (sap_str (q_digest q))) l (ex_intro _ _ (as_sap_st _ Hd)) Hl) as [e ->] end.
  cbn [to_pres]. assert (O : refused bk (query_with_route tw q s)) by (apply opened; [discriminate|exact Hbk]). rewrite (O r). cbn [pmap]. unfold palt at 1, reply_message, palt at 1.
  rewrite routed_result by (apply Ht || assumption). rewrite version_back by assumption. cbn [custom obind].
  assert (R : as_route (JStr (bstr "/ksn/" ++ s)) = Panic).
  { unfold as_route, as_str. cbn [obind]. unfold route_from, starts. rewrite eat_app. change (skipn 5 (bstr "/ksn/" ++ s)) with s.
    destruct (id_from s) as [i|e'|] eqn:Es; [now destruct (Hn i)|reflexivity|reflexivity]. }
  unfold read_reply, read_envelope. erewrite scan_pass; [|reflexivity]. erewrite scan_step; [|reflexivity|reflexivity]. unfold chk at 1. rewrite (as_sap_st _ Hd). cbn [omap obind].
  do 4 (erewrite scan_pass; [|reflexivity]). rewrite scan_nil. cbn [obind]. erewrite got_ok; [|reflexivity|exact (as_sap_st _ Hd)]. cbn [obind].
  erewrite scan_pass; [|reflexivity]. erewrite scan_step; [|reflexivity|reflexivity]. unfold chk at 1. rewrite (instant_text tw tr _ Ht). cbn [omap obind].
  erewrite scan_step; [|reflexivity|reflexivity]. unfold chk at 1. rewrite R. reflexivity.
Qed.
(** a node that answers such a text panics and does not look at what follows *)
Theorem C96_node_panics :
  forall (hx : bytes -> option N) (tw : Z -> bytes) (tr : bytes -> option Z) (bk : bytes -> pres EventMessage) (bp : bytes -> pres ReplyMessage)
         (bq : bytes -> pres QueryMessage) (br : bytes -> pres ReceiptMessage), outside hx bk bp bq br ->
  forall (E : Env) (K : KEnv) (k : Keri) (q : QueryMessage) (s r : bytes),
    k_parse K = read_event_type_q hx tr bk bp bq br ->
    query_stable tw tr q -> rust_string (bstr "/ksn/" ++ s) -> (forall i, id_from s <> Ok i) ->
    respond E K k (query_with_route tw q s ++ r) = (k, Panic) /\ respond_single E K k (query_with_route tw q s ++ r) = (k, Panic).
Proof.
  intros hx tw tr bk bp bq br Ho E K k q s r HK Hq Hs Hn. pose proof (C96_bad_route_panics hx tw tr bk bp bq br Ho q s r Hq Hs Hn) as H. set (t := query_with_route tw q s ++ r) in *.
  assert (M : signed_message (k_parse K) t = PPanic) by (unfold signed_message; rewrite HK, H; reflexivity).
  split.
  - unfold respond, signed_event_stream, many0. clearbody t.
    assert (N : forall n, many0_f (signed_message (k_parse K)) (S n) t = PPanic) by (intros n; cbn [many0_f]; now rewrite M).
    rewrite N. reflexivity.
  - unfold respond_single. now rewrite M.
Qed.
Print Assumptions C96_node_panics.
Example C96_example :
  query_stable tw0 tr0 q0 /\ rust_string (bstr "/ksn/" ++ bstr "x") /\ (forall i, id_from (bstr "x") <> Ok i)
  /\ others_calm no_key no_rpy no_qry no_rct (query_with_route tw0 q0 (bstr "x")).
Proof.
  split; [apply C94_example|]. split; [reflexivity|]. split; [|repeat split; discriminate].
  intros i H. vm_compute in H. discriminate H.
Qed.
Theorem C96_refuted : ~ C96_statement.
Proof.
  intros H. destruct C96_example as (Hq & Hs & Hn & Ho). apply (H hx0 tr0 no_key no_rpy no_qry no_rct (query_with_route tw0 q0 (bstr "x")) Ho).
  rewrite <- (app_nil_r (query_with_route tw0 q0 (bstr "x"))). exact (C96_bad_route_panics hx0 tw0 tr0 no_key no_rpy no_qry no_rct outside0 q0 (bstr "x") [] Hq Hs Hn).
Qed.
Print Assumptions C96_refuted.
