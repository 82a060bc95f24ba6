(** * Which JSON objects are which events: C105, C106. *)
From Verif Require Import Base Base64 Codes NumFmt Types KeyConf Version Cesr Message Keri Json JsonRead JsonProofs JsonProofs3 JsonProofs4 SpecJson Demo Prop_Json Prop_Json2 SpecGrammar GrammarProofs GrammarProofs2 GrammarProofs3 SpecSchema SchemaProofs SchemaProofs2.

(** ** C105: an event is read exactly from the objects of its type *)
Theorem C105_event_is_read :
  forall (hx : bytes -> option N) (s rest : bytes) (e : EventMessage),
    json_message (read_key_event hx) s = POk rest e ->
    exists w t before x after,
      s = w ++ t ++ rest /\ blank w /\ denotes (JObj (before ++ (bstr "v", JStr x) :: after)) t
      /\ ~ In (bstr "v") (map fst (before ++ after))
      /\ si_from x = Ok (em_info e) /\ event_o hx (before ++ after) e.
Proof.
  intros hx s rest e H. apply message_exact in H. destruct H as (w & t & b & x & a & i & Hs & Hw & Hd & Hn & _ & Hx & Hr).
  apply key_event_sound in Hr. destruct Hr as [Hr <-]. exists w, t, b, x, a. repeat (split; [assumption|]). assumption.
Qed.
Theorem C105_object_is_event :
  forall (hx : bytes -> option N) (w t rest x : bytes) (before after : list (bytes * jval)) (e : EventMessage),
    blank w -> denotes (JObj (before ++ (bstr "v", JStr x) :: after)) t ->
    ~ In (bstr "v") (map fst (before ++ after)) -> nesting (JObj (before ++ after)) <= 127 ->
    si_from x = Ok (em_info e) -> event_o hx (before ++ after) e ->
    json_message (read_key_event hx) (w ++ t ++ rest) = POk rest e
    \/ json_message (read_key_event hx) (w ++ t ++ rest) = PPanic.
Proof.
  intros hx w t rest x b a e Hw Hd Hn Hne Hx He. destruct (key_event_complete hx (em_info e) (b ++ a) e He eq_refl) as [H|H].
  - left. apply message_exact. exists w, t, b, x, a, (em_info e). now repeat split.
  - right. pose (keep := fun (i : SerializationInfo) (l : list (bytes * jval)) => Ok (i, l)).
    assert (K : json_message keep (w ++ t ++ rest) = POk rest (em_info e, b ++ a)).
    { apply message_exact. exists w, t, b, x, a, (em_info e). now repeat split. }
    clear - K H. unfold json_message in *. destruct (skip_ws (w ++ t ++ rest)) as [|c r]; [discriminate|]. destruct (c_is c 123); [|discriminate].
    destruct (read_top (fuel_for r) 127 true None r) as [[[ov l] r1]| |]; cbn [obind] in *; [|discriminate..].
    destruct ov as [i|]; unfold need, ok_or in *; cbn [obind] in *; [|discriminate]. injection K as _ -> ->. now rewrite H.
Qed.
(** an object is at most one event *)
Theorem C105_one_event :
  forall (hx : bytes -> option N) (l : list (bytes * jval)) (e1 e2 : EventMessage) (info : SerializationInfo),
    read_key_event hx info l <> Panic -> event_o hx l e1 -> event_o hx l e2 -> em_info e1 = info -> em_info e2 = info -> e1 = e2.
Proof.
  intros hx l e1 e2 info P H1 H2 E1 E2. destruct (key_event_complete hx info l e1 H1 E1) as [G1|G1]; [|contradiction].
  destruct (key_event_complete hx info l e2 H2 E2) as [G2|G2]; [|contradiction]. congruence.
Qed.
(** receipts: the same, and never a panic but from the version *)
Theorem C105_receipt_exactly :
  forall (hx : bytes -> option N) (s rest : bytes) (c : ReceiptMessage),
    json_message (read_receipt hx) s = POk rest c <->
    exists w t before x after,
      s = w ++ t ++ rest /\ blank w /\ denotes (JObj (before ++ (bstr "v", JStr x) :: after)) t
      /\ ~ In (bstr "v") (map fst (before ++ after)) /\ nesting (JObj (before ++ after)) <= 127
      /\ si_from x = Ok (rct_info c) /\ receipt_o hx (before ++ after) c.
Proof.
  intros hx s rest c. rewrite message_exact. split.
  - intros (w & t & b & x & a & i & Hs & Hw & Hd & Hn & Hne & Hx & Hr). apply receipt_ok in Hr. destruct Hr as [Hr <-].
    exists w, t, b, x, a. repeat (split; [assumption|]). assumption.
  - intros (w & t & b & x & a & Hs & Hw & Hd & Hn & Hne & Hx & Hr). exists w, t, b, x, a, (rct_info c). repeat (split; [assumption|]). now apply receipt_ok.
Qed.
(** ** Neither the order of members nor members of other names matter *)
Theorem C105_order_and_extras :
  forall (hx : bytes -> option N) (info : SerializationInfo) (l l' : list (bytes * jval)) (e : EventMessage),
    (forall k, In k event_names -> named k l = named k l') ->
    read_key_event hx info l = Ok e -> read_key_event hx info l' = Ok e.
Proof. intros hx info l l' e. apply key_event_names. Qed.
Print Assumptions C105_event_is_read.
Print Assumptions C105_object_is_event.
Print Assumptions C105_one_event.
Print Assumptions C105_receipt_exactly.
Print Assumptions C105_order_and_extras.

(** ** C106: a message that gives a member twice is refused *)
Definition C106_statement : Prop :=
  forall (hx : bytes -> option N) (info : SerializationInfo) (l : list (bytes * jval)) (k : string) (e : EventMessage),
    In k event_names -> 2 <= List.length (named k l) -> read_key_event hx info l <> Ok e.
(** It holds for the version and for [d], [i] and [s]: *)
Theorem C106_header_once_partial :
  forall (hx : bytes -> option N) (info : SerializationInfo) (l : list (bytes * jval)) (k : string) (e : EventMessage),
    In k ["d"; "i"; "s"]%string -> 2 <= List.length (named k l) -> read_key_event hx info l <> Ok e.
Proof.
  intros hx info l k e Hk Hl H. apply key_event_sound in H. destruct H as [((v1 & H1 & _) & (v2 & H2 & _) & (v3 & H3 & _) & _) _]. unfold once in *.
  destruct Hk as [<-|[<-|[<-|[]]]]; [rewrite H1 in Hl|rewrite H2 in Hl|rewrite H3 in Hl]; cbn in Hl; lia.
Qed.
Theorem C106_version_once_partial :
  forall (D : Type) (read : SerializationInfo -> list (bytes * jval) -> out D) (w t rest rest' : bytes) (l : list (bytes * jval)) (e : D),
    blank w -> denotes (JObj l) t -> 2 <= List.length (named "v" l) -> json_message read (w ++ t ++ rest) <> POk rest' e.
Proof.
  intros D read w t rest rest' l e B Hd Hl H. apply message_exact in H. destruct H as (w1 & t1 & b & x & a & i & Hs & Hw & Hd1 & Hn & _).
  assert (R1 : forall f d, 0 < d -> nesting (JObj l) < d -> 2 * List.length t <= f -> read_value f d (w ++ t ++ rest) = Some (JObj l, rest)).
  { intros f d H1 H2 H3. apply (proj1 (reader_complete f d H1)); try assumption. discriminate. }
  assert (R2 : forall f d, 0 < d -> nesting (JObj (b ++ (bstr "v", JStr x) :: a)) < d -> 2 * List.length t1 <= f -> read_value f d (w1 ++ t1 ++ rest') = Some (JObj (b ++ (bstr "v", JStr x) :: a), rest')).
  { intros f d H1 H2 H3. apply (proj1 (reader_complete f d H1)); try assumption. discriminate. }
  set (n1 := nesting (JObj l)) in *. set (n2 := nesting (JObj (b ++ (bstr "v", JStr x) :: a))) in *.
  pose proof (R1 (2 * (List.length t + List.length t1)) (S (n1 + n2)) ltac:(lia) ltac:(lia) ltac:(lia)) as Q1.
  rewrite Hs, (R2 (2 * (List.length t + List.length t1)) (S (n1 + n2))) in Q1 by lia. injection Q1 as <- _.
  unfold named in Hl. rewrite filter_app, map_app, app_length in Hl. cbn [filter fst] in Hl. change (bytes_eqb (bstr "v") (bstr "v")) with true in Hl. cbn [map snd List.length] in Hl.
  assert (Z : forall m : list (bytes * jval), ~ In (bstr "v") (map fst m) -> filter (fun kv => bytes_eqb (fst kv) (bstr "v")) m = []).
  { clear. induction m as [|[k v] m IH]; intros N; [reflexivity|]. cbn [filter fst]. destruct (bytes_eqb k (bstr "v")) eqn:E.
    - apply bytes_eqb_eq in E. exfalso. apply N. cbn [map fst In]. now left.
    - apply IH. intros H. apply N. cbn [map fst In]. now right. }
  rewrite map_app in Hn. rewrite !Z in Hl by (intros G; apply Hn; apply in_or_app; tauto). cbn in Hl. lia.
Qed.
(** Of every other member the last one counts: anything may stand before it. *)
Theorem C106_last_wins :
  forall (hx : bytes -> option N) (info : SerializationInfo) (l : list (bytes * jval)) (k : string) (v : jval) (e : EventMessage),
    In k event_names -> ~ In k ["d"; "i"; "s"]%string -> named k l <> [] ->
    read_key_event hx info l = Ok e -> read_key_event hx info ((bstr k, v) :: l) = Ok e.
Proof. intros hx info l k v e. apply key_event_first. Qed.
Print Assumptions C106_header_once_partial.
Print Assumptions C106_version_once_partial.
Print Assumptions C106_last_wins.
(** the members of the text of the event of the examples *)
Lemma j_icp_members : exists l, read_key_event hx0 (em_info j_icp) l = Ok j_icp /\ event_o hx0 l j_icp /\ nesting (JObj l) <= 127.
Proof.
  remember (json (event_val j_icp)) as t eqn:Et.
  assert (Ht : e_ser_event (with_json toy) j_icp = Ok t) by (rewrite Et; reflexivity).
  pose proof (C76_event_round_trip_partial hx0 no_key no_rct hx0_reads no_key_refuses no_rct_refuses toy j_icp t [] j_icp_readable eq_refl Ht) as H.
  destruct (event_opens j_icp) as (u & Hu). rewrite <- Et in Hu. clear Et Ht. subst t.
  assert (X : exists v, (bstr "{""" ++ u) ++ [] = bstr "{" ++ v) by (exists (bstr """" ++ u ++ []); reflexivity).
  destruct X as (v & Hv). rewrite Hv in H.
  unfold read_event_type, palt, key_event_message, receipt_message, palt in H.
  rewrite !(proj2 no_key_refuses), !(proj2 no_rct_refuses) in H.
  destruct (json_message (read_key_event hx0) (bstr "{" ++ v)) as [r1 m1| | | |] eqn:E; cbn [pmap] in H; try discriminate H.
  - assert (m1 = j_icp) by congruence. subst m1. apply message_exact in E. destruct E as (w & t & b & x & a & i & _ & _ & _ & _ & Hne & _ & Hr).
    exists (b ++ a). apply key_event_sound in Hr as Hs. destruct Hs as [Ho <-]. repeat split; assumption || apply Ho.
  - destruct (json_message (read_receipt hx0) (bstr "{" ++ v)) as [r1 m1| | | |]; cbn [pmap] in H; discriminate H.
Qed.
Theorem C106_refuted : ~ C106_statement.
Proof.
  intros H. destruct j_icp_members as (l & Hr & Ho & _).
  assert (Hk : named "k" l <> []).
  { destruct Ho as (_ & _ & _ & Hd). unfold j_icp in Hd. cbn [em_data data_o] in Hd. destruct Hd as [_ [(Hk & _) _]]. destruct Hk as (v & (vs & Hv) & _). rewrite Hv. destruct vs; discriminate. }
  apply (H hx0 (em_info j_icp) ((bstr "k", JNull) :: l) "k"%string j_icp).
  - cbn. tauto.
  - rewrite named_cons. change (is (bstr "k") "k") with true. cbn [List.length]. destruct (named "k" l); [congruence|cbn; lia].
  - apply C106_last_wins; [cbn; tauto|cbn; intuition discriminate|exact Hk|exact Hr].
Qed.
Print Assumptions C106_refuted.

(** ** Examples: an interaction with its members out of order, an unknown member, and a seal
    given as an array; a digest that stands twice *)
Definition o_ixn (p : bytes) : list (bytes * jval) :=
  [(bstr "a", JArr [JArr [JStr (id_str j_id); JStr (bstr "2"); JStr (sap_str (jd x05))]]); (bstr "extra", JNum); (bstr "t", JStr (bstr "ixn"));
   (bstr "s", JStr (bstr "1f")); (bstr "p", JStr p); (bstr "i", JStr (id_str j_id)); (bstr "d", JStr (sap_str (jd x02)))].
Example C105_example :
  read_key_event hx0 (mkSI 1 0 9 JSON) (o_ixn (sap_str (jd x01)))
  = Ok (mkEM (mkSI 1 0 9 JSON) (jd x02) j_id 31 (Ixn (mkIxn (jd x01) [SealEvent (mkES j_id 2 (jd x05))]))).
Proof. vm_compute. reflexivity. Qed.
Example C105_example_object : exists e, event_o hx0 (o_ixn (sap_str (jd x01))) e /\ em_sn e = 31%N.
Proof.
  eexists. split; [exact (proj1 (key_event_sound _ _ _ _ C105_example))|reflexivity].
Qed.
Example C106_example :
  read_key_event hx0 (mkSI 1 0 9 JSON) ((bstr "d", JStr (sap_str (jd x02))) :: o_ixn (sap_str (jd x01))) = Err ESerialization
  /\ read_key_event hx0 (mkSI 1 0 9 JSON) ((bstr "p", JStr (sap_str (jd x03))) :: o_ixn (sap_str (jd x01)))
     = read_key_event hx0 (mkSI 1 0 9 JSON) (o_ixn (sap_str (jd x01))).
Proof. split; vm_compute; reflexivity. Qed.
