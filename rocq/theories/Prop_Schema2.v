(** * Which JSON objects are queries and replies: C107, C108. *)
From Verif Require Import Base Base64 Codes NumFmt Types KeyConf Version Cesr Message Keri Json JsonRead JsonQuery JsonProofs JsonProofs3 JsonProofs4 SpecJson Demo Prop_Json Prop_Json2 Prop_JsonQ SpecGrammar GrammarProofs GrammarProofs2 GrammarProofs3 SpecSchema SpecSchema2 SchemaProofs SchemaProofs2 SchemaProofs3.

Lemma query_is tr info l q : read_query tr info l = Ok q <-> query_o tr l q /\ q_info q = info.
Proof. exact (query_ok (fun _ => None) tr info l q). Qed.
(** ** C107: exactly these texts are read as queries and as replies *)
Theorem C107_query_exactly :
  forall (tr : bytes -> option Z) (s rest : bytes) (q : QueryMessage),
    json_message (read_query tr) s = POk rest q <->
    exists w t before x after,
      s = w ++ t ++ rest /\ blank w /\ denotes (JObj (before ++ (bstr "v", JStr x) :: after)) t
      /\ ~ In (bstr "v") (map fst (before ++ after)) /\ nesting (JObj (before ++ after)) <= 127
      /\ si_from x = Ok (q_info q) /\ query_o tr (before ++ after) q.
Proof.
  intros tr s rest q. rewrite message_exact. split.
  - intros (w & t & b & x & a & i & Hs & Hw & Hd & Hn & Hne & Hx & Hr). apply query_is in Hr. destruct Hr as [Hr <-].
    exists w, t, b, x, a. repeat (split; [assumption|]). assumption.
  - intros (w & t & b & x & a & Hs & Hw & Hd & Hn & Hne & Hx & Hr). exists w, t, b, x, a, (q_info q). repeat (split; [assumption|]). now apply query_is.
Qed.
Theorem C107_reply_exactly :
  forall (hx : bytes -> option N) (tr : bytes -> option Z) (s rest : bytes) (m : ReplyMessage),
    json_message (read_reply hx tr) s = POk rest m <->
    exists w t before x after,
      s = w ++ t ++ rest /\ blank w /\ denotes (JObj (before ++ (bstr "v", JStr x) :: after)) t
      /\ ~ In (bstr "v") (map fst (before ++ after)) /\ nesting (JObj (before ++ after)) <= 127
      /\ si_from x = Ok (rp_info m) /\ reply_o hx tr (before ++ after) m.
Proof.
  intros hx tr s rest m. rewrite message_exact. split.
  - intros (w & t & b & x & a & i & Hs & Hw & Hd & Hn & Hne & Hx & Hr). apply reply_ok in Hr. destruct Hr as [Hr <-].
    exists w, t, b, x, a. repeat (split; [assumption|]). assumption.
  - intros (w & t & b & x & a & Hs & Hw & Hd & Hn & Hne & Hx & Hr). exists w, t, b, x, a, (rp_info m). repeat (split; [assumption|]). now apply reply_ok.
Qed.
(** the values that a text gives are determined *)
Theorem C107_one_message :
  forall (hx : bytes -> option N) (tr : bytes -> option Z) (l : list (bytes * jval)),
    (forall q1 q2, query_o tr l q1 -> query_o tr l q2 -> q_info q1 = q_info q2 -> q1 = q2)
    /\ (forall m1 m2, reply_o hx tr l m1 -> reply_o hx tr l m2 -> rp_info m1 = rp_info m2 -> m1 = m2).
Proof.
  intros hx tr l. split.
  - intros q1 q2 H1 H2 E. assert (G1 : read_query tr (q_info q1) l = Ok q1) by (apply query_is; now split).
    assert (G2 : read_query tr (q_info q1) l = Ok q2) by (apply query_is; now split). congruence.
  - intros q1 q2 H1 H2 E. assert (G1 : read_reply hx tr (rp_info q1) l = Ok q1) by (apply reply_ok; now split).
    assert (G2 : read_reply hx tr (rp_info q1) l = Ok q2) by (apply reply_ok; now split). congruence.
Qed.
Print Assumptions C107_query_exactly.
Print Assumptions C107_reply_exactly.
Print Assumptions C107_one_message.

(** ** C108: a message is what its member [t] says *)
Definition C108_statement : Prop :=
  forall (hx : bytes -> option N) (tr : bytes -> option Z) (info : SerializationInfo) (l : list (bytes * jval)),
    (forall e, read_key_event hx info l = Ok e -> typed (tag_text (event_type (em_data e))) l)
    /\ (forall q, read_query tr info l = Ok q -> typed "qry" l)
    /\ (forall m, read_reply hx tr info l = Ok m -> typed "rpy" l)
    /\ (forall c, read_receipt hx info l = Ok c -> typed "rct" l).
(** It holds for key events. *)
Theorem C108_key_events_partial :
  forall (hx : bytes -> option N) (info : SerializationInfo) (l : list (bytes * jval)) (e : EventMessage),
    read_key_event hx info l = Ok e -> typed (tag_text (event_type (em_data e))) l.
Proof.
  intros hx info l e H. apply key_event_sound in H. destruct H as [(_ & _ & _ & H) _]. destruct (em_data e); cbn [data_o event_type tag_text] in *; tauto.
Qed.
(** The other readers do not look at [t]: *)
Theorem C108_type_not_read :
  forall (hx : bytes -> option N) (tr : bytes -> option Z) (info : SerializationInfo) (l : list (bytes * jval)) (v : jval),
    (forall q, read_query tr info l = Ok q -> read_query tr info ((bstr "t", v) :: l) = Ok q)
    /\ (forall m, read_reply hx tr info l = Ok m -> read_reply hx tr info ((bstr "t", v) :: l) = Ok m)
    /\ (forall c, read_receipt hx info l = Ok c -> read_receipt hx info ((bstr "t", v) :: l) = Ok c).
Proof.
  intros hx tr info l v.
  assert (N : forall k, k <> "t"%string -> named k ((bstr "t", v) :: l) = named k l).
  { intros k Hk. rewrite named_cons. destruct (is (bstr "t") k) eqn:E; [|reflexivity]. apply is_iff, bstr_inj in E. congruence. }
  assert (O : forall A (R : jval -> A -> Prop) k a, k <> "t"%string -> has_once R k l a -> has_once R k ((bstr "t", v) :: l) a).
  { intros A R k a Hk. unfold has_once, once. now rewrite N. }
  split; [|split].
  - intros q H. apply query_is in H. destruct H as [(H1 & H2 & H3 & H4 & H5) H]. apply query_is. split; [|exact H]. unfold query_o. repeat split; (apply O; [discriminate|assumption]).
  - intros q H. apply reply_ok in H. destruct H as [(H1 & H2 & H3 & H4) H]. apply reply_ok. split; [|exact H]. unfold reply_o. repeat split; (apply O; [discriminate|assumption]).
  - intros q H. apply receipt_ok in H. destruct H as [(H1 & H2 & H3) H]. apply receipt_ok. split; [|exact H]. unfold receipt_o. repeat split; (apply O; [discriminate|assumption]).
Qed.
(** an object that is a query, and what it gives *)
Definition o_query : list (bytes * jval) :=
  [(bstr "r", JStr (bstr "/ksn/" ++ id_str j_id)); (bstr "q", JArr [JStr (id_str j_id)]); (bstr "dt", JStr (bstr "77"));
   (bstr "rr", JStr []); (bstr "d", JStr (sap_str (jd x02)))].
Definition o_read : QueryMessage := mkQry (mkSI 1 0 9 JSON) (jd x02) 77000 (RReplyKsn j_id) [] j_id.
Example C107_example : read_query tr0 (mkSI 1 0 9 JSON) o_query = Ok o_read.
Proof. vm_compute. reflexivity. Qed.
Example C107_example_object : query_o tr0 o_query o_read.
Proof. exact (proj1 (proj1 (query_is _ _ _ _) C107_example)). Qed.
Theorem C108_refuted : ~ C108_statement.
Proof.
  intros H. destruct (H hx0 tr0 (mkSI 1 0 9 JSON) ((bstr "t", JStr (bstr "icp")) :: o_query)) as (_ & Q & _).
  specialize (Q o_read (proj1 (C108_type_not_read hx0 tr0 _ _ _) _ C107_example)). destruct Q as (v & (vs & Hv) & Hty).
  change (named "t" ((bstr "t", JStr (bstr "icp")) :: o_query)) with [JStr (bstr "icp")] in Hv.
  assert (v = JStr (bstr "icp")).
  { change [JStr (bstr "icp")] with ([] ++ [JStr (bstr "icp")]) in Hv. symmetry. exact (proj2 (app_inj_tail _ _ _ _ Hv)). }
  subst v. destruct Hty as [E|(l & E & _)]; [|discriminate E]. assert (bstr "icp" = bstr "qry") by congruence. discriminate.
Qed.
Print Assumptions C108_key_events_partial.
Print Assumptions C108_type_not_read.
Print Assumptions C108_refuted.
(** the object of a reply, with the notice in it and what it gives *)
Definition o_notice : jval :=
  JObj [(bstr "v", JStr (si_str (mkSI 1 0 0 JSON))); (bstr "i", JStr (id_str j_id)); (bstr "s", JStr (bstr "7"));
    (bstr "p", JNull); (bstr "d", JStr (sap_str (jd x02))); (bstr "f", JStr (bstr "0")); (bstr "dt", JStr (bstr "5"));
    (bstr "et", JStr (bstr "rot")); (bstr "kt", JStr (bstr "1")); (bstr "k", JArr [JStr (bp_str (jk x11))]);
    (bstr "n", JStr []); (bstr "bt", JStr (bstr "0")); (bstr "b", JArr []); (bstr "c", JArr [JStr (bstr "EO")]);
    (bstr "ee", JObj [(bstr "s", JStr (bstr "3")); (bstr "d", JStr (sap_str (jd x05))); (bstr "br", JArr []); (bstr "ba", JArr [])])].
Definition o_reply : list (bytes * jval) :=
  [(bstr "t", JStr (bstr "rpy")); (bstr "d", JStr (sap_str (jd x09))); (bstr "dt", JStr (bstr "77"));
   (bstr "r", JStr (bstr "ksn")); (bstr "a", o_notice)].
Definition o_replied : ReplyMessage :=
  mkReply (mkSI 1 0 9 JSON) (jd x09) 77000 RKsn
    (mkKsn (mkSI 1 0 0 JSON)
       (mkState j_id 7 (jd x02) None (Some TRot) (mkKC (Simple 1) [jk x11] None) 0 [] None (mkLE 3 (jd x05) [] []))
       0 5000 [bstr "EO"]).
Example C107_reply_example : read_reply hx0 tr0 (mkSI 1 0 9 JSON) o_reply = Ok o_replied.
Proof. vm_compute. reflexivity. Qed.
Example C107_reply_object : reply_o hx0 tr0 o_reply o_replied.
Proof. exact (proj1 (proj1 (reply_ok _ _ _ _ _) C107_reply_example)). Qed.
(** and texts: with blanks, then the query of C94 as the library writes it *)
Example C107_example_texts :
  json_message (read_query tr0) (bstr " " ++ json (query_val tw0 q0) ++ bstr "-AAB") = POk (bstr "-AAB") (mkQry (q_info q0) (q_digest q0) (SpecJsonQ.micros (q_timestamp q0)) (q_route q0) (q_reply_route q0) (q_i q0)).
Proof. vm_compute. reflexivity. Qed.
