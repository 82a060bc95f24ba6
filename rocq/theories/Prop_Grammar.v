(** * The JSON reader accepts JSON and nothing else: C103, C104. *)
From Verif Require Import Base Base64 Codes NumFmt Types KeyConf Version Cesr Message Keri Json JsonRead JsonProofs JsonProofs3 JsonProofs4 SpecJson Demo Prop_Json Prop_Json2 SpecGrammar GrammarProofs GrammarProofs2 GrammarProofs3.

(** ** A message is read from a text exactly when the text is a JSON object with one version *)
Theorem C103_exactly_json :
  forall (D : Type) (read : SerializationInfo -> list (bytes * jval) -> out D) (s rest : bytes) (e : D),
    json_message read s = POk rest e <->
    exists w t before x after info,
      s = w ++ t ++ rest /\ blank w
      /\ denotes (JObj (before ++ (bstr "v", JStr x) :: after)) t
      /\ ~ In (bstr "v") (map fst (before ++ after))
      /\ nesting (JObj (before ++ after)) <= 127
      /\ si_from x = Ok info /\ read info (before ++ after) = Ok e.
Proof. intros D read s rest e. apply message_exact. Qed.
Print Assumptions C103_exactly_json.

(** ** Texts mean one thing: no text has two values, and none is the beginning of another *)
Definition not_number (v : jval) : Prop := match v with JNum => False | _ => True end.
Theorem C103_unambiguous :
  forall (v1 v2 : jval) (w1 w2 t1 t2 r1 r2 : bytes),
    blank w1 -> blank w2 -> not_number v1 -> not_number v2 -> denotes v1 t1 -> denotes v2 t2 ->
    w1 ++ t1 ++ r1 = w2 ++ t2 ++ r2 -> v1 = v2 /\ w1 = w2 /\ t1 = t2 /\ r1 = r2.
Proof.
  intros v1 v2 w1 w2 t1 t2 r1 r2 B1 B2 N1 N2 D1 D2 H.
  set (d := S (nesting v1 + nesting v2)). set (f := 2 * (List.length t1 + List.length t2)).
  assert (R1 : read_value f d (w1 ++ t1 ++ r1) = Some (v1, r1)).
  { apply (proj1 (reader_complete f d ltac:(unfold d; lia))); [exact B1|exact D1|unfold d; lia|intros ->; destruct N1|unfold f; lia]. }
  assert (R2 : read_value f d (w2 ++ t2 ++ r2) = Some (v2, r2)).
  { apply (proj1 (reader_complete f d ltac:(unfold d; lia))); [exact B2|exact D2|unfold d; lia|intros ->; destruct N2|unfold f; lia]. }
  rewrite H, R2 in R1. injection R1 as -> ->. split; [reflexivity|]. rewrite !app_assoc in H. apply app_inv_tail in H.
  destruct (value_head _ _ D1) as (c1 & u1 & E1 & W1 & _). destruct (value_head _ _ D2) as (c2 & u2 & E2 & W2 & _).
  assert (S : c1 :: u1 = c2 :: u2). { rewrite <- (skip_to w1 c1 u1 B1 W1), <- (skip_to w2 c2 u2 B2 W2), <- E1, <- E2. now rewrite H. }
  rewrite <- E1, <- E2 in S. subst t1. rewrite S in H. apply app_inv_tail in H. now repeat split.
Qed.
Print Assumptions C103_unambiguous.

(** ** Only the value of the text matters, not how it is spelled *)
Theorem C103_spelling :
  forall (D : Type) (read : SerializationInfo -> list (bytes * jval) -> out D) (l : list (bytes * jval))
         (w1 t1 r1 w2 t2 r2 : bytes) (e : D),
    blank w1 -> blank w2 -> denotes (JObj l) t1 -> denotes (JObj l) t2 ->
    json_message read (w1 ++ t1 ++ r1) = POk r1 e -> json_message read (w2 ++ t2 ++ r2) = POk r2 e.
Proof.
  intros D read l w1 t1 r1 w2 t2 r2 e B1 B2 D1 D2 H. apply message_exact in H. destruct H as (w & t & b & x & a & info & Hs & Hw & Hd & Hn & Hne & Hx & Hr).
  destruct (C103_unambiguous (JObj l) (JObj (b ++ (bstr "v", JStr x) :: a)) _ _ _ _ _ _ B1 Hw I I D1 Hd Hs) as (Hl & _). injection Hl as ->.
  apply message_exact. exists w2, t2, b, x, a, info. now repeat split.
Qed.
Print Assumptions C103_spelling.

(** ** So the bytes a signature covers need not be the bytes received: white space can be added
    to the text of any message, and the same message is read. *)
Theorem C103_padding :
  forall (D : Type) (read : SerializationInfo -> list (bytes * jval) -> out D) (u rest w : bytes) (e : D),
    blank w -> json_message read (bstr "{" ++ u) = POk rest e ->
    json_message read (bstr "{" ++ w ++ u) = POk rest e.
Proof.
  intros D read u rest w e B H. apply message_exact in H. destruct H as (w0 & t & b & x & a & info & Hs & Hw & Hd & H).
  apply message_exact. apply denotes_obj in Hd. destruct Hd as (u1 & -> & Hm).
  change (bstr "{" ++ u) with (n2b 123 :: u) in Hs.
  destruct w0 as [|c w0]; [|exfalso; cbn [app] in Hs; assert (c = n2b 123) by congruence; subst c; inversion Hw as [|? ? Hc _]; vm_compute in Hc; intuition discriminate].
  cbn [app] in Hs. change ((bstr "{" ++ u1) ++ rest) with (n2b 123 :: u1 ++ rest) in Hs. assert (u = u1 ++ rest) by congruence. subst u.
  exists [], (bstr "{" ++ w ++ u1), b, x, a, info. split; [now rewrite <- !app_assoc|]. split; [constructor|]. split; [|exact H].
  apply denotes_obj. exists (w ++ u1). split; [reflexivity|]. apply mtext_pad; assumption.
Qed.
Print Assumptions C103_padding.
(** C104, the hoped-for converse of C76: an event is read from the text it serializes to. *)
Definition C104_statement : Prop :=
  forall (hx : bytes -> option N) (bk : bytes -> pres EventMessage) (br : bytes -> pres ReceiptMessage),
    reads_hex hx -> refuses_text bk -> refuses_text br ->
  forall (E : Env) (m : EventMessage) (s t r : bytes),
    read_event_type hx bk br s = POk r (KeyEventT m) -> e_ser_event (with_json E) m = Ok t -> s = t ++ r.
(** It fails for every event that can be written and read: the text with white space in it is
    longer than the text that is signed and than the size it states. *)
Theorem C104_received_is_not_signed :
  forall (hx : bytes -> option N) (bk : bytes -> pres EventMessage) (br : bytes -> pres ReceiptMessage),
    reads_hex hx -> refuses_text bk -> refuses_text br ->
  forall (E : Env) (m : EventMessage) (t r w : bytes),
    event_readable m -> si_kind (em_info m) = JSON -> e_ser_event (with_json E) m = Ok t -> blank w ->
    exists u, t = bstr "{" ++ u /\ read_event_type hx bk br (bstr "{" ++ w ++ u ++ r) = POk r (KeyEventT m).
Proof.
  intros hx bk br Hhx Hbk Hbr E m t r w Hm Hk Ht B. pose proof (C76_event_round_trip_partial hx bk br Hhx Hbk Hbr E m t r Hm Hk Ht) as H.
  assert (X : exists u, t = bstr "{" ++ u).
  { cbn [e_ser_event with_json] in Ht. rewrite Hk in Ht. assert (t = json (event_val m)) by congruence. subst t.
    destruct (event_opens m) as (u & Hu). exists (bstr """" ++ u). rewrite Hu. reflexivity. }
  destruct X as (u & ->). exists u. split; [reflexivity|].
  assert (J : json_message (read_key_event hx) (bstr "{" ++ u ++ r) = POk r m).
  { rewrite <- app_assoc in H. clear - H Hbk Hbr. unfold read_event_type, palt, key_event_message, receipt_message, palt in H.
    rewrite !(proj2 Hbk), !(proj2 Hbr) in H.
    destruct (json_message (read_key_event hx) (bstr "{" ++ u ++ r)) as [r1 m1| | | |]; cbn [pmap] in H; try discriminate H.
    - congruence.
    - destruct (json_message (read_receipt hx) (bstr "{" ++ u ++ r)) as [r1 m1| | | |]; cbn [pmap] in H; discriminate H. }
  apply (C103_padding _ _ _ _ w _ B) in J. unfold read_event_type, palt, key_event_message, palt. rewrite J. reflexivity.
Qed.
Print Assumptions C104_received_is_not_signed.
Theorem C104_refuted : ~ C104_statement.
Proof.
  intros H. remember (json (event_val j_icp)) as t eqn:Et.
  assert (Ht : e_ser_event (with_json toy) j_icp = Ok t) by (rewrite Et; reflexivity).
  assert (B : blank [n2b 32]) by (constructor; [left; reflexivity|constructor]).
  destruct (C104_received_is_not_signed hx0 no_key no_rct hx0_reads no_key_refuses no_rct_refuses toy j_icp t [] [n2b 32] j_icp_readable eq_refl Ht B) as (u & Hu & Hr).
  apply (H hx0 no_key no_rct hx0_reads no_key_refuses no_rct_refuses toy j_icp _ t [] ) in Hr; [|exact Ht].
  rewrite Hu in Hr. apply (f_equal (@List.length byte)) in Hr. rewrite !app_nil_r, !app_length in Hr. cbn [List.length] in Hr. lia.
Qed.
Print Assumptions C104_refuted.

(** ** Examples: texts with blanks, escapes, surrogate pairs and numbers, and what is refused *)
Definition q : bytes := [n2b 34].
(** { "v" : "KERI10JSON000001_", "d\u0041":[1.5e+3,-0],"\ud83d\ude00":{}} *)
Definition odd_text : bytes :=
  bstr " { " ++ q ++ bstr "v" ++ q ++ bstr " : " ++ q ++ bstr "KERI10JSON000001_" ++ q ++ bstr ", " ++ q ++ bstr "d\u0041" ++ q
  ++ bstr ":[1.5e+3,-0]," ++ q ++ bstr "\ud83d\ude00" ++ q ++ bstr ":{}}".
Definition odd_members : list (bytes * jval) := [(bstr "dA", JArr [JNum; JNum]); (map n2b [240; 159; 152; 128]%N, JObj [])].
Definition kept (i : SerializationInfo) (l : list (bytes * jval)) : out (SerializationInfo * list (bytes * jval)) := Ok (i, l).
Example C103_example_reads : json_message kept (odd_text ++ bstr "-AAB") = POk (bstr "-AAB") (mkSI 1 0 1 JSON, odd_members).
Proof. vm_compute. reflexivity. Qed.
(** the example is an instance of the grammar *)
Example C103_example_denotes : exists w t before x after,
  odd_text = w ++ t /\ blank w /\ denotes (JObj (before ++ (bstr "v", JStr x) :: after)) t /\ before ++ after = odd_members.
Proof.
  pose proof C103_example_reads as H. apply message_exact in H. destruct H as (w & t & b & x & a & i & Hs & Hw & Hd & _ & _ & _ & Hk).
  exists w, t, b, x, a. split; [|split; [exact Hw|split; [exact Hd|]]].
  - rewrite app_assoc in Hs. now apply app_inv_tail in Hs.
  - unfold kept in Hk. injection Hk as _ Hk. exact Hk.
Qed.
Definition refused (s : string) : Prop := forall D (read : SerializationInfo -> list (bytes * jval) -> out D), json_message read (bstr s) = PErr.
Example C103_example_refused :
  refused "{'v':1}" /\ refused "{,}" /\ refused "[]" /\ refused "{" /\ refused "".
Proof. repeat split; intros D read; vm_compute; reflexivity. Qed.
