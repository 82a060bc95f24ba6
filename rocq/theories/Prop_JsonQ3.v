(** * Messages are what they say they are: C97. *)
From Coq Require Import ZifyBool ZifyN ZifyNat.
From Verif Require Import Base Base64 Base64Proofs Codes NumFmt NumProofs Types SpecCodec CodecProofs CodecProofs2 KeyConf Version Cesr CesrProofs SpecCesr CesrProofs3 Message Keri Json JsonRead JsonProofs SpecJson JsonProofs2 JsonProofs3 JsonProofs4 JsonProofs5 JsonProofs7 JsonProofs8 JsonProofs9 JsonProofs10 Prop_Version Prop_Message Prop_Json Prop_Json2 Prop_Json4
  State Db Processor Spec StateProofs SpecKeri Prop_Keri Demo SpecJsonQ JsonQuery JsonProofs11 JsonProofs12 Prop_JsonQ.
Notation json := Json.json.

(** the text has a member named "t" whose value is the JSON string [x], or an object that
    begins with a member named [x] *)
Definition has_type (t x : bytes) : Prop :=
  exists u w r1 r2 r3, t = u ++ bstr """" ++ w /\ read_string w = Some (bstr "t", r1) /\ skip_ws r1 = bstr ":" ++ r2
    /\ ((skip_ws r2 = bstr """" ++ r3 /\ exists r, read_string r3 = Some (x, r))
        \/ exists r4, skip_ws r2 = bstr "{" ++ r4 /\ skip_ws r4 = bstr """" ++ r3 /\ exists r, read_string r3 = Some (x, r)).
(** the kind of a message *)
Definition kind_of (e : EventType) : EventTypeTag :=
  match e with
  | KeyEventT m => match em_data m with Icp _ => TIcp | Rot _ => TRot | Ixn _ => TIxn | Dip _ => TDip | Drt _ => TDrt end
  | ReceiptT _ => TRct | QryT _ => TQry | RpyT _ => TRpy
  end.
Definition C97_statement : Prop :=
  forall (hx : bytes -> option N) (tr : bytes -> option Z) (bk : bytes -> pres EventMessage) (bp : bytes -> pres ReplyMessage)
         (bq : bytes -> pres QueryMessage) (br : bytes -> pres ReceiptMessage) (t r : bytes) (e : EventType),
    bk t = PErr -> bp t = PErr -> bq t = PErr -> br t = PErr ->
    read_event_type_q hx tr bk bp bq br t = POk r e -> has_type t (tag_str (kind_of e)).

(** ** Where the members of a message stand in its text *)
Lemma in_ins {A} (k : bytes) (v : A) l kv : In kv (ins k v l) -> kv = (k, v) \/ In kv l.
Proof.
  induction l as [|[k' v'] l IH]; cbn [ins]; [intros [H|[]]; auto|]. destruct (bytes_eq_dec k k') as [<-|]; [intros [H|H]; [auto|right; right; exact H]|].
  destruct (bytes_ltb k k'); [intros [H|H]; auto|]. intros [H|H]; [right; now left|]. destruct (IH H); [auto|right; now right].
Qed.
Lemma ins_key {A} (k : bytes) (v : A) l : In k (map fst (ins k v l)) /\ incl (map fst l) (map fst (ins k v l)).
Proof.
  induction l as [|[k' v'] l [IH1 IH2]]; cbn [ins]; [split; [now left|intros x []]|]. destruct (bytes_eq_dec k k') as [<-|]; [split; [now left|intros x H; exact H]|].
  destruct (bytes_ltb k k'); [split; [now left|intros x H; now right]|]. split; [now right|]. intros x [H|H]; [now left|right; now apply IH2].
Qed.
Lemma sort_in {A} (l : list (bytes * A)) : incl (sort_map l) l /\ incl (map fst l) (map fst (sort_map l)).
Proof.
  unfold sort_map. assert (G : forall m, incl (fold_left (fun m kv => ins (fst kv) (snd kv) m) l m) (l ++ m)
    /\ incl (map fst (l ++ m)) (map fst (fold_left (fun m (kv : bytes * A) => ins (fst kv) (snd kv) m) l m))).
  { induction l as [|[k v] l IH]; intros m; cbn [fold_left app fst snd]; [split; intros x H; exact H|]. destruct (IH (ins k v m)) as [H1 H2]. split.
    - intros x Hx. apply H1 in Hx. apply in_app_or in Hx as [Hx|Hx]; [right; apply in_or_app; now left|]. apply in_ins in Hx as [-> |Hx]; [now left|right; apply in_or_app; now right].
    - intros x Hx. apply H2. rewrite map_app in *. apply in_or_app. destruct (ins_key k v m) as [K1 K2]. cbn [map fst] in Hx. destruct Hx as [<-|Hx]; [right; exact K1|].
      rewrite map_app in Hx. apply in_app_or in Hx as [Hx|Hx]; [now left|right; now apply K2]. }
  destruct (G []) as [G1 G2]. rewrite app_nil_r in *. now split.
Qed.
Section Where.
  Context (t : bytes).
  Definition member_at (k : bytes) (v : jval) : Prop :=
    exists w r1 r2 f d r3, suffix (n2b 34 :: w) t /\ read_string w = Some (k, r1) /\ skip_ws r1 = n2b 58 :: r2 /\ read_value f d r2 = Some (v, r3).
  Lemma members_at f : forall d b ov s, suffix s t ->
    match read_top f d b ov s with Ok (_, l, _) => Forall (fun kv => member_at (fst kv) (snd kv)) l | _ => True end.
  Proof.
    induction f as [|f IH]; intros d b ov s Hs; [exact I|]. cbn [read_top].
    pose proof (suffix_trans _ _ _ (skip_ws_suffix s) Hs) as Hw. destruct (skip_ws s) as [|c s1]; [exact I|].
    pose proof (suffix_cons _ _ _ Hw) as Hw1. destruct (c_is c 125); [constructor|].
    set (next := if b then Some (c :: s1) else if c_is c 44 then Some (skip_ws s1) else None).
    assert (Hn : forall x, next = Some x -> suffix x t).
    { unfold next. destruct b; [intros x H; injection H as <-; exact Hw|]. destruct (c_is c 44); [|discriminate]. intros x H. injection H as <-.
      eapply suffix_trans; [apply skip_ws_suffix|exact Hw1]. }
    clearbody next. destruct next as [[|q t0]|]; try exact I. specialize (Hn _ eq_refl). destruct (c_is q 34) eqn:Eq; [|exact I]. apply quote_eq in Eq. subst q.
    destruct (read_string t0) as [[k r1]|] eqn:Ek; [|exact I]. pose proof (read_string_suffix _ _ _ Ek) as Ek'.
    assert (S1 : suffix r1 t) by (eapply suffix_trans; [exact Ek'|]; exact (suffix_cons _ _ _ Hn)).
    destruct (is k "v" && _)%bool; [exact I|].
    pose proof (suffix_trans _ _ _ (skip_ws_suffix r1) S1) as S2. destruct (skip_ws r1) as [|e r2] eqn:E2; [exact I|]. apply suffix_cons in S2.
    destruct (c_is e 58) eqn:Ee; [|exact I]. apply char_eq in Ee; [|reflexivity]. subst e.
    destruct (is k "v") eqn:Kv.
    - pose proof (suffix_trans _ _ _ (skip_ws_suffix r2) S2) as S3. destruct (skip_ws r2) as [|q r3] eqn:E3; [exact I|].
      destruct (c_is q 34) eqn:Eq; [|exact I]. destruct (read_string r3) as [[x r4]|] eqn:E4; [|exact I].
      apply suffix_cons in S3. pose proof (suffix_trans _ _ _ (read_string_suffix _ _ _ E4) S3) as S4.
      destruct (si_from x) as [v|er|]; cbn [custom obind]; [|exact I|exact I].
      specialize (IH d false (Some v) r4 S4). destruct (read_top f d false (Some v) r4) as [[[ov' l] r]|er|]; [exact IH|exact I|exact I].
    - destruct (read_value f d r2) as [[v r3]|] eqn:E3; [|exact I].
      assert (S3 : suffix r3 t) by (exact (proj1 (proj1 (reads_from t (fun _ => True) (fun _ _ _ _ _ => I) f) _ _ _ _ S2 E3))).
      specialize (IH d false ov r3 S3). destruct (read_top f d false ov r3) as [[[ov' l] r]|er|]; cbn [obind]; [|exact I|exact I].
      constructor; [|exact IH]. exists t0, r1, r2, f, d, r3. auto.
  Qed.
  Lemma value_str f d s x r : read_value f d s = Some (JStr x, r) -> exists s', skip_ws s = n2b 34 :: s' /\ exists r, read_string s' = Some (x, r).
  Proof.
    destruct f as [|f]; [discriminate|]. cbn [read_value]. destruct (skip_ws s) as [|c s1]; [discriminate|]. destruct (c_is c 34) eqn:Q.
    - apply quote_eq in Q. subst c. destruct (read_string s1) as [[y r1]|] eqn:E; [|discriminate]. intros H. assert (y = x) by congruence. subst. eauto.
    - destruct (c_is c 91); [destruct d as [|[|d]]; try discriminate; destruct (read_elems f (S d) true s1) as [[? ?]|]; discriminate|].
      destruct (c_is c 123); [destruct d as [|[|d]]; try discriminate; destruct (read_members f (S d) true s1) as [[? ?]|]; discriminate|].
      destruct (c_is c 110); [destruct (eat _ s1); discriminate|]. destruct (c_is c 116); [destruct (eat _ s1); discriminate|]. destruct (c_is c 102); [destruct (eat _ s1); discriminate|].
      destruct (is_digit c || c_is c 45); [|discriminate]. destruct (read_number (c :: s1)); discriminate.
  Qed.
  Lemma value_obj f d s k v l r : read_value f d s = Some (JObj ((k, v) :: l), r) ->
    exists s1 s', skip_ws s = n2b 123 :: s1 /\ skip_ws s1 = n2b 34 :: s' /\ exists r, read_string s' = Some (k, r).
  Proof.
    destruct f as [|f]; [discriminate|]. cbn [read_value]. destruct (skip_ws s) as [|c s1]; [discriminate|]. destruct (c_is c 34) eqn:Q.
    - destruct (read_string s1) as [[y r1]|] eqn:E; discriminate.
    - destruct (c_is c 91); [destruct d as [|[|d]]; try discriminate; destruct (read_elems f (S d) true s1) as [[? ?]|]; discriminate|].
      destruct (c_is c 123) eqn:B.
      { apply char_eq in B; [|reflexivity]. subst c. destruct d as [|[|d]]; try discriminate. destruct (read_members f (S d) true s1) as [[l' r']|] eqn:E; [|discriminate].
        intros H. assert (l' = (k, v) :: l) by congruence. subst l'. clear H. exists s1. destruct f as [|f]; [discriminate|]. cbn [read_members] in E.
        destruct (skip_ws s1) as [|c s2]; [discriminate|]. destruct (c_is c 125); [discriminate|]. destruct (c_is c 34) eqn:Q2; [|discriminate]. apply quote_eq in Q2. subst c.
        destruct (read_string s2) as [[y r1]|] eqn:E2; [|discriminate]. destruct (skip_ws r1) as [|e r2]; [discriminate|]. destruct (c_is e 58); [|discriminate].
        destruct (read_value f (S d) r2) as [[v' r3]|]; [|discriminate]. destruct (read_members f (S d) false r3) as [[l1 r4]|]; [|discriminate].
        exists s2. split; [reflexivity|]. split; [reflexivity|]. exists r1. congruence. }
      destruct (c_is c 110); [destruct (eat _ s1); discriminate|]. destruct (c_is c 116); [destruct (eat _ s1); discriminate|]. destruct (c_is c 102); [destruct (eat _ s1); discriminate|].
      destruct (is_digit c || c_is c 45); [|discriminate]. destruct (read_number (c :: s1)); discriminate.
  Qed.
End Where.
Lemma tag_from_str s g : tag_from s = Ok g -> s = tag_str g.
Proof.
  unfold tag_from. repeat match goal with |- (if is s ?k then _ else _) = _ -> _ => destruct (is s k) eqn:?; [intros [= <-]; now apply is_eq in Heqb|clear Heqb] end. discriminate.
Qed.
(** a key event is of the type that its text states *)
Theorem C97_key_events_partial :
  forall (hx : bytes -> option N) (tr : bytes -> option Z) (bk : bytes -> pres EventMessage) (bp : bytes -> pres ReplyMessage)
         (bq : bytes -> pres QueryMessage) (br : bytes -> pres ReceiptMessage) (t r : bytes) (m : EventMessage),
    bk t = PErr -> read_event_type_q hx tr bk bp bq br t = POk r (KeyEventT m) -> has_type t (tag_str (kind_of (KeyEventT m))).
Proof.
  intros hx tr bk bp bq br t r m Hbk H.
  assert (J : json_message (read_key_event hx) t = POk r m).
  { unfold read_event_type_q, palt at 1, key_event_message, palt at 1 in H. rewrite Hbk in H.
    destruct (json_message (read_key_event hx) t); cbn [pmap] in H; try congruence. exfalso.
    unfold palt, reply_message, query_message, receipt_message, palt in H.
    repeat match type of H with context [match pmap _ ?x with _ => _ end] => destruct x; cbn [pmap] in H; try discriminate H end.
    destruct (json_message (read_receipt hx) t); cbn [pmap] in H; try discriminate H. destruct (br t); discriminate H. }
  clear H. unfold json_message in J. pose proof (skip_ws_suffix t) as St. destruct (skip_ws t) as [|c b]; [discriminate|]. destruct (c_is c 123); [|discriminate]. apply suffix_cons in St.
  pose proof (members_at t (fuel_for b) 127 true None b St) as T. destruct (read_top (fuel_for b) 127 true None b) as [[[ov l] rr]|e|]; cbn [obind] in J; [|discriminate|discriminate].
  destruct ov as [v|]; [|discriminate J]. change (need (Some v)) with (Ok v) in J. cbn [obind] in J.
  destruct (read_key_event hx v l) as [m'|e|] eqn:R; cbn [obind] in J; cbv beta iota in J; try discriminate J. injection J as _ J. subst m'.
  (* members that are passed on *)
  unfold read_key_event in R.
  assert (T1 : forall A (f : jval -> out A) ka l oa x rest, take1 ka f l oa = Ok (x, rest) -> incl rest l).
  { intros A f ka. induction l0 as [|[k w] l0 IH]; intros oa x rest; cbn [take1]; [intros [= <- <-]; intros y []|]. destruct (is k ka).
    - destruct oa; [discriminate|]. destruct (f w); cbn [obind]; [|discriminate|discriminate]. intros E y Hy. right. now apply (IH _ _ _ E).
    - destruct (take1 ka f l0 oa) as [[a rest']|e|] eqn:E; cbn [obind]; [|discriminate|discriminate]. intros [= <- <-] y [<-|Hy]; [now left|right; now apply (IH _ _ _ E)]. }
  assert (T2 : forall A B (f : jval -> out A) (g : jval -> out B) ka kb l oa ob x y rest, take2 ka kb f g l oa ob = Ok (x, y, rest) -> incl rest l).
  { intros A B f g ka kb. induction l0 as [|[k w] l0 IH]; intros oa ob x y rest; cbn [take2]; [intros [= <- <- <-]; intros z []|]. destruct (is k ka); [|destruct (is k kb)].
    - destruct oa; [discriminate|]. destruct (f w); cbn [obind]; [|discriminate|discriminate]. intros E z Hz. right. now apply (IH _ _ _ _ _ E).
    - destruct ob; [discriminate|]. destruct (g w); cbn [obind]; [|discriminate|discriminate]. intros E z Hz. right. now apply (IH _ _ _ _ _ E).
    - destruct (take2 ka kb f g l0 oa ob) as [[[a b0] rest']|e|] eqn:E; cbn [obind]; [|discriminate|discriminate]. intros [= <- <- <-] z [<-|Hz]; [now left|right; now apply (IH _ _ _ _ _ E)]. }
  apply obind_ok in R as ([d l1] & E1 & R). apply T1 in E1. apply obind_ok in R as (d' & _ & R).
  apply obind_ok in R as ([[i s] l2] & E2 & R). apply T2 in E2. apply obind_ok in R as (i' & _ & R). apply obind_ok in R as (s' & _ & R). apply obind_ok in R as (data & Ed & R).
  assert (em_data m = data) by (injection R as <-; reflexivity). subst data. clear R.
  unfold read_data in Ed. set (sm := sort_map _) in Ed. apply obind_ok in Ed as (og & Eg & Ed). apply obind_ok in Ed as (g & Eg' & Ed).
  assert (K : tag_str g = tag_str (kind_of (KeyEventT m))).
  { destruct g; cbn [kind_of]; try discriminate Ed;
      match type of Ed with omap _ ?x = _ => destruct x; cbn [omap] in Ed; try discriminate Ed; injection Ed as <-; reflexivity end. }
  rewrite <- K. clear K Ed. destruct og as [g'|]; [|discriminate Eg']. assert (g' = g) by (unfold need, ok_or in Eg'; congruence). subst g'. clear Eg'.
  destruct (jget sm "t") as [w|] eqn:Ew; [|discriminate Eg]. cbn [field] in Eg. apply obind_ok in Eg as (g' & Eg & Q). assert (g' = g) by congruence. subst g'. clear Q.
  apply aget_some in Ew. apply (proj1 (sort_in _)) in Ew. apply in_map_iff in Ew as ([k w0] & Ek & Hin). cbn [fst snd] in Ek. assert (k = bstr "t" /\ w = to_value w0) as [-> ->] by (split; congruence). clear Ek.
  apply E2, E1 in Hin. rewrite Forall_forall in T. apply T in Hin. cbn [fst snd] in Hin. destruct Hin as (x & r1 & r2 & f & dd & r3 & (u & Hu) & A & B & C).
  destruct w0 as [|b0| |y|y|y]; cbn [to_value] in Eg; try discriminate Eg.
  - apply value_str in C as (s1 & C & r0 & D). cbn [as_tag] in Eg. apply tag_from_str in Eg. subst y. exists u, x, r1, r2, s1. split; [exact Hu|]. split; [exact A|]. split; [exact B|]. left. split; [exact C|eauto].
  - remember (sort_map (map (fun kv => (fst kv, to_value (snd kv))) y)) as y' eqn:Ey. cbn [as_tag] in Eg.
    destruct y' as [|[k0 [| | | | |]] [|]]; try discriminate Eg. apply tag_from_str in Eg. subst k0.
    destruct y as [|[k1 v1] y]; [discriminate Ey|]. apply value_obj in C as (s1 & s2 & C1 & C2 & r0 & D).
    assert (k1 = tag_str g).
    { pose proof (proj2 (sort_in (map (fun kv : bytes * jval => (fst kv, to_value (snd kv))) ((k1, v1) :: y))) k1 (or_introl eq_refl)) as Q. rewrite <- Ey in Q. destruct Q as [Q|[]]. exact (eq_sym Q). }
    subst k1. exists u, x, r1, r2, s2. split; [exact Hu|]. split; [exact A|]. split; [exact B|]. right. exists s1. split; [exact C1|]. split; [exact C2|eauto].
Qed.
Print Assumptions C97_key_events_partial.

(** ** The other kinds *)
(** the text of a receipt, a query or a reply with another type *)
Definition retyped (v : SerializationInfo) (x : bytes) (d : SelfAddressingPrefix) (l : list (bytes * sval)) : bytes :=
  json (VMap ([sfld "v" (si_str v); sfld "t" x; sfld "d" (sap_str d)] ++ l)).
Definition receipt_as (x : bytes) (c : ReceiptMessage) : bytes :=
  retyped (rct_info c) x (rct_digest c) [sfld "i" (id_str (rct_prefix c)); sfld "s" (fmt_hex (rct_sn c))].
Definition query_as (tw : Z -> bytes) (x : bytes) (q : QueryMessage) : bytes :=
  retyped (q_info q) x (q_digest q) (query_fields tw q).
Lemma receipt_as_written c : receipt_as (bstr "rct") c = json (receipt_val c). Proof. reflexivity. Qed.
Lemma query_as_written tw q : query_as tw (bstr "qry") q = json (query_val tw q). Proof. reflexivity. Qed.
Lemma retyped_result {D} (read : SerializationInfo -> list (bytes * jval) -> out D) v x d l r :
  rust_string x -> Forall (fits_kv 126) l -> Forall (fun kv => is (fst kv) "v" = false) l ->
  json_message read (retyped v x d l ++ r)
  = to_pres r (let? v := custom (si_from (si_str v)) in read v ((bstr "t", JStr x) :: (bstr "d", JStr (sap_str d)) :: map erase_kv l)).
Proof.
  intros Hx Hl Hv. unfold retyped. cbn [app]. (etransitivity; [apply json_message_deep|reflexivity]).
  - constructor; [apply (kv_ascii 126 "v"); [apply si_ascii|reflexivity]|]. constructor; [now apply str_kv|]. constructor; [apply kv_ascii; [apply sap_str_ascii|reflexivity]|exact Hl].
  - constructor; [reflexivity|]. constructor; [reflexivity|exact Hv].
Qed.
(** A receipt is read whatever type it states: the type of an event, of a query, or no type. *)
Theorem C97_receipt_type_ignored :
  forall (hx : bytes -> option N) (tr : bytes -> option Z) (bk : bytes -> pres EventMessage) (bp : bytes -> pres ReplyMessage)
         (bq : bytes -> pres QueryMessage) (br : bytes -> pres ReceiptMessage), outside hx bk bp bq br ->
  forall (c : ReceiptMessage) (x r : bytes),
    receipt_readable c -> rust_string x -> read_event_type_q hx tr bk bp bq br (receipt_as x c ++ r) = POk r (ReceiptT c).
Proof.
  intros hx tr bk bp bq br (Hhx & Hbk & Hbp & Hbq & Hbr) c x r H Hx. pose proof H as (Hv & Hd & Hi & Hs).
  assert (Op : forall A (p : bytes -> pres A), refuses_text p -> refused p (receipt_as x c)) by (intros A p Hp; apply opened; [discriminate|exact Hp]).
  assert (RR : forall D (read : SerializationInfo -> list (bytes * jval) -> out D), json_message read (receipt_as x c ++ r)
    = to_pres r (read (rct_info c) [(bstr "t", JStr x); (bstr "d", JStr (sap_str (rct_digest c))); (bstr "i", JStr (id_str (rct_prefix c))); (bstr "s", JStr (fmt_hex (rct_sn c)))])).
  { intros D read. unfold receipt_as. rewrite retyped_result; [rewrite version_back by assumption; reflexivity|exact Hx| |repeat constructor].
    constructor; [apply kv_ascii; [apply id_str_ascii|reflexivity]|]. constructor; [apply kv_ascii; [apply hex_ascii|reflexivity]|constructor]. }
  assert (En : exists e, read_envelope tr [(bstr "t", JStr x); (bstr "d", JStr (sap_str (rct_digest c)));
                       (bstr "i", JStr (id_str (rct_prefix c))); (bstr "s", JStr (fmt_hex (rct_sn c)))] = Err e).
  { unfold read_envelope. erewrite scan_rest; [|reflexivity|].
    2:{ eapply scan_mine; [reflexivity|reflexivity|eapply chk_ok, as_sap_ok; eassumption|].
        eapply scan_rest; [reflexivity|]. eapply scan_rest; [reflexivity|]. apply scan_nil. }
    cbn [obind]. erewrite got_ok; [|reflexivity|now apply as_sap_ok]. cbn [obind]. eexists. reflexivity. }
  destruct En as [e En].
  assert (Dt : exists e, read_data hx [(bstr "t", JStr x)] = Err e).
  { unfold read_data. cbn [map fst snd to_value]. change (sort_map [(bstr "t", JStr x)]) with [(bstr "t", JStr x)]. cbv zeta.
    change (jget [(bstr "t", JStr x)] "t") with (Some (JStr x)). cbn [field as_tag].
    pose proof (tag_from_calm x) as C. destruct (tag_from x) as [g|e'|]; [|eexists; reflexivity|congruence].
    destruct g; eexists; reflexivity. }
  destruct Dt as [e' Dt].
  unfold read_event_type_q, palt at 1, key_event_message, palt at 1. rewrite RR.
  erewrite (key_event_bad hx _ _ _ _ _ [] _ _ _ e'); [|constructor|now apply as_sap_ok|now apply as_id_ok|now apply as_hex_ok|exact Dt]. cbn [to_pres].
  rewrite (Op _ bk Hbk r). cbn [pmap].
  unfold palt at 1, reply_message, palt at 1. rewrite RR. unfold read_reply. rewrite En. cbn [obind to_pres]. rewrite (Op _ bp Hbp r). cbn [pmap].
  unfold palt at 1, query_message, palt at 1. rewrite RR. unfold read_query. rewrite En. cbn [obind to_pres]. rewrite (Op _ bq Hbq r). cbn [pmap].
  unfold receipt_message, palt. rewrite RR. rewrite (receipt_fields_more hx _ _ _ _ _ [] _ _ _ (Forall_nil _) (as_sap_ok _ Hd) (as_id_ok _ Hi) (as_hex_ok hx Hhx _ Hs)).
  destruct c; reflexivity.
Qed.
Theorem C97_query_type_ignored :
  forall (hx : bytes -> option N) (tw : Z -> bytes) (tr : bytes -> option Z) (bk : bytes -> pres EventMessage) (bp : bytes -> pres ReplyMessage)
         (bq : bytes -> pres QueryMessage) (br : bytes -> pres ReceiptMessage), outside hx bk bp bq br ->
  forall (q : QueryMessage) (x r : bytes),
    query_stable tw tr q -> rust_string x -> read_event_type_q hx tr bk bp bq br (query_as tw x q ++ r) = POk r (QryT (query_at_micros q)).
Proof.
  intros hx tw tr bk bp bq br (Hhx & Hbk & Hbp & Hbq & Hbr) q x r (Hv & Hd & Ht & Hr & Hrr & Hi) Hx.
  assert (Op : forall A (p : bytes -> pres A), refuses_text p -> refused p (query_as tw x q)) by (intros A p Hp; apply opened; [discriminate|exact Hp]).
  assert (RR : forall D (read : SerializationInfo -> list (bytes * jval) -> out D), json_message read (query_as tw x q ++ r)
    = to_pres r (read (q_info q) [(bstr "t", JStr x); (bstr "d", JStr (sap_str (q_digest q))); (bstr "dt", JStr (tw (q_timestamp q)));
              (bstr "r", JStr (route_str (q_route q))); (bstr "rr", JStr (q_reply_route q)); (bstr "q", JObj [(bstr "i", JStr (id_str (q_i q)))])])).
  { intros D read. unfold query_as. rewrite retyped_result; [rewrite version_back by assumption; reflexivity|exact Hx| |repeat constructor].
    unfold query_fields. apply Forall_app. split; [apply envelope_fits, Ht|]. constructor; [now apply str_kv|]. constructor; [|constructor].
    split; [reflexivity|]. apply fits_struct. constructor; [|constructor]. apply kv_ascii; [apply id_str_ascii|reflexivity]. }
  unfold read_event_type_q, palt at 1, key_event_message, palt at 1. rewrite RR.
  destruct (key_event_refuses hx (q_info q) (JStr x) (JStr (sap_str (q_digest q))) _ (ex_intro _ _ (as_sap_st _ Hd)) (plain_q tw q)) as [e ->]. cbn [to_pres].
  rewrite (Op _ bk Hbk r). cbn [pmap]. unfold palt at 1, reply_message, palt at 1. rewrite RR.
  assert (R : exists e, read_reply hx tr (q_info q) [(bstr "t", JStr x); (bstr "d", JStr (sap_str (q_digest q))); (bstr "dt", JStr (tw (q_timestamp q)));
              (bstr "r", JStr (route_str (q_route q))); (bstr "rr", JStr (q_reply_route q)); (bstr "q", JObj [(bstr "i", JStr (id_str (q_i q)))])] = Err e).
  { unfold read_reply. erewrite (envelope_text tw tr); [|assumption|assumption|assumption|reflexivity|reflexivity]. cbn [obind]. eexists. reflexivity. }
  destruct R as [e' ->]. cbn [to_pres]. rewrite (Op _ bp Hbp r). cbn [pmap]. unfold palt at 1, query_message, palt at 1. rewrite RR.
  rewrite (query_text tw tr) by assumption. reflexivity.
Qed.
Print Assumptions C97_query_type_ignored.
(** a receipt that says that it is an inception *)
Definition c0 : ReceiptMessage := mkRct (mkSI 1 0 100 JSON) (jd x01) j_id 3.
Lemma c0_readable : receipt_readable c0.
Proof. split; [split; [split; reflexivity|vm_compute; discriminate]|]. split; [apply jd_readable|]. split; [apply jid_readable|]. vm_compute. discriminate. Qed.
Lemma literal_chars t x : ~ In x5c t -> has_literal t x -> incl x t.
Proof.
  intros Hb (u & w & r & -> & H). assert (Hw : incl w (u ++ bstr """" ++ w)) by (intros y Hy; apply in_or_app; right; now right).
  unfold read_string in H. destruct (read_chars (List.length w) w) as [[y r']|] eqn:E; [|discriminate H].
  destruct (valid_utf8 y); [|discriminate H]. assert (y = x) by congruence. subst y. intros z Hz. apply Hw. eapply chars_incl; [exact E| |exact Hz]. intros Q. apply Hb, Hw, Q.
Qed.
Lemma type_literal t x : has_type t x -> has_literal t x.
Proof.
  intros (u & w & r1 & r2 & r3 & -> & A & B & C). pose proof (read_string_suffix _ _ _ A) as (a & Sa). destruct (skip_ws_suffix r1) as (b & Sb). destruct (skip_ws_suffix r2) as (d & Sd).
  rewrite B in Sb. subst w. rewrite Sb. destruct C as [(C & r & D)|(r4 & C & C' & r & D)]; rewrite C in Sd.
  - rewrite Sd. exists (u ++ bstr """" ++ a ++ b ++ bstr ":" ++ d), r3, r. split; [|exact D]. now rewrite <- !app_assoc.
  - destruct (skip_ws_suffix r4) as (e & Se). rewrite C' in Se. rewrite Sd, Se. exists (u ++ bstr """" ++ a ++ b ++ bstr ":" ++ d ++ bstr "{" ++ e), r3, r. split; [|exact D]. now rewrite <- !app_assoc.
Qed.
Example C97_example : receipt_readable c0 /\ query_stable tw0 tr0 q0 /\ rust_string (bstr "icp")
  /\ read_event_type_q hx0 tr0 no_key no_rpy no_qry no_rct (receipt_as (bstr "icp") c0) = POk [] (ReceiptT c0)
  /\ ~ has_type (receipt_as (bstr "icp") c0) (bstr "rct").
Proof.
  split; [exact c0_readable|]. split; [apply C94_example|]. split; [reflexivity|]. split.
  - rewrite <- (app_nil_r (receipt_as (bstr "icp") c0)). exact (C97_receipt_type_ignored hx0 tr0 no_key no_rpy no_qry no_rct outside0 c0 (bstr "icp") [] c0_readable eq_refl).
  - intros H. apply type_literal, literal_chars in H; [|apply not_in_vm; vm_compute; reflexivity].
    assert (N : ~ In "r"%byte (receipt_as (bstr "icp") c0)) by (apply not_in_vm; vm_compute; reflexivity). apply N, H. now left.
Qed.
Theorem C97_refuted : ~ C97_statement.
Proof.
  intros H. destruct C97_example as (_ & _ & _ & R & N). apply N. exact (H hx0 tr0 no_key no_rpy no_qry no_rct _ [] (ReceiptT c0) eq_refl eq_refl eq_refl eq_refl R).
Qed.
(** an event with its type *)
Example C97_key_event_example :
  match read_event_type_q hx0 tr0 no_key no_rpy no_qry no_rct (json (event_val j_icp)) with POk [] (KeyEventT m) => match em_data m with Icp _ => true | _ => false end | _ => false end = true.
Proof. vm_compute. reflexivity. Qed.
Print Assumptions C97_refuted.
