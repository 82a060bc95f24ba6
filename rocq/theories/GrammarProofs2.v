(** * GrammarProofs2: values. *)
From Verif Require Import Base Base64 Codes NumFmt Types KeyConf Version Cesr Message Json JsonRead JsonProofs SpecGrammar GrammarProofs.

Lemma is_ws_iff c : is_ws c = true <-> In (b2n c) [32; 9; 10; 13]%N.
Proof.
  unfold is_ws, c_is. rewrite !orb_true_iff, !N.eqb_eq. cbn [In]. intuition congruence.
Qed.
Lemma skip_ws_sound s : exists w, blank w /\ s = w ++ skip_ws s /\ match skip_ws s with c :: _ => is_ws c = false | [] => True end.
Proof.
  induction s as [|c s (w & Hw & Hs & Hn)]; [exists []; repeat constructor|]. cbn [skip_ws]. destruct (is_ws c) eqn:E.
  - exists (c :: w). split; [constructor; [now apply is_ws_iff|exact Hw]|]. split; [cbn [app]; now f_equal|exact Hn].
  - exists []. split; [constructor|]. split; [reflexivity|exact E].
Qed.
Lemma skip_ws_blank w s : blank w -> skip_ws (w ++ s) = skip_ws s.
Proof. induction 1 as [|c w Hc _ IH]; [reflexivity|]. cbn [app skip_ws]. apply is_ws_iff in Hc. now rewrite Hc. Qed.
Lemma skip_ws_stop c s : is_ws c = false -> skip_ws (c :: s) = c :: s.
Proof. cbn [skip_ws]. now intros ->. Qed.
Lemma skip_to w c s : blank w -> is_ws c = false -> skip_ws (w ++ c :: s) = c :: s.
Proof. intros Hw Hc. rewrite skip_ws_blank by exact Hw. now apply skip_ws_stop. Qed.
Lemma blank_nil : blank []. Proof. constructor. Qed.
Lemma blank_app a b : blank a -> blank b -> blank (a ++ b).
Proof. intros. apply Forall_app. now split. Qed.

(** how a value begins *)
Lemma value_head v t : denotes v t -> exists c t', t = c :: t' /\ is_ws c = false /\ c_is c 93 = false /\ c_is c 125 = false.
Proof.
  destruct 1 as [| | |t Hn|x t Hs|w Hw|l t Hl|w Hw|l t Hl]; try (eexists; eexists; split; [reflexivity|]; repeat split; reflexivity).
  - destruct Hn as (m & i & f & e & Hm & Hi & _ & _ & ->).
    assert (G : forall c, digit c -> is_ws c = false /\ c_is c 93 = false /\ c_is c 125 = false).
    { intros c Hc. unfold digit in Hc. unfold is_ws, c_is. repeat split; repeat (apply orb_false_iff; split); apply N.eqb_neq; lia. }
    destruct Hm as [-> | ->].
    + cbn [app]. destruct Hi as [->|[[Hi Hd] _]]; [eexists; eexists; split; [reflexivity|]; repeat split; reflexivity|].
      destruct i as [|c i]; [congruence|]. inversion Hd; subst. exists c. eexists. split; [reflexivity|]. now apply G.
    + eexists; eexists; split; [reflexivity|]; repeat split; reflexivity.
  - destruct Hs as [_ (u & _ & ->)]. eexists; eexists; split; [reflexivity|]; repeat split; reflexivity.
Qed.

(** ** Texts of the items and members that are still to come, up to the closing bracket *)
Definition itext (first : bool) (l : list jval) (s r : bytes) : Prop :=
  (l = [] /\ exists w, blank w /\ s = w ++ bstr "]" ++ r)
  \/ exists w u, items l u /\ blank w /\ s = w ++ (if first then [] else bstr ",") ++ u ++ bstr "]" ++ r.
Definition mtext (first : bool) (l : list (bytes * jval)) (s r : bytes) : Prop :=
  (l = [] /\ exists w, blank w /\ s = w ++ bstr "}" ++ r)
  \/ exists w u, members l u /\ blank w /\ s = w ++ (if first then [] else bstr ",") ++ u ++ bstr "}" ++ r.
Lemma items_cons v l u : items (v :: l) u <->
  exists w t r1, blank w /\ denotes v t /\ u ++ bstr "]" = w ++ t ++ r1 /\ itext false l r1 [].
Proof.
  split.
  - intros H. inversion H; subst.
    + exists w, t, (w' ++ bstr "]"). split; [assumption|]. split; [assumption|]. split; [now rewrite <- !app_assoc|]. left. split; [reflexivity|]. exists w'. split; [assumption|reflexivity].
    + exists w, t, (w' ++ bstr "," ++ u0 ++ bstr "]"). split; [assumption|]. split; [assumption|]. split; [now rewrite <- !app_assoc|]. right. exists w', u0. split; [assumption|]. split; [assumption|]. now rewrite app_nil_r.
  - intros (w & t & r1 & Hw & Ht & Hu & [[-> (w' & Hw' & ->)]|(w' & u' & Hi & Hw' & ->)]); rewrite ?app_nil_r in Hu.
    + rewrite !app_assoc in Hu. apply app_inj_tail in Hu. destruct Hu as [-> _]. rewrite <- !app_assoc. now apply item_last.
    + rewrite !app_assoc in Hu. apply app_inj_tail in Hu. destruct Hu as [-> _]. rewrite <- !app_assoc. now apply item_more.
Qed.
Lemma itext_cons first v l s r : itext first (v :: l) s r <->
  exists w0 w t r1, blank w0 /\ blank w /\ denotes v t /\ s = w0 ++ (if first then [] else bstr ",") ++ w ++ t ++ r1 /\ itext false l r1 r.
Proof.
  split.
  - intros [[H _]|(w0 & u & Hu & Hw0 & ->)]; [discriminate H|]. apply items_cons in Hu. destruct Hu as (w & t & r1 & Hw & Ht & He & Hi).
    exists w0, w, t, (r1 ++ r). split; [assumption|]. split; [assumption|]. split; [assumption|]. split.
    + do 2 f_equal. rewrite (app_assoc u), He. now rewrite <- !app_assoc.
    + destruct Hi as [[-> (w' & Hw' & ->)]|(w' & u' & Hi & Hw' & ->)].
      * left. split; [reflexivity|]. exists w'. split; [assumption|]. now rewrite app_nil_r, <- app_assoc.
      * right. exists w', u'. split; [assumption|]. split; [assumption|]. now rewrite app_nil_r, <- !app_assoc.
  - intros (w0 & w & t & r1 & Hw0 & Hw & Ht & -> & Hi). right. exists w0.
    assert (K : exists q, r1 = q ++ bstr "]" ++ r /\ itext false l (q ++ bstr "]") []).
    { destruct Hi as [[-> (w' & Hw' & ->)]|(w' & u' & Hi & Hw' & ->)].
      - exists w'. split; [reflexivity|]. left. split; [reflexivity|]. exists w'. split; [assumption|]. now rewrite app_nil_r.
      - exists (w' ++ bstr "," ++ u'). split; [now rewrite <- !app_assoc|]. right. exists w', u'. split; [assumption|]. split; [assumption|]. now rewrite app_nil_r, <- !app_assoc. }
    destruct K as (q & -> & Hq). exists (w ++ t ++ q). split; [|split; [assumption|now rewrite <- !app_assoc]].
    apply items_cons. exists w, t, (q ++ bstr "]"). split; [assumption|]. split; [assumption|]. split; [now rewrite <- !app_assoc|assumption].
Qed.
Lemma members_cons k v l u : members ((k, v) :: l) u <->
  exists w s w1 w2 t r1, blank w /\ string_text k s /\ blank w1 /\ blank w2 /\ denotes v t
    /\ u ++ bstr "}" = w ++ s ++ w1 ++ bstr ":" ++ w2 ++ t ++ r1 /\ mtext false l r1 [].
Proof.
  split.
  - intros H. inversion H as [k0 v0 m Hm|k0 v0 m l0 u0 Hm Hu]; subst; inversion Hm; subst.
    + exists w, s, w1, w2, t, (w3 ++ bstr "}"). repeat (split; [assumption|]). split; [now rewrite <- !app_assoc|]. left. split; [reflexivity|]. exists w3. split; [assumption|reflexivity].
    + exists w, s, w1, w2, t, (w3 ++ bstr "," ++ u0 ++ bstr "}"). repeat (split; [assumption|]). split; [now rewrite <- !app_assoc|]. right. exists w3, u0. split; [assumption|]. split; [assumption|]. now rewrite app_nil_r.
  - intros (w & s & w1 & w2 & t & r1 & Hw & Hs & Hw1 & Hw2 & Ht & Hu & [[-> (w' & Hw' & ->)]|(w' & u' & Hi & Hw' & ->)]); rewrite ?app_nil_r in Hu.
    + rewrite !app_assoc in Hu. apply app_inj_tail in Hu. destruct Hu as [-> _]. rewrite <- !app_assoc. apply member_last. now apply member_intro.
    + rewrite !app_assoc in Hu. apply app_inj_tail in Hu. destruct Hu as [-> _].
      replace ((((((((w ++ s) ++ w1) ++ bstr ":") ++ w2) ++ t) ++ w') ++ bstr ",") ++ u') with ((w ++ s ++ w1 ++ bstr ":" ++ w2 ++ t ++ w') ++ bstr "," ++ u') by (now rewrite <- !app_assoc).
      apply member_more; [now apply member_intro|assumption].
Qed.
Lemma mtext_cons first k v l s r : mtext first ((k, v) :: l) s r <->
  exists w0 w x w1 w2 t r1, blank w0 /\ blank w /\ string_text k x /\ blank w1 /\ blank w2 /\ denotes v t
    /\ s = w0 ++ (if first then [] else bstr ",") ++ w ++ x ++ w1 ++ bstr ":" ++ w2 ++ t ++ r1 /\ mtext false l r1 r.
Proof.
  split.
  - intros [[H _]|(w0 & u & Hu & Hw0 & ->)]; [discriminate H|]. apply members_cons in Hu. destruct Hu as (w & x & w1 & w2 & t & r1 & Hw & Hx & Hw1 & Hw2 & Ht & He & Hi).
    exists w0, w, x, w1, w2, t, (r1 ++ r). repeat (split; [assumption|]). split.
    + do 2 f_equal. rewrite (app_assoc u), He. now rewrite <- !app_assoc.
    + destruct Hi as [[-> (w' & Hw' & ->)]|(w' & u' & Hi & Hw' & ->)].
      * left. split; [reflexivity|]. exists w'. split; [assumption|]. now rewrite app_nil_r, <- app_assoc.
      * right. exists w', u'. split; [assumption|]. split; [assumption|]. now rewrite app_nil_r, <- !app_assoc.
  - intros (w0 & w & x & w1 & w2 & t & r1 & Hw0 & Hw & Hx & Hw1 & Hw2 & Ht & -> & Hi). right. exists w0.
    assert (K : exists q, r1 = q ++ bstr "}" ++ r /\ mtext false l (q ++ bstr "}") []).
    { destruct Hi as [[-> (w' & Hw' & ->)]|(w' & u' & Hi & Hw' & ->)].
      - exists w'. split; [reflexivity|]. left. split; [reflexivity|]. exists w'. split; [assumption|]. now rewrite app_nil_r.
      - exists (w' ++ bstr "," ++ u'). split; [now rewrite <- !app_assoc|]. right. exists w', u'. split; [assumption|]. split; [assumption|]. now rewrite app_nil_r, <- !app_assoc. }
    destruct K as (q & -> & Hq). exists (w ++ x ++ w1 ++ bstr ":" ++ w2 ++ t ++ q). split; [|split; [assumption|now rewrite <- !app_assoc]].
    apply members_cons. exists w, x, w1, w2, t, (q ++ bstr "}"). repeat (split; [assumption|]). split; [now rewrite <- !app_assoc|assumption].
Qed.
Lemma denotes_arr l t : denotes (JArr l) t <-> exists u, t = bstr "[" ++ u /\ itext true l u [].
Proof.
  split.
  - intros H. inversion H; subst.
    + exists (w ++ bstr "]"). split; [reflexivity|]. left. split; [reflexivity|]. exists w. split; [assumption|reflexivity].
    + exists (t0 ++ bstr "]"). split; [reflexivity|]. right. exists [], t0. split; [assumption|]. split; [constructor|reflexivity].
  - intros (u & -> & [[-> (w & Hw & ->)]|(w & u' & Hi & Hw & ->)]); rewrite !app_nil_r; cbn [app]; [now apply d_no_items|].
    replace (w ++ u' ++ bstr "]") with ((w ++ u') ++ bstr "]") by (now rewrite <- app_assoc). apply d_items.
    inversion Hi; subst; rewrite (app_assoc w); [apply item_last|apply item_more]; try assumption; now apply blank_app.
Qed.
Lemma denotes_obj l t : denotes (JObj l) t <-> exists u, t = bstr "{" ++ u /\ mtext true l u [].
Proof.
  split.
  - intros H. inversion H; subst.
    + exists (w ++ bstr "}"). split; [reflexivity|]. left. split; [reflexivity|]. exists w. split; [assumption|reflexivity].
    + exists (t0 ++ bstr "}"). split; [reflexivity|]. right. exists [], t0. split; [assumption|]. split; [constructor|reflexivity].
  - intros (u & -> & [[-> (w & Hw & ->)]|(w & u' & Hi & Hw & ->)]); rewrite !app_nil_r; cbn [app]; [now apply d_no_members|].
    replace (w ++ u' ++ bstr "}") with ((w ++ u') ++ bstr "}") by (now rewrite <- app_assoc). apply d_members.
    inversion Hi as [k0 v0 m Hm|k0 v0 m l0 u0 Hm Hu]; subst; inversion Hm; subst.
    + rewrite (app_assoc w). apply member_last. apply member_intro; try assumption. now apply blank_app.
    + replace (w ++ (w0 ++ s ++ w1 ++ bstr ":" ++ w2 ++ t ++ w3) ++ bstr "," ++ u0) with (((w ++ w0) ++ s ++ w1 ++ bstr ":" ++ w2 ++ t ++ w3) ++ bstr "," ++ u0) by (now rewrite <- !app_assoc).
      apply member_more; [|assumption]. apply member_intro; try assumption. now apply blank_app.
Qed.
Lemma itext_app first l s r q : itext first l s r -> itext first l (s ++ q) (r ++ q).
Proof.
  intros [[-> (w & Hw & ->)]|(w & u & Hu & Hw & ->)]; [left|right].
  - split; [reflexivity|]. exists w. split; [assumption|]. now rewrite <- !app_assoc.
  - exists w, u. split; [assumption|]. split; [assumption|]. now rewrite <- !app_assoc.
Qed.
Lemma mtext_app first l s r q : mtext first l s r -> mtext first l (s ++ q) (r ++ q).
Proof.
  intros [[-> (w & Hw & ->)]|(w & u & Hu & Hw & ->)]; [left|right].
  - split; [reflexivity|]. exists w. split; [assumption|]. now rewrite <- !app_assoc.
  - exists w, u. split; [assumption|]. split; [assumption|]. now rewrite <- !app_assoc.
Qed.
Lemma itext_drop first l s r : itext first l s r -> exists u, s = u ++ r /\ itext first l u [].
Proof.
  intros [[-> (w & Hw & ->)]|(w & u & Hu & Hw & ->)].
  - exists (w ++ bstr "]"). split; [now rewrite <- app_assoc|]. left. split; [reflexivity|]. exists w. split; [assumption|]. now rewrite app_nil_r.
  - exists (w ++ (if first then [] else bstr ",") ++ u ++ bstr "]"). split; [now rewrite <- !app_assoc|]. right. exists w, u. split; [assumption|]. split; [assumption|]. now rewrite app_nil_r.
Qed.
Lemma mtext_drop first l s r : mtext first l s r -> exists u, s = u ++ r /\ mtext first l u [].
Proof.
  intros [[-> (w & Hw & ->)]|(w & u & Hu & Hw & ->)].
  - exists (w ++ bstr "}"). split; [now rewrite <- app_assoc|]. left. split; [reflexivity|]. exists w. split; [assumption|]. now rewrite app_nil_r.
  - exists (w ++ (if first then [] else bstr ",") ++ u ++ bstr "}"). split; [now rewrite <- !app_assoc|]. right. exists w, u. split; [assumption|]. split; [assumption|]. now rewrite app_nil_r.
Qed.
(** the text after an element ends a number *)
Lemma itext_ends l s r : itext false l s r -> number_ends s /\ List.length r < List.length s.
Proof.
  assert (B : forall w c s, blank w -> number_ends (c :: s) -> number_ends (w ++ c :: s)).
  { intros w c q Hw Hc. destruct w as [|b w]; [exact Hc|]. inversion Hw as [|? ? Hb _]; subst. cbn [app number_ends].
    assert (b2n b < 46)%N by (cbn in Hb; intuition lia). unfold digit. split; [lia|]. repeat split; intros ->; vm_compute in H; discriminate H. }
  intros [[-> (w & Hw & ->)]|(w & u & _ & Hw & ->)]; (split; [|rewrite !app_length; cbn; lia]).
  - cbn [bstr app]. apply B; [exact Hw|]. cbn. unfold digit. change (b2n "]") with 93%N. repeat split; try lia; discriminate.
  - cbn [bstr app]. apply B; [exact Hw|]. cbn. unfold digit. change (b2n ",") with 44%N. repeat split; try lia; discriminate.
Qed.
Lemma mtext_ends l s r : mtext false l s r -> number_ends s /\ List.length r < List.length s.
Proof.
  assert (B : forall w c s, blank w -> number_ends (c :: s) -> number_ends (w ++ c :: s)).
  { intros w c q Hw Hc. destruct w as [|b w]; [exact Hc|]. inversion Hw as [|? ? Hb _]; subst. cbn [app number_ends].
    assert (b2n b < 46)%N by (cbn in Hb; intuition lia). unfold digit. split; [lia|]. repeat split; intros ->; vm_compute in H; discriminate H. }
  intros [[-> (w & Hw & ->)]|(w & u & _ & Hw & ->)]; (split; [|rewrite !app_length; cbn; lia]).
  - cbn [bstr app]. apply B; [exact Hw|]. cbn. unfold digit. change (b2n "}") with 125%N. repeat split; try lia; discriminate.
  - cbn [bstr app]. apply B; [exact Hw|]. cbn. unfold digit. change (b2n ",") with 44%N. repeat split; try lia; discriminate.
Qed.

(** ** Soundness *)
Definition under (d : nat) (l : list jval) : Prop := Forall (fun v => nesting v < d) l.
Lemma nesting_arr l d : 0 < d -> (nesting (JArr l) < S d <-> under d l).
Proof.
  intros Hd. cbn [nesting]. induction l as [|v l IH]; cbn [fold_right].
  - split; [constructor|lia].
  - split; [intros H; constructor; [lia|apply IH; lia]|]. intros H. inversion H; subst. apply IH in H3. lia.
Qed.
Lemma nesting_obj l d : 0 < d -> (nesting (JObj l) < S d <-> under d (map snd l)).
Proof.
  intros Hd. cbn [nesting]. induction l as [|[k v] l IH]; cbn [fold_right map snd].
  - split; [constructor|lia].
  - split; [intros H; constructor; [lia|apply IH; lia]|]. intros H. inversion H; subst. apply IH in H3. lia.
Qed.
Lemma reader_sound f : forall d, 0 < d ->
  (forall s v r, read_value f d s = Some (v, r) -> exists w t, blank w /\ denotes v t /\ nesting v < d /\ s = w ++ t ++ r)
  /\ (forall first s l r, read_elems f d first s = Some (l, r) -> itext first l s r /\ under d l)
  /\ (forall first s l r, read_members f d first s = Some (l, r) -> mtext first l s r /\ under d (map snd l)).
Proof.
  induction f as [|f IH]; intros d Hd; [split; [|split]; intros; discriminate|]. split; [|split].
  - intros s v r. cbn [read_value]. destruct (skip_ws_sound s) as (w & Hw & Hs & _). destruct (skip_ws s) as [|c q]; [discriminate|].
    destruct (c_is c 34) eqn:E1.
    { destruct (read_string q) as [[x q1]|] eqn:Ex; [|discriminate]. intros H. injection H as <- <-. apply string_sound in Ex. destruct Ex as (t & Ht & ->).
      apply c_is_eq in E1; [|lia]. subst c. exists w, (n2b 34 :: t). split; [exact Hw|]. split; [now constructor|]. split; [exact Hd|exact Hs]. }
    destruct (c_is c 91) eqn:E2.
    { destruct d as [|[|d]]; try discriminate. destruct (read_elems f (S d) true q) as [[l q1]|] eqn:El; [|discriminate]. intros H. injection H as <- <-.
      apply (IH (S d)) in El; [|lia]. destruct El as [Hi Hu]. apply itext_drop in Hi. destruct Hi as (u & -> & Hi).
      apply c_is_eq in E2; [|lia]. subst c. exists w, (bstr "[" ++ u). split; [exact Hw|]. split; [apply denotes_arr; exists u; now split|]. split; [apply nesting_arr; [lia|exact Hu]|exact Hs]. }
    destruct (c_is c 123) eqn:E3.
    { destruct d as [|[|d]]; try discriminate. destruct (read_members f (S d) true q) as [[l q1]|] eqn:El; [|discriminate]. intros H. injection H as <- <-.
      apply (IH (S d)) in El; [|lia]. destruct El as [Hi Hu]. apply mtext_drop in Hi. destruct Hi as (u & -> & Hi).
      apply c_is_eq in E3; [|lia]. subst c. exists w, (bstr "{" ++ u). split; [exact Hw|]. split; [apply denotes_obj; exists u; now split|]. split; [apply nesting_obj; [lia|exact Hu]|exact Hs]. }
    destruct (c_is c 110) eqn:E4.
    { destruct (eat (bstr "ull") q) as [q1|] eqn:Ee; [|discriminate]. intros H. injection H as <- <-. apply eat_sound in Ee. subst q. apply c_is_eq in E4; [|lia]. subst c.
      exists w, (bstr "null"). split; [exact Hw|]. split; [constructor|]. split; [exact Hd|exact Hs]. }
    destruct (c_is c 116) eqn:E5.
    { destruct (eat (bstr "rue") q) as [q1|] eqn:Ee; [|discriminate]. intros H. injection H as <- <-. apply eat_sound in Ee. subst q. apply c_is_eq in E5; [|lia]. subst c.
      exists w, (bstr "true"). split; [exact Hw|]. split; [constructor|]. split; [exact Hd|exact Hs]. }
    destruct (c_is c 102) eqn:E6.
    { destruct (eat (bstr "alse") q) as [q1|] eqn:Ee; [|discriminate]. intros H. injection H as <- <-. apply eat_sound in Ee. subst q. apply c_is_eq in E6; [|lia]. subst c.
      exists w, (bstr "false"). split; [exact Hw|]. split; [constructor|]. split; [exact Hd|exact Hs]. }
    destruct (is_digit c || c_is c 45); [|discriminate].
    destruct (read_number (c :: q)) as [q1|] eqn:En; [|discriminate]. intros H. injection H as <- <-. apply number_sound in En. destruct En as (t & Ht & Hq).
    exists w, t. split; [exact Hw|]. split; [now constructor|]. split; [exact Hd|]. now rewrite Hs, Hq.
  - intros first s l r. cbn [read_elems]. destruct (skip_ws_sound s) as (w & Hw & Hs & _). destruct (skip_ws s) as [|c q]; [discriminate|].
    destruct (c_is c 93) eqn:E1.
    { intros H. injection H as <- <-. apply c_is_eq in E1; [|lia]. subst c. split; [|constructor]. left. split; [reflexivity|]. exists w. split; [exact Hw|exact Hs]. }
    assert (G : forall s1, (exists w1, blank w1 /\ s = w1 ++ (if first then [] else bstr ",") ++ s1) ->
      match read_value f d s1 with
      | Some (v, r) => match read_elems f d false r with Some (l, r) => Some (v :: l, r) | None => None end
      | None => None end = Some (l, r) -> itext first l s r /\ under d l).
    { intros s1 (w1 & Hw1 & Hs1). destruct (read_value f d s1) as [[v q1]|] eqn:Ev; [|discriminate]. destruct (read_elems f d false q1) as [[l1 r1]|] eqn:El; [|discriminate].
      intros H. injection H as <- <-. apply (IH d Hd) in Ev, El. destruct Ev as (w2 & t & Hw2 & Ht & Hn & ->). destruct El as [Hi Hu].
      split; [|now constructor]. apply itext_cons. exists w1, w2, t, q1. repeat (split; [assumption|]). exact Hi. }
    cbv zeta. destruct first.
    { cbn [negb andb]. apply G. exists w. split; [exact Hw|exact Hs]. }
    destruct (c_is c 44) eqn:E2; [|discriminate]. apply c_is_eq in E2; [|lia]. subst c.
    destruct (skip_ws_sound q) as (w2 & Hw2 & Hq & _). destruct (skip_ws q) as [|c q1]; [discriminate|]. cbn [negb andb]. destruct (c_is c 93); [discriminate|].
    intros H. destruct (read_value f d (c :: q1)) as [[v q2]|] eqn:Ev; [|discriminate]. destruct (read_elems f d false q2) as [[l1 r1]|] eqn:El; [|discriminate].
    injection H as <- <-. apply (IH d Hd) in Ev, El. destruct Ev as (w3 & t & Hw3 & Ht & Hn & Hc). destruct El as [Hi Hu].
    split; [|now constructor]. apply itext_cons. exists w, (w2 ++ w3), t, q2. split; [exact Hw|]. split; [now apply blank_app|]. split; [exact Ht|]. split; [|exact Hi].
    rewrite Hs. change (n2b 44 :: q) with (bstr "," ++ q). rewrite Hq, Hc. now rewrite <- !app_assoc.
  - intros first s l r. cbn [read_members]. destruct (skip_ws_sound s) as (w & Hw & Hs & _). destruct (skip_ws s) as [|c q]; [discriminate|].
    destruct (c_is c 125) eqn:E1.
    { intros H. injection H as <- <-. apply c_is_eq in E1; [|lia]. subst c. split; [|constructor]. left. split; [reflexivity|]. exists w. split; [exact Hw|exact Hs]. }
    assert (G : forall a b, (exists w1 w2, blank w1 /\ blank w2 /\ s = w1 ++ (if first then [] else bstr ",") ++ w2 ++ a :: b) ->
      (if c_is a 34 then
         match read_string b with
         | Some (k, r) =>
             match skip_ws r with
             | e :: r => if c_is e 58 then
                           match read_value f d r with
                           | Some (v, r) => match read_members f d false r with Some (l, r) => Some ((k, v) :: l, r) | None => None end
                           | None => None end
                         else None
             | [] => None end
         | None => None end
       else None) = Some (l, r) -> mtext first l s r /\ under d (map snd l)).
    { intros a b (w1 & w2 & Hw1 & Hw2 & Hs1). destruct (c_is a 34) eqn:Ea; [|discriminate]. apply c_is_eq in Ea; [|lia]. subst a.
      destruct (read_string b) as [[k b1]|] eqn:Ek; [|discriminate]. apply string_sound in Ek. destruct Ek as (tk & Hk & ->).
      destruct (skip_ws_sound b1) as (w3 & Hw3 & Hb1 & _). destruct (skip_ws b1) as [|e b2]; [discriminate|]. destruct (c_is e 58) eqn:Ee; [|discriminate]. apply c_is_eq in Ee; [|lia]. subst e.
      destruct (read_value f d b2) as [[v q1]|] eqn:Ev; [|discriminate]. destruct (read_members f d false q1) as [[l1 r1]|] eqn:El; [|discriminate].
      intros H. injection H as <- <-. apply (IH d Hd) in Ev, El. destruct Ev as (w4 & t & Hw4 & Ht & Hn & ->). destruct El as [Hi Hu].
      split; [|now constructor]. apply mtext_cons. exists w1, w2, (n2b 34 :: tk), w3, w4, t, q1. repeat (split; [assumption|]). split; [|exact Hi].
      rewrite Hs1, Hb1. cbn [app]. rewrite <- ?app_assoc. reflexivity. }
    cbv zeta. destruct first.
    { apply G. exists w, []. split; [exact Hw|]. split; [constructor|exact Hs]. }
    destruct (c_is c 44) eqn:E2; [|discriminate]. apply c_is_eq in E2; [|lia]. subst c.
    destruct (skip_ws_sound q) as (w2 & Hw2 & Hq & _). destruct (skip_ws q) as [|c q1]; [discriminate|].
    apply G. exists w, w2. split; [exact Hw|]. split; [exact Hw2|]. rewrite Hs, Hq. reflexivity.
Qed.

(** ** Completeness *)
Ltac cis n m b := change (c_is (n2b n) m) with b.
Lemma reader_complete f : forall d, 0 < d ->
  (forall w v t r, blank w -> denotes v t -> nesting v < d -> (v = JNum -> number_ends r) -> 2 * List.length t <= f -> read_value f d (w ++ t ++ r) = Some (v, r))
  /\ (forall first s l r, itext first l s r -> under d l -> 2 * List.length s <= f + 1 + 2 * List.length r -> read_elems f d first s = Some (l, r))
  /\ (forall first s l r, mtext first l s r -> under d (map snd l) -> 2 * List.length s <= f + 1 + 2 * List.length r -> read_members f d first s = Some (l, r)).
Proof.
  induction f as [|f IH]; intros d Hd.
  { split; [|split].
    - intros w v t r _ Ht _ _ Hf. apply value_head in Ht. destruct Ht as (c & t' & -> & _). cbn in Hf. lia.
    - intros first s l r [[-> (w & Hw & ->)]|(w & u & Hu & Hw & ->)] _ Hf; rewrite !app_length in Hf; cbn in Hf; lia.
    - intros first s l r [[-> (w & Hw & ->)]|(w & u & Hu & Hw & ->)] _ Hf; rewrite !app_length in Hf; cbn in Hf; lia. }
  split; [|split].
  - intros w v t r Hw Ht Hn Hr Hf. destruct (value_head v t Ht) as (c & t' & Hc & Hcw & _). cbn [read_value].
    rewrite Hc. cbn [app]. rewrite (skip_to w c _ Hw Hcw).
    destruct v as [|b| |x|l|l].
    + clear Hf. rewrite Hc in Ht. inversion Ht; subst. reflexivity.
    + clear Hf. rewrite Hc in Ht. inversion Ht; subst; reflexivity.
    + inversion Ht as [| | |t0 Hnum| | | | |]; subst. clear Hf Hn.
      assert (Hd' : c_is c 34 = false /\ c_is c 91 = false /\ c_is c 123 = false /\ c_is c 110 = false /\ c_is c 116 = false /\ c_is c 102 = false /\ is_digit c || c_is c 45 = true).
      { destruct Hnum as (m & i & g & e & Hm & Hi & _ & _ & He). destruct Hm as [-> | ->].
        - cbn [app] in He. assert (G : digit c -> c_is c 34 = false /\ c_is c 91 = false /\ c_is c 123 = false /\ c_is c 110 = false /\ c_is c 116 = false /\ c_is c 102 = false /\ is_digit c || c_is c 45 = true).
          { intros G. pose proof (proj2 (is_digit_iff c) G) as Gd. rewrite Gd. unfold digit in G. unfold c_is. repeat split; apply N.eqb_neq; lia. }
          apply G. destruct Hi as [->|[[Hi Hdg] _]]; [injection He as -> _; unfold digit; vm_compute; split; discriminate|].
          destruct i as [|c0 i]; [congruence|]. injection He as -> _. now inversion Hdg.
        - injection He as -> _. repeat split; reflexivity. }
      destruct Hd' as (-> & -> & -> & -> & -> & -> & ->).
      change (c :: t' ++ r) with ((c :: t') ++ r). rewrite (number_complete _ r Hnum (Hr eq_refl)). reflexivity.
    + inversion Ht as [| | | |x0 t0 Hs| | | |]; subst. apply string_complete in Hs. destruct Hs as (t1 & He & Hs). injection He as -> ->.
      cis 34%N 34%N true. cbv iota. now rewrite Hs.
    + apply denotes_arr in Ht. destruct Ht as (u & He & Hi). rewrite He in Hc. injection Hc as <- <-.
      change (c_is "[" 34) with false. change (c_is "[" 91) with true. cbv iota.
      destruct d as [|[|d]]; [lia|cbn in Hn; lia|]. rewrite He, app_length in Hf. change (List.length (bstr "[")) with 1 in Hf.
      rewrite (proj1 (proj2 (IH (S d) ltac:(lia))) true (u ++ r) l r).
      * reflexivity.
      * apply (itext_app true l u [] r Hi).
      * apply nesting_arr; [lia|exact Hn].
      * rewrite app_length. lia.
    + apply denotes_obj in Ht. destruct Ht as (u & He & Hi). rewrite He in Hc. injection Hc as <- <-.
      change (c_is "{" 34) with false. change (c_is "{" 91) with false. change (c_is "{" 123) with true. cbv iota.
      destruct d as [|[|d]]; [lia|cbn in Hn; lia|]. rewrite He, app_length in Hf. change (List.length (bstr "{")) with 1 in Hf.
      rewrite (proj2 (proj2 (IH (S d) ltac:(lia))) true (u ++ r) l r).
      * reflexivity.
      * apply (mtext_app true l u [] r Hi).
      * apply nesting_obj; [lia|exact Hn].
      * rewrite app_length. lia.
  - intros first s l r Hi Hu Hf. cbn [read_elems]. destruct l as [|v l].
    + destruct Hi as [[_ (w & Hw & ->)]|(w & u & Hi & _)]; [|inversion Hi]. change (w ++ bstr "]" ++ r) with (w ++ n2b 93 :: r).
      rewrite skip_to by (exact Hw || reflexivity). cis 93%N 93%N true. reflexivity.
    + apply itext_cons in Hi. destruct Hi as (w0 & w & t & r1 & Hw0 & Hw & Ht & -> & Hi). inversion Hu as [|? ? Hv Hl]; subst.
      destruct (itext_ends l r1 r Hi) as [Hends Hlen].
      destruct (value_head v t Ht) as (c & t' & Hc & Hcw & Hc93 & _).
      assert (EV : read_value f d (t ++ r1) = Some (v, r1)).
      { apply (proj1 (IH d Hd) [] v t r1); [constructor|exact Ht|exact Hv|intros; exact Hends|]. rewrite !app_length in Hf. lia. }
      assert (EL : read_elems f d false r1 = Some (l, r)).
      { apply (IH d Hd); [exact Hi|exact Hl|]. rewrite !app_length in Hf. subst t. cbn [List.length] in Hf. lia. }
      destruct first; cbv zeta.
      * cbn [app]. rewrite app_assoc, Hc. cbn [app]. rewrite (skip_to (w0 ++ w)) by (exact Hcw || now apply blank_app). rewrite Hc93. cbn [negb andb].
        change (c :: t' ++ r1) with ((c :: t') ++ r1). rewrite <- Hc, EV, EL. reflexivity.
      * change (w0 ++ bstr "," ++ w ++ t ++ r1) with (w0 ++ n2b 44 :: w ++ t ++ r1). rewrite skip_to by (exact Hw0 || reflexivity).
        cis 44%N 93%N false. cis 44%N 44%N true. cbv iota. rewrite Hc. cbn [app]. rewrite skip_to by assumption. cbn [negb andb]. rewrite Hc93.
        change (c :: t' ++ r1) with ((c :: t') ++ r1). rewrite <- Hc, EV, EL. reflexivity.
  - intros first s l r Hi Hu Hf. cbn [read_members]. destruct l as [|[k v] l].
    + destruct Hi as [[_ (w & Hw & ->)]|(w & u & Hi & _)]; [|inversion Hi]. change (w ++ bstr "}" ++ r) with (w ++ n2b 125 :: r).
      rewrite skip_to by (exact Hw || reflexivity). cis 125%N 125%N true. reflexivity.
    + apply mtext_cons in Hi. destruct Hi as (w0 & w & x & w1 & w2 & t & r1 & Hw0 & Hw & Hx & Hw1 & Hw2 & Ht & -> & Hi). inversion Hu as [|? ? Hv Hl]; subst. cbn [snd] in Hv.
      destruct (mtext_ends l r1 r Hi) as [Hends Hlen]. apply string_complete in Hx. destruct Hx as (x' & -> & Hx).
      assert (EV : read_value f d (w2 ++ t ++ r1) = Some (v, r1)).
      { apply (proj1 (IH d Hd) w2 v t r1); [exact Hw2|exact Ht|exact Hv|intros; exact Hends|]. rewrite !app_length in Hf. cbn [List.length] in Hf. lia. }
      assert (EL : read_members f d false r1 = Some (l, r)).
      { apply (IH d Hd); [exact Hi|exact Hl|]. rewrite !app_length in Hf. cbn [List.length] in Hf. lia. }
      assert (EC : skip_ws (w1 ++ bstr ":" ++ w2 ++ t ++ r1) = n2b 58 :: w2 ++ t ++ r1) by (apply skip_to; [exact Hw1|reflexivity]).
      destruct first; cbv zeta.
      * cbn [app]. rewrite app_assoc. rewrite (skip_to (w0 ++ w)) by (reflexivity || now apply blank_app). cis 34%N 125%N false. cis 34%N 34%N true. cbv iota.
        rewrite Hx, EC. cis 58%N 58%N true. cbv iota. rewrite EV, EL. reflexivity.
      * change (w0 ++ bstr "," ++ w ++ (n2b 34 :: x') ++ w1 ++ bstr ":" ++ w2 ++ t ++ r1) with (w0 ++ n2b 44 :: w ++ n2b 34 :: x' ++ w1 ++ bstr ":" ++ w2 ++ t ++ r1).
        rewrite skip_to by (exact Hw0 || reflexivity). cis 44%N 125%N false. cis 44%N 44%N true. cbv iota. rewrite skip_to by (exact Hw || reflexivity).
        cis 34%N 34%N true. cbv iota. rewrite Hx, EC. cis 58%N 58%N true. cbv iota. rewrite EV, EL. reflexivity.
Qed.
