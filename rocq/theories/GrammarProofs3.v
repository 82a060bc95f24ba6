(** * GrammarProofs3: the members of a message. *)
From Verif Require Import Base Base64 Codes NumFmt Types KeyConf Version Cesr Message Json JsonRead JsonProofs JsonProofs8 SpecGrammar GrammarProofs GrammarProofs2.

(** the version is taken out of the members *)
Inductive taken : option SerializationInfo -> list (bytes * jval) -> option SerializationInfo -> list (bytes * jval) -> Prop :=
| tk_nil ov : taken ov [] ov []
| tk_version x i ms ov l : si_from x = Ok i -> taken (Some i) ms ov l -> taken None ((bstr "v", JStr x) :: ms) ov l
| tk_other k v ms ov ov' l : k <> bstr "v" -> taken ov ms ov' l -> taken ov ((k, v) :: ms) ov' ((k, v) :: l).
Lemma is_iff s k : is s k = true <-> s = bstr k.
Proof. split; [apply is_eq|]. intros ->. unfold is. now apply bytes_eqb_eq. Qed.
Lemma custom_ok {A} (x : out A) a : custom x = Ok a <-> x = Ok a.
Proof. destruct x; cbn; unfold jerr; split; congruence. Qed.
Lemma taken_some i ms ov l : taken (Some i) ms ov l -> ov = Some i /\ l = ms /\ ~ In (bstr "v") (map fst ms).
Proof.
  remember (Some i) as o eqn:Ho. intros H. induction H; [tauto|discriminate|]. destruct (IHtaken Ho) as (-> & -> & Hn).
  split; [reflexivity|]. split; [reflexivity|]. cbn [map fst In]. intros [E|E]; [contradiction|contradiction].
Qed.
Lemma taken_none ms i l : taken None ms (Some i) l ->
  exists ms1 x ms2, ms = ms1 ++ (bstr "v", JStr x) :: ms2 /\ l = ms1 ++ ms2 /\ si_from x = Ok i /\ ~ In (bstr "v") (map fst l).
Proof.
  remember None as o eqn:Ho. remember (Some i) as o' eqn:Ho'. intros H. revert Ho'. induction H; intros Ho'; [congruence| |].
  - subst. apply taken_some in H0. destruct H0 as (He & -> & Hn). injection He as ->. exists [], x, ms. now repeat split.
  - destruct (IHtaken Ho Ho') as (ms1 & x & ms2 & -> & -> & Hx & Hn). exists ((k, v) :: ms1), x, ms2. repeat split; [exact Hx|].
    cbn [map fst In]. intros [E|E]; [contradiction|contradiction].
Qed.
Lemma take_some i ms : ~ In (bstr "v") (map fst ms) -> taken (Some i) ms (Some i) ms.
Proof.
  induction ms as [|[k v] ms IH]; intros Hn; constructor; [|apply IH]; intros H; apply Hn; cbn [app map fst In]; [left; exact H|right; exact H].
Qed.
Lemma take_none ms1 x ms2 i : si_from x = Ok i -> ~ In (bstr "v") (map fst (ms1 ++ ms2)) ->
  taken None (ms1 ++ (bstr "v", JStr x) :: ms2) (Some i) (ms1 ++ ms2).
Proof.
  intros Hx. induction ms1 as [|[k v] ms IH]; intros Hn; cbn [app].
  - eapply tk_version; [exact Hx|]. now apply take_some.
  - constructor; [|apply IH]; intros H; apply Hn; cbn [app map fst In]; [left; exact H|right; exact H].
Qed.

Lemma top_sound f : forall d, 0 < d -> forall first ov s ov' l r, read_top f d first ov s = Ok (ov', l, r) ->
  exists ms, mtext first ms s r /\ under d (map snd ms) /\ taken ov ms ov' l.
Proof.
  induction f as [|f IH]; intros d Hd first ov s ov' l r; [discriminate|]. cbn [read_top].
  destruct (skip_ws_sound s) as (w & Hw & Hs & _). destruct (skip_ws s) as [|c q]; [discriminate|].
  destruct (c_is c 125) eqn:E1.
  { intros H. injection H as <- <- <-. apply c_is_eq in E1; [|lia]. subst c. exists []. split; [|split; constructor]. left. split; [reflexivity|]. exists w. split; [exact Hw|exact Hs]. }
  assert (G : forall a b, (exists w1 w2, blank w1 /\ blank w2 /\ s = w1 ++ (if first then [] else bstr ",") ++ w2 ++ a :: b) ->
    (if c_is a 34 then
       match read_string b with
       | Some (k, r) =>
           if is k "v" && match ov with Some _ => true | None => false end then jerr
           else
           match skip_ws r with
           | e :: r =>
               if c_is e 58 then
                 if is k "v" then
                   match skip_ws r with
                   | q :: r =>
                       if c_is q 34 then
                         match read_string r with
                         | Some (x, r) => let? v := custom (si_from x) in read_top f d false (Some v) r
                         | None => jerr
                         end
                       else jerr
                   | [] => jerr
                   end
                 else
                   match read_value f d r with
                   | Some (v, r) =>
                       let? x := read_top f d false ov r in
                       let '(ov, l, r) := x in Ok (ov, (k, v) :: l, r)
                   | None => jerr
                   end
               else jerr
           | [] => jerr
           end
       | None => jerr
       end
     else jerr) = Ok (ov', l, r) -> exists ms, mtext first ms s r /\ under d (map snd ms) /\ taken ov ms ov' l).
  { intros a b (w1 & w2 & Hw1 & Hw2 & Hs1). destruct (c_is a 34) eqn:Ea; [|discriminate]. apply c_is_eq in Ea; [|lia]. subst a.
    destruct (read_string b) as [[k b1]|] eqn:Ek; [|discriminate]. apply string_sound in Ek. destruct Ek as (tk & Hk & ->).
    destruct (is k "v" && _)%bool eqn:Kv; [discriminate|].
    destruct (skip_ws_sound b1) as (w3 & Hw3 & Hb1 & _). destruct (skip_ws b1) as [|e b2]; [discriminate|]. destruct (c_is e 58) eqn:Ee; [|discriminate]. apply c_is_eq in Ee; [|lia]. subst e.
    destruct (is k "v") eqn:K1.
    - apply is_iff in K1. subst k. destruct ov as [i|]; [discriminate Kv|]. clear Kv.
      destruct (skip_ws_sound b2) as (w4 & Hw4 & Hb2 & _). destruct (skip_ws b2) as [|e b3]; [discriminate|]. destruct (c_is e 34) eqn:Ee; [|discriminate]. apply c_is_eq in Ee; [|lia]. subst e.
      destruct (read_string b3) as [[x b4]|] eqn:Ex; [|discriminate]. apply string_sound in Ex. destruct Ex as (tx & Hx & ->).
      destruct (custom (si_from x)) as [i| |] eqn:Ei; cbn [obind]; [|discriminate..]. apply (proj1 (custom_ok _ _)) in Ei.
      intros H. apply (IH d Hd) in H. destruct H as (ms & Hm & Hu & Ht). exists ((bstr "v", JStr x) :: ms). split; [|split].
      + apply mtext_cons. exists w1, w2, (n2b 34 :: tk), w3, w4, (n2b 34 :: tx), b4. repeat (split; [assumption|]). split; [now constructor|]. split; [|exact Hm].
        rewrite Hs1, Hb1, Hb2. cbn [app]. rewrite <- ?app_assoc. reflexivity.
      + constructor; [exact Hd|exact Hu].
      + exact (tk_version x i ms ov' l Ei Ht).
    - destruct (read_value f d b2) as [[v q1]|] eqn:Ev; [|discriminate]. destruct (read_top f d false ov q1) as [[[ov1 l1] r1]| |] eqn:El; cbn [obind]; [|discriminate..].
      intros H. injection H as <- <- <-. apply (IH d Hd) in El. apply (reader_sound f d Hd) in Ev. destruct Ev as (w4 & t & Hw4 & Ht & Hn & ->). destruct El as (ms & Hm & Hu & Htk).
      exists ((k, v) :: ms). split; [|split].
      + apply mtext_cons. exists w1, w2, (n2b 34 :: tk), w3, w4, t, q1. repeat (split; [assumption|]). split; [|exact Hm].
        rewrite Hs1, Hb1. cbn [app]. rewrite <- ?app_assoc. reflexivity.
      + now constructor.
      + apply tk_other; [|exact Htk]. intros ->. assert (is (bstr "v") "v" = true) by reflexivity. congruence. }
  cbv zeta. destruct first.
  { apply G. exists w, []. split; [exact Hw|]. split; [constructor|exact Hs]. }
  destruct (c_is c 44) eqn:E2; [|discriminate]. apply c_is_eq in E2; [|lia]. subst c.
  destruct (skip_ws_sound q) as (w2 & Hw2 & Hq & _). destruct (skip_ws q) as [|c q1]; [discriminate|].
  apply G. exists w, w2. split; [exact Hw|]. split; [exact Hw2|]. rewrite Hs, Hq. reflexivity.
Qed.

Lemma top_complete ms : forall f d first ov s ov' l r, 0 < d ->
  mtext first ms s r -> under d (map snd ms) -> taken ov ms ov' l -> 2 * List.length s <= f + 1 + 2 * List.length r ->
  read_top f d first ov s = Ok (ov', l, r).
Proof.
  induction ms as [|[k v] ms IH]; intros f d first ov s ov' l r Hd Hm Hu Ht Hf.
  { inversion Ht; subst. destruct Hm as [[_ (w & Hw & ->)]|(w & u & Hm & _)]; [|inversion Hm]. change (w ++ bstr "}" ++ r) with (w ++ n2b 125 :: r) in *.
    destruct f; [rewrite app_length in Hf; cbn [List.length] in Hf; lia|]. cbn [read_top].
    rewrite skip_to by (exact Hw || reflexivity). cis 125%N 125%N true. reflexivity. }
  apply mtext_cons in Hm. destruct Hm as (w0 & w & x & w1 & w2 & t & r1 & Hw0 & Hw & Hx & Hw1 & Hw2 & Hdn & -> & Hm).
  inversion Hu as [|? ? Hv Hl]; subst. cbn [snd] in Hv.
  destruct (mtext_ends ms r1 r Hm) as [Hends Hlen]. apply string_complete in Hx. destruct Hx as (x' & -> & Hx).
  destruct f as [|f]; [rewrite !app_length in Hf; cbn [List.length] in Hf; lia|]. cbn [read_top].
  assert (EC : skip_ws (w1 ++ bstr ":" ++ w2 ++ t ++ r1) = n2b 58 :: w2 ++ t ++ r1) by (apply skip_to; [exact Hw1|reflexivity]).
  assert (Hf1 : 2 * List.length t <= f /\ 2 * List.length r1 <= f + 1 + 2 * List.length r).
  { rewrite !app_length in Hf. cbn [List.length] in Hf. lia. }
  destruct Hf1 as [Hf1 Hf2]. clear Hf.
  assert (EV : read_value f d (w2 ++ t ++ r1) = Some (v, r1)).
  { apply (proj1 (reader_complete f d Hd) w2 v t r1); [exact Hw2|exact Hdn|exact Hv|intros; exact Hends|exact Hf1]. }
  assert (EK : (if is k "v" && match ov with Some _ => true | None => false end then jerr
    else match skip_ws (w1 ++ bstr ":" ++ w2 ++ t ++ r1) with
         | e :: r => if c_is e 58 then
               if is k "v" then
                 match skip_ws r with
                 | q :: r => if c_is q 34 then
                       match read_string r with
                       | Some (x, r) => let? v := custom (si_from x) in read_top f d false (Some v) r
                       | None => jerr end
                     else jerr
                 | [] => jerr end
               else match read_value f d r with
                    | Some (v, r) => let? x := read_top f d false ov r in let '(ov, l, r) := x in Ok (ov, (k, v) :: l, r)
                    | None => jerr end
             else jerr
         | [] => jerr end) = Ok (ov', l, r)).
  { rewrite EC. cis 58%N 58%N true. cbv iota. inversion Ht as [|y i ms' ov1 l1 Hi Ht1|k1 v1 ms' ov1 ov2 l1 Hk Ht1]; subst.
    - change (is (bstr "v") "v") with true. cbn [andb]. cbv iota.
      assert (Hs : string_text y t) by now inversion Hdn. apply string_complete in Hs. destruct Hs as (t' & -> & Hs).
      cbn [app]. rewrite skip_to by (exact Hw2 || reflexivity). cis 34%N 34%N true. cbv iota. rewrite Hs, Hi. cbn [custom obind].
      now apply IH.
    - assert (Hkv : is k "v" = false) by (apply not_true_is_false; rewrite is_iff; exact Hk). rewrite Hkv. cbn [andb]. rewrite EV.
      rewrite (IH f d false ov r1 ov' l1 r Hd Hm Hl Ht1 Hf2). reflexivity. }
  destruct first; cbv zeta.
  - cbn [app]. rewrite app_assoc. rewrite (skip_to (w0 ++ w)) by (reflexivity || now apply blank_app). cis 34%N 125%N false. cis 34%N 34%N true. cbv iota.
    rewrite Hx. exact EK.
  - change (w0 ++ bstr "," ++ w ++ (n2b 34 :: x') ++ w1 ++ bstr ":" ++ w2 ++ t ++ r1) with (w0 ++ n2b 44 :: w ++ n2b 34 :: x' ++ w1 ++ bstr ":" ++ w2 ++ t ++ r1).
    rewrite skip_to by (exact Hw0 || reflexivity). cis 44%N 125%N false. cis 44%N 44%N true. cbv iota. rewrite skip_to by (exact Hw || reflexivity).
    cis 34%N 34%N true. cbv iota. rewrite Hx. exact EK.
Qed.

Lemma mtext_pad w ms s r : blank w -> mtext true ms s r -> mtext true ms (w ++ s) r.
Proof.
  intros B [[-> (w1 & B1 & ->)]|(w1 & u & Hu & B1 & ->)].
  - left. split; [reflexivity|]. exists (w ++ w1). split; [now apply blank_app|now rewrite <- app_assoc].
  - right. exists (w ++ w1), u. split; [exact Hu|]. split; [now apply blank_app|now rewrite <- app_assoc].
Qed.

(** ** The text of a message *)
Theorem message_exact {D} (read : SerializationInfo -> list (bytes * jval) -> out D) (s rest : bytes) (e : D) :
  json_message read s = POk rest e <->
  exists w t ms1 x ms2 info, s = w ++ t ++ rest /\ blank w /\ denotes (JObj (ms1 ++ (bstr "v", JStr x) :: ms2)) t
    /\ ~ In (bstr "v") (map fst (ms1 ++ ms2)) /\ nesting (JObj (ms1 ++ ms2)) <= 127
    /\ si_from x = Ok info /\ read info (ms1 ++ ms2) = Ok e.
Proof.
  assert (U : forall ms1 x ms2, under 127 (map snd (ms1 ++ (bstr "v", JStr x) :: ms2)) <-> nesting (JObj (ms1 ++ ms2)) <= 127).
  { intros ms1 x ms2. rewrite <- Nat.lt_succ_r. rewrite (nesting_obj _ 127) by lia. unfold under. rewrite !map_app, !Forall_app. cbn [map snd]. rewrite Forall_cons_iff. cbn [nesting]. intuition lia. }
  split.
  - unfold json_message. destruct (skip_ws_sound s) as (w & Hw & Hs & _). destruct (skip_ws s) as [|c q]; [discriminate|].
    destruct (c_is c 123) eqn:Ec; [|discriminate]. apply c_is_eq in Ec; [|lia]. subst c.
    destruct (read_top (fuel_for q) 127 true None q) as [[[ov l] r1]| |] eqn:Et; cbn [obind]; [|discriminate..].
    destruct ov as [i|]; unfold need, ok_or; cbn [obind]; [|discriminate].
    destruct (read i l) as [d| |] eqn:Er; cbn [obind]; [|discriminate..]. intros H. injection H as <- <-.
    apply top_sound in Et; [|lia]. destruct Et as (ms & Hm & Hu & Ht). apply taken_none in Ht. destruct Ht as (ms1 & x & ms2 & -> & -> & Hx & Hn).
    apply mtext_drop in Hm. destruct Hm as (u & -> & Hm). exists w, (bstr "{" ++ u), ms1, x, ms2, i.
    split; [rewrite Hs; now rewrite <- app_assoc|]. split; [exact Hw|]. split; [apply denotes_obj; now exists u|]. split; [exact Hn|].
    split; [now apply U in Hu|]. split; assumption.
  - intros (w & t & ms1 & x & ms2 & i & -> & Hw & Hd & Hn & Hne & Hx & Hr). apply denotes_obj in Hd. destruct Hd as (u & -> & Hm).
    unfold json_message. change (w ++ (bstr "{" ++ u) ++ rest) with (w ++ n2b 123 :: u ++ rest). rewrite skip_to by (exact Hw || reflexivity).
    cis 123%N 123%N true. cbv iota. rewrite (top_complete (ms1 ++ (bstr "v", JStr x) :: ms2) _ _ true None _ (Some i) (ms1 ++ ms2) rest).
    + cbn [obind]. unfold need, ok_or. cbn [obind]. rewrite Hr. reflexivity.
    + lia.
    + apply (mtext_app true _ u [] rest Hm).
    + now apply U.
    + now apply take_none.
    + unfold fuel_for. lia.
Qed.
