(** * SchemaProofs3: queries and replies. *)
From Verif Require Import Base Types KeyConf Version Codes JsonRead JsonQuery JsonProofs GrammarProofs JsonProofs8 JsonProofs9 GrammarProofs3 SpecSchema SchemaProofs SchemaProofs2 SpecSchema2.

Lemma bstr_inj a b : bstr a = bstr b -> a = b.
Proof. intros H. rewrite <- (string_of_list_byte_of_string a), <- (string_of_list_byte_of_string b). unfold bstr in H. now rewrite H. Qed.
Lemma jget_named l k : jget l k = hd_error (named k l).
Proof.
  unfold jget. induction l as [|[k1 v] l IH]; [reflexivity|]. rewrite named_cons. cbn [aget]. unfold is, bytes_eqb.
  destruct (bytes_eq_dec (bstr k) k1), (bytes_eq_dec k1 (bstr k)); try congruence. reflexivity.
Qed.
Definition names (fs : list (string * (jval -> out unit))) : list string := map fst fs.
Definition mine (fs : list (string * (jval -> out unit))) (l : members) : members := filter (fun kv => match owned fs (fst kv) with Some _ => true | None => false end) l.
Definition spare (fs : list (string * (jval -> out unit))) (l : members) : members := filter (fun kv => match owned fs (fst kv) with Some _ => false | None => true end) l.
Lemma owned_some fs k f : owned fs k = Some f -> exists n, In (n, f) fs /\ k = bstr n.
Proof.
  induction fs as [|[n g] fs IH]; cbn [owned]; [discriminate|]. destruct (is k n) eqn:E.
  - intros H. injection H as <-. exists n. split; [now left|now apply is_iff].
  - intros H. destruct (IH H) as (m & Hm & ->). exists m. split; [now right|reflexivity].
Qed.
Lemma owned_none fs k : owned fs k = None <-> forall n, In n (names fs) -> k <> bstr n.
Proof.
  induction fs as [|[n g] fs IH]; cbn [owned names map fst In]; [split; [intros _ n []|reflexivity]|]. destruct (is k n) eqn:E.
  - split; [discriminate|]. intros H. apply is_iff in E. exfalso. now apply (H n); [left|].
  - fold (names fs) in *. rewrite IH. split; intros H m; [|intros Hm; apply H; now right].
    intros [<-|Hm]; [|now apply H]. intros ->. assert (is (bstr n) n = true) by now apply is_iff. congruence.
Qed.
Lemma owned_in fs n f : NoDup (names fs) -> In (n, f) fs -> owned fs (bstr n) = Some f.
Proof.
  induction fs as [|[m g] fs IH]; cbn [names map fst]; intros Hd Hin; [destruct Hin|]. inversion Hd as [|? ? Hm Hd1]; subst. cbn [owned].
  destruct Hin as [E|Hin].
  - injection E as -> ->. assert (is (bstr n) n = true) as -> by now apply is_iff. reflexivity.
  - destruct (is (bstr n) m) eqn:E; [|now apply IH]. apply is_iff, bstr_inj in E. subst m. exfalso. apply Hm. apply in_map_iff. now exists (n, f).
Qed.
Definition fits (f : jval -> out unit) (vs : list jval) : Prop := vs = [] \/ exists v, vs = [v] /\ f v = Ok tt.
Lemma scan_ok fs l : NoDup (names fs) -> forall seen m r, scan fs seen l = Ok (m, r) <->
  m = mine fs l /\ r = spare fs l
  /\ forall n f, In (n, f) fs -> if in_dec bytes_eq_dec (bstr n) seen then named n l = [] else fits f (named n l).
Proof.
  intros Hd. induction l as [|[k v] l IH]; intros seen m r.
  { cbn [scan mine spare filter named map]. split.
    - intros H. injection H as <- <-. split; [reflexivity|]. split; [reflexivity|]. intros n f _. destruct (in_dec _ _ _); [reflexivity|now left].
    - intros (-> & -> & _). reflexivity. }
  cbn [scan]. unfold mine, spare. cbn [filter fst]. fold (mine fs l) (spare fs l). destruct (owned fs k) as [f|] eqn:O.
  - destruct (owned_some fs k f O) as (n & Hn & ->).
    assert (X : existsb (fun k' => if bytes_eq_dec (bstr n) k' then true else false) seen = if in_dec bytes_eq_dec (bstr n) seen then true else false).
    { destruct (in_dec bytes_eq_dec (bstr n) seen) as [Hs|Hs].
      - apply existsb_exists. exists (bstr n). split; [exact Hs|]. destruct (bytes_eq_dec (bstr n) (bstr n)); congruence.
      - apply not_true_is_false. intros H. apply existsb_exists in H. destruct H as (x & Hx & H). destruct (bytes_eq_dec (bstr n) x); [subst|discriminate]. contradiction. }
    rewrite X. destruct (in_dec bytes_eq_dec (bstr n) seen) as [Hs|Hs].
    { split; [discriminate|]. intros (_ & _ & H). specialize (H n f Hn). destruct (in_dec bytes_eq_dec (bstr n) seen); [|contradiction].
      rewrite named_cons in H. assert (is (bstr n) n = true) as E by now apply is_iff. rewrite E in H. discriminate H. }
    rewrite obind_ok. split.
    + intros ([] & Hf & H). apply obind_ok in H. destruct H as ([m1 r1] & H & E). injection E as <- <-. apply IH in H. destruct H as (-> & -> & H).
      split; [reflexivity|]. split; [reflexivity|]. intros n1 f1 Hn1. specialize (H n1 f1 Hn1). rewrite named_cons.
      destruct (is (bstr n) n1) eqn:E.
      * apply is_iff, bstr_inj in E. subst n1. destruct (in_dec bytes_eq_dec (bstr n) (bstr n :: seen)) as [_|Q]; [|exfalso; apply Q; now left].
        destruct (in_dec bytes_eq_dec (bstr n) seen); [contradiction|]. rewrite H. right. exists v. split; [reflexivity|].
        rewrite (owned_in fs n f1 Hd Hn1) in O. congruence.
      * destruct (in_dec bytes_eq_dec (bstr n1) (bstr n :: seen)) as [Q|Q], (in_dec bytes_eq_dec (bstr n1) seen) as [Q1|Q1]; try exact H.
        -- destruct Q as [Q|Q]; [|contradiction]. apply bstr_inj in Q. subst n1. assert (is (bstr n) n = true) by now apply is_iff. congruence.
        -- exfalso. apply Q. now right.
    + intros (-> & -> & H). pose proof (H n f Hn) as Hf. destruct (in_dec bytes_eq_dec (bstr n) seen); [contradiction|].
      rewrite named_cons in Hf. assert (is (bstr n) n = true) as E by now apply is_iff. rewrite E in Hf. destruct Hf as [Hf|(v1 & Hv & Hf)]; [discriminate|]. injection Hv as <- Hv.
      exists tt. split; [exact Hf|]. apply obind_ok. exists (mine fs l, spare fs l). split; [|reflexivity]. apply IH. split; [reflexivity|]. split; [reflexivity|].
      intros n1 f1 Hn1. specialize (H n1 f1 Hn1). rewrite named_cons in H. destruct (is (bstr n) n1) eqn:E1.
      * apply is_iff, bstr_inj in E1. subst n1. destruct (in_dec bytes_eq_dec (bstr n) (bstr n :: seen)) as [_|Q]; [exact Hv|exfalso; apply Q; now left].
      * destruct (in_dec bytes_eq_dec (bstr n1) (bstr n :: seen)) as [Q|Q], (in_dec bytes_eq_dec (bstr n1) seen) as [Q1|Q1]; try exact H.
        -- destruct Q as [Q|Q]; [|contradiction]. apply bstr_inj in Q. subst n1. congruence.
        -- exfalso. apply Q. now right.
  - rewrite obind_ok. assert (N : forall n, In n (names fs) -> named n ((k, v) :: l) = named n l).
    { intros n Hn. rewrite named_cons. destruct (is k n) eqn:E; [|reflexivity]. apply is_iff in E. exfalso. now apply (proj1 (owned_none fs k) O n Hn). }
    split.
    + intros ([m1 r1] & H & E). injection E as <- <-. apply IH in H. destruct H as (-> & -> & H). split; [reflexivity|]. split; [reflexivity|].
      intros n f Hn. rewrite N; [now apply H|]. apply in_map_iff. now exists (n, f).
    + intros (-> & -> & H). exists (mine fs l, spare fs l). split; [|reflexivity]. apply IH. split; [reflexivity|]. split; [reflexivity|].
      intros n f Hn. rewrite <- N; [now apply H|]. apply in_map_iff. now exists (n, f).
Qed.
Lemma named_mine fs l n : In n (names fs) -> named n (mine fs l) = named n l.
Proof.
  intros Hn. induction l as [|[k v] l IH]; [reflexivity|]. unfold mine. cbn [filter fst]. fold (mine fs l). destruct (owned fs k) as [f|] eqn:O.
  - rewrite !named_cons, IH. reflexivity.
  - rewrite IH, named_cons. destruct (is k n) eqn:E; [|reflexivity]. apply is_iff in E. exfalso. now apply (proj1 (owned_none fs k) O n Hn).
Qed.
Lemma named_left fs l n : ~ In n (names fs) -> named n (spare fs l) = named n l.
Proof.
  intros Hn. induction l as [|[k v] l IH]; [reflexivity|]. unfold spare. cbn [filter fst]. fold (spare fs l). destruct (owned fs k) as [f|] eqn:O.
  - rewrite IH, named_cons. destruct (is k n) eqn:E; [|reflexivity]. apply is_iff in E. destruct (owned_some fs k f O) as (m & Hm & Hk). rewrite E in Hk. apply bstr_inj in Hk. subst m.
    exfalso. apply Hn. apply in_map_iff. now exists (n, f).
  - rewrite !named_cons, IH. reflexivity.
Qed.
(** the scan on its own *)
Definition scanned (fs : list (string * (jval -> out unit))) (l : members) : Prop := forall n f, In (n, f) fs -> fits f (named n l).
Lemma scan_iff fs l m r : NoDup (names fs) -> (scan fs [] l = Ok (m, r) <-> m = mine fs l /\ r = spare fs l /\ scanned fs l).
Proof. intros Hd. rewrite (scan_ok fs l Hd [] m r). cbn [in_dec]. reflexivity. Qed.
Lemma chk_ok {A} (f : jval -> out A) v : chk f v = Ok tt <-> exists a, f v = Ok a.
Proof. unfold chk. rewrite omap_ok. split; intros (a & H); exists a; [now destruct H|split; [exact H|reflexivity]]. Qed.
Definition iff_v {A} (f : jval -> out A) (R : jval -> A -> Prop) : Prop := forall v a, f v = Ok a <-> R v a.
(** one field: what is got, given the scan *)
Lemma got_ok {A} (f : jval -> out A) R fs l k a : iff_v f R -> In k (names fs) -> fits (chk f) (named k l) ->
  (got f (mine fs l) k = Ok a <-> has_once R k l a).
Proof.
  intros X Hk F. unfold got. rewrite jget_named, (named_mine fs l k Hk). unfold has_once, once. destruct F as [F|(v & F & _)]; rewrite F; cbn [hd_error field obind].
  - split; [discriminate|intros (v & H & _); discriminate].
  - rewrite obind_ok. split.
    + intros (o & H & Hn). apply obind_ok in H. destruct H as (b & Hb & E). injection E as <-. apply need_ok in Hn. injection Hn as ->. exists v. split; [reflexivity|now apply X].
    + intros (v1 & H & Hr). injection H as <-. exists (Some a). split; [|reflexivity]. apply obind_ok. exists a. split; [now apply X|reflexivity].
Qed.
Lemma once_fits {A} (f : jval -> out A) R k l a : iff_v f R -> has_once R k l a -> fits (chk f) (named k l).
Proof. intros X (v & H & Hr). right. exists v. split; [exact H|]. apply chk_ok. exists a. now apply X. Qed.
Lemma as_opt_iff {A} (f : jval -> out A) R v o : iff_v f R -> (forall a, ~ R JNull a) ->
  (as_opt f v = Ok o <-> match o with None => v = JNull | Some a => R v a end).
Proof.
  intros X N. assert (G : v <> JNull -> ((let? a := f v in Ok (Some a)) = Ok o <-> match o with None => v = JNull | Some a => R v a end)).
  { intros Nv. rewrite obind_ok. split.
    - intros (a & Ha & E). injection E as <-. now apply X.
    - destruct o as [a|]; [|congruence]. intros H. exists a. split; [now apply X|reflexivity]. }
  destruct v; cbn [as_opt]; try (apply G; discriminate). split; [intros H; injection H as <-; reflexivity|]. destruct o as [a|]; [intros H; now apply N in H|reflexivity].
Qed.
Lemma got_opt_ok {A} (f : jval -> out A) R fs l k o : iff_v f R -> (forall a, ~ R JNull a) -> In k (names fs) -> fits (chk (as_opt f)) (named k l) ->
  (got_opt f (mine fs l) k = Ok o <-> has_opt R k l o).
Proof.
  intros X N Hk F. unfold got_opt. rewrite jget_named, (named_mine fs l k Hk). unfold has_opt, has_once, once. destruct F as [F|(v & F & _)]; rewrite F; cbn [hd_error].
  - split; [intros H; injection H as <-; now left|]. destruct o as [a|]; [intros (v & H & _); discriminate|reflexivity].
  - rewrite (as_opt_iff f R v o X N). destruct o as [a|].
    + split; [intros H; now exists v|intros (v1 & H & Hr); injection H as <-; exact Hr].
    + split; [intros ->; now right|intros [H|H]; congruence].
Qed.
Lemma opt_fits {A} (f : jval -> out A) R k l o : iff_v f R -> (forall a, ~ R JNull a) -> has_opt R k l o -> fits (chk (as_opt f)) (named k l).
Proof.
  intros X N H. destruct o as [a|].
  - destruct H as (v & H & Hr). right. exists v. split; [exact H|]. apply chk_ok. exists (Some a). now apply (as_opt_iff f R v (Some a) X N).
  - destruct H as [H|H]; [now left|]. right. exists JNull. split; [exact H|]. apply chk_ok. exists None. reflexivity.
Qed.

(** ** Values *)
Lemma iff_of {A} (f : jval -> out A) R : exact f R -> (forall v a, f v = Panic -> ~ R v a) -> iff_v f R.
Proof. intros X P v a. split; [apply X|]. intros H. destruct (proj2 (X v a) H) as [G|G]; [exact G|]. now apply P with (a := a) in G. Qed.
Lemma iff_vec {A} (f : jval -> out A) R : iff_v f R -> iff_v (as_vec f) (array R).
Proof.
  intros X v l. assert (G : forall vs l, omapm f vs = Ok l <-> Forall2 R vs l).
  { clear v l. induction vs as [|v vs IH]; intros l; cbn [omapm].
    - split; [intros E; injection E as <-; constructor|intros E; inversion E; reflexivity].
    - rewrite obind_ok. split.
      + intros (a & Ha & E). apply obind_ok in E. destruct E as (r & Hr & E). injection E as <-. constructor; [now apply X|now apply IH].
      + intros E. inversion E as [|? a ? r Ha Hr]; subst. exists a. split; [now apply X|]. apply obind_ok. exists r. split; [now apply IH|reflexivity]. }
  unfold array. destruct v; cbn [as_vec]; try (split; [discriminate|intros (vs & E & _); discriminate]).
  rewrite G. split; [intros E; now exists l0|intros (vs & E & Hf); congruence].
Qed.
Lemma i_text {A} (f : bytes -> out A) : iff_v (fun v => let? s := as_str v in custom (f s)) (text f).
Proof. intros v a. apply text_ok. Qed.
Definition i_digest : iff_v as_sap digest_v := i_text sap_from.
Definition i_id : iff_v as_id id_v := i_text id_from.
Definition i_keys : iff_v (as_vec as_bp) (array key_v) := iff_vec _ _ (i_text bp_from).
Definition i_version : iff_v as_si version_v := i_text si_from.
Lemma i_string : iff_v as_str string_v.
Proof. intros v a. rewrite as_str_ok. unfold string_v, text. split; [intros ->; now exists a|intros (x & -> & E); congruence]. Qed.
Lemma i_next : iff_v as_next next_v.
Proof.
  apply iff_of; [exact x_next|]. intros v a H. destruct v as [| | |[|c s]| |]; cbn [as_next] in H; try discriminate H.
  destruct (custom (sap_from (c :: s))) eqn:E; cbn [obind] in H; try discriminate H. destruct a as [d|]; unfold next_v, digest_v, text.
  - intros (_ & x & Hx & Hd). injection Hx as <-. rewrite Hd in E. discriminate E.
  - intros [Q|Q]; discriminate Q.
Qed.
Lemma vec_calm {A} (f : jval -> out A) v : (forall v, f v <> Panic) -> as_vec f v <> Panic.
Proof.
  intros H. destruct v; try discriminate. cbn [as_vec]. induction l as [|v l IH]; [discriminate|]. cbn [omapm].
  specialize (H v). destruct (f v); cbn [obind]; [|discriminate|congruence]. destruct (omapm f l); cbn [obind]; congruence.
Qed.
Lemma frac_calm v : as_frac v <> Panic.
Proof. unfold as_frac. destruct v; try discriminate. cbn [as_str obind]. pose proof (frac_from_calm s) as C. destruct (frac_from s); cbn [custom]; [discriminate|unfold jerr; discriminate|congruence]. Qed.
Section WithHex.
  Context (hx : bytes -> option N) (tr : bytes -> option Z).
  Lemma i_hex : iff_v (as_hex hx) (hex_v hx).
  Proof. apply iff_of; [apply x_hex|]. intros v a. apply hex_calm. Qed.
  Lemma i_instant : iff_v (as_instant tr) (instant_v tr).
  Proof. intros v a. unfold as_instant, instant_v. rewrite obind_ok. split; intros (x & H1 & H2); exists x; (split; [now apply as_str_ok|now apply need_ok]). Qed.
  Lemma i_threshold : iff_v (as_threshold hx) (threshold_v hx).
  Proof.
    apply iff_of; [apply x_threshold|]. intros v a H _. unfold as_threshold in H. pose proof (vec_calm as_frac v frac_calm) as C1. pose proof (vec_calm as_clause v (fun v => vec_calm as_frac v frac_calm)) as C2.
    unfold as_clause in H at 1. destruct (as_hex hx v) as [n|e|] eqn:E; cbn [omap obind orelse] in H; [discriminate| |].
    - destruct (as_vec as_frac v) as [c|e1|]; cbn [omap obind orelse] in H; [discriminate| |congruence].
      destruct (as_vec as_clause v) as [cs|e2|]; cbn [omap obind orelse] in H; [discriminate|discriminate|congruence].
    - unfold as_hex in E. destruct v; try discriminate E. cbn [as_str obind] in E. destruct (hx s); discriminate E.
  Qed.
  Lemma i_tag : iff_v as_tag_q tag_v.
  Proof.
    assert (T : forall s t, tag_from_q s = Ok t <-> s = bstr (tag_text t)).
    { intros s t. unfold tag_from_q, tag_from. split.
      - repeat match goal with |- context [if is s ?k then _ else _] => let E := fresh "E" in destruct (is s k) eqn:E; [apply is_iff in E; let Q := fresh "Q" in intros Q; injection Q; intros <-; exact E|clear E] end. discriminate.
      - intros ->. destruct t; reflexivity. }
    intros v t. unfold tag_v. destruct v as [| | |s| |l]; try (split; [discriminate|intros [H|H]; discriminate H]); cbn [as_tag_q].
    - rewrite T. split; [intros ->; now left|intros [H|H]; congruence].
    - destruct l as [|[k v] [|? ?]]; [split; [discriminate|intros [H|H]; discriminate H]| |destruct v; (split; [discriminate|intros [H|H]; discriminate H])].
      destruct v; try (split; [discriminate|intros [H|H]; discriminate H]). rewrite T. split; [intros ->; now right|intros [H|H]; congruence].
  Qed.
  Lemma i_route : iff_v as_route route_v.
  Proof.
    intros v r. unfold as_route. rewrite obind_ok. split.
    - intros (s & Hs & H). apply as_str_ok in Hs. subst v. unfold route_from, starts in H. destruct (eat (bstr "/ksn/") s) as [r1|] eqn:E.
      + apply eat_sound in E. subst s. cbv iota in H. change (skipn 5 (bstr "/ksn/" ++ r1)) with r1 in H.
        destruct (id_from r1) as [i| |] eqn:Ei; try discriminate H. injection H as <-. now exists r1.
      + cbv iota in H. destruct (is s "ksn") eqn:E1; [apply is_iff in E1; injection H as <-; now subst s|]. destruct (is s "log") eqn:E2; [apply is_iff in E2; injection H as <-; now subst s|discriminate H].
    - destruct r as [| |i]; cbn [route_v].
      + intros ->. exists (bstr "log"). split; reflexivity.
      + intros ->. exists (bstr "ksn"). split; reflexivity.
      + intros (x & -> & Hi). exists (bstr "/ksn/" ++ x). split; [reflexivity|]. unfold route_from, starts.
        rewrite (eat_complete (bstr "/ksn/") x). change (skipn 5 (bstr "/ksn/" ++ x)) with x. now rewrite Hi.
  Qed.

  (** ** Objects *)
  Ltac unf := try (match goal with x := _ : list (string * (jval -> out unit)) |- _ => unfold x end).
  Ltac distinct := unf; unfold names; cbn [names map fst own]; repeat constructor; cbn [In]; intuition discriminate.
  Ltac inn := unf; cbn [names map fst own In]; tauto.
  Ltac fit S := apply S; unf; cbn [own In]; tauto.
  Ltac own_get X S H := match type of H with got ?f (mine ?fs ?l) ?k = Ok ?a => apply (got_ok f _ fs l k a X ltac:(inn) ltac:(fit S)) in H end.
  Ltac opt_get X N S H := match type of H with got_opt ?f (mine ?fs ?l) ?k = Ok ?a => apply (got_opt_ok f _ fs l k a X N ltac:(inn) ltac:(fit S)) in H end.
  Ltac bind H x := apply obind_ok in H; destruct H as (x & ?H & H).
  Lemma no_text {A} (f : bytes -> out A) a : ~ text f JNull a.
  Proof. intros (x & H & _). discriminate H. Qed.
  Lemma no_tag a : ~ tag_v JNull a.
  Proof. intros [H|H]; discriminate H. Qed.
  (** all fields of a struct fit *)
  Ltac all_fit := let n := fresh "n" in let f := fresh "f" in let Hin := fresh "Hin" in
    intros n f Hin; cbn [In own] in Hin; repeat (destruct Hin as [Hin|Hin]; [injection Hin as <- <-|]); [..|destruct Hin].
  Lemma i_args : iff_v as_args args_v.
  Proof.
    intros v i. unfold args_v. split.
    - destruct v as [| | | |vs|l]; try discriminate.
      + destruct vs as [|x [|y vs]]; cbn [as_args]; try discriminate.
        * intros H. right. exists x. split; [reflexivity|now apply i_id].
        * intros H. apply obind_ok in H. destruct H as (a & _ & H). discriminate H.
      + cbn [as_args]. intros H. apply obind_ok in H. destruct H as ([m r] & Hs & H). apply scan_iff in Hs; [|distinct]. destruct Hs as (-> & -> & S).
        own_get i_id S H. left. exists l. split; [reflexivity|exact H].
    - intros [(l & -> & H)|(x & -> & H)]; cbn [as_args]; [|now apply i_id].
      assert (S : scanned [own "i" as_id] l) by (all_fit; exact (once_fits _ _ _ _ _ i_id H)).
      apply obind_ok. exists (mine [own "i" as_id] l, spare [own "i" as_id] l). split; [apply scan_iff; [distinct|now repeat split]|].
      apply (got_ok as_id id_v _ l "i" i i_id); [inn|fit S|exact H].
  Qed.
  Lemma i_last_est : iff_v (as_last_est hx) (last_est_v hx).
  Proof.
    intros v e. unfold last_est_v. split.
    - destruct v as [| | | |vs|l]; try discriminate.
      + destruct vs as [|a [|b [|c [|d [|? ?]]]]]; cbn [as_last_est]; try discriminate; intros H;
          repeat match type of H with (let? _ := _ in _) = Ok _ => apply obind_ok in H; destruct H as (? & ? & H) end; try discriminate H.
        injection H as <-. right. exists a, b, c, d. split; [reflexivity|]. cbn [le_sn le_digest le_br le_ba].
        split; [now apply i_hex|]. split; [now apply i_digest|]. split; now apply i_keys.
      + cbn [as_last_est]. intros H. apply obind_ok in H. destruct H as ([m r] & Hs & H). apply scan_iff in Hs; [|distinct]. destruct Hs as (-> & -> & S).
        bind H s. bind H d. bind H br. bind H ba. injection H as <-. cbn [le_sn le_digest le_br le_ba].
        own_get i_hex S H0. own_get i_digest S H1. own_get i_keys S H2. own_get i_keys S H3. left. exists l. repeat (split; [first [reflexivity|assumption]|]). assumption.
    - destruct e as [s d br ba]. cbn [le_sn le_digest le_br le_ba]. intros [(l & -> & H1 & H2 & H3 & H4)|(x1 & x2 & x3 & x4 & -> & H1 & H2 & H3 & H4)]; cbn [as_last_est].
      + set (fs := [own "s" (as_hex hx); own "d" as_sap; own "br" (as_vec as_bp); own "ba" (as_vec as_bp)]).
        assert (S : scanned fs l).
        { unfold fs. all_fit; [exact (once_fits _ _ _ _ _ i_hex H1)|exact (once_fits _ _ _ _ _ i_digest H2)|exact (once_fits _ _ _ _ _ i_keys H3)|exact (once_fits _ _ _ _ _ i_keys H4)]. }
        apply obind_ok. exists (mine fs l, spare fs l). split; [apply scan_iff; [distinct|now repeat split]|].
        rewrite (proj2 (got_ok _ _ fs l "s" s i_hex ltac:(inn) ltac:(fit S)) H1). cbn [obind].
        rewrite (proj2 (got_ok _ _ fs l "d" d i_digest ltac:(inn) ltac:(fit S)) H2). cbn [obind].
        rewrite (proj2 (got_ok _ _ fs l "br" br i_keys ltac:(inn) ltac:(fit S)) H3). cbn [obind].
        rewrite (proj2 (got_ok _ _ fs l "ba" ba i_keys ltac:(inn) ltac:(fit S)) H4). reflexivity.
      + apply i_hex in H1. apply i_digest in H2. apply i_keys in H3, H4. now rewrite H1, H2, H3, H4.
  Qed.
  Lemma once_named {A} (R : jval -> A -> Prop) k l l' a : named k l = named k l' -> (has_once R k l a <-> has_once R k l' a).
  Proof. intros H. unfold has_once, once. now rewrite H. Qed.
  Lemma kc_text_ok l kc : read_kc_text hx l = Ok kc <->
    has_once (threshold_v hx) "kt" l (kc_threshold kc) /\ has_once (array key_v) "k" l (kc_keys kc) /\ has_once next_v "n" l (kc_next kc).
  Proof.
    unfold read_kc_text. set (fs := [own "kt" (as_threshold hx); own "k" (as_vec as_bp); own "n" as_next]). split.
    - intros H. apply obind_ok in H. destruct H as ([m r] & Hs & H). apply scan_iff in Hs; [|distinct]. destruct Hs as (-> & -> & S).
      bind H kt. bind H k. bind H n. injection H as <-. cbn [kc_threshold kc_keys kc_next].
      own_get i_threshold S H0. own_get i_keys S H1. own_get i_next S H2. repeat split; assumption.
    - destruct kc as [t k n]. cbn [kc_threshold kc_keys kc_next]. intros (H1 & H2 & H3).
      assert (S : scanned fs l). { unfold fs. all_fit; [exact (once_fits _ _ _ _ _ i_threshold H1)|exact (once_fits _ _ _ _ _ i_keys H2)|exact (once_fits _ _ _ _ _ i_next H3)]. }
      apply obind_ok. exists (mine fs l, spare fs l). split; [apply scan_iff; [distinct|now repeat split]|].
      rewrite (proj2 (got_ok _ _ fs l "kt" t i_threshold ltac:(inn) ltac:(fit S)) H1). cbn [obind].
      rewrite (proj2 (got_ok _ _ fs l "k" k i_keys ltac:(inn) ltac:(fit S)) H2). cbn [obind].
      rewrite (proj2 (got_ok _ _ fs l "n" n i_next ltac:(inn) ltac:(fit S)) H3). reflexivity.
  Qed.
  Lemma state_ok l s : read_state hx l = Ok s <-> state_o hx l s.
  Proof.
    unfold read_state, state_o.
    set (fs := [own "i" as_id; own "s" (as_hex hx); own "d" as_sap; own "p" (as_opt as_sap); own "et" (as_opt as_tag_q); own "bt" (as_hex hx); own "b" (as_vec as_bp); own "di" (as_opt as_id); own "ee" (as_last_est hx)]).
    assert (L : forall A (R : jval -> A -> Prop) k a, ~ In k (names fs) -> (has_once R k (spare fs l) a <-> has_once R k l a)).
    { intros A R k a Hk. apply once_named. now apply named_left. }
    split.
    - intros H. apply obind_ok in H. destruct H as ([m r] & Hs & H). apply scan_iff in Hs; [|distinct]. destruct Hs as (-> & -> & S).
      bind H i. bind H sn. bind H d. bind H p. bind H et. bind H bt. bind H b. bind H di. bind H ee. bind H kc. injection H as <-.
      cbn [st_prefix st_sn st_last_digest st_last_previous st_last_type st_tally st_witnesses st_delegator st_last_est st_current].
      own_get i_id S H0. own_get i_hex S H1. own_get i_digest S H2. opt_get i_digest (no_text sap_from) S H3. opt_get i_tag no_tag S H4.
      own_get i_hex S H5. own_get i_keys S H6. opt_get i_id (no_text id_from) S H7. own_get i_last_est S H8.
      apply kc_text_ok in H9. destruct H9 as (A & B & C). apply L in A, B, C; [|cbn; intuition discriminate..].
      repeat (split; [assumption|]). assumption.
    - destruct s as [i sn d p et kc bt b di ee]. cbn [st_prefix st_sn st_last_digest st_last_previous st_last_type st_tally st_witnesses st_delegator st_last_est st_current].
      intros (H0 & H1 & H2 & H3 & H4 & H5 & H6 & H7 & H8 & A & B & C).
      assert (S : scanned fs l).
      { unfold fs. all_fit; [exact (once_fits _ _ _ _ _ i_id H0)|exact (once_fits _ _ _ _ _ i_hex H1)|exact (once_fits _ _ _ _ _ i_digest H2)|exact (opt_fits _ _ _ _ _ i_digest (no_text sap_from) H3)
          |exact (opt_fits _ _ _ _ _ i_tag no_tag H4)|exact (once_fits _ _ _ _ _ i_hex H5)|exact (once_fits _ _ _ _ _ i_keys H6)|exact (opt_fits _ _ _ _ _ i_id (no_text id_from) H7)|exact (once_fits _ _ _ _ _ i_last_est H8)]. }
      apply obind_ok. exists (mine fs l, spare fs l). split; [apply scan_iff; [distinct|now repeat split]|].
      rewrite (proj2 (got_ok _ _ fs l "i" i i_id ltac:(inn) ltac:(fit S)) H0). cbn [obind].
      rewrite (proj2 (got_ok _ _ fs l "s" sn i_hex ltac:(inn) ltac:(fit S)) H1). cbn [obind].
      rewrite (proj2 (got_ok _ _ fs l "d" d i_digest ltac:(inn) ltac:(fit S)) H2). cbn [obind].
      rewrite (proj2 (got_opt_ok _ _ fs l "p" p i_digest (no_text sap_from) ltac:(inn) ltac:(fit S)) H3). cbn [obind].
      rewrite (proj2 (got_opt_ok _ _ fs l "et" et i_tag no_tag ltac:(inn) ltac:(fit S)) H4). cbn [obind].
      rewrite (proj2 (got_ok _ _ fs l "bt" bt i_hex ltac:(inn) ltac:(fit S)) H5). cbn [obind].
      rewrite (proj2 (got_ok _ _ fs l "b" b i_keys ltac:(inn) ltac:(fit S)) H6). cbn [obind].
      rewrite (proj2 (got_opt_ok _ _ fs l "di" di i_id (no_text id_from) ltac:(inn) ltac:(fit S)) H7). cbn [obind].
      rewrite (proj2 (got_ok _ _ fs l "ee" ee i_last_est ltac:(inn) ltac:(fit S)) H8). cbn [obind].
      rewrite (proj2 (kc_text_ok (spare fs l) kc)); [reflexivity|]. repeat split; apply L; (cbn; intuition discriminate) || assumption.
  Qed.
  Lemma i_notice : iff_v (as_notice hx tr) (notice_v hx tr).
  Proof.
    intros v k. unfold notice_v. set (fs := [own "v" as_si; own "f" (as_hex hx); own "dt" (as_instant tr); own "c" (as_vec as_str)]).
    assert (L : forall l s, state_o hx (spare fs l) s <-> state_o hx l s).
    { intros l s. unfold state_o, has_opt. unfold once.
      assert (N : forall k, In k ["i"; "s"; "d"; "p"; "et"; "bt"; "b"; "di"; "ee"; "kt"; "k"; "n"]%string -> named k (spare fs l) = named k l).
      { intros k0 Hk. apply named_left. cbn. cbn in Hk. intuition (subst; discriminate). }
      assert (O : forall A (R : jval -> A -> Prop) k a, In k ["i"; "s"; "d"; "p"; "et"; "bt"; "b"; "di"; "ee"; "kt"; "k"; "n"]%string -> (has_once R k (spare fs l) a <-> has_once R k l a)).
      { intros A R k0 a Hk. apply once_named. now apply N. }
      rewrite !O by (cbn; tauto). rewrite !N by (cbn; tauto).
      destruct (st_last_previous s), (st_last_type s), (st_delegator s); rewrite ?O by (cbn; tauto); reflexivity. }
    split.
    - destruct v as [| | | | |l]; try discriminate. cbn [as_notice]. fold fs. intros H. apply obind_ok in H. destruct H as ([m r] & Hs & H). apply scan_iff in Hs; [|distinct]. destruct Hs as (-> & -> & S).
      bind H v. bind H f. bind H dt. bind H c. bind H s. injection H as <-. exists l. cbn [ksn_info ksn_first_seen ksn_timestamp ksn_config ksn_state].
      own_get i_version S H0. own_get i_hex S H1. own_get i_instant S H2. own_get (iff_vec _ _ i_string) S H3. apply state_ok in H4. apply (proj1 (L _ _)) in H4.
      repeat (split; [first [reflexivity|assumption]|]). assumption.
    - destruct k as [v1 s f dt c]. cbn [ksn_info ksn_first_seen ksn_timestamp ksn_config ksn_state]. intros (l & -> & H0 & H1 & H2 & H3 & H4). cbn [as_notice]. fold fs.
      assert (S : scanned fs l).
      { unfold fs. all_fit; [exact (once_fits _ _ _ _ _ i_version H0)|exact (once_fits _ _ _ _ _ i_hex H1)|exact (once_fits _ _ _ _ _ i_instant H2)|exact (once_fits _ _ _ _ _ (iff_vec _ _ i_string) H3)]. }
      apply obind_ok. exists (mine fs l, spare fs l). split; [apply scan_iff; [distinct|now repeat split]|].
      rewrite (proj2 (got_ok _ _ fs l "v" v1 i_version ltac:(inn) ltac:(fit S)) H0). cbn [obind].
      rewrite (proj2 (got_ok _ _ fs l "f" f i_hex ltac:(inn) ltac:(fit S)) H1). cbn [obind].
      rewrite (proj2 (got_ok _ _ fs l "dt" dt i_instant ltac:(inn) ltac:(fit S)) H2). cbn [obind].
      rewrite (proj2 (got_ok _ _ fs l "c" c (iff_vec _ _ i_string) ltac:(inn) ltac:(fit S)) H3). cbn [obind].
      rewrite (proj2 (state_ok (spare fs l) s)); [reflexivity|now apply L].
  Qed.
  Definition fd := [own "d" as_sap].
  Definition fe := [own "dt" (as_instant tr); own "r" as_route].
  Ltac unf ::= try (match goal with x := _ : list (string * (jval -> out unit)) |- _ => unfold x end); unfold fd, fe.
  Lemma envelope_ok l d t rt r : read_envelope tr l = Ok (d, t, rt, r) <->
    has_once digest_v "d" l d /\ has_once (instant_v tr) "dt" l t /\ has_once route_v "r" l rt /\ r = spare fe (spare fd l).
  Proof.
    unfold read_envelope. fold fd fe.
    assert (N : forall A (R : jval -> A -> Prop) k a, k <> "d"%string -> (has_once R k (spare fd l) a <-> has_once R k l a)).
    { intros A R k a Hk. apply once_named. apply named_left. cbn. intuition congruence. }
    rewrite <- (N _ (instant_v tr) "dt"%string t) by discriminate. rewrite <- (N _ route_v "r"%string rt) by discriminate. split.
    - intros H. apply obind_ok in H. destruct H as ([m1 r1] & Hs & H). apply scan_iff in Hs; [|distinct]. destruct Hs as (-> & -> & S1).
      bind H d1. apply obind_ok in H. destruct H as ([m2 r2] & Hs & H). apply scan_iff in Hs; [|distinct]. destruct Hs as (-> & -> & S2).
      bind H t1. bind H rt1. injection H as <- <- <- <-. own_get i_digest S1 H0. own_get i_instant S2 H1. own_get i_route S2 H2. repeat (split; [assumption|]). reflexivity.
    - intros (H0 & H1 & H2 & ->).
      assert (S1 : scanned fd l) by (unfold fd; all_fit; exact (once_fits _ _ _ _ _ i_digest H0)).
      assert (S2 : scanned fe (spare fd l)). { unfold fe. all_fit; [exact (once_fits _ _ _ _ _ i_instant H1)|exact (once_fits _ _ _ _ _ i_route H2)]. }
      apply obind_ok. exists (mine fd l, spare fd l). split; [apply scan_iff; [distinct|now repeat split]|].
      rewrite (proj2 (got_ok _ _ fd l "d" d i_digest ltac:(inn) ltac:(fit S1)) H0). cbn [obind].
      apply obind_ok. exists (mine fe (spare fd l), spare fe (spare fd l)). split; [apply scan_iff; [distinct|now repeat split]|].
      rewrite (proj2 (got_ok _ _ fe (spare fd l) "dt" t i_instant ltac:(inn) ltac:(fit S2)) H1). cbn [obind].
      rewrite (proj2 (got_ok _ _ fe (spare fd l) "r" rt i_route ltac:(inn) ltac:(fit S2)) H2). reflexivity.
  Qed.
  Lemma after_envelope {A} (R : jval -> A -> Prop) k l a : ~ In k ["d"; "dt"; "r"]%string -> (has_once R k (spare fe (spare fd l)) a <-> has_once R k l a).
  Proof. intros Hk. apply once_named. rewrite !named_left; [reflexivity|cbn; intros H; apply Hk; cbn; tauto..]. Qed.
  Lemma query_ok info l q : read_query tr info l = Ok q <-> query_o tr l q /\ q_info q = info.
  Proof.
    unfold read_query, query_o. set (fs := [own "rr" as_str; own "q" as_args]).
    rewrite <- (after_envelope string_v "rr"%string l) by (cbn; intuition discriminate). rewrite <- (after_envelope args_v "q"%string l) by (cbn; intuition discriminate).
    split.
    - intros H. apply obind_ok in H. destruct H as ([[[d t] rt] r] & He & H). apply envelope_ok in He. destruct He as (H0 & H1 & H2 & ->).
      apply obind_ok in H. destruct H as ([m r] & Hs & H). apply scan_iff in Hs; [|distinct]. destruct Hs as (-> & -> & S).
      bind H rr. bind H q1. injection H as <-. own_get i_string S H3. own_get i_args S H4. cbn [q_digest q_timestamp q_route q_reply_route q_i q_info]. split; [|reflexivity].
      repeat (split; [assumption|]). assumption.
    - destruct q as [i d t rt rr q]. cbn [q_digest q_timestamp q_route q_reply_route q_i q_info]. intros [(H0 & H1 & H2 & H3 & H4) ->].
      apply obind_ok. exists (d, t, rt, spare fe (spare fd l)). split; [apply envelope_ok; now repeat split|].
      set (l' := spare fe (spare fd l)) in *.
      assert (S : scanned fs l'). { unfold fs. all_fit; [exact (once_fits _ _ _ _ _ i_string H3)|exact (once_fits _ _ _ _ _ i_args H4)]. }
      apply obind_ok. exists (mine fs l', spare fs l'). split; [apply scan_iff; [distinct|now repeat split]|].
      rewrite (proj2 (got_ok _ _ fs l' "rr" rr i_string ltac:(inn) ltac:(fit S)) H3). cbn [obind].
      rewrite (proj2 (got_ok _ _ fs l' "q" q i_args ltac:(inn) ltac:(fit S)) H4). reflexivity.
  Qed.
  Lemma reply_ok info l m : read_reply hx tr info l = Ok m <-> reply_o hx tr l m /\ rp_info m = info.
  Proof.
    unfold read_reply, reply_o. set (fs := [own "a" (as_notice hx tr)]).
    rewrite <- (after_envelope (notice_v hx tr) "a"%string l) by (cbn; intuition discriminate).
    split.
    - intros H. apply obind_ok in H. destruct H as ([[[d t] rt] r] & He & H). apply envelope_ok in He. destruct He as (H0 & H1 & H2 & ->).
      apply obind_ok in H. destruct H as ([m1 r] & Hs & H). apply scan_iff in Hs; [|distinct]. destruct Hs as (-> & -> & S).
      bind H a. injection H as <-. own_get i_notice S H3. cbn [rp_digest rp_timestamp rp_route rp_ksn rp_info]. split; [|reflexivity].
      repeat (split; [assumption|]). assumption.
    - destruct m as [i d t rt a]. cbn [rp_digest rp_timestamp rp_route rp_ksn rp_info]. intros [(H0 & H1 & H2 & H3) ->].
      apply obind_ok. exists (d, t, rt, spare fe (spare fd l)). split; [apply envelope_ok; now repeat split|].
      set (l' := spare fe (spare fd l)) in *.
      assert (S : scanned fs l'). { unfold fs. all_fit; exact (once_fits _ _ _ _ _ i_notice H3). }
      apply obind_ok. exists (mine fs l', spare fs l'). split; [apply scan_iff; [distinct|now repeat split]|].
      rewrite (proj2 (got_ok _ _ fs l' "a" a i_notice ltac:(inn) ltac:(fit S)) H3). reflexivity.
  Qed.
End WithHex.
