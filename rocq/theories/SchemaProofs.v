(** * SchemaProofs: the typed readers and SpecSchema. *)
From Verif Require Import Base Types KeyConf Version Codes JsonRead JsonProofs8 GrammarProofs3 SpecSchema.

Lemma obind_ok {A B} (x : out A) (f : A -> out B) b : (let? a := x in f a) = Ok b <-> exists a, x = Ok a /\ f a = Ok b.
Proof. destruct x as [a| |]; cbn; split; try discriminate; [intros H; now exists a|intros (a' & E & H); congruence|intros (a' & E & H); discriminate..]. Qed.
Lemma omap_ok {A B} (f : A -> B) (x : out A) b : omap f x = Ok b <-> exists a, x = Ok a /\ b = f a.
Proof. destruct x as [a| |]; cbn; split; try discriminate; [intros H; exists a; split; congruence|intros (a' & E & H); congruence|intros (a' & E & H); discriminate..]. Qed.
Lemma need_ok {A} (o : option A) a : need o = Ok a <-> o = Some a.
Proof. unfold need, ok_or. destruct o; split; congruence. Qed.
Lemma as_str_ok v x : as_str v = Ok x <-> v = JStr x.
Proof. destruct v; cbn; unfold jerr; split; congruence. Qed.
Lemma text_ok {A} (f : bytes -> out A) v a : (let? s := as_str v in custom (f s)) = Ok a <-> text f v a.
Proof.
  rewrite obind_ok. unfold text. split; intros (x & H1 & H2); exists x; (split; [now apply as_str_ok|now apply custom_ok]).
Qed.
(** ** Reading up to panics *)
Definition okp {A} (x : out A) (a : A) : Prop := x = Ok a \/ x = Panic.
Definition exact {A} (f : jval -> out A) (R : jval -> A -> Prop) : Prop := forall v a, (f v = Ok a -> R v a) /\ (R v a -> okp (f v) a).
Lemma exact_iff {A} (f : jval -> out A) (R : jval -> A -> Prop) : (forall v a, f v = Ok a <-> R v a) -> exact f R.
Proof. intros H v a. split; [apply H|]. intros G. left. now apply H. Qed.
Lemma okp_bind {A B} (x : out A) (f : A -> out B) a b : okp x a -> okp (f a) b -> okp (let? a := x in f a) b.
Proof. intros [-> | ->] H; [exact H|now right]. Qed.
Lemma okp_ok {A} (a : A) : okp (Ok a) a. Proof. now left. Qed.
Lemma okp_map {A B} (f : A -> B) (x : out A) a : okp x a -> okp (omap f x) (f a).
Proof. intros [-> | ->]; [now left|now right]. Qed.
Lemma as_vec_exact {A} (f : jval -> out A) (R : jval -> A -> Prop) : exact f R -> exact (as_vec f) (array R).
Proof.
  intros H v l. assert (G : forall vs l, (omapm f vs = Ok l -> Forall2 R vs l) /\ (Forall2 R vs l -> okp (omapm f vs) l)).
  { clear v l. induction vs as [|v vs IH]; intros l; cbn [omapm].
    - split; [intros E; injection E as <-; constructor|intros E; inversion E; now left].
    - split.
      + intros E. apply obind_ok in E. destruct E as (a & Ha & E). apply obind_ok in E. destruct E as (r & Hr & E). injection E as <-. constructor; [now apply H|now apply IH].
      + intros E. inversion E as [|? a ? r Ha Hr]; subst. apply (okp_bind _ _ a); [now apply H|]. apply (okp_bind _ _ r); [now apply IH|now left]. }
  unfold array. split.
  - destruct v; try discriminate. cbn [as_vec]. intros E. exists l0. split; [reflexivity|now apply G].
  - intros (vs & -> & Hf). now apply G.
Qed.
(** the readers work on normalized values *)
Definition stable {A} (R : jval -> A -> Prop) : Prop := forall v a, R (to_value v) a <-> R v a.
Lemma stable_text {A} (f : bytes -> out A) : stable (text f).
Proof. intros v a. unfold text. split; intros (x & E & H); exists x; (split; [|exact H]); destruct v; cbn in *; congruence. Qed.
Lemma stable_array {A} (R : jval -> A -> Prop) : stable R -> stable (array R).
Proof.
  intros S v l. unfold array. split.
  - intros (vs & E & H). destruct v; try discriminate E. exists l0. split; [reflexivity|]. cbn [to_value] in E. injection E as <-.
    clear - S H. revert l H. induction l0; intros l H; inversion H; subst; constructor; [now apply S|now apply IHl0].
  - intros (vs & -> & H). exists (map to_value vs). split; [reflexivity|]. induction H; constructor; [now apply S|assumption].
Qed.

(** ** Members *)
Lemma aget_ins {A} (m : list (bytes * A)) k v k' : aget bytes_eq_dec (ins k v m) k' = if bytes_eq_dec k' k then Some v else aget bytes_eq_dec m k'.
Proof.
  induction m as [|[k1 v1] m IH]; cbn [ins aget]; [reflexivity|].
  destruct (bytes_eq_dec k k1) as [->|N1].
  - cbn [aget]. destruct (bytes_eq_dec k' k1); reflexivity.
  - destruct (bytes_ltb k k1); cbn [aget]; [reflexivity|]. rewrite IH. destruct (bytes_eq_dec k' k1) as [->|N2]; [|reflexivity].
    destruct (bytes_eq_dec k1 k); [congruence|reflexivity].
Qed.
Definition final {A} (l : list A) : option A := match rev l with a :: _ => Some a | [] => None end.
Lemma final_some {A} (l : list A) a : final l = Some a <-> exists l', l = l' ++ [a].
Proof.
  unfold final. split.
  - destruct (rev l) as [|x r] eqn:E; [discriminate|]. intros H. injection H as ->. exists (rev r). rewrite <- (rev_involutive l), E. reflexivity.
  - intros (l' & ->). rewrite rev_app_distr. reflexivity.
Qed.
Lemma jget_sort l k : jget (sort_map l) k = final (named k l).
Proof.
  unfold jget, sort_map. assert (G : forall m, aget bytes_eq_dec (fold_left (fun m kv => ins (fst kv) (snd kv) m) l m) (bstr k)
    = match final (named k l) with Some v => Some v | None => aget bytes_eq_dec m (bstr k) end).
  { induction l as [|[k1 v1] l IH]; intros m; [reflexivity|]. cbn [fold_left fst snd]. rewrite IH, aget_ins. unfold named. cbn [filter fst].
    destruct (bytes_eqb k1 (bstr k)) eqn:E.
    - apply bytes_eqb_eq in E. subst k1. cbn [map snd]. destruct (bytes_eq_dec (bstr k) (bstr k)); [|congruence].
      unfold final. cbn [rev]. destruct (rev _) as [|x r]; reflexivity.
    - destruct (bytes_eq_dec (bstr k) k1) as [<-|N]; [|reflexivity]. assert (bytes_eqb (bstr k) (bstr k) = true) by now apply bytes_eqb_eq. congruence. }
  rewrite G. destruct (final (named k l)); reflexivity.
Qed.
Lemma named_map k l : named k (map (fun kv => (fst kv, to_value (snd kv))) l) = map to_value (named k l).
Proof. unfold named. induction l as [|[k1 v1] l IH]; [reflexivity|]. cbn [map filter fst snd]. destruct (bytes_eqb k1 (bstr k)); cbn [map snd]; now rewrite IH. Qed.
Lemma final_map {A B} (f : A -> B) l : final (map f l) = option_map f (final l).
Proof. unfold final. rewrite <- map_rev. destruct (rev l); reflexivity. Qed.
Definition norm (l : members) : members := sort_map (map (fun kv => (fst kv, to_value (snd kv))) l).
Lemma jget_norm l k : jget (norm l) k = option_map to_value (final (named k l)).
Proof. unfold norm. now rewrite jget_sort, named_map, final_map. Qed.
Lemma field_ok {A} (f : jval -> out A) (R : jval -> A -> Prop) l k o :
  exact f R -> stable R ->
  field f (jget (norm l) k) = Ok o -> match o with Some a => has R k l a | None => named k l = [] end.
Proof.
  intros H S. rewrite jget_norm. unfold has, latest. destruct (final (named k l)) as [v|] eqn:E; cbn [option_map field].
  - intros G. apply obind_ok in G. destruct G as (a & Ha & G). injection G as <-. exists v. split; [now apply final_some|]. apply S, H, Ha.
  - intros G. injection G as <-. unfold final in E. destruct (rev (named k l)) eqn:R0; [|discriminate]. apply (f_equal (@rev _)) in R0. now rewrite rev_involutive in R0.
Qed.
Lemma field_has {A} (f : jval -> out A) (R : jval -> A -> Prop) l k a :
  exact f R -> stable R -> field f (jget (norm l) k) = Ok (Some a) -> has R k l a.
Proof. intros H S G. now apply (field_ok f R l k (Some a)) in G. Qed.
Lemma has_field {A} (f : jval -> out A) (R : jval -> A -> Prop) l k a :
  exact f R -> stable R -> has R k l a -> okp (field f (jget (norm l) k)) (Some a).
Proof.
  intros H S (v & Hl & Hr). apply final_some in Hl. rewrite jget_norm, Hl. cbn [option_map field]. apply (okp_bind _ _ a); [|now left]. now apply H, S.
Qed.

(** ** Values *)
Lemma x_string : exact as_str string_v.
Proof. apply exact_iff. intros v a. rewrite as_str_ok. unfold string_v, text. split; [intros ->; now exists a|intros (x & -> & E); congruence]. Qed.
Lemma x_key : exact as_bp key_v. Proof. apply exact_iff. intros v a. apply text_ok. Qed.
Lemma x_digest : exact as_sap digest_v. Proof. apply exact_iff. intros v a. apply text_ok. Qed.
Lemma x_id : exact as_id id_v. Proof. apply exact_iff. intros v a. apply text_ok. Qed.
Lemma x_frac : exact as_frac fraction_v. Proof. apply exact_iff. intros v a. apply text_ok. Qed.
Lemma x_next : exact as_next next_v.
Proof.
  apply exact_iff. intros v [d|]; unfold next_v, digest_v, text.
  - destruct v as [| | |[|c x]| |]; cbn [as_next]; try (split; [discriminate|intros (N & x0 & E & _); congruence]).
    rewrite obind_ok. split.
      * intros (a & Ha & E). apply (proj1 (custom_ok _ _)) in Ha. split; [discriminate|]. exists (c :: x). split; [reflexivity|congruence].
      * intros (_ & x0 & E & Hd). injection E as <-. exists d. split; [now apply custom_ok|reflexivity].
  - destruct v as [| | |[|c x]| |]; cbn [as_next]; try (split; [discriminate|intros [E|E]; discriminate E]).
    + split; [now left|reflexivity].
    + split; [now right|reflexivity].
    + split; [|intros [E|E]; discriminate E]. intros E. apply obind_ok in E. destruct E as (a & _ & E). discriminate E.
Qed.
Section WithHex.
  Context (hx : bytes -> option N).
  Lemma x_hex : exact (as_hex hx) (hex_v hx).
  Proof.
    apply exact_iff. intros v a. unfold as_hex, hex_v. rewrite obind_ok. split; intros (x & H1 & H2); exists x; (split; [now apply as_str_ok|now apply need_ok]).
  Qed.
  Lemma stable_hex : stable (hex_v hx).
  Proof. intros v a. unfold hex_v. split; intros (x & E & H); exists x; (split; [|exact H]); destruct v; cbn in *; congruence. Qed.
  Lemma stable_next : stable next_v.
  Proof.
    intros v [d|]; unfold next_v.
    - rewrite (stable_text sap_from v d). split; intros [N H]; (split; [|exact H]); destruct v; cbn in *; congruence.
    - destruct v; cbn; intuition congruence.
  Qed.
  Lemma x_threshold : exact (as_threshold hx) (threshold_v hx).
  Proof.
    intros v t. unfold as_threshold. destruct v as [| | |x|vs|].
    5: { change (as_hex hx (JArr vs)) with (@jerr N). cbn [omap obind orelse jerr].
      destruct (as_clause (JArr vs)) as [c|e|] eqn:E; cbn [omap obind orelse].
      - assert (A : array fraction_v (JArr vs) c) by exact (proj1 (as_vec_exact _ _ x_frac (JArr vs) c) E).
        split; [intros H; injection H as <-; exact A|]. left. destruct t as [n|[c'|cs]]; cbn [threshold_v] in H.
        + destruct H as (x & H & _). discriminate H.
        + destruct (proj2 (as_vec_exact _ _ x_frac (JArr vs) c') H) as [G|G]; unfold as_clause in E; congruence.
        + destruct H as (N & vs' & Hv & H). injection Hv as <-. inversion H as [|v1 c1 vs1 cs1 H1 _]; subst; [now elim N|].
          destruct A as (vs2 & Hv & A). injection Hv as <-. inversion A as [|? f ? ? A1 _]; subst. destruct A1 as (x & -> & _), H1 as (x1 & H1 & _). discriminate H1.
      - destruct (as_vec as_clause (JArr vs)) as [cs|e'|] eqn:E2; cbn [omap obind].
        + assert (A : array (array fraction_v) (JArr vs) cs) by exact (proj1 (as_vec_exact _ _ (as_vec_exact _ _ x_frac) (JArr vs) cs) E2).
          split.
          * intros H. injection H as <-. split; [|exact A]. intros ->. destruct A as (vs2 & Hv & A). injection Hv as <-. inversion A; subst. discriminate E.
          * intros H. left. destruct t as [n|[c'|cs']]; cbn [threshold_v] in H.
            -- destruct H as (x & H & _). discriminate H.
            -- destruct (proj2 (as_vec_exact _ _ x_frac (JArr vs) c') H) as [G|G]; unfold as_clause in E; congruence.
            -- destruct H as (N & H). destruct (proj2 (as_vec_exact _ _ (as_vec_exact _ _ x_frac) (JArr vs) cs') H) as [G|G]; pose proof (eq_trans (eq_sym E2) G); congruence.
        + split; [discriminate|]. intros H. exfalso. destruct t as [n|[c'|cs']]; cbn [threshold_v] in H.
          * destruct H as (x & H & _). discriminate H.
          * destruct (proj2 (as_vec_exact _ _ x_frac (JArr vs) c') H) as [G|G]; unfold as_clause in E; congruence.
          * destruct H as (N & H). destruct (proj2 (as_vec_exact _ _ (as_vec_exact _ _ x_frac) (JArr vs) cs') H) as [G|G]; pose proof (eq_trans (eq_sym E2) G); congruence.
        + split; [discriminate|]. intros H. now right.
      - split; [discriminate|]. intros H. now right. }
    4: { unfold as_hex. cbn [as_str obind]. destruct (hx x) as [n|] eqn:E; cbn [need ok_or omap obind orelse].
      - split; [intros H; injection H as <-; now exists x|]. intros H. left. destruct t as [n'|[c'|cs']]; cbn [threshold_v] in H.
        + destruct H as (x' & Hx & H). congruence.
        + destruct H as (vs & H & _). discriminate H.
        + destruct H as (_ & vs & H & _). discriminate H.
      - split; [discriminate|]. intros H. exfalso. destruct t as [n'|[c'|cs']]; cbn [threshold_v] in H.
        + destruct H as (x' & Hx & H). congruence.
        + destruct H as (vs & H & _). discriminate H.
        + destruct H as (_ & vs & H & _). discriminate H. }
    all: split; [discriminate|]; intros H; exfalso; destruct t as [n'|[c'|cs']]; cbn [threshold_v] in H; [destruct H as (x' & Hx & _); discriminate|destruct H as (vs & H & _); discriminate H|destruct H as (_ & vs & H & _); discriminate H].
  Qed.
  Lemma stable_threshold : stable (threshold_v hx).
  Proof.
    intros v [n|[c|cs]]; cbn [threshold_v]; [apply stable_hex|apply (stable_array _ (stable_text _))|].
    now rewrite (stable_array _ (stable_array _ (stable_text frac_from)) v cs).
  Qed.

  (** ** Seals *)
  Ltac steps H := repeat match type of H with
    | (let? _ := need _ in _) = Ok _ => let E := fresh "E" in apply obind_ok in H; destruct H as (? & E & H); apply need_ok in E; subst
    | (let? _ := _ in _) = Ok _ => apply obind_ok in H; destruct H as (? & ? & H)
    end.
  Ltac gives H := apply (field_has _ _ _ _ _) in H.
  Lemma needp {A B} (a : A) (f : A -> out B) b : okp (f a) b -> okp (let? a := need (Some a) in f a) b.
  Proof. intros H. exact H. Qed.
  Definition sd := stable_text sap_from.
  Definition si := stable_text id_from.
  Definition ss := stable_text (@Ok bytes).
  Definition sb := stable_array _ (stable_text bp_from).
  Lemma x_location v x : (as_location hx (to_value v) = Ok x -> location_v hx v x) /\ (location_v hx v x -> okp (as_location hx (to_value v)) x).
  Proof.
    unfold location_v. split.
    - destruct v as [| | | |vs|l]; try discriminate; cbn [to_value].
      + destruct vs as [|i [|s [|t [|p [|? ?]]]]]; cbn [map as_location]; try discriminate; intros H; steps H; try discriminate H.
        right. injection H as <-. exists i, s, t, p. split; [reflexivity|]. split; [|split; [|split]].
        * now apply si, x_id.
        * now apply stable_hex, x_hex.
        * now apply ss, x_string.
        * now apply sd, x_digest.
      + fold (norm l). cbn [as_location]. intros H. steps H. injection H as <-. left. exists l. split; [reflexivity|]. cbn [ls_prefix ls_sn ls_ilk ls_prior].
        split; [|split; [|split]].
        * now apply (field_has _ _ _ _ _ x_id si).
        * now apply (field_has _ _ _ _ _ x_hex stable_hex).
        * now apply (field_has _ _ _ _ _ x_string ss).
        * now apply (field_has _ _ _ _ _ x_digest sd).
    - destruct x as [xi xs xt xp]. cbn [ls_prefix ls_sn ls_ilk ls_prior]. intros [(l & -> & Hi & Hs & Ht & Hp)|(i & s & t & p & -> & Hi & Hs & Ht & Hp)]; cbn [to_value map as_location].
      + fold (norm l). eapply okp_bind; [exact (has_field _ _ _ _ _ x_id si Hi)|]. eapply okp_bind; [exact (has_field _ _ _ _ _ x_digest sd Hp)|].
        eapply okp_bind; [exact (has_field _ _ _ _ _ x_hex stable_hex Hs)|]. eapply okp_bind; [exact (has_field _ _ _ _ _ x_string ss Ht)|]. apply okp_ok.
      + eapply okp_bind; [apply x_id, si, Hi|]. eapply okp_bind; [apply x_hex, stable_hex, Hs|]. eapply okp_bind; [apply x_string, ss, Ht|]. eapply okp_bind; [apply x_digest, sd, Hp|]. apply okp_ok.
  Qed.
  Lemma x_event_seal v x : (as_event_seal hx (to_value v) = Ok x -> event_seal_v hx v x) /\ (event_seal_v hx v x -> okp (as_event_seal hx (to_value v)) x).
  Proof.
    unfold event_seal_v. split.
    - destruct v as [| | | |vs|l]; try discriminate; cbn [to_value].
      + destruct vs as [|i [|s [|d [|? ?]]]]; cbn [map as_event_seal]; try discriminate; intros H; steps H; try discriminate H.
        right. injection H as <-. exists i, s, d. split; [reflexivity|]. split; [|split].
        * now apply si, x_id.
        * now apply stable_hex, x_hex.
        * now apply sd, x_digest.
      + fold (norm l). cbn [as_event_seal]. intros H. steps H. injection H as <-. left. exists l. split; [reflexivity|]. cbn [es_prefix es_sn es_digest].
        split; [|split].
        * now apply (field_has _ _ _ _ _ x_id si).
        * now apply (field_has _ _ _ _ _ x_hex stable_hex).
        * now apply (field_has _ _ _ _ _ x_digest sd).
    - destruct x as [xi xs xd]. cbn [es_prefix es_sn es_digest]. intros [(l & -> & Hi & Hs & Hd)|(i & s & d & -> & Hi & Hs & Hd)]; cbn [to_value map as_event_seal].
      + fold (norm l). eapply okp_bind; [exact (has_field _ _ _ _ _ x_digest sd Hd)|]. eapply okp_bind; [exact (has_field _ _ _ _ _ x_id si Hi)|].
        eapply okp_bind; [exact (has_field _ _ _ _ _ x_hex stable_hex Hs)|]. apply okp_ok.
      + eapply okp_bind; [apply x_id, si, Hi|]. eapply okp_bind; [apply x_hex, stable_hex, Hs|]. eapply okp_bind; [apply x_digest, sd, Hd|]. apply okp_ok.
  Qed.
  Lemma x_one k v x : (as_one k (to_value v) = Ok x -> only_v k v x) /\ (only_v k v x -> okp (as_one k (to_value v)) x).
  Proof.
    unfold only_v. split.
    - destruct v as [| | | |vs|l]; try discriminate; cbn [to_value].
      + destruct vs as [|d [|? ?]]; cbn [map as_one]; try discriminate; intros H; steps H; try discriminate H.
        right. exists d. split; [reflexivity|]. now apply sd, x_digest.
      + fold (norm l). cbn [as_one]. intros H. apply obind_ok in H. destruct H as (o & Ho & H). apply need_ok in H. subst o. left. exists l. split; [reflexivity|].
        now apply (field_has _ _ _ _ _ x_digest sd).
    - intros [(l & -> & Hd)|(d & -> & Hd)]; cbn [to_value map as_one].
      + fold (norm l). eapply okp_bind; [exact (has_field _ _ _ _ _ x_digest sd Hd)|]. apply okp_ok.
      + apply x_digest, sd, Hd.
  Qed.
  Lemma orelse_ok {A} (x y : out A) a : orelse x y = Ok a -> x = Ok a \/ (exists e, x = Err e) /\ y = Ok a.
  Proof. destruct x; cbn [orelse]; intros H; [now left|right; split; [now eexists|exact H]|discriminate]. Qed.
  Lemma omap_err {A B} (f : A -> B) (x : out A) e : omap f x = Err e -> x = Err e.
  Proof. destruct x; cbn; congruence. Qed.
  (** what is refused has no value *)
  Lemma refused_none {A} (x : out A) (R : A -> Prop) : (forall a, R a -> okp x a) -> (exists e, x = Err e) -> forall a, ~ R a.
  Proof. intros H (e & He) a Ha. destruct (H a Ha); congruence. Qed.
  Lemma orelse_panic {A} (x y : out A) : x = Panic -> orelse x y = Panic.
  Proof. now intros ->. Qed.
  Lemma x_seal v x : (as_seal hx (to_value v) = Ok x -> seal_v hx v x) /\ (seal_v hx v x -> okp (as_seal hx (to_value v)) x).
  Proof.
    unfold as_seal. split.
    - intros H. apply orelse_ok in H. destruct H as [H|[(e1 & E1) H]].
      { apply omap_ok in H. destruct H as (a & Ha & ->). now apply x_location. }
      apply omap_err in E1. pose proof (refused_none _ _ (fun a => proj2 (x_location v a)) (ex_intro _ e1 E1)) as N1.
      apply orelse_ok in H. destruct H as [H|[(e2 & E2) H]].
      { apply omap_ok in H. destruct H as (a & Ha & ->). split; [now apply x_event_seal|exact N1]. }
      apply omap_err in E2. pose proof (refused_none _ _ (fun a => proj2 (x_event_seal v a)) (ex_intro _ e2 E2)) as N2.
      apply orelse_ok in H. destruct H as [H|[(e3 & E3) H]].
      { apply omap_ok in H. destruct H as (a & Ha & ->). split; [now apply x_one|split; assumption]. }
      apply omap_err in E3. pose proof (refused_none _ _ (fun a => proj2 (x_one "d" v a)) (ex_intro _ e3 E3)) as N3.
      apply omap_ok in H. destruct H as (a & Ha & ->). split; [now apply x_one|repeat split; assumption].
    - intros H. destruct (as_location hx (to_value v)) as [l|e1|] eqn:E1; [| |now right].
      { pose proof (proj1 (x_location v l) E1) as L1. destruct x as [l'| | |]; [|exfalso; now apply (proj2 H l)|exfalso; now apply (proj1 (proj2 H) l)|exfalso; now apply (proj1 (proj2 H) l)].
        left. cbn [seal_v] in H. apply x_location in H. destruct H as [H|H]; cbn; congruence. }
      cbn [omap obind orelse]. destruct (as_event_seal hx (to_value v)) as [l|e2|] eqn:E2; [| |now right].
      { pose proof (proj1 (x_event_seal v l) E2) as L2. destruct x as [l'|l'| |].
        - exfalso. apply x_location in H. destruct H; congruence.
        - left. cbn [seal_v] in H. destruct H as [H _]. apply x_event_seal in H. destruct H as [H|H]; cbn; congruence.
        - exfalso. now apply (proj2 (proj2 H) l).
        - exfalso. now apply (proj1 (proj2 (proj2 H)) l). }
      cbn [omap obind orelse]. destruct (as_one "d" (to_value v)) as [l|e3|] eqn:E3; [| |now right].
      { pose proof (proj1 (x_one "d" v l) E3) as L3. destruct x as [l'|l'|l'|l'].
        - exfalso. apply x_location in H. destruct H; congruence.
        - exfalso. destruct H as [H _]. apply x_event_seal in H. destruct H; congruence.
        - left. cbn [seal_v] in H. destruct H as [H _]. apply x_one in H. destruct H as [H|H]; cbn; congruence.
        - exfalso. now apply (proj2 (proj2 (proj2 H)) l). }
      cbn [omap obind orelse]. destruct x as [l'|l'|l'|l'].
      + exfalso. apply x_location in H. destruct H; congruence.
      + exfalso. destruct H as [H _]. apply x_event_seal in H. destruct H; congruence.
      + exfalso. destruct H as [H _]. apply x_one in H. destruct H; congruence.
      + destruct H as [H _]. apply x_one in H. now apply okp_map.
  Qed.

  (** ** Events *)
  Definition nexact {A} (f : jval -> out A) (R : jval -> A -> Prop) : Prop :=
    forall v a, (f (to_value v) = Ok a -> R v a) /\ (R v a -> okp (f (to_value v)) a).
  Lemma nexact_of {A} (f : jval -> out A) R : exact f R -> stable R -> nexact f R.
  Proof. intros H S v a. split; intros G; [now apply S, H|now apply H, S]. Qed.
  Lemma nexact_vec {A} (f : jval -> out A) R : nexact f R -> nexact (as_vec f) (array R).
  Proof.
    intros H v l. assert (G : forall vs l, (omapm f (map to_value vs) = Ok l -> Forall2 R vs l) /\ (Forall2 R vs l -> okp (omapm f (map to_value vs)) l)).
    { clear v l. induction vs as [|v vs IH]; intros l; cbn [map omapm].
      - split; [intros E; injection E as <-; constructor|intros E; inversion E; now left].
      - split.
        + intros E. apply obind_ok in E. destruct E as (a & Ha & E). apply obind_ok in E. destruct E as (r & Hr & E). injection E as <-. constructor; [now apply H|now apply IH].
        + intros E. inversion E as [|? a ? r Ha Hr]; subst. apply (okp_bind _ _ a); [now apply H|]. apply (okp_bind _ _ r); [now apply IH|now left]. }
    unfold array. split.
    - destruct v; try discriminate. cbn [to_value as_vec]. intros E. exists l0. split; [reflexivity|now apply G].
    - intros (vs & -> & Hf). now apply G.
  Qed.
  Lemma nfield_has {A} (f : jval -> out A) (R : jval -> A -> Prop) l k a : nexact f R -> field f (jget (norm l) k) = Ok (Some a) -> has R k l a.
  Proof.
    intros H. rewrite jget_norm. unfold has, latest. destruct (final (named k l)) as [v|] eqn:E; cbn [option_map field]; [|discriminate].
    intros G. apply obind_ok in G. destruct G as (b & Hb & G). injection G as <-. exists v. split; [now apply final_some|]. now apply H.
  Qed.
  Lemma has_nfield {A} (f : jval -> out A) (R : jval -> A -> Prop) l k a : nexact f R -> has R k l a -> okp (field f (jget (norm l) k)) (Some a).
  Proof.
    intros H (v & Hl & Hr). apply final_some in Hl. rewrite jget_norm, Hl. cbn [option_map field]. apply (okp_bind _ _ a); [|now left]. now apply H.
  Qed.
  Definition n_digest := nexact_of _ _ x_digest sd.
  Definition n_id := nexact_of _ _ x_id si.
  Definition n_hex := nexact_of _ _ x_hex stable_hex.
  Definition n_keys := nexact_vec _ _ (nexact_of _ _ x_key (stable_text bp_from)).
  Definition n_strings := nexact_vec _ _ (nexact_of _ _ x_string ss).
  Definition n_threshold := nexact_of _ _ x_threshold stable_threshold.
  Definition n_next := nexact_of _ _ x_next stable_next.
  Definition n_seals : nexact (as_vec (as_seal hx)) (array (seal_v hx)) := nexact_vec _ _ x_seal.
  Ltac has_all := repeat match goal with H : field _ (jget (norm _) _) = Ok (Some _) |- _ =>
    first [apply (nfield_has _ _ _ _ _ n_digest) in H | apply (nfield_has _ _ _ _ _ n_id) in H | apply (nfield_has _ _ _ _ _ n_hex) in H
          |apply (nfield_has _ _ _ _ _ n_keys) in H | apply (nfield_has _ _ _ _ _ n_strings) in H | apply (nfield_has _ _ _ _ _ n_threshold) in H
          |apply (nfield_has _ _ _ _ _ n_next) in H | apply (nfield_has _ _ _ _ _ n_seals) in H] end.
  Ltac go lem H := eapply okp_bind; [exact (has_nfield _ _ _ _ _ lem H)|].
  Lemma x_kc l x : (read_kc hx (norm l) = Ok x -> keys_o hx l x) /\ (keys_o hx l x -> okp (read_kc hx (norm l)) x).
  Proof.
    unfold read_kc, keys_o. split.
    - intros H. steps H. injection H as <-. has_all. cbn [kc_keys kc_threshold kc_next]. repeat split; assumption.
    - destruct x as [t k n]. cbn [kc_keys kc_threshold kc_next]. intros (Hk & Ht & Hn). go n_keys Hk. go n_threshold Ht. go n_next Hn. apply okp_ok.
  Qed.
  Lemma x_iwc l x : (read_iwc hx (norm l) = Ok x -> has (hex_v hx) "bt" l (iwc_tally x) /\ has (array key_v) "b" l (iwc_witnesses x))
    /\ (has (hex_v hx) "bt" l (iwc_tally x) /\ has (array key_v) "b" l (iwc_witnesses x) -> okp (read_iwc hx (norm l)) x).
  Proof.
    unfold read_iwc. split.
    - intros H. steps H. injection H as <-. has_all. split; assumption.
    - destruct x as [t b]. cbn [iwc_tally iwc_witnesses]. intros (Ht & Hb). go n_keys Hb. go n_hex Ht. apply okp_ok.
  Qed.
  Lemma x_wc l x : (read_wc hx (norm l) = Ok x -> has (hex_v hx) "bt" l (wc_tally x) /\ has (array key_v) "br" l (wc_prune x) /\ has (array key_v) "ba" l (wc_graft x))
    /\ (has (hex_v hx) "bt" l (wc_tally x) /\ has (array key_v) "br" l (wc_prune x) /\ has (array key_v) "ba" l (wc_graft x) -> okp (read_wc hx (norm l)) x).
  Proof.
    unfold read_wc. split.
    - intros H. steps H. injection H as <-. has_all. repeat split; assumption.
    - destruct x as [t b a]. cbn [wc_tally wc_prune wc_graft]. intros (Ht & Hb & Ha). go n_keys Ha. go n_keys Hb. go n_hex Ht. apply okp_ok.
  Qed.
  Lemma x_icp l x : (read_icp hx (norm l) = Ok x -> icp_o hx l x) /\ (icp_o hx l x -> okp (read_icp hx (norm l)) x).
  Proof.
    unfold read_icp, icp_o. split.
    - intros H. steps H. injection H as <-. has_all. cbn [icp_kc icp_wc icp_config icp_data].
      match goal with H : read_kc _ _ = _, G : read_iwc _ _ = _ |- _ => apply x_kc in H; apply x_iwc in G; destruct G end. repeat (split; [assumption|]). assumption.
    - destruct x as [kc wc c a]. cbn [icp_kc icp_wc icp_config icp_data]. intros (Hk & Ht & Hb & Hc & Ha). go n_seals Ha. go n_strings Hc.
      apply needp, needp. eapply okp_bind; [apply x_kc, Hk|]. eapply okp_bind; [apply x_iwc; split; eassumption|]. apply okp_ok.
  Qed.
  Lemma x_rot l x : (read_rot hx (norm l) = Ok x -> rot_o hx l x) /\ (rot_o hx l x -> okp (read_rot hx (norm l)) x).
  Proof.
    unfold read_rot, rot_o. split.
    - intros H. steps H. injection H as <-. has_all. cbn [rot_prev rot_kc rot_wc rot_data].
      match goal with H : read_kc _ _ = _, G : read_wc _ _ = _ |- _ => apply x_kc in H; apply x_wc in G; destruct G as (? & ? & ?) end. repeat (split; [assumption|]). assumption.
    - destruct x as [p kc wc a]. cbn [rot_prev rot_kc rot_wc rot_data]. intros (Hp & Hk & Ht & Hb & Hc & Ha). go n_seals Ha. go n_digest Hp.
      apply needp, needp. eapply okp_bind; [apply x_kc, Hk|]. eapply okp_bind; [apply x_wc; repeat split; eassumption|]. apply okp_ok.
  Qed.
  Lemma x_ixn l x : (read_ixn hx (norm l) = Ok x -> ixn_o hx l x) /\ (ixn_o hx l x -> okp (read_ixn hx (norm l)) x).
  Proof.
    unfold read_ixn, ixn_o. split.
    - intros H. steps H. injection H as <-. has_all. split; assumption.
    - destruct x as [p a]. cbn [ixn_prev ixn_data]. intros (Hp & Ha). go n_seals Ha. go n_digest Hp. apply okp_ok.
  Qed.
  Lemma x_dip l x : (read_dip hx (norm l) = Ok x -> dip_o hx l x) /\ (dip_o hx l x -> okp (read_dip hx (norm l)) x).
  Proof.
    unfold read_dip, dip_o. split.
    - intros H. steps H. injection H as <-. has_all. split; [|assumption]. now apply x_icp.
    - destruct x as [i d]. cbn [dip_icp dip_delegator]. intros (Hi & Hd). go n_id Hd. apply needp. eapply okp_bind; [apply x_icp, Hi|]. apply okp_ok.
  Qed.
End WithHex.
