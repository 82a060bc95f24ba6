(** * SchemaProofs2: types of events, whole messages. *)
From Verif Require Import Base Types KeyConf Version Codes JsonRead JsonProofs8 GrammarProofs3 SpecSchema SchemaProofs.

Lemma ins_keys {A} k (v : A) m x : In x (map fst (ins k v m)) <-> x = k \/ In x (map fst m).
Proof.
  induction m as [|[k1 v1] m IH]; cbn [ins map fst In]; [intuition congruence|].
  destruct (bytes_eq_dec k k1) as [->|N]; [cbn [map fst In]; intuition congruence|].
  destruct (bytes_ltb k k1); cbn [map fst In]; [intuition congruence|]. rewrite IH. intuition congruence.
Qed.
Lemma sort_keys {A} (l : list (bytes * A)) x : In x (map fst (sort_map l)) <-> In x (map fst l).
Proof.
  unfold sort_map. assert (G : forall m, In x (map fst (fold_left (fun m kv => ins (fst kv) (snd kv) m) l m)) <-> In x (map fst l) \/ In x (map fst m)).
  { induction l as [|[k v] l IH]; intros m; cbn [fold_left map fst snd In]; [tauto|]. rewrite IH, ins_keys. intuition congruence. }
  rewrite G. cbn [map In]. tauto.
Qed.
Lemma sort_single {A} (l : list (bytes * A)) k v m : Forall (fun kv => fst kv = k) l -> 
  exists w, fold_left (fun m kv => ins (fst kv) (snd kv) m) l ((k, v) :: m) = (k, w) :: m.
Proof.
  intros H. revert v. induction H as [|[k1 v1] l Hk H IH]; intros v; cbn [fold_left fst snd]; [now exists v|]. cbn [fst] in Hk. subst k1.
  cbn [ins]. destruct (bytes_eq_dec k k); [|congruence]. apply IH.
Qed.
Lemma norm_single l name : (exists v, norm l = [(bstr name, v)]) <-> Forall (fun kv => fst kv = bstr name) l /\ l <> [].
Proof.
  split.
  - intros (v & H). split.
    + apply Forall_forall. intros [k w] Hin. cbn [fst]. assert (K : In k (map fst (norm l))).
      { unfold norm. apply sort_keys. rewrite map_map. cbn [fst]. apply in_map_iff. now exists (k, w). }
      rewrite H in K. cbn [map fst In] in K. intuition.
    + intros ->. discriminate H.
  - intros [H N]. destruct l as [|[k w] l]; [congruence|]. inversion H as [|? ? Hk Hl]; subst. cbn [fst] in Hk. subst k.
    unfold norm, sort_map. cbn [map fst snd fold_left ins].
    destruct (sort_single (map (fun kv => (fst kv, to_value (snd kv))) l) (bstr name) (to_value w) []) as (w' & Hw).
    { clear - Hl. induction Hl as [|[k v] l Hk Hl IH]; constructor; [exact Hk|exact IH]. }
    exists w'. exact Hw.
Qed.
Definition tag_name (t : EventTypeTag) : string :=
  match t with TIcp => "icp" | TRot => "rot" | TIxn => "ixn" | TDip => "dip" | TDrt => "drt" | TRct => "rct" | TRpy => "rpy" | TQry => "qry" end.
Definition ev (t : EventTypeTag) : Prop := match t with TRpy | TQry => False | _ => True end.
Lemma tag_from_ok s t : ev t -> (tag_from s = Ok t <-> s = bstr (tag_name t)).
Proof.
  intros Ht. unfold tag_from. split.
  - repeat match goal with |- context [if is s ?k then _ else _] => let E := fresh "E" in destruct (is s k) eqn:E; [apply is_iff in E; let Q := fresh "Q" in intros Q; injection Q; intros <-; exact E|clear E] end. discriminate.
  - intros ->. destruct t; try reflexivity; destruct Ht.
Qed.
Lemma as_tag_ok v t : ev t -> (as_tag (to_value v) = Ok t <-> type_v (tag_name t) v).
Proof.
  intros Ht.
  unfold type_v. destruct v as [| | |x| |l]; try (split; [discriminate|intros [H|(l' & H & _)]; discriminate H]).
  - cbn [to_value as_tag]. rewrite (tag_from_ok _ _ Ht). split; [intros ->; now left|intros [H|(l & H & _)]; congruence].
  - cbn [to_value]. fold (norm l). assert (J : forall name, norm l = [(bstr name, JNull)] <-> Forall (fun kv => fst kv = bstr name) l /\ latest name l JNull).
    { intros name. pose proof (jget_norm l name) as Q. unfold latest. split.
      - intros H. split; [apply (norm_single l name); now exists JNull|]. rewrite H in Q. unfold jget in Q. cbn [aget] in Q. destruct (bytes_eq_dec (bstr name) (bstr name)); [|congruence].
        destruct (final (named name l)) as [v|] eqn:F; cbn [option_map] in Q; [|discriminate]. apply final_some. rewrite F. destruct v; cbn in Q; congruence.
      - intros [H L]. apply final_some in L. rewrite L in Q. cbn [option_map to_value] in Q.
        destruct (proj2 (norm_single l name)) as (v & Hv); [split; [exact H|intros ->; discriminate L]|]. rewrite Hv in Q |- *. unfold jget in Q. cbn [aget] in Q.
        destruct (bytes_eq_dec (bstr name) (bstr name)); [|congruence]. congruence. }
    split.
    + intros H. right. exists l. split; [reflexivity|]. apply J. destruct (norm l) as [|[k v] [|? ?]]; try discriminate H; [|destruct v; discriminate H].
      destruct v; try discriminate H. cbn [as_tag] in H. apply (tag_from_ok _ _ Ht) in H. now subst k.
    + intros [H|(l' & E & H)]; [discriminate H|]. injection E as <-. apply J in H. rewrite H. cbn [as_tag]. now apply (tag_from_ok _ _ Ht).
Qed.

(** ** Fields that are read in text order *)
Definition others (k : string) (l : members) : members := filter (fun kv => negb (is (fst kv) k)) l.
Lemma named_cons k k1 v l : named k ((k1, v) :: l) = if is k1 k then v :: named k l else named k l.
Proof. unfold named, is. cbn [filter fst]. destruct (bytes_eqb k1 (bstr k)); reflexivity. Qed.
Lemma others_cons k k1 v l : others k ((k1, v) :: l) = if is k1 k then others k l else (k1, v) :: others k l.
Proof. unfold others. cbn [filter fst]. destruct (is k1 k); reflexivity. Qed.
Lemma named_others k k' l : k <> k' -> named k (others k' l) = named k l.
Proof.
  intros N. induction l as [|[k1 v] l IH]; [reflexivity|]. rewrite others_cons, named_cons. destruct (is k1 k') eqn:E.
  - destruct (is k1 k) eqn:E2; [|exact IH]. apply is_iff in E, E2. exfalso. apply N. rewrite E in E2.
    rewrite <- (string_of_list_byte_of_string k), <- (string_of_list_byte_of_string k'). unfold bstr in E2. now rewrite E2.
  - rewrite named_cons, IH. reflexivity.
Qed.
Definition took {A} (fa : jval -> out A) (oa : option A) (vs : list jval) (o : option A) : Prop :=
  match oa with
  | Some a => vs = [] /\ o = Some a
  | None => (vs = [] /\ o = None) \/ exists v a, vs = [v] /\ fa v = Ok a /\ o = Some a
  end.
Lemma took_first {A} (fa : jval -> out A) v a vs o : fa v = Ok a -> took fa (Some a) vs o -> took fa None (v :: vs) o.
Proof. intros Ha (-> & ->). right. now exists v, a. Qed.
Lemma took_inv {A} (fa : jval -> out A) oa v vs o : took fa oa (v :: vs) o -> oa = None /\ exists a, fa v = Ok a /\ took fa (Some a) vs o.
Proof.
  destruct oa as [a|]; cbn; [intros [H _]; discriminate|]. intros [[H _]|(v1 & a & H & Ha & ->)]; [discriminate|]. injection H as -> ->.
  split; [reflexivity|]. exists a. repeat split; assumption.
Qed.
Lemma take1_ok {A} ka (fa : jval -> out A) l : forall oa o r, take1 ka fa l oa = Ok (o, r) <-> r = others ka l /\ took fa oa (named ka l) o.
Proof.
  induction l as [|[k v] l IH]; intros oa o r; cbn [take1].
  - cbn [others filter named map]. split.
    + intros H. injection H as <- <-. split; [reflexivity|]. destruct oa; cbn; [now split|left; now split].
    + intros [-> H]. destruct oa; cbn in H; [destruct H as [_ ->]; reflexivity|]. destruct H as [[_ ->]|(v & a & H & _)]; [reflexivity|discriminate].
  - rewrite others_cons, named_cons. destruct (is k ka).
    + destruct oa as [a|].
      * split; [discriminate|]. intros [_ H]. apply took_inv in H. destruct H as [H _]. discriminate H.
      * rewrite obind_ok. split.
        -- intros (a & Ha & H). apply IH in H. destruct H as [-> H]. split; [reflexivity|]. now apply (took_first fa v a).
        -- intros [-> H]. apply took_inv in H. destruct H as [_ (a & Ha & H)]. exists a. split; [exact Ha|]. apply IH. now split.
    + rewrite obind_ok. split.
      * intros ([o1 r1] & H & E). injection E as -> <-. apply IH in H. destruct H as [-> H]. now split.
      * intros [-> H]. exists (o, others ka l). split; [|reflexivity]. apply IH. now split.
Qed.
Lemma take2_ok {A B} ka kb (fa : jval -> out A) (fb : jval -> out B) l : ka <> kb -> forall oa ob o p r,
  take2 ka kb fa fb l oa ob = Ok (o, p, r) <-> r = others kb (others ka l) /\ took fa oa (named ka l) o /\ took fb ob (named kb l) p.
Proof.
  intros N. induction l as [|[k v] l IH]; intros oa ob o p r; cbn [take2].
  - cbn [others filter named map]. split.
    + intros H. injection H as <- <- <-. split; [reflexivity|]. split; [destruct oa; cbn; [now split|left; now split]|destruct ob; cbn; [now split|left; now split]].
    + intros (-> & H & G). assert (o = oa).
      { destruct oa; cbn in H; [now destruct H|]. destruct H as [[_ ->]|(v & a & H & _)]; [reflexivity|discriminate]. }
      assert (p = ob). { destruct ob; cbn in G; [now destruct G|]. destruct G as [[_ ->]|(v & a & G & _)]; [reflexivity|discriminate]. }
      now subst.
  - rewrite others_cons, !named_cons. destruct (is k ka) eqn:Ka.
    + assert (Kb : is k kb = false).
      { apply not_true_is_false. intros Kb. apply is_iff in Ka, Kb. apply N. rewrite Ka in Kb.
        rewrite <- (string_of_list_byte_of_string ka), <- (string_of_list_byte_of_string kb). unfold bstr in Kb. now rewrite Kb. }
      rewrite Kb. destruct oa as [a|].
      * split; [discriminate|]. intros (_ & H & _). apply took_inv in H. destruct H as [H _]. discriminate H.
      * rewrite obind_ok. split.
        -- intros (a & Ha & H). apply IH in H. destruct H as (-> & H & G). split; [reflexivity|]. split; [now apply (took_first fa v a)|exact G].
        -- intros (-> & H & G). apply took_inv in H. destruct H as [_ (a & Ha & H)]. exists a. split; [exact Ha|]. apply IH. repeat (split; [first [reflexivity|assumption]|]). first [assumption|reflexivity].
    + rewrite others_cons. destruct (is k kb) eqn:Kb.
      * destruct ob as [b|].
        -- split; [discriminate|]. intros (_ & _ & H). apply took_inv in H. destruct H as [H _]. discriminate H.
        -- rewrite obind_ok. split.
           ++ intros (b & Hb & H). apply IH in H. destruct H as (-> & H & G). split; [reflexivity|]. split; [exact H|now apply (took_first fb v b)].
           ++ intros (-> & H & G). apply took_inv in G. destruct G as [_ (b & Hb & G)]. exists b. split; [exact Hb|]. apply IH. split; [reflexivity|]. split; assumption.
      * rewrite obind_ok. split.
        -- intros ([[o1 p1] r1] & H & E). injection E as -> -> <-. apply IH in H. destruct H as [-> H]. now split.
        -- intros [-> H]. exists (o, p, others kb (others ka l)). split; [|reflexivity]. apply IH. repeat (split; [first [reflexivity|assumption]|]). first [assumption|reflexivity].
Qed.
Lemma took_once {A} (fa : jval -> out A) (R : jval -> A -> Prop) k l a : exact fa R -> (forall v a, fa v = Panic -> ~ R v a) ->
  (took fa None (named k l) (Some a) <-> has_once R k l a).
Proof.
  intros X P. unfold has_once, once. cbn [took]. split.
  - intros [[_ H]|(v & a' & H & Ha & E)]; [discriminate|]. injection E as <-. exists v. split; [exact H|now apply X].
  - intros (v & H & Hr). right. exists v, a. split; [exact H|]. split; [|reflexivity]. destruct (proj2 (X v a) Hr) as [G|G]; [exact G|]. now apply P with (a := a) in G.
Qed.
Lemma text_calm {A} (f : bytes -> out A) v a : (let? s := as_str v in custom (f s)) = Panic -> ~ text f v a.
Proof. intros H (x & -> & Hx). cbn [as_str obind] in H. rewrite Hx in H. discriminate H. Qed.
Lemma hex_calm hx v a : as_hex hx v = Panic -> ~ hex_v hx v a.
Proof. intros H (x & -> & Hx). unfold as_hex in H. cbn [as_str obind] in H. rewrite Hx in H. discriminate H. Qed.

Section WithHex.
  Context (hx : bytes -> option N).
  Lemma x_data l x : (read_data hx l = Ok x -> data_o hx l x) /\ (data_o hx l x -> okp (read_data hx l) x).
  Proof.
    unfold read_data. fold (norm l). unfold typed, data_o.
    assert (T : forall t, ev t -> (field as_tag (jget (norm l) "t") = Ok (Some t) <-> typed (tag_name t) l)).
    { intros t Ht. rewrite jget_norm. unfold typed, latest. split.
      - destruct (final (named "t" l)) as [v|] eqn:E; cbn [option_map field]; [|discriminate]. intros H. apply obind_ok in H. destruct H as (t' & H & E2). injection E2 as ->.
        exists v. split; [now apply final_some|]. now apply as_tag_ok.
      - intros (v & Hv & Hty). apply final_some in Hv. rewrite Hv. cbn [option_map field]. apply obind_ok. exists t. split; [|reflexivity]. now apply as_tag_ok. }
    split.
    - intros H. apply obind_ok in H. destruct H as (o & Ho & H). apply obind_ok in H. destruct H as (t & Hn & H). apply need_ok in Hn. subst o.
      destruct t; try discriminate H; (apply omap_ok in H; destruct H as (y & Hy & ->); split; [match type of Ho with _ = Ok (Some ?t) => exact (proj1 (T t I) Ho) end|]).
      + now apply x_icp.
      + now apply x_rot.
      + now apply x_ixn.
      + now apply x_dip.
      + now apply x_rot.
    - destruct x as [y|y|y|y|y]; intros [Ht Hy].
      + rewrite (proj2 (T TIcp I) Ht). apply okp_map. now apply x_icp.
      + rewrite (proj2 (T TRot I) Ht). apply okp_map. now apply x_rot.
      + rewrite (proj2 (T TIxn I) Ht). apply okp_map. now apply x_ixn.
      + rewrite (proj2 (T TDip I) Ht). apply okp_map. now apply x_dip.
      + rewrite (proj2 (T TDrt I) Ht). apply okp_map. now apply x_rot.
  Qed.

  Lemma data_names l l' x : (forall k, In k event_names -> ~ In k ["d"; "i"; "s"]%string -> named k l = named k l') -> data_o hx l x -> data_o hx l' x.
  Proof.
    intros H. assert (G : forall A (R : jval -> A -> Prop) k a, In k event_names -> ~ In k ["d"; "i"; "s"]%string -> has R k l a -> has R k l' a).
    { intros A R k a H1 H2 (v & (vs & Hv) & Hr). exists v. split; [|exact Hr]. exists vs. now rewrite <- H. }
    assert (K : forall y, keys_o hx l y -> keys_o hx l' y).
    { intros y (A & B & C). unfold keys_o. repeat split; (apply G; [cbn; tauto|cbn; intuition discriminate|assumption]). }
    assert (J : forall y, icp_o hx l y -> icp_o hx l' y).
    { intros y (A & B & C & D & F). split; [now apply K|]. repeat split; (apply G; [cbn; tauto|cbn; intuition discriminate|assumption]). }
    assert (Q : forall y, rot_o hx l y -> rot_o hx l' y).
    { intros y (A & B & C & D & F & P). split; [apply G; [cbn; tauto|cbn; intuition discriminate|assumption]|]. split; [now apply K|]. repeat split; (apply G; [cbn; tauto|cbn; intuition discriminate|assumption]). }
    assert (T : forall n, typed n l -> typed n l').
    { intros n (v & (vs & Hv) & Hr). exists v. split; [|exact Hr]. exists vs. rewrite <- H; [exact Hv|cbn; tauto|cbn; intuition discriminate]. }
    destruct x as [y|y|y|y|y]; cbn [data_o]; intros [Ht Hy]; (split; [now apply T|]).
    - now apply J.
    - now apply Q.
    - destruct Hy as [A B]. split; (apply G; [cbn; tauto|cbn; intuition discriminate|assumption]).
    - destruct Hy as [A B]. split; [now apply J|apply G; [cbn; tauto|cbn; intuition discriminate|assumption]].
    - now apply Q.
  Qed.
  (** the function too depends on the names only, so that panics are the same *)
  Lemma rd_final l l' : (forall k, In k event_names -> ~ In k ["d"; "i"; "s"]%string -> final (named k l) = final (named k l')) -> read_data hx l = read_data hx l'.
  Proof.
    intros H. unfold read_data. fold (norm l) (norm l').
    assert (G : forall k, In k event_names -> ~ In k ["d"; "i"; "s"]%string -> jget (norm l) k = jget (norm l') k).
    { intros k H1 H2. rewrite !jget_norm. now rewrite (H k H1 H2). }
    assert (K : read_kc hx (norm l) = read_kc hx (norm l')).
    { unfold read_kc. rewrite !G by (cbn; intuition discriminate). reflexivity. }
    assert (I1 : read_icp hx (norm l) = read_icp hx (norm l')).
    { unfold read_icp, read_iwc. rewrite K, !G by (cbn; intuition discriminate). reflexivity. }
    assert (R1 : read_rot hx (norm l) = read_rot hx (norm l')).
    { unfold read_rot, read_wc. rewrite K, !G by (cbn; intuition discriminate). reflexivity. }
    assert (X1 : read_ixn hx (norm l) = read_ixn hx (norm l')).
    { unfold read_ixn. rewrite !G by (cbn; intuition discriminate). reflexivity. }
    assert (D1 : read_dip hx (norm l) = read_dip hx (norm l')).
    { unfold read_dip. rewrite I1, !G by (cbn; intuition discriminate). reflexivity. }
    rewrite I1, R1, X1, D1. rewrite G by (cbn; intuition discriminate). reflexivity.
  Qed.
  Lemma rd_names l l' : (forall k, In k event_names -> ~ In k ["d"; "i"; "s"]%string -> named k l = named k l') -> read_data hx l = read_data hx l'.
  Proof. intros H. apply rd_final. intros k H1 H2. now rewrite (H k H1 H2). Qed.
  Definition rest_of (l : members) : members := others "s" (others "i" (others "d" l)).
  Lemma rest_named l k : ~ In k ["d"; "i"; "s"]%string -> named k (rest_of l) = named k l.
  Proof. intros H. unfold rest_of. rewrite !named_others; [reflexivity|..]; intros ->; apply H; cbn; tauto. Qed.
  (** what [read_key_event] does, up to the order of failures *)
  Lemma key_event_ok info l e : read_key_event hx info l = Ok e <->
    has_once digest_v "d" l (em_digest e) /\ has_once id_v "i" l (em_prefix e) /\ has_once (hex_v hx) "s" l (em_sn e)
    /\ read_data hx (rest_of l) = Ok (em_data e) /\ em_info e = info.
  Proof.
    unfold read_key_event. rewrite <- (took_once as_sap digest_v "d" l (em_digest e) x_digest (fun v a => text_calm _ v a)).
    rewrite <- (took_once as_id id_v "i" l (em_prefix e) x_id (fun v a => text_calm _ v a)).
    rewrite <- (took_once (as_hex hx) (hex_v hx) "s" l (em_sn e) (x_hex hx) (hex_calm hx)).
    assert (Ni : "i"%string <> "d"%string) by discriminate. assert (Ns : "s"%string <> "d"%string) by discriminate. assert (Nis : "i"%string <> "s"%string) by discriminate.
    split.
    - intros H. apply obind_ok in H. destruct H as ([od r1] & H1 & H). apply obind_ok in H. destruct H as (d & Hd & H). apply need_ok in Hd. subst od.
      apply obind_ok in H. destruct H as ([[oi os] r2] & H2 & H). apply obind_ok in H. destruct H as (i & Hi & H). apply need_ok in Hi. subst oi.
      apply obind_ok in H. destruct H as (s & Hs & H). apply need_ok in Hs. subst os. apply obind_ok in H. destruct H as (x & Hx & H). injection H as <-. cbn [em_digest em_prefix em_sn em_data em_info].
      apply take1_ok in H1. destruct H1 as [-> H1]. apply take2_ok in H2; [|exact Nis]. destruct H2 as (-> & H2 & H3).
      rewrite (named_others "i" "d" l Ni) in H2. rewrite (named_others "s" "d" l Ns) in H3. repeat (split; [assumption|]). reflexivity.
    - intros (H1 & H2 & H3 & H4 & H5). apply obind_ok. exists (Some (em_digest e), others "d" l). split; [apply take1_ok; now split|].
      cbn [need ok_or obind]. apply obind_ok. exists (Some (em_prefix e), Some (em_sn e), rest_of l). split.
      + apply take2_ok; [exact Nis|]. rewrite (named_others "i" "d" l Ni), (named_others "s" "d" l Ns). split; [reflexivity|split; assumption].
      + cbn [need ok_or obind]. apply obind_ok. exists (em_data e). split; [exact H4|]. subst info. now destruct e.
  Qed.
  Lemma key_event_sound info l e : read_key_event hx info l = Ok e -> event_o hx l e /\ em_info e = info.
  Proof.
    intros H. apply key_event_ok in H. destruct H as (H1 & H2 & H3 & H4 & H5). split; [|exact H5]. repeat (split; [assumption|]). apply x_data in H4.
    revert H4. apply data_names. intros k _ N. now apply rest_named.
  Qed.
  Lemma key_event_complete info l e : event_o hx l e -> em_info e = info -> okp (read_key_event hx info l) e.
  Proof.
    intros (H1 & H2 & H3 & H4) H5. assert (D : data_o hx (rest_of l) (em_data e)).
    { revert H4. apply data_names. intros k _ N. symmetry. now apply rest_named. }
    apply x_data in D. destruct D as [D|D].
    - left. apply key_event_ok. repeat (split; [assumption|]). assumption.
    - right. unfold read_key_event.
      assert (Ni : "i"%string <> "d"%string) by discriminate. assert (Ns : "s"%string <> "d"%string) by discriminate. assert (Nis : "i"%string <> "s"%string) by discriminate.
      rewrite <- (took_once as_sap digest_v "d" l (em_digest e) x_digest (fun v a => text_calm _ v a)) in H1.
      rewrite <- (took_once as_id id_v "i" l (em_prefix e) x_id (fun v a => text_calm _ v a)) in H2.
      rewrite <- (took_once (as_hex hx) (hex_v hx) "s" l (em_sn e) (x_hex hx) (hex_calm hx)) in H3.
      rewrite (proj2 (take1_ok "d" as_sap l None (Some (em_digest e)) (others "d" l))) by now split. cbn [obind need ok_or].
      rewrite (proj2 (take2_ok "i" "s" as_id (as_hex hx) (others "d" l) Nis None None (Some (em_prefix e)) (Some (em_sn e)) (rest_of l))).
      + cbn [obind need ok_or]. rewrite D. reflexivity.
      + rewrite (named_others "i" "d" l Ni), (named_others "s" "d" l Ns). split; [reflexivity|split; assumption].
  Qed.
  Lemma key_event_names info l l' e : (forall k, In k event_names -> named k l = named k l') -> read_key_event hx info l = Ok e -> read_key_event hx info l' = Ok e.
  Proof.
    intros H G. apply key_event_ok in G. destruct G as (H1 & H2 & H3 & H4 & H5). apply key_event_ok.
    assert (F : forall A (R : jval -> A -> Prop) k a, In k event_names -> has_once R k l a -> has_once R k l' a).
    { intros A R k a Hk (v & Hv & Hr). exists v. split; [|exact Hr]. unfold once in *. now rewrite <- H. }
    split; [apply F; [cbn; tauto|exact H1]|]. split; [apply F; [cbn; tauto|exact H2]|]. split; [apply F; [cbn; tauto|exact H3]|]. split; [|exact H5].
    rewrite <- H4. apply rd_names. intros k Hk N. rewrite !rest_named by exact N. symmetry. now apply H.
  Qed.

  (** only the last member of a name counts, unless it must be the only one *)
  Lemma key_event_first info l k v e : In k event_names -> ~ In k ["d"; "i"; "s"]%string -> named k l <> [] ->
    read_key_event hx info l = Ok e -> read_key_event hx info ((bstr k, v) :: l) = Ok e.
  Proof.
    intros Hk N Hne G. apply key_event_ok in G. destruct G as (H1 & H2 & H3 & H4 & H5). apply key_event_ok.
    assert (NN : forall (a b : string), a <> b -> is (bstr a) b = false).
    { intros a b Nab. apply not_true_is_false. intros Kb. apply is_iff in Kb. apply Nab.
      rewrite <- (string_of_list_byte_of_string a), <- (string_of_list_byte_of_string b). unfold bstr in Kb. now rewrite Kb. }
    assert (F : forall A (R : jval -> A -> Prop) k' a, In k' ["d"; "i"; "s"]%string -> has_once R k' l a -> has_once R k' ((bstr k, v) :: l) a).
    { intros A R k' a Hk' (w & Hw & Hr). exists w. split; [|exact Hr]. unfold once in *. rewrite named_cons, NN; [exact Hw|]. intros ->. contradiction. }
    split; [apply F; [cbn; tauto|exact H1]|]. split; [apply F; [cbn; tauto|exact H2]|]. split; [apply F; [cbn; tauto|exact H3]|]. split; [|exact H5].
    rewrite <- H4. apply rd_final. intros k' Hk' N'. rewrite !rest_named by exact N'. rewrite named_cons. destruct (is (bstr k) k') eqn:E; [|reflexivity].
    destruct (string_dec k k') as [->|Nk]; [|rewrite NN in E by exact Nk; discriminate]. unfold final. cbn [rev].
    destruct (rev (named k' l)) as [|x r] eqn:R; [|reflexivity]. apply (f_equal (@rev _)) in R. rewrite rev_involutive in R. contradiction.
  Qed.
  (** ** Receipts *)
  Lemma take_rct_ok l : forall od oi os d i s, take_rct hx l od oi os = Ok (d, i, s) <->
    took as_sap od (named "d" l) d /\ took as_id oi (named "i" l) i /\ took (as_hex hx) os (named "s" l) s.
  Proof.
    assert (NN : forall (a b : string) (x : bytes), a <> b -> is x a = true -> is x b = false).
    { intros a b x N Ka. apply not_true_is_false. intros Kb. apply is_iff in Ka, Kb. apply N. rewrite Ka in Kb.
      rewrite <- (string_of_list_byte_of_string a), <- (string_of_list_byte_of_string b). unfold bstr in Kb. now rewrite Kb. }
    assert (T0 : forall A (f : jval -> out A) o p, took f o [] p <-> p = o).
    { intros A f [a|] p; cbn; [tauto|]. split; [intros [[_ H]|(v & a & H & _)]; [exact H|discriminate]|intros ->; left; now split]. }
    assert (TN : forall A (f : jval -> out A) a v vs p, took f (Some a) (v :: vs) p <-> False).
    { intros. split; [|tauto]. intros H. apply took_inv in H. destruct H as [H _]. discriminate H. }
    assert (TC : forall A (f : jval -> out A) v vs p, took f None (v :: vs) p <-> exists a, f v = Ok a /\ took f (Some a) vs p).
    { intros. split; [intros H; apply took_inv in H; now destruct H|]. intros (a & Ha & H). now apply (took_first f v a). }
    induction l as [|[k v] l IH]; intros od oi os d i s; cbn [take_rct].
    - cbn [named filter map]. rewrite !T0. split; [intros H; injection H as <- <- <-; now repeat split|intros (-> & -> & ->); reflexivity].
    - rewrite !named_cons. destruct (is k "d") eqn:Kd.
      + rewrite (NN "d"%string "i"%string k) by (discriminate || exact Kd). rewrite (NN "d"%string "s"%string k) by (discriminate || exact Kd).
        destruct od as [a|]; [rewrite TN; split; [discriminate|tauto]|]. rewrite TC, obind_ok. split.
        * intros (a & Ha & H). apply IH in H. destruct H as (H1 & H2 & H3). split; [exists a; split; assumption|split; assumption].
        * intros ((a & Ha & H1) & H2 & H3). exists a. split; [exact Ha|]. apply IH. split; [assumption|split; assumption].
      + destruct (is k "i") eqn:Ki.
        * rewrite (NN "i"%string "s"%string k) by (discriminate || exact Ki). destruct oi as [a|]; [rewrite TN; split; [discriminate|tauto]|]. rewrite TC, obind_ok. split.
          -- intros (a & Ha & H). apply IH in H. destruct H as (H1 & H2 & H3). split; [exact H1|]. split; [exists a; split; assumption|exact H3].
          -- intros (H1 & (a & Ha & H2) & H3). exists a. split; [exact Ha|]. apply IH. split; [assumption|split; assumption].
        * destruct (is k "s") eqn:Ks; [|apply IH]. destruct os as [a|]; [rewrite TN; split; [discriminate|tauto]|]. rewrite TC, obind_ok. split.
          -- intros (a & Ha & H). apply IH in H. destruct H as (H1 & H2 & H3). split; [exact H1|]. split; [exact H2|exists a; split; assumption].
          -- intros (H1 & H2 & (a & Ha & H3)). exists a. split; [exact Ha|]. apply IH. split; [assumption|split; assumption].
  Qed.
  Lemma receipt_ok info l c : read_receipt hx info l = Ok c <-> receipt_o hx l c /\ rct_info c = info.
  Proof.
    unfold read_receipt, receipt_o. rewrite <- (took_once as_sap digest_v "d" l (rct_digest c) x_digest (fun v a => text_calm _ v a)).
    rewrite <- (took_once as_id id_v "i" l (rct_prefix c) x_id (fun v a => text_calm _ v a)).
    rewrite <- (took_once (as_hex hx) (hex_v hx) "s" l (rct_sn c) (x_hex hx) (hex_calm hx)). rewrite obind_ok. split.
    - intros ([[od oi] os] & H1 & H). apply obind_ok in H. destruct H as (d & Hd & H). apply need_ok in Hd. subst od.
      apply obind_ok in H. destruct H as (i & Hi & H). apply need_ok in Hi. subst oi. apply obind_ok in H. destruct H as (s & Hs & H). apply need_ok in Hs. subst os.
      injection H as <-. apply take_rct_ok in H1. split; [exact H1|reflexivity].
    - intros [H E]. apply take_rct_ok in H. eexists. split; [exact H|]. cbn [need ok_or obind]. subst info. now destruct c.
  Qed.
End WithHex.
