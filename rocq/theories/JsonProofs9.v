(** * JsonProofs9: a reader panics only on a literal that a prefix parser panics on. *)
From Coq Require Import ZifyBool ZifyN ZifyNat.
From Verif Require Import Base Base64 Codes NumFmt NumProofs Types KeyConf Version Cesr Message Json JsonRead SpecJson StateProofs Prop_Version JsonProofs8.

Lemma obind_panic {A B} (x : out A) (f : A -> out B) : obind x f = Panic -> x = Panic \/ exists a, x = Ok a /\ f a = Panic.
Proof. destruct x as [a|e|]; cbn [obind]; [intros H; right; eauto|discriminate|now left]. Qed.
Lemma omap_panic {A B} (h : A -> B) (x : out A) : omap h x = Panic -> x = Panic.
Proof. destruct x; cbn; congruence. Qed.
Lemma orelse_panic {A} (x y : out A) : orelse x y = Panic -> x = Panic \/ y = Panic.
Proof. destruct x; cbn; auto; discriminate. Qed.
Lemma custom_panic {A} (x : out A) : custom x = Panic -> x = Panic.
Proof. destruct x; unfold custom, jerr; congruence. Qed.
Lemma need_calm {A} (o : option A) : need o <> Panic.
Proof. destruct o; discriminate. Qed.
Lemma aget_some {A} (l : list (bytes * A)) k v : aget bytes_eq_dec l k = Some v -> In (k, v) l.
Proof.
  induction l as [|[k' v'] l IH]; [discriminate|]. cbn [aget]. destruct (bytes_eq_dec k k') as [->|]; [intros H; injection H as ->; now left|].
  intros H. right. now apply IH.
Qed.
Lemma ins_all {A} (R : A -> Prop) k v l : R v -> Forall (fun kv => R (snd kv)) l -> Forall (fun kv => R (snd kv)) (ins k v l).
Proof.
  intros Hv. induction 1 as [|[k' v'] l H Hl IH]; cbn [ins]; [constructor; auto|]. destruct (bytes_eq_dec k k'); [constructor; auto|].
  destruct (bytes_ltb k k'); constructor; auto.
Qed.
Lemma sort_all {A} (R : A -> Prop) l : Forall (fun kv => R (snd kv)) l -> Forall (fun kv : bytes * A => R (snd kv)) (sort_map l).
Proof.
  unfold sort_map. assert (G : forall m, Forall (fun kv : bytes * A => R (snd kv)) m -> Forall (fun kv => R (snd kv)) l ->
    Forall (fun kv : bytes * A => R (snd kv)) (fold_left (fun m kv => ins (fst kv) (snd kv) m) l m)).
  { induction l as [|kv l IH]; intros m Hm Hl; [exact Hm|]. inversion_clear Hl. cbn [fold_left]. apply IH; [now apply ins_all|assumption]. }
  intros H. apply G; [constructor|exact H].
Qed.
Lemma jval_induction (R : jval -> Prop) :
  R JNull -> (forall b, R (JBool b)) -> R JNum -> (forall s, R (JStr s)) ->
  (forall l, Forall R l -> R (JArr l)) -> (forall l, Forall (fun kv => R (snd kv)) l -> R (JObj l)) -> forall v, R v.
Proof.
  intros H1 H2 H3 H4 H5 H6. fix go 1. intros [|b| |s|l|l]; [exact H1|apply H2|exact H3|apply H4|apply H5|apply H6].
  - induction l as [|v l IH]; constructor; [apply go|exact IH].
  - induction l as [|[k v] l IH]; constructor; [apply go|exact IH].
Qed.
Lemma value_all P v : jall P v -> jall P (to_value v).
Proof.
  induction v as [| | | |l IH|l IH] using jval_induction; cbn [to_value]; try easy.
  - rewrite !jall_arr. intros H. rewrite Forall_map. rewrite Forall_forall in *. intros x Hx. apply IH; [exact Hx|now apply H].
  - rewrite !jall_obj. intros H. apply (sort_all (jall P)). rewrite Forall_map. rewrite Forall_forall in *. intros x Hx. cbn [snd]. apply IH; [exact Hx|now apply H].
Qed.

Section Blame.
  Context (P : bytes -> Prop).
  Definition blame : Prop := exists s, P s /\ (bp_from s = Panic \/ sap_from s = Panic \/ id_from s = Panic).
  Notation calm f := (forall v, jall P v -> f v = Panic -> blame).
  Notation ok l := (Forall (fun kv => jall P (snd kv)) l).
  Lemma as_str_ok v s : jall P v -> as_str v = Ok s -> P s.
  Proof. destruct v; try discriminate. cbn. intros H E. congruence. Qed.
  Lemma as_str_calm : calm as_str. Proof. intros v _. destruct v; discriminate. Qed.
  Lemma as_bp_calm : calm as_bp.
  Proof.
    intros v Hv H. unfold as_bp in H. apply obind_panic in H as [H|(s & Es & H)]; [now apply as_str_calm in H|].
    exists s. split; [eapply as_str_ok; eauto|]. left. now apply custom_panic.
  Qed.
  Lemma as_sap_calm : calm as_sap.
  Proof.
    intros v Hv H. unfold as_sap in H. apply obind_panic in H as [H|(s & Es & H)]; [now apply as_str_calm in H|].
    exists s. split; [eapply as_str_ok; eauto|]. right. left. now apply custom_panic.
  Qed.
  Lemma as_id_calm : calm as_id.
  Proof.
    intros v Hv H. unfold as_id in H. apply obind_panic in H as [H|(s & Es & H)]; [now apply as_str_calm in H|].
    exists s. split; [eapply as_str_ok; eauto|]. right. right. now apply custom_panic.
  Qed.
  Lemma frac_from_calm s : frac_from s <> Panic.
  Proof.
    unfold frac_from. destruct (split_slash s) as [|a [|b [|]]]; try discriminate.
    - pose proof (parse_radix_no_panic 10 u64_max a). destruct (parse_radix 10 u64_max a); cbn [obind]; congruence.
    - pose proof (parse_radix_no_panic 10 u64_max a). destruct (parse_radix 10 u64_max a); cbn [obind]; try congruence.
      pose proof (parse_radix_no_panic 10 u64_max b). destruct (parse_radix 10 u64_max b); cbn [obind]; congruence.
  Qed.
  Lemma as_frac_calm : calm as_frac.
  Proof.
    intros v Hv H. unfold as_frac in H. apply obind_panic in H as [H|(s & Es & H)]; [now apply as_str_calm in H|].
    apply custom_panic in H. now apply frac_from_calm in H.
  Qed.
  Lemma omapm_calm {A} (f : jval -> out A) l : calm f -> Forall (jall P) l -> omapm f l = Panic -> blame.
  Proof.
    intros Hf. induction 1 as [|v l Hv Hl IH]; cbn [omapm]; [discriminate|]. intros H. apply obind_panic in H as [H|(b & _ & H)]; [exact (Hf v Hv H)|].
    apply obind_panic in H as [H|(r & _ & H)]; [exact (IH H)|discriminate].
  Qed.
  Lemma as_vec_calm {A} (f : jval -> out A) : calm f -> calm (as_vec f).
  Proof. intros Hf v Hv H. destruct v; try discriminate. cbn [as_vec] in H. apply jall_arr in Hv. now apply (omapm_calm f l). Qed.
  Lemma jget_ok l k v : ok l -> jget l k = Some v -> jall P v.
  Proof. intros Hl H. apply aget_some in H. rewrite Forall_forall in Hl. exact (Hl _ H). Qed.
  Lemma field_calm {A} (f : jval -> out A) l k : calm f -> ok l -> field f (jget l k) = Panic -> blame.
  Proof.
    intros Hf Hl H. destruct (jget l k) as [v|] eqn:E; [|discriminate]. cbn [field] in H. apply obind_panic in H as [H|(a & _ & H)]; [|discriminate].
    exact (Hf v (jget_ok _ _ _ Hl E) H).
  Qed.
  (** a chain of reads *)
  Ltac chain := repeat match goal with
    | H : obind _ _ = Panic |- _ => apply obind_panic in H; destruct H as [H|(? & _ & H)]
    | H : need _ = Panic |- _ => now apply need_calm in H
    | H : omap _ _ = Panic |- _ => apply omap_panic in H
    | H : orelse _ _ = Panic |- _ => apply orelse_panic in H; destruct H as [H|H]
    | H : Ok _ = Panic |- _ => discriminate H
    | H : jerr = Panic |- _ => discriminate H
    | H : Err _ = Panic |- _ => discriminate H
    end.

  Section WithHex.
    Context (hx : bytes -> option N).
    Lemma as_hex_calm : calm (as_hex hx).
    Proof. intros v Hv H. unfold as_hex in H. chain. now apply as_str_calm in H. Qed.
    Lemma as_clause_calm : calm as_clause. Proof. apply as_vec_calm, as_frac_calm. Qed.
    Lemma as_threshold_calm : calm (as_threshold hx).
    Proof.
      intros v Hv H. unfold as_threshold in H. chain; [exact (as_hex_calm v Hv H)|exact (as_clause_calm v Hv H)|exact (as_vec_calm _ as_clause_calm v Hv H)].
    Qed.
    Lemma as_next_calm : calm as_next.
    Proof.
      intros v Hv H. destruct v as [| | |[|c s]|l|l]; try discriminate H. cbn [as_next] in H. chain. apply custom_panic in H.
      exists (c :: s). split; [exact Hv|]. auto.
    Qed.
    Ltac fields Hl := chain; repeat match goal with
      | H : field ?f (jget ?l ?k) = Panic |- _ => apply (field_calm f l k) in H; [exact H| |exact Hl]
      end.
    Lemma read_kc_calm l : ok l -> read_kc hx l = Panic -> blame.
    Proof.
      intros Hl H. unfold read_kc in H. fields Hl; [apply as_vec_calm, as_bp_calm|apply as_threshold_calm|apply as_next_calm].
    Qed.
    Lemma read_iwc_calm l : ok l -> read_iwc hx l = Panic -> blame.
    Proof. intros Hl H. unfold read_iwc in H. fields Hl; [apply as_vec_calm, as_bp_calm|apply as_hex_calm]. Qed.
    Lemma read_wc_calm l : ok l -> read_wc hx l = Panic -> blame.
    Proof. intros Hl H. unfold read_wc in H. fields Hl; [apply as_vec_calm, as_bp_calm|apply as_vec_calm, as_bp_calm|apply as_hex_calm]. Qed.
    Ltac elems Hv := repeat match goal with
      | H : jall P (JArr (_ :: _)) |- _ => apply jall_arr in H
      | H : Forall (jall P) (_ :: _) |- _ => inversion_clear H
      end.
    Ltac leaf := match goal with
      | H : as_id ?v = Panic, J : jall P ?v |- _ => exact (as_id_calm v J H)
      | H : as_sap ?v = Panic, J : jall P ?v |- _ => exact (as_sap_calm v J H)
      | H : as_hex hx ?v = Panic, J : jall P ?v |- _ => exact (as_hex_calm v J H)
      | H : as_str ?v = Panic, J : jall P ?v |- _ => exact (as_str_calm v J H)
      end.
    Lemma as_location_calm : calm (as_location hx).
    Proof.
      intros v Hv H. destruct v as [| | |s|l|l]; try discriminate H.
      - destruct l as [|a [|b [|c [|d [|e l]]]]]; try discriminate H; elems Hv; cbn [as_location] in H; chain; leaf.
      - apply jall_obj in Hv. cbn [as_location] in H. fields Hv; [apply as_id_calm|apply as_sap_calm|apply as_hex_calm|apply as_str_calm].
    Qed.
    Lemma as_event_seal_calm : calm (as_event_seal hx).
    Proof.
      intros v Hv H. destruct v as [| | |s|l|l]; try discriminate H.
      - destruct l as [|a [|b [|c [|d l]]]]; try discriminate H; elems Hv; cbn [as_event_seal] in H; chain; leaf.
      - apply jall_obj in Hv. cbn [as_event_seal] in H. fields Hv; [apply as_sap_calm|apply as_id_calm|apply as_hex_calm].
    Qed.
    Lemma as_one_calm k : calm (as_one k).
    Proof.
      intros v Hv H. destruct v as [| | |s|l|l]; try discriminate H.
      - destruct l as [|a [|b l]]; try discriminate H; elems Hv; cbn [as_one] in H; chain; leaf.
      - apply jall_obj in Hv. cbn [as_one] in H. fields Hv. apply as_sap_calm.
    Qed.
    Lemma as_seal_calm : calm (as_seal hx).
    Proof.
      intros v Hv H. unfold as_seal in H. chain; [exact (as_location_calm v Hv H)|exact (as_event_seal_calm v Hv H)|exact (as_one_calm _ v Hv H)|exact (as_one_calm _ v Hv H)].
    Qed.
    Lemma read_icp_calm l : ok l -> read_icp hx l = Panic -> blame.
    Proof.
      intros Hl H. unfold read_icp in H. fields Hl; [apply as_vec_calm, as_seal_calm|apply as_vec_calm, as_str_calm| |].
      - now apply read_kc_calm in H. - now apply read_iwc_calm in H.
    Qed.
    Lemma read_rot_calm l : ok l -> read_rot hx l = Panic -> blame.
    Proof.
      intros Hl H. unfold read_rot in H. fields Hl; [apply as_vec_calm, as_seal_calm|apply as_sap_calm| |].
      - now apply read_kc_calm in H. - now apply read_wc_calm in H.
    Qed.
    Lemma read_ixn_calm l : ok l -> read_ixn hx l = Panic -> blame.
    Proof. intros Hl H. unfold read_ixn in H. fields Hl; [apply as_vec_calm, as_seal_calm|apply as_sap_calm]. Qed.
    Lemma read_dip_calm l : ok l -> read_dip hx l = Panic -> blame.
    Proof. intros Hl H. unfold read_dip in H. fields Hl; [apply as_id_calm|]. now apply read_icp_calm in H. Qed.
    Lemma tag_from_calm s : tag_from s <> Panic.
    Proof. unfold tag_from. repeat match goal with |- (if ?b then _ else _) <> _ => destruct b; [discriminate|] end. discriminate. Qed.
    Lemma as_tag_calm : calm as_tag.
    Proof.
      intros v Hv H. exfalso. destruct v as [| | |s|l|l]; try discriminate H; [exact (tag_from_calm _ H)|].
      destruct l as [|[k w] [|kv l]]; try discriminate H; destruct w; try discriminate H. exact (tag_from_calm _ H).
    Qed.
    Lemma read_data_calm l : ok l -> read_data hx l = Panic -> blame.
    Proof.
      intros Hl H. unfold read_data in H. set (m := sort_map _) in H.
      assert (Hm : ok m). { apply (sort_all (jall P)). rewrite Forall_map. eapply Forall_impl; [|exact Hl]. intros kv. apply value_all. }
      clearbody m. cbv zeta in H. chain; [apply (field_calm as_tag m "t" as_tag_calm Hm H)|]. rename x0 into tg.
      destruct tg; chain; try discriminate H;
        first [now apply read_icp_calm in H|now apply read_rot_calm in H|now apply read_ixn_calm in H|now apply read_dip_calm in H].
    Qed.
    Lemma take1_calm {A} ka (fa : jval -> out A) l : calm fa -> forall oa, ok l ->
      match take1 ka fa l oa with Ok (_, r) => ok r | Err _ => True | Panic => blame end.
    Proof.
      intros Hf. induction l as [|[k v] l IH]; intros oa Hl; cbn [take1]; [constructor|]. inversion_clear Hl as [|? ? Hv Hl']. cbn [snd] in Hv.
      destruct (is k ka).
      - destruct oa; [exact I|]. destruct (fa v) as [a|e|] eqn:E; cbn [obind]; [exact (IH (Some a) Hl')|exact I|exact (Hf v Hv E)].
      - specialize (IH oa Hl'). destruct (take1 ka fa l oa) as [[a r]|e|]; cbn [obind]; [now constructor|exact I|exact IH].
    Qed.
    Lemma take2_calm {A B} ka kb (fa : jval -> out A) (fb : jval -> out B) l : calm fa -> calm fb -> forall oa ob, ok l ->
      match take2 ka kb fa fb l oa ob with Ok (_, _, r) => ok r | Err _ => True | Panic => blame end.
    Proof.
      intros Hf Hg. induction l as [|[k v] l IH]; intros oa ob Hl; cbn [take2]; [constructor|]. inversion_clear Hl as [|? ? Hv Hl']. cbn [snd] in Hv.
      destruct (is k ka); [|destruct (is k kb)].
      - destruct oa; [exact I|]. destruct (fa v) as [a|e|] eqn:E; cbn [obind]; [exact (IH (Some a) ob Hl')|exact I|exact (Hf v Hv E)].
      - destruct ob; [exact I|]. destruct (fb v) as [a|e|] eqn:E; cbn [obind]; [exact (IH oa (Some a) Hl')|exact I|exact (Hg v Hv E)].
      - specialize (IH oa ob Hl'). destruct (take2 ka kb fa fb l oa ob) as [[[a b] r]|e|]; cbn [obind]; [now constructor|exact I|exact IH].
    Qed.
    Lemma read_key_event_calm info l : ok l -> read_key_event hx info l = Panic -> blame.
    Proof.
      intros Hl H. unfold read_key_event in H. pose proof (take1_calm "d" as_sap l as_sap_calm None Hl) as T1.
      destruct (take1 "d" as_sap l None) as [[d l1]|e|]; cbn [obind] in H; [|discriminate H|exact T1].
      apply obind_panic in H as [H|(dd & _ & H)]; [now apply need_calm in H|].
      pose proof (take2_calm "i" "s" as_id (as_hex hx) l1 as_id_calm as_hex_calm None None T1) as T2.
      destruct (take2 "i" "s" as_id (as_hex hx) l1 None None) as [[[i s] l2]|e|]; cbn [obind] in H; [|discriminate H|exact T2]. chain.
      now apply read_data_calm in H.
    Qed.
    Lemma take_rct_calm l : ok l -> forall od oi os, take_rct hx l od oi os = Panic -> blame.
    Proof.
      induction 1 as [|[k v] l Hv Hl IH]; intros od oi os; cbn [take_rct]; [discriminate|]. cbn [snd] in Hv.
      destruct (is k "d"); [|destruct (is k "i"); [|destruct (is k "s")]].
      - destruct od; [discriminate|]. intros H. chain; [exact (as_sap_calm v Hv H)|now apply IH in H].
      - destruct oi; [discriminate|]. intros H. chain; [exact (as_id_calm v Hv H)|now apply IH in H].
      - destruct os; [discriminate|]. intros H. chain; [exact (as_hex_calm v Hv H)|now apply IH in H].
      - apply IH.
    Qed.
    Lemma read_receipt_calm info l : ok l -> read_receipt hx info l = Panic -> blame.
    Proof.
      intros Hl H. unfold read_receipt in H. destruct (take_rct hx l None None None) as [[[d i] s]|e|] eqn:E; cbn [obind] in H; [|discriminate H|now apply take_rct_calm in E].
      chain.
    Qed.
  End WithHex.
End Blame.

(** a literal of the text *)
Definition literal_of (t x : bytes) : Prop := exists w r, suffix (n2b 34 :: w) t /\ read_string w = Some (x, r).
Lemma json_message_calm {D} (read : SerializationInfo -> list (bytes * jval) -> out D) t :
  (forall info l, Forall (fun kv => jall (literal_of t) (snd kv)) l -> read info l = Panic -> blame (literal_of t)) ->
  json_message read t = PPanic -> (exists x, version_at t x /\ si_from x = Panic) \/ blame (literal_of t).
Proof.
  intros Hr H. unfold json_message in H. pose proof (skip_ws_suffix t) as S. destruct (skip_ws t) as [|c r]; [discriminate H|]. destruct (c_is c 123); [|discriminate H].
  apply suffix_cons in S. pose proof (top_from t (literal_of t)) as T. specialize (T (fun w x r Hs E => ex_intro _ w (ex_intro _ r (conj Hs E)))).
  specialize (T (fuel_for r) 127 true None r S). destruct (read_top (fuel_for r) 127 true None r) as [[[ov l] rest]|e|]; cbn [obind] in H; [|discriminate H|now left].
  destruct T as (_ & Hl & _). right. destruct ov as [v|]; [|discriminate H]. cbn [need ok_or obind] in H.
  destruct (read v l) as [e|er|] eqn:E; cbn [obind] in H; [discriminate H|discriminate H|exact (Hr v l Hl E)].
Qed.
