(** * JsonProofs12: when a reader of queries or replies panics. *)
From Coq Require Import ZifyBool ZifyN ZifyNat.
From Verif Require Import Base Base64 Codes NumFmt NumProofs Types KeyConf Version Cesr Message Json JsonRead SpecJson StateProofs Prop_Version JsonProofs8 JsonProofs9 JsonQuery.

Lemma eat_text p : forall s r, eat p s = Some r -> s = p ++ r.
Proof.
  induction p as [|c p IH]; intros s r; cbn [eat app]; [congruence|]. destruct s as [|c' s]; [discriminate|].
  destruct (Byte.byte_eq_dec c c') as [<-|]; [|discriminate]. intros H. f_equal. now apply IH.
Qed.
Section Blame.
  Context (P : bytes -> Prop).
  Definition blame_q : Prop :=
    blame P \/ (exists s, P s /\ si_from s = Panic) \/ (exists s, P (bstr "/ksn/" ++ s) /\ forall i, id_from s <> Ok i).
  Notation calm f := (forall v, jall P v -> f v = Panic -> blame P).
  Notation calmq f := (forall v, jall P v -> f v = Panic -> blame_q).
  Notation ok l := (Forall (fun kv => jall P (snd kv)) l).
  Lemma calm_q {A} (f : jval -> out A) : calm f -> calmq f.
  Proof. intros H v Hv E. left. eauto. Qed.
  Lemma own_calm {A} (f : jval -> out A) : calmq f -> calmq (chk f).
  Proof. intros H v Hv E. unfold chk in E. apply omap_panic in E. eauto. Qed.
  Lemma scan_ok fs : Forall (fun kf => calmq (snd kf)) fs -> forall l seen, ok l ->
    match scan fs seen l with Ok (m, r) => ok m /\ ok r | Err _ => True | Panic => blame_q end.
  Proof.
    intros Hf. assert (O : forall k f, owned fs k = Some f -> calmq f).
    { intros k. induction Hf as [|[n f] fs H Hf IH]; cbn [owned]; intros g; [discriminate|]. destruct (is k n); [|apply IH]. intros [= <-]. exact H. }
    induction l as [|[k v] l IH]; intros seen Hl; cbn [scan]; [split; constructor|]. inversion_clear Hl as [|? ? Hv Hl']. cbn [snd] in Hv.
    destruct (owned fs k) as [f|] eqn:Ek.
    - destruct (existsb _ seen); [exact I|]. destruct (f v) as [a|e|] eqn:E; cbn [obind]; [|exact I|exact (O k f Ek v Hv E)].
      specialize (IH (k :: seen) Hl'). destruct (scan fs (k :: seen) l) as [[m r]|e|]; cbn [obind]; [|exact I|exact IH]. split; [constructor; [exact Hv|apply IH]|apply IH].
    - specialize (IH seen Hl'). destruct (scan fs seen l) as [[m r]|e|]; cbn [obind]; [|exact I|exact IH]. split; [apply IH|constructor; [exact Hv|apply IH]].
  Qed.
  Lemma got_calm {A} (f : jval -> out A) l k : calmq f -> ok l -> got f l k = Panic -> blame_q.
  Proof.
    intros Hf Hl H. unfold got in H. destruct (jget l k) as [v|] eqn:E; [|discriminate H]. cbn [field] in H.
    destruct (f v) as [a|e|] eqn:Ev; cbn [obind] in H; [discriminate H|discriminate H|]. exact (Hf v (jget_ok P _ _ _ Hl E) Ev).
  Qed.
  Lemma as_opt_calm {A} (f : jval -> out A) : calmq f -> calmq (as_opt f).
  Proof.
    intros Hf v Hv H. destruct v; try discriminate H; cbn [as_opt] in H;
      match type of H with obind (f ?w) _ = _ => destruct (f w) as [a|e|] eqn:Ev; cbn [obind] in H; [discriminate H|discriminate H|exact (Hf w Hv Ev)] end.
  Qed.
  Lemma got_opt_calm {A} (f : jval -> out A) l k : calmq f -> ok l -> got_opt f l k = Panic -> blame_q.
  Proof.
    intros Hf Hl H. unfold got_opt in H. destruct (jget l k) as [v|] eqn:E; [|discriminate H].
    exact (as_opt_calm f Hf v (jget_ok P _ _ _ Hl E) H).
  Qed.
  Lemma as_si_calm : calmq as_si.
  Proof.
    intros v Hv H. unfold as_si in H. apply obind_panic in H as [H|(s & Es & H)]; [now apply (as_str_calm P v Hv) in H; left|].
    right. left. exists s. split; [eapply as_str_ok; eauto|now apply custom_panic].
  Qed.
  Lemma as_route_calm : calmq as_route.
  Proof.
    intros v Hv H. unfold as_route in H. apply obind_panic in H as [H|(s & Es & H)]; [now apply (as_str_calm P v Hv) in H; left|].
    unfold route_from, starts in H. destruct (eat (bstr "/ksn/") s) as [r|] eqn:E.
    - apply eat_text in E. subst s. change (skipn 5 (bstr "/ksn/" ++ r)) with r in H. right. right. exists r. split; [eapply as_str_ok; eauto|].
      intros i Hi. rewrite Hi in H. discriminate H.
    - destruct (is s "ksn"); [discriminate H|]. destruct (is s "log"); discriminate H.
  Qed.
  Lemma as_tag_q_calm : calmq as_tag_q.
  Proof.
    assert (T : forall s, tag_from_q s <> Panic) by (intros s; unfold tag_from_q; destruct (is s "rpy"); [discriminate|]; destruct (is s "qry"); [discriminate|]; apply tag_from_calm).
    intros v Hv H. exfalso. destruct v as [| | |s|l|l]; try discriminate H; [exact (T _ H)|].
    destruct l as [|[k w] [|kv l]]; try discriminate H; destruct w; try discriminate H. exact (T _ H).
  Qed.
  (** a chain of reads of fields *)
  Ltac scans H Hl := match type of H with
    | obind (scan ?fs ?seen ?l) _ = Panic =>
        let T := fresh "T" in let F := fresh "F" in
        assert (F : Forall (fun kf => calmq (snd kf)) fs);
        [|pose proof (scan_ok fs F l seen Hl) as T; destruct (scan fs seen l) as [[? ?]|?|]; cbn [obind] in H; [destruct T as [? ?]|discriminate H|exact T]]
    end.
  Ltac gots := repeat match goal with
    | H : obind (got ?f ?l ?k) _ = Panic |- _ => apply obind_panic in H; destruct H as [H|(? & _ & H)]; [apply (got_calm f l k) in H; [exact H| |assumption]|]
    | H : obind (got_opt ?f ?l ?k) _ = Panic |- _ => apply obind_panic in H; destruct H as [H|(? & _ & H)]; [apply (got_opt_calm f l k) in H; [exact H| |assumption]|]
    | H : got ?f ?l ?k = Panic |- _ => apply (got_calm f l k) in H; [exact H| |assumption]
    | H : Ok _ = Panic |- _ => discriminate H
    end.
  Section WithHex.
    Context (hx : bytes -> option N) (tr : bytes -> option Z).
    Lemma as_instant_calm : calmq (as_instant tr).
    Proof. intros v Hv H. unfold as_instant in H. apply obind_panic in H as [H|(s & Es & H)]; [now apply (as_str_calm P v Hv) in H; left|now apply need_calm in H]. Qed.
    Ltac lf := first [apply as_opt_calm; lf | apply as_si_calm | apply as_route_calm | apply as_tag_q_calm | apply as_instant_calm
      | apply calm_q; first [apply as_vec_calm; first [apply as_bp_calm|apply as_str_calm] | apply as_sap_calm | apply as_id_calm | apply as_hex_calm | apply as_threshold_calm | apply as_next_calm | apply as_str_calm]].
    Ltac owns := repeat (constructor; [apply own_calm; lf|]); constructor.
    Lemma read_kc_text_calm l : ok l -> read_kc_text hx l = Panic -> blame_q.
    Proof. intros Hl H. unfold read_kc_text in H. scans H Hl; [owns|]. gots; lf. Qed.
    Lemma as_last_est_calm : calmq (as_last_est hx).
    Proof.
      intros v Hv H. destruct v as [| | |s|l|l]; try discriminate H.
      - apply jall_arr in Hv. destruct l as [|a [|b [|c [|d [|e l]]]]]; try discriminate H; cbn [as_last_est] in H;
          repeat match goal with J : Forall _ (_ :: _) |- _ => inversion_clear J end;
          repeat (apply obind_panic in H as [H|(? & _ & H)]; [left; first [eapply as_hex_calm; [|exact H]; assumption|eapply as_sap_calm; [|exact H]; assumption|eapply (as_vec_calm P as_bp (as_bp_calm P)); [|exact H]; assumption]|]); discriminate H.
      - apply jall_obj in Hv. cbn [as_last_est] in H. scans H Hv; [owns|]. gots; lf.
    Qed.
    Lemma read_state_calm l : ok l -> read_state hx l = Panic -> blame_q.
    Proof.
      intros Hl H. unfold read_state in H. scans H Hl.
      { repeat (constructor; [apply own_calm; first [lf|apply as_last_est_calm]|]). constructor. }
      gots; first [lf|apply as_last_est_calm|idtac].
      apply obind_panic in H as [H|(? & _ & H)]; [|discriminate H]. now apply (read_kc_text_calm _ ltac:(eassumption)).
    Qed.
    Lemma as_notice_calm : calmq (as_notice hx tr).
    Proof.
      intros v Hv H. destruct v as [| | |s|l|l]; try discriminate H. apply jall_obj in Hv. cbn [as_notice] in H. scans H Hv; [owns|]. gots; try lf.
      apply obind_panic in H as [H|(? & _ & H)]; [|discriminate H]. now apply (read_state_calm _ ltac:(eassumption)).
    Qed.
    Lemma as_args_calm : calmq as_args.
    Proof.
      intros v Hv H. destruct v as [| | |s|l|l]; try discriminate H.
      - apply jall_arr in Hv. destruct l as [|a [|b l]]; try discriminate H; inversion_clear Hv; cbn [as_args] in H; [left; eapply as_id_calm; [|exact H]; assumption|].
        apply obind_panic in H as [H|(? & _ & H)]; [left; eapply as_id_calm; [|exact H]; assumption|discriminate H].
      - apply jall_obj in Hv. cbn [as_args] in H. scans H Hv; [owns|]. gots; lf.
    Qed.
    Lemma read_envelope_calm l : ok l ->
      match read_envelope tr l with Ok (_, _, _, r) => ok r | Err _ => True | Panic => blame_q end.
    Proof.
      intros Hl. destruct (read_envelope tr l) as [[[[d t] rt] r]|e|] eqn:H; [|exact I|]; unfold read_envelope in H.
      - assert (F : Forall (fun kf => calmq (snd kf)) [own "d" as_sap]) by owns. pose proof (scan_ok _ F l [] Hl) as T. destruct (scan _ _ l) as [[m r1]|e|]; [|discriminate H|discriminate H].
        cbn [obind] in H. destruct (got as_sap m "d"); [|discriminate H|discriminate H]. cbn [obind] in H.
        assert (F2 : Forall (fun kf => calmq (snd kf)) [own "dt" (as_instant tr); own "r" as_route]) by owns.
        pose proof (scan_ok _ F2 r1 [] (proj2 T)) as T2. destruct (scan _ _ r1) as [[m2 r2]|e|]; [|discriminate H|discriminate H]. cbn [obind] in H.
        destruct (got (as_instant tr) m2 "dt"); [|discriminate H|discriminate H]. cbn [obind] in H. destruct (got as_route m2 "r"); [|discriminate H|discriminate H].
        cbn [obind] in H. assert (r2 = r) by congruence. subst. apply T2.
      - scans H Hl; [owns|]. gots; try lf.
        match goal with J : ok ?r, K : obind (scan _ _ ?r) _ = Panic |- _ => scans K J; [owns|] end. gots; lf.
    Qed.
    Lemma read_query_calm info l : ok l -> read_query tr info l = Panic -> blame_q.
    Proof.
      intros Hl H. unfold read_query in H. pose proof (read_envelope_calm l Hl) as T. destruct (read_envelope tr l) as [[[[d t] rt] r]|e|]; cbn [obind] in H; [|discriminate H|exact T].
      scans H T. { constructor; [apply own_calm; lf|]. constructor; [apply own_calm, as_args_calm|constructor]. }
      gots; [lf|apply as_args_calm].
    Qed.
    Lemma read_reply_calm info l : ok l -> read_reply hx tr info l = Panic -> blame_q.
    Proof.
      intros Hl H. unfold read_reply in H. pose proof (read_envelope_calm l Hl) as T. destruct (read_envelope tr l) as [[[[d t] rt] r]|e|]; cbn [obind] in H; [|discriminate H|exact T].
      scans H T. { constructor; [apply own_calm, as_notice_calm|constructor]. }
      gots. apply as_notice_calm.
    Qed.
  End WithHex.
End Blame.
Lemma json_message_calm_q {D} (read : SerializationInfo -> list (bytes * jval) -> out D) t :
  (forall info l, Forall (fun kv => jall (literal_of t) (snd kv)) l -> read info l = Panic -> blame_q (literal_of t)) ->
  json_message read t = PPanic -> (exists x, version_at t x /\ si_from x = Panic) \/ blame_q (literal_of t).
Proof.
  intros Hr H. unfold json_message in H. pose proof (skip_ws_suffix t) as S. destruct (skip_ws t) as [|c r]; [discriminate H|]. destruct (c_is c 123); [|discriminate H].
  apply suffix_cons in S. pose proof (top_from t (literal_of t)) as T. specialize (T (fun w x r Hs E => ex_intro _ w (ex_intro _ r (conj Hs E)))).
  specialize (T (fuel_for r) 127 true None r S). destruct (read_top (fuel_for r) 127 true None r) as [[[ov l] rest]|e|]; cbn [obind] in H; [|discriminate H|now left].
  destruct T as (_ & Hl & _). right. destruct ov as [v|]; [|discriminate H]. cbn [need ok_or obind] in H.
  destruct (read v l) as [e|er|] eqn:E; cbn [obind] in H; [discriminate H|discriminate H|exact (Hr v l Hl E)].
Qed.
