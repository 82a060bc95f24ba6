(** * JsonProofs10: what was read is written so that it reads back. *)
From Coq Require Import ZifyBool ZifyN ZifyNat.
From Verif Require Import Base Base64 Base64Proofs Codes NumFmt NumProofs Types SpecCodec CodecProofs CodecProofs2 KeyConf Version Cesr CesrProofs Message Keri Json JsonRead JsonProofs SpecJson JsonProofs2 JsonProofs3 StateProofs Prop_Version JsonProofs8 JsonProofs9.

(** ** Stable events read back (as [event_reads_back], for the weaker condition) *)
Lemma as_sap_st d : sap_stable d -> as_sap (JStr (sap_str d)) = Ok d.
Proof. unfold sap_stable, as_sap, as_str. cbn [obind]. now intros ->. Qed.
Lemma as_id_st d : id_stable d -> as_id (JStr (id_str d)) = Ok d.
Proof. unfold id_stable, as_id, as_str. cbn [obind]. now intros ->. Qed.
Lemma as_bp_st d : bp_stable d -> as_bp (JStr (bp_str d)) = Ok d.
Proof. unfold bp_stable, as_bp, as_str. cbn [obind]. now intros ->. Qed.
Lemma keys_st l : Forall bp_stable l -> as_vec as_bp (to_value (erase (keys_val l))) = Ok l.
Proof.
  intros H. unfold keys_val. cbn [erase to_value as_vec]. rewrite !map_map. cbn [erase to_value].
  apply omapm_id. eapply Forall_impl; [|exact H]. intros p Hp. now apply as_bp_st.
Qed.
Lemma sap_from_nil : exists e, sap_from [] = Err e. Proof. eexists. reflexivity. Qed.
Section Hex.
  Context (hx : bytes -> option N) (Hhx : reads_hex hx).
  Lemma next_st (o : option SelfAddressingPrefix) : Forall sap_stable (opt_list o) ->
    as_next (JStr (match o with Some d => sap_str d | None => [] end)) = Ok o.
  Proof.
    destruct o as [d|]; [|reflexivity]. intros H. apply Forall_cons_iff in H as [H _]. red in H.
    unfold as_next. destruct (sap_str d) as [|c s]; [destruct sap_from_nil; congruence|]. now rewrite H.
  Qed.
  Lemma seal_st s : sap_stable (seal_digest s) -> Forall id_stable (seal_ids s) -> Forall u64 (seal_numbers s) ->
    as_seal hx (to_value (erase (seal_val s))) = Ok s.
  Proof.
    destruct s as [l|e|d|d]; cbn [seal_digest seal_ids seal_numbers seal_val]; intros H1 H2 H3;
      unfold sfld, fld; cbn [erase map fst snd];
      try (apply Forall_cons_iff in H2 as [H2 _]); try (apply Forall_cons_iff in H3 as [H3 _]).
    - erewrite seal_location; [|now apply as_id_st|now apply as_hex_ok|now apply as_sap_st]. now destruct l.
    - erewrite seal_event; [|now apply as_id_st|now apply as_hex_ok|now apply as_sap_st]. now destruct e.
    - erewrite seal_digest_ok; [|now apply as_sap_st]. reflexivity.
    - erewrite seal_root_ok; [|now apply as_sap_st]. reflexivity.
  Qed.
  Lemma seals_st l : Forall sap_stable (map seal_digest l) -> Forall id_stable (flat_map seal_ids l) -> Forall u64 (flat_map seal_numbers l) ->
    as_vec (as_seal hx) (to_value (erase (VSeq (map seal_val l)))) = Ok l.
  Proof.
    intros H1 H2 H3. cbn [erase to_value as_vec]. rewrite !map_map. apply omapm_id.
    rewrite Forall_forall in *. intros s Hs. apply seal_st.
    - apply H1, in_map, Hs.
    - apply Forall_forall. intros x Hx. apply H2, in_flat_map. now exists s.
    - apply Forall_forall. intros x Hx. apply H3, in_flat_map. now exists s.
  Qed.
  Lemma data_st d : Forall bp_stable (data_keys d) -> Forall sap_stable (data_digests d) -> Forall id_stable (data_ids d) ->
    Forall u64 (data_numbers d) -> Forall threshold_readable (data_thresholds d) ->
    read_data hx ((bstr "t", JStr (tag_str (event_type d))) :: map erase_kv (data_fields d)) = Ok d.
  Proof.
    intros Hk Hd Hi Hn Ht. unfold data_keys, data_digests, data_ids, data_numbers, data_thresholds in *.
    destruct d as [e|e|e|e|e]; cbn [data_kc data_seals opt_list flat_map map app] in *;
      repeat match goal with H : Forall _ (_ ++ _) |- _ => apply Forall_app in H; destruct H end;
      repeat match goal with H : Forall _ (_ :: _) |- _ => apply Forall_cons_iff in H; destruct H end.
    - destruct e as [[kt k n] [bt b] c a]. apply data_icp; cbn [icp_kc icp_wc icp_config icp_data kc_threshold kc_keys kc_next iwc_tally iwc_witnesses] in *;
        [now apply threshold_ok|now apply keys_st|now apply next_st|now apply as_hex_ok|now apply keys_st|apply strings_ok|now apply seals_st].
    - destruct e as [p [kt k n] [bt br ba] a]. apply (data_rot hx false); cbn [rot_prev rot_kc rot_wc rot_data kc_threshold kc_keys kc_next wc_tally wc_prune wc_graft] in *;
        [now apply as_sap_st|now apply threshold_ok|now apply keys_st|now apply next_st|now apply as_hex_ok|now apply keys_st|now apply keys_st|now apply seals_st].
    - destruct e as [p a]. apply data_ixn; [now apply as_sap_st|now apply seals_st].
    - destruct e as [[[kt k n] [bt b] c a] di]. apply data_dip; cbn [dip_icp dip_delegator icp_kc icp_wc icp_config icp_data kc_threshold kc_keys kc_next iwc_tally iwc_witnesses] in *;
        [now apply threshold_ok|now apply keys_st|now apply next_st|now apply as_hex_ok|now apply keys_st|apply strings_ok|now apply seals_st|now apply as_id_st].
    - destruct e as [p [kt k n] [bt br ba] a]. apply (data_rot hx true); cbn [rot_prev rot_kc rot_wc rot_data kc_threshold kc_keys kc_next wc_tally wc_prune wc_graft] in *;
        [now apply as_sap_st|now apply threshold_ok|now apply keys_st|now apply next_st|now apply as_hex_ok|now apply keys_st|now apply keys_st|now apply seals_st].
  Qed.
  Theorem event_stable_back m r : event_stable m -> json_message (read_key_event hx) (json (event_val m) ++ r) = POk r m.
  Proof.
    intros (Hv & Hd & Hi & Hs & D1 & D2 & D3 & D4 & D5 & D6). unfold event_val, head_fields, event_fields. cbn [app].
    apply json_message_obj with (v := em_info m).
    - pose proof (fits_event m) as F. unfold event_val in F. rewrite fits_map in F. now apply F.
    - do 4 (constructor; [reflexivity|]). eapply Forall_impl; [|apply plain_keys]. now intros kv [H _].
    - now apply version_back.
    - cbn [map]. change (erase_kv (sfld "t" ?x)) with (bstr "t", JStr x). change (erase_kv (sfld "d" ?x)) with (bstr "d", JStr x).
      change (erase_kv (sfld "i" ?x)) with (bstr "i", JStr x). change (erase_kv (sfld "s" ?x)) with (bstr "s", JStr x).
      destruct m as [info d i s data]. cbn [em_info em_digest em_prefix em_sn em_data] in *.
      apply key_event_ok; [|now apply as_sap_st|now apply as_id_st|now apply as_hex_ok|now apply data_st].
      apply Forall_map. eapply Forall_impl; [|apply plain_keys]. intros kv H. exact H.
  Qed.
End Hex.

(** ** What was read *)
Lemma parse_radix_bound r m s n : parse_radix r m s = Ok n -> (n <= m)%N.
Proof.
  unfold parse_radix. cbv zeta. match goal with |- match ?b with _ => _ end = _ -> _ => generalize b end.
  intros [|c l]; [discriminate|]. destruct (parse_digits _ _ _) as [k|]; [|discriminate]. destruct (k <=? m)%N eqn:E; [|discriminate]. intros H. assert (n = k) by congruence. lia.
Qed.
Lemma frac_new_readable n d a b : u64 n -> u64 d -> frac_new n d = FRat a b -> frac_readable (FRat a b).
Proof.
  unfold frac_new, u64. intros Hn Hd. destruct (d =? 0)%N eqn:E0; [destruct (n =? 0)%N; discriminate|].
  intros H. assert (a = n / N.gcd n d /\ b = d / N.gcd n d)%N as [-> ->] by (split; congruence).
  assert (Hg : N.gcd n d <> 0%N) by (intros G; apply N.gcd_eq_0_r in G; lia).
  assert (N.divide (N.gcd n d) d) as [q Hq] by apply N.gcd_divide_r.
  unfold frac_readable, u64. split; [|split; [|split]].
  - etransitivity; [apply N.div_le_upper_bound with (q := n); [exact Hg|]|exact Hn]. nia.
  - etransitivity; [apply N.div_le_upper_bound with (q := d); [exact Hg|]|exact Hd]. nia.
  - apply N.div_str_pos. split; [lia|]. apply N.divide_pos_le; [lia|apply N.gcd_divide_r].
  - apply N.gcd_div_gcd; [exact Hg|reflexivity].
Qed.
Section WhatWasRead.
  Context (hx : bytes -> option N) (Hu : hex_u64 hx).
  (** literals without padding *)
  Definition pure (s : bytes) : Prop := valid_utf8 s = true /\ ~ In x3d s.
  Notation ok l := (Forall (fun kv => jall pure (snd kv)) l).
  Lemma as_bp_got v p : jall pure v -> as_bp v = Ok p -> bp_stable p.
  Proof.
    destruct v; try discriminate. intros [_ H]. unfold as_bp, as_str. cbn [obind]. destruct (bp_from s) as [q|e|] eqn:E; try discriminate. cbn. intros Q. assert (q = p) by congruence. subst q.
    red. now rewrite (bp_canonical s p H E).
  Qed.
  Lemma as_sap_got v p : jall pure v -> as_sap v = Ok p -> sap_stable p.
  Proof.
    destruct v; try discriminate. intros [_ H]. unfold as_sap, as_str. cbn [obind]. destruct (sap_from s) as [q|e|] eqn:E; try discriminate. cbn. intros Q. assert (q = p) by congruence. subst q.
    red. now rewrite (sap_canonical s p H E).
  Qed.
  Lemma as_id_got v p : jall pure v -> as_id v = Ok p -> id_stable p.
  Proof.
    destruct v; try discriminate. intros [_ H]. unfold as_id, as_str. cbn [obind]. destruct (id_from s) as [q|e|] eqn:E; try discriminate. cbn. intros Q. assert (q = p) by congruence. subst q.
    red. now rewrite (id_canonical s p H E).
  Qed.
  Lemma as_hex_got v n : as_hex hx v = Ok n -> u64 n.
  Proof. destruct v; try discriminate. unfold as_hex, as_str. cbn [obind]. destruct (hx s) as [k|] eqn:E; [|discriminate]. cbn. intros Q. assert (k = n) by congruence. subst. exact (Hu _ _ E). Qed.
  Lemma as_str_got v s : jall pure v -> as_str v = Ok s -> rust_string s.
  Proof. destruct v; try discriminate. cbn. intros [H _] E. assert (s0 = s) by congruence. now subst. Qed.
  Lemma omapm_got {A} (f : jval -> out A) (R : A -> Prop) : (forall v a, jall pure v -> f v = Ok a -> R a) ->
    forall l r, Forall (jall pure) l -> omapm f l = Ok r -> Forall R r.
  Proof.
    intros Hf. induction l as [|v l IH]; intros r Hl H; cbn [omapm] in H; [injection H as <-; constructor|]. inversion_clear Hl.
    apply obind_ok in H as (b & Hb & H). apply obind_ok in H as (s & Hs & H). injection H as <-. constructor; [now apply (Hf v)|now apply IH].
  Qed.
  Lemma as_vec_got {A} (f : jval -> out A) (R : A -> Prop) v r : (forall v a, jall pure v -> f v = Ok a -> R a) -> jall pure v -> as_vec f v = Ok r -> Forall R r.
  Proof. intros Hf Hv H. destruct v; try discriminate. apply jall_arr in Hv. now apply (omapm_got f R Hf l). Qed.
  Lemma field_got {A} (f : jval -> out A) (R : A -> Prop) l k o a : (forall v a, jall pure v -> f v = Ok a -> R a) -> ok l ->
    field f (jget l k) = Ok o -> need o = Ok a -> R a.
  Proof.
    intros Hf Hl H Ho. destruct (jget l k) as [v|] eqn:E; cbn [field] in H; [|injection H as <-; discriminate Ho].
    apply obind_ok in H as (b & Hb & H). injection H as <-. cbn in Ho. assert (b = a) by congruence. subst. exact (Hf v a (jget_ok pure _ _ _ Hl E) Hb).
  Qed.
  Lemma as_frac_got v f : as_frac v = Ok f -> (exists n d, f = FRat n d) -> frac_readable f.
  Proof.
    destruct v; try discriminate. unfold as_frac, as_str. cbn [obind]. destruct (frac_from s) as [q|e|] eqn:E; try discriminate. cbn. intros Q. assert (q = f) by congruence. subst q.
    intros (n & d & ->). unfold frac_from in E. destruct (split_slash s) as [|a [|b [|]]]; try discriminate.
    - apply obind_ok in E as (x & Hx & E). assert (frac_new x 1 = FRat n d) by congruence. eapply frac_new_readable; [exact (parse_radix_bound _ _ _ _ Hx)| |eassumption]. vm_compute; discriminate.
    - apply obind_ok in E as (x & Hx & E). apply obind_ok in E as (y & Hy & E). assert (frac_new x y = FRat n d) by congruence.
      eapply frac_new_readable; [exact (parse_radix_bound _ _ _ _ Hx)|exact (parse_radix_bound _ _ _ _ Hy)|eassumption].
  Qed.
  Lemma clause_got v c : as_clause v = Ok c -> Forall (fun f => exists n d, f = FRat n d) c -> Forall frac_readable c.
  Proof.
    destruct v as [| | | |l|]; try discriminate. unfold as_clause. cbn [as_vec]. revert c. induction l as [|v l IH]; intros c H Hc; cbn [omapm] in H; [injection H as <-; constructor|].
    apply obind_ok in H as (b & Hb & H). apply obind_ok in H as (s & Hs & H). injection H as <-. inversion_clear Hc. constructor; [now apply (as_frac_got v)|now apply IH].
  Qed.
  Lemma clauses_got l : forall cs, omapm as_clause l = Ok cs -> Forall (Forall (fun f => exists n d, f = FRat n d)) cs -> Forall (Forall frac_readable) cs.
  Proof.
    induction l as [|v l IH]; intros c H Hc; cbn [omapm] in H; [injection H as <-; constructor|].
    apply obind_ok in H as (b & Hb & H). apply obind_ok in H as (s & Hs & H). injection H as <-. inversion_clear Hc. constructor; [now apply (clause_got v)|now apply IH].
  Qed.
  Lemma threshold_got v t : as_threshold hx v = Ok t -> finite t -> threshold_readable t.
  Proof.
    unfold as_threshold. destruct (as_hex hx v) as [n|e|] eqn:E1; unfold omap; cbn [obind orelse].
    - intros Q _. assert (t = Simple n) by congruence. subst. exact (as_hex_got v n E1).
    - destruct (as_clause v) as [c|e2|] eqn:E2; cbn [obind orelse].
      + intros Q. assert (t = Weighted (WSingle c)) by congruence. subst. cbn [finite threshold_readable]. now apply (clause_got v).
      + destruct (as_vec as_clause v) as [cs|e3|] eqn:E3; cbn [obind]; try discriminate. intros Q. assert (t = Weighted (WMulti cs)) by congruence. subst. cbn [finite threshold_readable].
        destruct v as [| | | |l|]; try discriminate E3. cbn [as_vec] in E3. intros Hf. split; [|now apply (clauses_got l)].
        destruct l as [|a l]; [discriminate E2|]. cbn [omapm] in E3. apply obind_ok in E3 as (x & _ & E3). apply obind_ok in E3 as (y & _ & E3). intros ->. discriminate E3.
      + discriminate.
    - discriminate.
  Qed.
  Lemma next_got v o : jall pure v -> as_next v = Ok o -> Forall sap_stable (opt_list o).
  Proof.
    intros Hv H. destruct v as [| | |[|c s]| |]; try discriminate H; try (cbn in H; injection H as <-; constructor). cbn [as_next] in H.
    apply obind_ok in H as (d & Hd & H). injection H as <-. constructor; [|constructor]. apply (as_sap_got (JStr (c :: s)) d Hv). unfold as_sap, as_str. cbn [obind]. exact Hd.
  Qed.
  Definition kc_got (kc : KeyConfig) : Prop :=
    Forall bp_stable (kc_keys kc) /\ Forall sap_stable (opt_list (kc_next kc)) /\ (finite (kc_threshold kc) -> threshold_readable (kc_threshold kc)).
  Ltac steps H := repeat (let x := fresh "x" in let Hx := fresh "Hx" in apply obind_ok in H as (x & Hx & H)); injection H as <-.
  Lemma read_kc_got l kc : ok l -> read_kc hx l = Ok kc -> kc_got kc.
  Proof.
    intros Hl H. unfold read_kc in H. steps H. unfold kc_got. cbn [kc_keys kc_next kc_threshold]. split; [|split].
    - apply (field_got (as_vec as_bp) (Forall bp_stable) l "k" x x3); try assumption. intros v a. apply as_vec_got. exact as_bp_got.
    - apply (field_got as_next (fun o => Forall sap_stable (opt_list o)) l "n" x1 x4); try assumption. exact next_got.
    - apply (field_got (as_threshold hx) (fun t => finite t -> threshold_readable t) l "kt" x0 x2); try assumption. intros v a _. apply threshold_got.
  Qed.
  Lemma keys_field l k o b : ok l -> field (as_vec as_bp) (jget l k) = Ok o -> need o = Ok b -> Forall bp_stable b.
  Proof. intros Hl. apply (field_got (as_vec as_bp) (Forall bp_stable)); [|exact Hl]. intros v a. apply as_vec_got. exact as_bp_got. Qed.
  Lemma hex_field l k o b : ok l -> field (as_hex hx) (jget l k) = Ok o -> need o = Ok b -> u64 b.
  Proof. intros Hl. apply (field_got (as_hex hx) u64); [|exact Hl]. intros v a _. apply as_hex_got. Qed.
  Lemma sap_field l k o b : ok l -> field as_sap (jget l k) = Ok o -> need o = Ok b -> sap_stable b.
  Proof. intros Hl. apply (field_got as_sap sap_stable); [|exact Hl]. exact as_sap_got. Qed.
  Lemma id_field l k o b : ok l -> field as_id (jget l k) = Ok o -> need o = Ok b -> id_stable b.
  Proof. intros Hl. apply (field_got as_id id_stable); [|exact Hl]. exact as_id_got. Qed.
  Lemma str_field l k o b : ok l -> field as_str (jget l k) = Ok o -> need o = Ok b -> rust_string b.
  Proof. intros Hl. apply (field_got as_str rust_string); [|exact Hl]. exact as_str_got. Qed.
  Ltac byneed lem := match goal with H : need ?o = Ok ?b |- ?G ?b => refine (lem _ _ o b _ _ H); eassumption end.
  Lemma read_iwc_got l w : ok l -> read_iwc hx l = Ok w -> u64 (iwc_tally w) /\ Forall bp_stable (iwc_witnesses w).
  Proof. intros Hl H. unfold read_iwc in H. steps H. cbn [iwc_tally iwc_witnesses]. split; [byneed hex_field|byneed keys_field]. Qed.
  Lemma read_wc_got l w : ok l -> read_wc hx l = Ok w -> u64 (wc_tally w) /\ Forall bp_stable (wc_prune w ++ wc_graft w).
  Proof.
    intros Hl H. unfold read_wc in H. steps H. cbn [wc_tally wc_prune wc_graft]. split; [byneed hex_field|]. apply Forall_app. split; byneed keys_field.
  Qed.
  Definition seal_strings (s : Seal) : list bytes := match s with SealLocation l => [ls_ilk l] | _ => [] end.
  Definition seal_got (s : Seal) : Prop :=
    sap_stable (seal_digest s) /\ Forall id_stable (seal_ids s) /\ Forall u64 (seal_numbers s) /\ Forall rust_string (seal_strings s).
  Ltac elems := repeat match goal with
      | H : jall pure (JArr (_ :: _)) |- _ => apply jall_arr in H
      | H : Forall (jall pure) (_ :: _) |- _ => inversion_clear H
      end.
  Ltac gotby lem := match goal with E : ?f ?v = Ok ?a, J : jall pure ?v |- ?G ?a => exact (lem v a J E) end.
  Lemma location_got v s : jall pure v -> as_location hx v = Ok s -> seal_got (SealLocation s).
  Proof.
    intros Hv H. unfold seal_got. cbn [seal_digest seal_ids seal_numbers seal_strings]. destruct v as [| | |x|l|l]; try discriminate H.
    - destruct l as [|a [|b [|c [|d [|e l]]]]]; cbn [as_location] in H; try discriminate H;
        try (apply obind_ok in H as (? & _ & H); discriminate H);
        try (do 4 (apply obind_ok in H as (? & _ & H)); discriminate H).
      elems. steps H. cbn [ls_prefix ls_sn ls_ilk ls_prior].
      split; [gotby as_sap_got|]. split; [constructor; [gotby as_id_got|constructor]|]. split; [constructor; [match goal with E : as_hex hx ?v = Ok ?a |- u64 ?a => exact (as_hex_got v a E) end|constructor]|constructor; [gotby as_str_got|constructor]].
    - apply jall_obj in Hv. cbn [as_location] in H. steps H. cbn [ls_prefix ls_sn ls_ilk ls_prior].
      split; [byneed sap_field|]. split; [constructor; [byneed id_field|constructor]|]. split; [constructor; [byneed hex_field|constructor]|constructor; [byneed str_field|constructor]].
  Qed.
  Lemma event_seal_got v s : jall pure v -> as_event_seal hx v = Ok s -> seal_got (SealEvent s).
  Proof.
    intros Hv H. unfold seal_got. cbn [seal_digest seal_ids seal_numbers seal_strings]. destruct v as [| | |x|l|l]; try discriminate H.
    - destruct l as [|a [|b [|c [|d l]]]]; cbn [as_event_seal] in H; try discriminate H;
        try (apply obind_ok in H as (? & _ & H); discriminate H);
        try (do 3 (apply obind_ok in H as (? & _ & H)); discriminate H).
      elems. steps H. cbn [es_prefix es_sn es_digest].
      split; [gotby as_sap_got|]. split; [constructor; [gotby as_id_got|constructor]|]. split; [constructor; [match goal with E : as_hex hx ?v = Ok ?a |- u64 ?a => exact (as_hex_got v a E) end|constructor]|constructor].
    - apply jall_obj in Hv. cbn [as_event_seal] in H. steps H. cbn [es_prefix es_sn es_digest].
      split; [byneed sap_field|]. split; [constructor; [byneed id_field|constructor]|]. split; [constructor; [byneed hex_field|constructor]|constructor].
  Qed.
  Lemma one_got k v d : jall pure v -> as_one k v = Ok d -> sap_stable d.
  Proof.
    intros Hv H. destruct v as [| | |x|l|l]; try discriminate H.
    - destruct l as [|a [|b l]]; cbn [as_one] in H; try discriminate H; [|apply obind_ok in H as (? & _ & H); discriminate H]. elems. gotby as_sap_got.
    - apply jall_obj in Hv. cbn [as_one] in H. apply obind_ok in H as (x & Hx & H). byneed sap_field.
  Qed.
  Lemma orelse_ok {A} (x y : out A) a : orelse x y = Ok a -> x = Ok a \/ y = Ok a.
  Proof. destruct x; cbn; auto; discriminate. Qed.
  Lemma omap_ok {A B} (h : A -> B) (x : out A) b : omap h x = Ok b -> exists a, x = Ok a /\ b = h a.
  Proof. destruct x as [a|e|]; cbn; try discriminate. intros H. exists a. split; [reflexivity|congruence]. Qed.
  Lemma seal_was_got v s : jall pure v -> as_seal hx v = Ok s -> seal_got s.
  Proof.
    intros Hv H. unfold as_seal in H. apply orelse_ok in H as [H|H]; [apply omap_ok in H as (a & Ha & ->); now apply (location_got v)|].
    apply orelse_ok in H as [H|H]; [apply omap_ok in H as (a & Ha & ->); now apply (event_seal_got v)|].
    apply orelse_ok in H as [H|H]; apply omap_ok in H as (a & Ha & ->); unfold seal_got; cbn [seal_digest seal_ids seal_numbers seal_strings];
      (split; [now apply (one_got _ v) in Ha|repeat constructor]).
  Qed.
  Lemma seals_field l k o b : ok l -> field (as_vec (as_seal hx)) (jget l k) = Ok o -> need o = Ok b -> Forall seal_got b.
  Proof. intros Hl. apply (field_got (as_vec (as_seal hx)) (Forall seal_got)); [|exact Hl]. intros v a. apply as_vec_got. exact seal_was_got. Qed.
  Lemma strs_field l k o b : ok l -> field (as_vec as_str) (jget l k) = Ok o -> need o = Ok b -> Forall rust_string b.
  Proof. intros Hl. apply (field_got (as_vec as_str) (Forall rust_string)); [|exact Hl]. intros v a. apply as_vec_got. exact as_str_got. Qed.
  Lemma seals_parts l : Forall seal_got l ->
    Forall sap_stable (map seal_digest l) /\ Forall id_stable (flat_map seal_ids l) /\ Forall u64 (flat_map seal_numbers l)
    /\ Forall rust_string (flat_map (fun s => match s with SealLocation l => [ls_ilk l] | _ => [] end) l).
  Proof.
    induction 1 as [|s l (H1 & H2 & H3 & H4) _ (I1 & I2 & I3 & I4)]; [repeat split; constructor|]. cbn [map flat_map].
    split; [now constructor|]. split; [apply Forall_app; auto|]. split; apply Forall_app; auto.
  Qed.
  Definition data_got (d : EventData) : Prop :=
    Forall bp_stable (data_keys d) /\ Forall sap_stable (data_digests d) /\ Forall id_stable (data_ids d)
    /\ Forall u64 (data_numbers d) /\ (Forall finite (data_thresholds d) -> Forall threshold_readable (data_thresholds d)) /\ Forall rust_string (data_strings d).
  Lemma icp_got_parts l e : ok l -> read_icp hx l = Ok e ->
    kc_got (icp_kc e) /\ u64 (iwc_tally (icp_wc e)) /\ Forall bp_stable (iwc_witnesses (icp_wc e)) /\ Forall rust_string (icp_config e) /\ Forall seal_got (icp_data e).
  Proof.
    intros Hl H. unfold read_icp in H. steps H. cbn [icp_kc icp_wc icp_config icp_data].
    match goal with A : read_kc _ _ = Ok _, B : read_iwc _ _ = Ok _ |- _ => apply read_kc_got in A; [|exact Hl]; apply read_iwc_got in B; [|exact Hl]; destruct B end.
    split; [assumption|]. split; [assumption|]. split; [assumption|]. split; [byneed strs_field|byneed seals_field].
  Qed.
  Lemma rot_got_parts l e : ok l -> read_rot hx l = Ok e ->
    kc_got (rot_kc e) /\ u64 (wc_tally (rot_wc e)) /\ Forall bp_stable (wc_prune (rot_wc e) ++ wc_graft (rot_wc e)) /\ sap_stable (rot_prev e) /\ Forall seal_got (rot_data e).
  Proof.
    intros Hl H. unfold read_rot in H. steps H. cbn [rot_kc rot_wc rot_prev rot_data].
    match goal with A : read_kc _ _ = Ok _, B : read_wc _ _ = Ok _ |- _ => apply read_kc_got in A; [|exact Hl]; apply read_wc_got in B; [|exact Hl]; destruct B end.
    split; [assumption|]. split; [assumption|]. split; [assumption|]. split; [byneed sap_field|byneed seals_field].
  Qed.
  Lemma ixn_got_parts l e : ok l -> read_ixn hx l = Ok e -> sap_stable (ixn_prev e) /\ Forall seal_got (ixn_data e).
  Proof. intros Hl H. unfold read_ixn in H. steps H. cbn [ixn_prev ixn_data]. split; [byneed sap_field|byneed seals_field]. Qed.
  Lemma data_was_got l d : ok l -> read_data hx l = Ok d -> data_got d.
  Proof.
    intros Hl H. unfold read_data in H. set (m := sort_map _) in H. cbv zeta in H.
    assert (Hm : ok m). { apply (sort_all (jall pure)). rewrite Forall_map. eapply Forall_impl; [|exact Hl]. intros kv. apply value_all. }
    clearbody m. apply obind_ok in H as (ot & _ & H). apply obind_ok in H as (tg & _ & H).
    assert (Thr : forall kc : KeyConfig, (finite (kc_threshold kc) -> threshold_readable (kc_threshold kc)) -> Forall finite [kc_threshold kc] -> Forall threshold_readable [kc_threshold kc]).
    { intros kc Hk Hf. inversion_clear Hf. constructor; auto. }
    unfold data_got, data_keys, data_digests, data_ids, data_numbers, data_thresholds, data_strings.
    destruct tg; try discriminate H; apply omap_ok in H as (e & He & ->); cbn [data_kc data_seals opt_list flat_map map app].
    - apply icp_got_parts in He as ((K1 & K2 & K3) & W1 & W2 & C & S); [|exact Hm]. apply seals_parts in S as (S1 & S2 & S3 & S4).
      rewrite !app_nil_r. split; [apply Forall_app; auto|]. split; [apply Forall_app; auto|]. split; [assumption|]. split; [constructor; auto|]. split; [now apply Thr|apply Forall_app; auto].
    - apply rot_got_parts in He as ((K1 & K2 & K3) & W1 & W2 & C & S); [|exact Hm]. apply seals_parts in S as (S1 & S2 & S3 & S4).
      rewrite !app_nil_r. split; [apply Forall_app; auto|]. split; [apply Forall_app; split; [auto|constructor; auto]|]. split; [assumption|]. split; [constructor; auto|]. split; [now apply Thr|assumption].
    - apply ixn_got_parts in He as (C & S); [|exact Hm]. apply seals_parts in S as (S1 & S2 & S3 & S4).
      split; [constructor|]. split; [constructor; auto|]. split; [assumption|]. split; [assumption|]. split; [auto|assumption].
    - unfold read_dip in He. apply obind_ok in He as (odi & Hod & He). apply obind_ok in He as (di & Hdi & He). apply obind_ok in He as (i & Hi & He). injection He as <-. cbn [dip_icp dip_delegator].
      apply icp_got_parts in Hi as ((K1 & K2 & K3) & W1 & W2 & C & S); [|exact Hm]. apply seals_parts in S as (S1 & S2 & S3 & S4).
      rewrite !app_nil_r. split; [apply Forall_app; auto|]. split; [apply Forall_app; auto|]. split; [constructor; [byneed id_field|assumption]|]. split; [constructor; auto|]. split; [now apply Thr|apply Forall_app; auto].
    - apply rot_got_parts in He as ((K1 & K2 & K3) & W1 & W2 & C & S); [|exact Hm]. apply seals_parts in S as (S1 & S2 & S3 & S4).
      rewrite !app_nil_r. split; [apply Forall_app; auto|]. split; [apply Forall_app; split; [auto|constructor; auto]|]. split; [assumption|]. split; [constructor; auto|]. split; [now apply Thr|assumption].
  Qed.
  Lemma take1_got {A} ka (fa : jval -> out A) (R : A -> Prop) l : (forall v a, jall pure v -> fa v = Ok a -> R a) -> forall oa, (forall a, oa = Some a -> R a) -> ok l ->
    match take1 ka fa l oa with Ok (o, r) => ok r /\ (forall a, o = Some a -> R a) | _ => True end.
  Proof.
    intros Hf. induction l as [|[k v] l IH]; intros oa Ho Hl; cbn [take1]; [split; [constructor|exact Ho]|]. inversion_clear Hl as [|? ? Hv Hl']. cbn [snd] in Hv.
    destruct (is k ka).
    - destruct oa; [exact I|]. destruct (fa v) as [a|e|] eqn:E; cbn [obind]; [|exact I..]. apply IH; [|exact Hl']. intros b Hb. assert (b = a) by congruence. subst. eauto.
    - specialize (IH oa Ho Hl'). destruct (take1 ka fa l oa) as [[a r]|e|]; cbn [obind]; [|exact I..]. destruct IH. split; [now constructor|assumption].
  Qed.
  Lemma take2_got {A B} ka kb (fa : jval -> out A) (fb : jval -> out B) (R : A -> Prop) (S : B -> Prop) l :
    (forall v a, jall pure v -> fa v = Ok a -> R a) -> (forall v a, jall pure v -> fb v = Ok a -> S a) ->
    forall oa ob, (forall a, oa = Some a -> R a) -> (forall a, ob = Some a -> S a) -> ok l ->
    match take2 ka kb fa fb l oa ob with Ok (o, o2, r) => ok r /\ (forall a, o = Some a -> R a) /\ (forall a, o2 = Some a -> S a) | _ => True end.
  Proof.
    intros Hf Hg. induction l as [|[k v] l IH]; intros oa ob Ho Hob Hl; cbn [take2]; [split; [constructor|split; assumption]|]. inversion_clear Hl as [|? ? Hv Hl']. cbn [snd] in Hv.
    destruct (is k ka); [|destruct (is k kb)].
    - destruct oa; [exact I|]. destruct (fa v) as [a|e|] eqn:E; cbn [obind]; [|exact I..]. apply IH; [|exact Hob|exact Hl']. intros b Hb. assert (b = a) by congruence. subst. eauto.
    - destruct ob; [exact I|]. destruct (fb v) as [a|e|] eqn:E; cbn [obind]; [|exact I..]. apply IH; [exact Ho| |exact Hl']. intros b Hb. assert (b = a) by congruence. subst. eauto.
    - specialize (IH oa ob Ho Hob Hl'). destruct (take2 ka kb fa fb l oa ob) as [[[a b] r]|e|]; cbn [obind]; [|exact I..]. destruct IH. split; [now constructor|assumption].
  Qed.
  Lemma event_was_got info l m : version_readable info -> ok l -> read_key_event hx info l = Ok m -> Forall finite (data_thresholds (em_data m)) -> event_stable m.
  Proof.
    intros Hv Hl H. unfold read_key_event in H. pose proof (take1_got "d" as_sap sap_stable l as_sap_got None ltac:(discriminate) Hl) as T1.
    destruct (take1 "d" as_sap l None) as [[d l1]|e|]; cbn [obind] in H; [|discriminate H..]. destruct T1 as [Hl1 Hd].
    apply obind_ok in H as (d' & Hd' & H). destruct d as [d|]; [|discriminate Hd']. assert (d' = d) by (cbn in Hd'; congruence). subst d'.
    pose proof (take2_got "i" "s" as_id (as_hex hx) id_stable u64 l1 as_id_got ltac:(intros v a _; apply as_hex_got) None None ltac:(discriminate) ltac:(discriminate) Hl1) as T2.
    destruct (take2 "i" "s" as_id (as_hex hx) l1 None None) as [[[i s] l2]|e|]; cbn [obind] in H; [|discriminate H..]. destruct T2 as (Hl2 & Hi & Hs).
    apply obind_ok in H as (i' & Hi' & H). destruct i as [i|]; [|discriminate Hi']. assert (i' = i) by (cbn in Hi'; congruence). subst i'.
    apply obind_ok in H as (s' & Hs' & H). destruct s as [s|]; [|discriminate Hs']. assert (s' = s) by (cbn in Hs'; congruence). subst s'.
    apply obind_ok in H as (data & Hdata & H). injection H as <-. cbn [em_data]. intros Hf.
    apply data_was_got in Hdata as (D1 & D2 & D3 & D4 & D5 & D6); [|exact Hl2].
    unfold event_stable. cbn [em_info em_digest em_prefix em_sn em_data]. split; [exact Hv|]. split; [now apply Hd|]. split; [now apply Hi|]. split; [now apply Hs|].
    split; [assumption|]. split; [assumption|]. split; [assumption|]. split; [assumption|]. split; [now apply D5|assumption].
  Qed.
End WhatWasRead.
