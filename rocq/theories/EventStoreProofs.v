(** * EventStoreProofs: reading logs back, and the byte store against the store of values. *)
From Coq Require Import ZifyBool ZifyN ZifyNat.
From Verif Require Import Base Base64 Base64Proofs Codes NumFmt NumProofs Types SpecCodec CodecProofs CodecProofs2 KeyConf Version Cesr CesrProofs Message Keri Json JsonRead JsonQuery JsonProofs SpecJson JsonProofs2 JsonProofs3 JsonProofs4 JsonProofs8 JsonProofs10 JsonProofs11 Cbor CborProofs
  State Db Processor Spec StateProofs LogProofs EventStore SpecEventStore.

(** ** One entry *)
Lemma ascii_firstn n l : ascii l -> ascii (firstn n l).
Proof. revert n; induction l as [|c l IH]; intros [|n] H; cbn [firstn]; try constructor; inversion H; subst; [assumption|]. now apply IH. Qed.
Lemma asp_str_ascii s : ascii (asp_str s).
Proof.
  apply bstr_ascii_prefix. unfold as_code. apply Forall_app. split; [destruct (ssp_code (asp_sig s)); repeat constructor|].
  unfold num_to_b64. destruct (_ <? 63)%N; [apply ascii_firstn, encode_ascii|]. destruct (_ <? 4095)%N; [apply ascii_firstn|]; apply encode_ascii.
Qed.
Section Hex.
  Context (hx : bytes -> option N) (Hhx : reads_hex hx).
  Lemma stored_event_text m : event_stable m -> as_message (read_key_event hx) (erase (event_val m)) = Ok m.
  Proof.
    intros (Hv & Hd & Hi & Hs & D1 & D2 & D3 & D4 & D5 & D6). unfold event_val, head_fields, event_fields. cbn [app erase map].
    change (fst (sfld ?k ?x), erase (snd (sfld ?k ?x))) with (bstr k, JStr x). unfold as_message.
    rewrite (scan_mine _ _ _ _ _ [] ((bstr "t", JStr (tag_str (event_type (em_data m)))) :: (bstr "d", JStr (sap_str (em_digest m))) :: (bstr "i", JStr (id_str (em_prefix m)))
      :: (bstr "s", JStr (fmt_hex (em_sn m))) :: map erase_kv (data_fields (em_data m))) (chk as_si)); [|reflexivity|reflexivity|exact (chk_ok _ _ _ (si_text _ Hv))|].
    - cbn [obind]. erewrite (got_ok as_si _ "v"); [|reflexivity|exact (si_text _ Hv)]. cbn [obind].
      destruct m as [info d i s data]. cbn [em_info em_digest em_prefix em_sn em_data] in *.
      apply key_event_ok; [|now apply as_sap_st|now apply as_id_st|now apply as_hex_ok|now apply data_st].
      apply Forall_map. eapply Forall_impl; [|apply plain_keys]. intros kv H. exact H.
    - do 4 (apply scan_rest; [reflexivity|]).
      assert (G : forall l seen, Forall (fun kv : bytes * sval => plain_key (fst kv)) l ->
        scan [own "v" as_si] seen (map (fun kv => (fst kv, erase (snd kv))) l) = Ok ([], map erase_kv l)).
      { induction l as [|[k v] l IH]; intros seen H; [reflexivity|]. apply Forall_cons_iff in H as [[H _] Hl]. cbn [map fst snd].
        apply scan_rest; [cbn [owned own]; cbn [fst] in H; now rewrite H|]. now apply IH. }
      apply G, plain_keys.
  Qed.
  Lemma sigs_text l : Forall sig_stable l -> as_vec as_asp (erase (asps_val l)) = Ok l.
  Proof.
    intros H. unfold asps_val. cbn [erase as_vec]. rewrite map_map. induction H as [|s l Hs _ IH]; [reflexivity|]. cbn [map omapm].
    change (erase (VStr (asp_str s))) with (JStr (asp_str s)). unfold as_asp at 1. cbn [as_str obind]. unfold sig_stable in Hs. rewrite Hs. cbn [custom obind]. rewrite IH. reflexivity.
  Qed.
  Lemma signed_text se : storable se -> as_signed hx (erase (stored_val se)) = Ok (stored se).
  Proof.
    intros [He Hs]. unfold stored_val. cbn [erase map]. change (fst (fld ?k ?x), erase (snd (fld ?k ?x))) with (bstr k, erase x). unfold as_signed.
    rewrite (scan_mine _ _ _ _ _ [(bstr "signatures", erase (asps_val (sem_sigs se)))] [] (chk (as_message (read_key_event hx))));
      [|reflexivity|reflexivity|exact (chk_ok _ _ _ (stored_event_text _ He))|].
    - cbn [obind]. erewrite (got_ok _ _ "event_message"); [|reflexivity|exact (stored_event_text _ He)]. cbn [obind].
      erewrite (got_ok _ _ "signatures"); [|reflexivity|exact (sigs_text _ Hs)]. reflexivity.
    - apply (scan_mine _ _ _ _ _ [] [] (chk (as_vec as_asp))); [reflexivity|reflexivity|exact (chk_ok _ _ _ (sigs_text _ Hs))|reflexivity].
  Qed.
  Lemma entry_text x : storable_at x -> as_entry hx (erase (entry_val x)) = Ok (fst x, stored (snd x)).
  Proof.
    intros [Ht Hs]. unfold entry_val. cbn [erase map]. change (fst (fld ?k ?x), erase (snd (fld ?k ?x))) with (bstr k, erase x).
    change (fst (sfld ?k ?x), erase (snd (sfld ?k ?x))) with (bstr k, JStr x). unfold as_entry.
    rewrite (scan_mine _ _ _ _ _ [(bstr "signed_event_message", erase (stored_val (snd x)))] [] (chk as_str)); [|reflexivity|reflexivity|reflexivity|].
    - cbn [obind]. erewrite (got_ok as_str _ "timestamp"); [|reflexivity|reflexivity]. cbn [obind].
      erewrite (got_ok _ _ "signed_event_message"); [|reflexivity|exact (signed_text _ Hs)]. reflexivity.
    - apply (scan_mine _ _ _ _ _ [] [] (chk (as_signed hx))); [reflexivity|reflexivity|exact (chk_ok _ _ _ (signed_text _ Hs))|reflexivity].
  Qed.
  Lemma entry_fits x : rust_string (fst x) -> Forall rust_string (data_strings (em_data (sem_msg (snd x)))) -> fits 5 (entry_val x).
  Proof.
    intros Ht Hd. unfold entry_val. apply fits_struct. constructor; [now apply str_kv|]. constructor; [|constructor]. split; [reflexivity|].
    unfold stored_val. cbn [snd fld]. apply fits_struct. constructor; [split; [reflexivity|now apply fits_event]|]. constructor; [|constructor]. split; [reflexivity|].
    cbn [snd fld]. unfold asps_val. apply fits_seq. apply Forall_map. apply Forall_forall. intros s _. apply fits_ascii, asp_str_ascii.
  Qed.
  Lemma entry_fits_st x : storable_at x -> fits 5 (entry_val x).
  Proof. intros [Ht [He _]]. apply entry_fits; [exact Ht|]. apply He. Qed.
  Lemma log_text l : Forall storable_at l -> as_vec (as_entry hx) (erase (VSeq (map entry_val l))) = Ok (map (fun x => (fst x, stored (snd x))) l).
  Proof.
    intros H. cbn [erase as_vec]. rewrite map_map. induction H as [|x l Hx _ IH]; [reflexivity|]. cbn [map omapm]. rewrite (entry_text x Hx). cbn [obind]. now rewrite IH.
  Qed.
  Lemma log_fits l : Forall (fun x => fits 5 (entry_val x)) l -> fits 127 (VSeq (map entry_val l)).
  Proof. intros H. apply (fits_le 6 127); [lia|]. apply fits_seq. now apply Forall_map. Qed.
  Lemma cbor_head_short m n : List.length (cbor_head m n) <= 9.
  Proof. unfold cbor_head. repeat match goal with |- context [if ?c then _ else _] => destruct c end; cbn [List.length]; rewrite ?be_bytes_length; lia. Qed.
  Lemma log_length l : List.length (write_log l) <= 9 + total_size l.
  Proof.
    unfold write_log. cbn [cbor]. rewrite app_length. pose proof (cbor_head_short 4 (N.of_nat (List.length (map entry_val l)))).
    assert (List.length (flat_map cbor (map entry_val l)) = total_size l); [|lia]. clear. induction l as [|x l IH]; [reflexivity|]. cbn [map flat_map total_size fold_right]. rewrite app_length, IH. reflexivity.
  Qed.
  Lemma log_back l : Forall storable_at l -> held (List.length (write_log l)) -> read_log hx (write_log l) = Ok (map (fun x => (fst x, stored (snd x))) l).
  Proof.
    intros H Hl. unfold read_log, write_log in *. rewrite from_cbor_back; [|apply log_fits; eapply Forall_impl; [|exact H]; apply entry_fits_st|exact Hl]. now apply log_text.
  Qed.
End Hex.

(** ** The two stores *)
Definition st (x : bytes * SignedEventMessage) : bytes * SignedEventMessage := (fst x, stored (snd x)).
Lemma st_write l : write_log (map st l) = write_log l.
Proof. unfold write_log. rewrite map_map. reflexivity. Qed.
Lemma st_storable l : Forall storable_at l -> Forall storable_at (map st l).
Proof. intros H. apply Forall_map. eapply Forall_impl; [|exact H]. intros x Hx. exact Hx. Qed.
Lemma st_size l : total_size (map st l) = total_size l.
Proof. induction l as [|x l IH]; [reflexivity|]. cbn [map total_size fold_right]. unfold total_size in IH. rewrite IH. reflexivity. Qed.
Lemma size_app l1 l2 : total_size (l1 ++ l2) = total_size l1 + total_size l2.
Proof. unfold total_size. induction l1 as [|x l IH]; [reflexivity|]. cbn [app fold_right]. rewrite IH. lia. Qed.
Lemma size_filter (f : bytes * SignedEventMessage -> bool) l : total_size (filter f l) <= total_size l.
Proof. unfold total_size. induction l as [|x l IH]; [cbn; lia|]. cbn [filter]. destruct (f x); cbn [fold_right]; lia. Qed.
Lemma filter_snd (f : SignedEventMessage -> bool) (l : list (bytes * SignedEventMessage)) :
  map snd (filter (fun x => f (snd x)) l) = filter f (map snd l).
Proof. induction l as [|x l IH]; [reflexivity|]. cbn [filter map]. destruct (f (snd x)); cbn [map]; now rewrite IH. Qed.
Lemma snd_st l : map snd (map st l) = map stored (map snd l).
Proof. rewrite !map_map. reflexivity. Qed.
Lemma stored_stored l : map stored (map stored l) = map stored l.
Proof. rewrite map_map. reflexivity. Qed.
Lemma compute_state_kel E d d' id : get_kel d' id = get_kel d id -> compute_state E d' id = compute_state E d id.
Proof. intros H. unfold compute_state. now rewrite H. Qed.
Lemma validate_seal_kel E d d' s m : get_kel d' (es_prefix s) = get_kel d (es_prefix s) -> validate_seal E d' s m = validate_seal E d s m.
Proof. intros H. unfold validate_seal, get_event_at_sn. now rewrite H. Qed.

Section Stores.
  Context (E : Env) (hx : bytes -> option N) (Hhx : reads_hex hx).
  (** every log is the bytes of readable entries, of at most [n] bytes *)
  Definition inv (n : nat) (b : BDb) (d : Db) : Prop :=
    b_rest b = set_kel d [] /\
    forall id, match b_get b id with
               | None => get_kel d id = None
               | Some s => exists xs, s = write_log xs /\ Forall storable_at xs /\ total_size xs <= n /\ get_kel d id = Some (map stored (map snd xs))
               end.
  Lemma inv_list n b d id : inv n b d -> held (9 + n) -> b_list hx b id = match b_get b id with None => Ok None | Some _ => b_list hx b id end
    /\ match b_get b id with
       | None => b_list hx b id = Ok None /\ get_kel d id = None
       | Some s => exists xs, b_list hx b id = Ok (Some (map st xs)) /\ Forall storable_at xs /\ total_size xs <= n /\ get_kel d id = Some (map stored (map snd xs))
       end.
  Proof.
    intros [_ H] Hn. specialize (H id). unfold b_list. destruct (b_get b id) as [s|] eqn:G; [|auto]. split; [reflexivity|].
    destruct H as (xs & -> & Hs & Ht & Hk). exists xs. split; [|auto]. rewrite (log_back hx Hhx xs Hs); [reflexivity|].
    eapply held_le; [|exact Hn]. pose proof (log_length xs). lia.
  Qed.
  Lemma inv_log n b d id : inv n b d -> held (9 + n) -> b_log hx b id = Ok (get_kel d id).
  Proof.
    intros H Hn. destruct (inv_list n b d id H Hn) as [_ G]. unfold b_log. destruct (b_get b id).
    - destruct G as (xs & -> & _ & _ & ->). now rewrite snd_st.
    - destruct G as [-> ->]. reflexivity.
  Qed.
  Lemma inv_view n b d id : inv n b d -> held (9 + n) -> exists d', b_view hx b id = Ok d' /\ get_kel d' id = get_kel d id.
  Proof.
    intros H Hn. unfold b_view. rewrite (inv_log n b d id H Hn). cbn [obind]. eexists. split; [reflexivity|]. unfold get_kel at 1. cbn [set_kel db_kel].
    destruct (get_kel d id) as [l|]; [|reflexivity]. unfold tget. cbn [aget]. destruct (IdentifierPrefix_eq_dec id id); [reflexivity|congruence].
  Qed.
  Lemma inv_compute n b d id : inv n b d -> held (9 + n) -> compute_state_b E hx b id = compute_state E d id.
  Proof. intros H Hn. unfold compute_state_b. destruct (inv_view n b d id H Hn) as (d' & -> & K). cbn [obind]. now apply compute_state_kel. Qed.
  Lemma inv_delegation n b d se : inv n b d -> held (9 + n) -> check_delegation_b E hx b se = check_delegation E d se.
  Proof.
    intros H Hn. unfold check_delegation_b, check_delegation. destruct (em_data (sem_msg se)) as [e|e|e|e|e]; try reflexivity.
    - destruct (sem_seal se) as [src|]; [|reflexivity]. cbn [ok_or obind]. destruct (inv_view n b d (dip_delegator e) H Hn) as (d' & -> & K). cbn [obind]. now apply validate_seal_kel.
    - rewrite (inv_compute n b d _ H Hn). destruct (compute_state E d (em_prefix (sem_msg se))) as [[s|]|x|]; cbn [ok_or obind]; try reflexivity.
      destruct (st_delegator s) as [g|]; cbn [ok_or obind]; [|reflexivity]. destruct (sem_seal se) as [src|]; cbn [ok_or obind]; [|reflexivity].
      destruct (inv_view n b d g H Hn) as (d' & -> & K). cbn [obind]. now apply validate_seal_kel.
  Qed.
  Lemma inv_put n b d id xs t : b_rest b = set_kel d [] -> inv n b d -> Forall storable_at xs -> total_size xs <= n ->
    (forall i, tget t i = if IdentifierPrefix_eq_dec i id then Some (map stored (map snd xs)) else get_kel d i) ->
    inv n (b_put b id xs) (set_kel d t).
  Proof.
    intros Hr [_ H] Hs Ht Hk. split; [cbn [b_put b_rest]; rewrite Hr; reflexivity|]. intros i. unfold b_get, b_put. cbn [b_kel]. rewrite aget_aput.
    unfold get_kel. cbn [set_kel db_kel]. rewrite Hk. destruct (IdentifierPrefix_eq_dec i id) as [->|Ne].
    - exists xs. auto.
    - exact (H i).
  Qed.
  Lemma inv_mono n m b d : n <= m -> inv n b d -> inv m b d.
  Proof.
    intros L [H1 H2]. split; [exact H1|]. intros id. specialize (H2 id). destruct (b_get b id); [|exact H2]. destruct H2 as (xs & A & B & C & D). exists xs. split; [exact A|]. split; [exact B|]. split; [lia|exact D].
  Qed.
  Lemma inv_push n b d id ts se : inv n b d -> held (9 + n) -> storable_at (ts, se) ->
    exists b1, b_push hx b id (ts, se) = Ok b1 /\ inv (n + entry_size (ts, se)) b1 (add_kel d se id).
  Proof.
    intros H Hn Hx. pose proof H as [Hr Hk]. destruct (inv_list n b d id H Hn) as [_ G]. unfold b_push.
    assert (K : forall xs, Forall storable_at xs -> total_size xs <= n -> olist (get_kel d id) = map stored (map snd xs) ->
      inv (n + entry_size (ts, se)) (b_put b id (xs ++ [(ts, se)])) (add_kel d se id)).
    { intros xs Hs Ht Hl. unfold add_kel. apply inv_put; [exact Hr|eapply inv_mono; [|exact H]; lia| | |].
      - apply Forall_app. split; [exact Hs|constructor; [exact Hx|constructor]].
      - rewrite size_app. cbn [total_size fold_right]. lia.
      - intros i. rewrite tget_tpush. destruct (IdentifierPrefix_eq_dec i id); [|reflexivity]. f_equal. fold (get_kel d id). rewrite Hl, !map_app. reflexivity. }
    destruct (b_get b id) as [s|].
    - destruct G as (xs & -> & Hs & Ht & Hg). eexists. split; [reflexivity|]. apply K; [now apply st_storable|now rewrite st_size|]. rewrite Hg. cbn [olist]. now rewrite snd_st, stored_stored.
    - destruct G as [-> Hg]. eexists. split; [reflexivity|]. apply (K []); [constructor|cbn; lia|now rewrite Hg].
  Qed.
  Lemma inv_remove n b d id se : inv n b d -> held (9 + n) -> exists b1, b_remove hx b id se = Ok b1 /\ inv n b1 (remove_kel d id se).
  Proof.
    intros H Hn. pose proof H as [Hr Hk]. destruct (inv_list n b d id H Hn) as [_ G]. unfold b_remove. destruct (b_get b id) as [s|].
    - destruct G as (xs & -> & Hs & Ht & Hg). eexists. split; [reflexivity|]. unfold remove_kel. apply inv_put; [exact Hr|exact H| | |].
      + apply st_storable in Hs. rewrite Forall_forall in *. intros x Hx. apply filter_In in Hx. now apply Hs.
      + etransitivity; [apply size_filter|]. now rewrite st_size.
      + intros i. rewrite tget_tremove. destruct (IdentifierPrefix_eq_dec i id); [|reflexivity]. fold (get_kel d id). rewrite Hg. cbn [option_map]. f_equal.
        change (fun x : bytes * SignedEventMessage => negb (sem_eqb (snd x) se)) with (fun x : bytes * SignedEventMessage => (fun e => negb (sem_eqb e se)) (snd x)).
        rewrite filter_snd, snd_st. generalize (map snd xs) as l. intros l. induction l as [|y l IH]; [reflexivity|]. cbn [map filter]. destruct (negb (sem_eqb (stored y) se)); cbn [map]; [f_equal|]; exact IH.
    - destruct G as [-> Hg]. eexists. split; [reflexivity|]. split; [exact Hr|]. intros i. specialize (Hk i). assert (R : get_kel (remove_kel d id se) i = get_kel d i).
      { unfold remove_kel, get_kel. cbn [set_kel db_kel]. rewrite tget_tremove. destruct (IdentifierPrefix_eq_dec i id) as [->|]; [|reflexivity]. unfold get_kel in Hg. now rewrite Hg. }
      rewrite R. exact Hk.
  Qed.
  Theorem inv_process n b d ts se : inv n b d -> held (9 + n + entry_size (ts, se)) -> storable_at (ts, se) ->
    inv (n + entry_size (ts, se)) (fst (process_event_b E hx b ts se)) (fst (process_event E d se))
    /\ snd (process_event_b E hx b ts se) = snd (process_event E d se).
  Proof.
    intros H Hn Hx. assert (Hn0 : held (9 + n)) by (eapply held_le; [|exact Hn]; lia).
    assert (H' : inv (n + entry_size (ts, se)) b d) by (eapply inv_mono; [|exact H]; lia).
    unfold process_event_b, process_event. rewrite (inv_delegation n b d se H Hn0). destruct (check_delegation E d se) as [u|e0|]; [|auto..].
    unfold apply_to_state_b, apply_to_state. rewrite (inv_compute n b d _ H Hn0).
    destruct (let? os := compute_state E d (em_prefix (sem_msg se)) in apply_msg E (sem_msg se) (match os with Some s => s | None => state_default end)) as [ns|e1|]; [|auto..].
    destruct (inv_push n b d (em_prefix (sem_msg se)) ts se H Hn0 Hx) as (b1 & -> & I1). set (d1 := add_kel d se (em_prefix (sem_msg se))) in *.
    destruct (e_ser_event E (sem_msg se)) as [ser|e2|]; [|auto..].
    destruct (verify_signatures E ns ser se) as [s|e|]; [auto| |auto].
    set (id := em_prefix (sem_msg se)) in *.
    set (b2 := match e with EDuplicate => mkBDb (b_kel b1) (add_dup (b_rest b1) se id) | _ => b1 end).
    set (d2 := match e with EDuplicate => add_dup d1 se id | _ => d1 end).
    assert (I2 : inv (n + entry_size (ts, se)) b2 d2).
    { unfold b2, d2. destruct e; try exact I1. destruct I1 as [A B]. split; [cbn [b_rest]; rewrite A; reflexivity|]. exact B. }
    destruct (inv_remove _ b2 d2 id se I2) as (b3 & -> & I3); [eapply held_le; [|exact Hn]; lia|]. auto.
  Qed.
  Lemma inv_empty : inv 0 bdb_empty db_empty.
  Proof. split; [reflexivity|]. intros id. reflexivity. Qed.
  Theorem inv_run l : forall n b d, inv n b d -> held (9 + n + total_size l) -> Forall storable_at l ->
    inv (n + total_size l) (fst (run_b E hx b l)) (fst (run_v E d (map snd l))) /\ snd (run_b E hx b l) = snd (run_v E d (map snd l)).
  Proof.
    induction l as [|[ts se] l IH]; intros n b d H Hn Hs.
    - cbn [run_b run_v map fst snd]. split; [|reflexivity]. eapply inv_mono; [|exact H]. lia.
    - apply Forall_cons_iff in Hs as [Hx Hs].
      assert (Ht : total_size ((ts, se) :: l) = entry_size (ts, se) + total_size l) by reflexivity. rewrite Ht in *. clear Ht.
      set (k := total_size l) in *. clearbody k.
      assert (H1 : held (9 + n + entry_size (ts, se))) by (apply (held_le _ (9 + n + (entry_size (ts, se) + k))); [clear; lia|exact Hn]).
      assert (H2 : held (9 + (n + entry_size (ts, se)) + k)) by (apply (held_le _ (9 + n + (entry_size (ts, se) + k))); [clear; lia|exact Hn]).
      destruct (inv_process n b d ts se H H1 Hx) as [I1 R1].
      cbn [run_b run_v map snd]. destruct (process_event_b E hx b ts se) as [b1 o1]. destruct (process_event E d se) as [d1 o1']. cbn [fst snd] in I1, R1. subst o1'.
      destruct (IH (n + entry_size (ts, se)) b1 d1 I1 H2 Hs) as [I2 R2].
      destruct (run_b E hx b1 l) as [b2 os]. destruct (run_v E d1 (map snd l)) as [d2 os']. cbn [fst snd] in *. subst os'.
      split; [|reflexivity]. eapply inv_mono; [|exact I2]. clear; lia.
  Qed.
  Lemma inv_same n b d : inv n b d -> held (9 + n) -> same_store hx b d.
  Proof. intros H Hn. split; [apply H|]. intros id. now apply (inv_log n). Qed.
End Stores.

(** ** Entries that do not read back *)
Lemma omapm_in {A B} (f : A -> out B) l r a : omapm f l = Ok r -> In a l -> exists b, f a = Ok b.
Proof.
  revert r; induction l as [|x l IH]; intros r H Ha; [destruct Ha|]. cbn [omapm] in H. destruct (f x) as [y|e|] eqn:Ef; cbn [obind] in H; [|discriminate H..].
  destruct (omapm f l) as [ys|e|] eqn:El; cbn [obind] in H; [|discriminate H..]. destruct Ha as [<-|Ha]; [eauto|]. exact (IH ys eq_refl Ha).
Qed.
Definition unreads (hx : bytes -> option N) (x : bytes * SignedEventMessage) : Prop := forall y, as_entry hx (erase (entry_val x)) <> Ok y.
Lemma bad_sig_unreads hx x s : In s (sem_sigs (snd x)) -> (forall y, asp_from (asp_str s) <> Ok y) -> unreads hx x.
Proof.
  intros Hs Hb y H.
  assert (S : forall z, as_vec as_asp (erase (asps_val (sem_sigs (snd x)))) <> Ok z).
  { intros z Hz. unfold asps_val in Hz. cbn [erase as_vec] in Hz. rewrite map_map in Hz. apply (omapm_in _ _ _ (JStr (asp_str s))) in Hz.
    - destruct Hz as [b Hb']. unfold as_asp in Hb'. cbn [as_str obind] in Hb'. destruct (asp_from (asp_str s)) as [p|e|]; cbn [custom] in Hb'; [now apply (Hb p)|discriminate..].
    - apply in_map_iff. exists s. split; [reflexivity|exact Hs]. }
  assert (G : forall z, as_signed hx (erase (stored_val (snd x))) <> Ok z).
  { intros z Hz. unfold stored_val in Hz. cbn [erase map] in Hz. change (fst (fld ?k ?x), erase (snd (fld ?k ?x))) with (bstr k, erase x) in Hz. unfold as_signed in Hz.
    rewrite (scan_step _ _ _ _ _ (chk (as_message (read_key_event hx)))) in Hz by reflexivity.
    destruct (chk (as_message (read_key_event hx)) (erase (event_val (sem_msg (snd x))))) as [u|e|]; cbn [obind] in Hz; [|discriminate Hz..].
    rewrite (scan_step _ _ _ _ _ (chk (as_vec as_asp))) in Hz by reflexivity. unfold chk at 1 in Hz.
    destruct (as_vec as_asp (erase (asps_val (sem_sigs (snd x))))) as [l|e|]; [now apply (S l)|discriminate Hz..]. }
  unfold entry_val in H. cbn [erase map] in H. change (fst (fld ?k ?x), erase (snd (fld ?k ?x))) with (bstr k, erase x) in H.
  change (fst (sfld ?k ?x), erase (snd (sfld ?k ?x))) with (bstr k, JStr x) in H. unfold as_entry in H.
  rewrite (scan_step _ _ _ _ _ (chk as_str)) in H by reflexivity. cbn [chk as_str omap obind] in H.
  rewrite (scan_step _ _ _ _ _ (chk (as_signed hx))) in H by reflexivity. unfold chk at 1 in H.
  destruct (as_signed hx (erase (stored_val (snd x)))) as [l|e|]; [now apply (G l)|discriminate H..].
Qed.
Lemma log_unreads hx l x : Forall (fun x => fits 5 (entry_val x)) l -> held (List.length (write_log l)) -> In x l -> unreads hx x -> forall y, read_log hx (write_log l) <> Ok y.
Proof.
  intros Hf Hh Hx Hu y H. unfold read_log, write_log in *. rewrite from_cbor_back in H; [|now apply log_fits|exact Hh]. cbn [erase as_vec] in H. rewrite map_map in H.
  apply (omapm_in _ _ _ (erase (entry_val x))) in H; [|apply in_map_iff; now exists x]. destruct H as [b Hb]. exact (Hu b Hb).
Qed.

Section Broken.
  Context (E : Env) (hx : bytes -> option N).
  Lemma unreadable_iff b id : unreadable hx b id <-> exists s, b_get b id = Some s /\ forall y, read_log hx s <> Ok y.
  Proof.
    unfold unreadable, b_log, b_list. destruct (b_get b id) as [s|].
    - destruct (read_log hx s) as [l|e|] eqn:R; cbn [omap obind].
      + split; [discriminate|]. intros (s' & Hs & H). assert (s' = s) by congruence. subst. exfalso. exact (H l R).
      + split; [intros _; exists s; split; [reflexivity|congruence]|reflexivity].
      + split; [intros _; exists s; split; [reflexivity|congruence]|reflexivity].
    - split; [discriminate|]. now intros (s & Hs & _).
  Qed.
  Lemma broken_compute b id : unreadable hx b id -> compute_state_b E hx b id = Panic.
  Proof. intros H. unfold compute_state_b, b_view. rewrite H. reflexivity. Qed.
  Lemma broken_kerl b id : unreadable hx b id -> get_kerl_b E hx b id = Panic.
  Proof. intros H. unfold get_kerl_b, b_view. rewrite H. reflexivity. Qed.
  Lemma put_other b id l i : i <> id -> b_get (b_put b id l) i = b_get b i.
  Proof. intros H. unfold b_get, b_put. cbn [b_kel]. rewrite aget_aput. destruct (IdentifierPrefix_eq_dec i id); congruence. Qed.
  Lemma push_other b id x i b1 : i <> id -> b_push hx b id x = Ok b1 -> b_get b1 i = b_get b i.
  Proof. intros Hi. unfold b_push. destruct (b_list hx b id) as [[l|]|e|]; intros H; try discriminate H; injection H as <-; now apply put_other. Qed.
  Lemma remove_other b id x i b1 : i <> id -> b_remove hx b id x = Ok b1 -> b_get b1 i = b_get b i.
  Proof. intros Hi. unfold b_remove. destruct (b_list hx b id) as [[l|]|e|]; intros H; try discriminate H; injection H as <-; try reflexivity; now apply put_other. Qed.
  (** an event touches the log of its own identifier only *)
  Lemma process_other b ts se i : i <> em_prefix (sem_msg se) -> b_get (fst (process_event_b E hx b ts se)) i = b_get b i.
  Proof.
    intros Hi. unfold process_event_b. destruct (check_delegation_b E hx b se); try reflexivity. destruct (apply_to_state_b E hx b (sem_msg se)) as [ns|e|]; try reflexivity.
    destruct (b_push hx b (em_prefix (sem_msg se)) (ts, se)) as [b1|e|] eqn:P; try reflexivity. apply (push_other _ _ _ _ _ Hi) in P.
    destruct (e_ser_event E (sem_msg se)); try exact P. destruct (verify_signatures E ns a0 se) as [s|e|]; try exact P.
    set (b2 := match e with EDuplicate => _ | _ => b1 end). assert (P2 : b_get b2 i = b_get b i) by (unfold b2; destruct e; exact P).
    destruct (b_remove hx b2 (em_prefix (sem_msg se)) se) as [b3|e'|] eqn:R; try exact P2. cbn [fst]. rewrite (remove_other _ _ _ _ _ Hi R). exact P2.
  Qed.
  (** and none at all when that log cannot be read; nor is it accepted *)
  Lemma process_broken b ts se : unreadable hx b (em_prefix (sem_msg se)) ->
    fst (process_event_b E hx b ts se) = b /\ forall o, snd (process_event_b E hx b ts se) <> Ok o.
  Proof.
    intros H. unfold process_event_b. destruct (check_delegation_b E hx b se); try (split; [reflexivity|discriminate]).
    unfold apply_to_state_b. rewrite (broken_compute _ _ H). cbn [obind]. split; [reflexivity|discriminate].
  Qed.
  Lemma process_broken_panic b ts se : unreadable hx b (em_prefix (sem_msg se)) -> is_delegated_event se = false ->
    snd (process_event_b E hx b ts se) = Panic.
  Proof.
    intros H Hd. unfold process_event_b, check_delegation_b. unfold is_delegated_event in Hd.
    destruct (em_data (sem_msg se)); try discriminate Hd; unfold apply_to_state_b; rewrite (broken_compute _ _ H); reflexivity.
  Qed.
  Lemma unreadable_get b b' id : b_get b' id = b_get b id -> unreadable hx b id -> unreadable hx b' id.
  Proof. intros H. unfold unreadable, b_log, b_list. now rewrite H. Qed.
  Lemma process_stays b ts se id : unreadable hx b id -> b_get (fst (process_event_b E hx b ts se)) id = b_get b id.
  Proof.
    intros H. destruct (IdentifierPrefix_eq_dec id (em_prefix (sem_msg se))) as [->|Ne]; [|now apply process_other].
    now rewrite (proj1 (process_broken b ts se H)).
  Qed.
  Lemma run_broken id l : forall b, unreadable hx b id ->
    b_get (fst (run_b E hx b l)) id = b_get b id
    /\ Forall2 (fun x o => em_prefix (sem_msg (snd x)) = id -> (forall s, o <> Ok s) /\ (is_delegated_event (snd x) = false -> o = Panic)) l (snd (run_b E hx b l)).
  Proof.
    induction l as [|[ts se] l IH]; intros b H; [split; [reflexivity|constructor]|]. cbn [run_b].
    pose proof (process_stays b ts se id H) as S. pose proof (unreadable_get _ _ _ S H) as H1.
    pose proof (process_broken b ts se) as P. pose proof (process_broken_panic b ts se) as Q.
    destruct (process_event_b E hx b ts se) as [b1 o1]. cbn [fst snd] in *. destruct (IH b1 H1) as [I1 I2]. destruct (run_b E hx b1 l) as [b2 os]. cbn [fst snd] in *.
    split; [congruence|]. constructor; [|exact I2]. cbn [snd]. intros <-. split; [now apply P|now apply Q].
  Qed.
  (** what applies but does not read back breaks the log, whatever the signatures are *)
  Lemma breaks n b d ts se ns : inv n b d -> held (9 + n + entry_size (ts, se)) -> reads_hex hx ->
    fits 5 (entry_val (ts, se)) -> unreads hx (ts, se) ->
    check_delegation_b E hx b se = Ok tt -> apply_to_state_b E hx b (sem_msg se) = Ok ns ->
    unreadable hx (fst (process_event_b E hx b ts se)) (em_prefix (sem_msg se)).
  Proof.
    intros H Hn Hhx Hf Hu Hc Ha. assert (Hn0 : held (9 + n)) by (eapply held_le; [|exact Hn]; clear; lia).
    unfold process_event_b. rewrite Hc, Ha. set (id := em_prefix (sem_msg se)) in *.
    assert (P : exists xs, b_push hx b id (ts, se) = Ok (b_put b id (xs ++ [(ts, se)])) /\ Forall storable_at xs /\ total_size xs <= n).
    { unfold b_push. destruct (inv_list hx Hhx n b d id H Hn0) as [_ G]. destruct (b_get b id) as [s|].
      - destruct G as (xs & -> & Hs & Ht & _). exists (map st xs). split; [reflexivity|]. split; [now apply st_storable|now rewrite st_size].
      - destruct G as [-> _]. exists []. split; [reflexivity|]. split; [constructor|cbn; clear; lia]. }
    destruct P as (xs & -> & Hs & Ht). set (b1 := b_put b id (xs ++ [(ts, se)])).
    assert (U : forall r, unreadable hx (mkBDb (b_kel b1) r) id).
    { intros r. apply unreadable_iff. exists (write_log (xs ++ [(ts, se)])). split.
      - unfold b_get, b1, b_put. cbn [b_kel]. rewrite aget_aput. destruct (IdentifierPrefix_eq_dec id id); congruence.
      - apply (log_unreads hx _ (ts, se)).
        + apply Forall_app. split; [eapply Forall_impl; [|exact Hs]; apply entry_fits_st|constructor; [exact Hf|constructor]].
        + eapply held_le; [|exact Hn]. pose proof (log_length (xs ++ [(ts, se)])) as L. rewrite size_app in L.
          assert (T : total_size [(ts, se)] = entry_size (ts, se) + 0) by reflexivity. rewrite T in L. clear - L Ht. lia.
        + apply in_or_app. right. now left.
        + exact Hu. }
    assert (U1 : unreadable hx b1 id) by exact (U (b_rest b1)).
    destruct (e_ser_event E (sem_msg se)) as [ser|e|]; try exact U1.
    destruct (verify_signatures E ns ser se) as [s|e|]; try exact U1.
    set (b2 := match e with EDuplicate => _ | _ => b1 end). assert (U2 : unreadable hx b2 id) by (unfold b2; destruct e; try exact U1; apply U).
    unfold b_remove. pose proof (proj1 (unreadable_iff _ _) U2) as (s & Hg & Hr). unfold b_list. rewrite Hg. destruct (read_log hx s) as [y|e'|] eqn:R; [exfalso; exact (Hr y eq_refl)|exact U2..].
  Qed.
End Broken.
