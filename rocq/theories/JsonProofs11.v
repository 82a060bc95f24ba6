(** * JsonProofs11: reading back queries and replies. *)
From Coq Require Import ZifyBool ZifyN ZifyNat.
From Verif Require Import Base Base64 Base64Proofs Codes NumFmt NumProofs Types SpecCodec CodecProofs CodecProofs2 KeyConf Version Cesr CesrProofs Message Keri Json JsonRead JsonProofs SpecJson JsonProofs2 JsonProofs3 JsonProofs4 JsonProofs7 JsonProofs8 JsonProofs9 JsonProofs10 Prop_Version
  ReplyStore ReplyStoreProofs SpecJsonQ JsonQuery.
Notation json := Json.json.

(** ** Reading fields in text order *)
Lemma scan_nil fs seen : scan fs seen [] = Ok ([], []).
Proof. reflexivity. Qed.
Lemma scan_mine fs seen k v l m r f : owned fs k = Some f ->
  existsb (fun k' => if bytes_eq_dec k k' then true else false) seen = false ->
  f v = Ok tt -> scan fs (k :: seen) l = Ok (m, r) -> scan fs seen ((k, v) :: l) = Ok ((k, v) :: m, r).
Proof. intros H1 H2 H3 H4. cbn [scan]. rewrite H1, H2, H3. cbn [obind]. rewrite H4. reflexivity. Qed.
Lemma scan_rest fs seen k v l m r : owned fs k = None ->
  scan fs seen l = Ok (m, r) -> scan fs seen ((k, v) :: l) = Ok (m, (k, v) :: r).
Proof. intros H1 H4. cbn [scan]. rewrite H1, H4. reflexivity. Qed.
Lemma scan_step fs seen k v l f : owned fs k = Some f ->
  existsb (fun k' => if bytes_eq_dec k k' then true else false) seen = false ->
  scan fs seen ((k, v) :: l) = let? _ := f v in let? x := scan fs (k :: seen) l in
    let (mine, rest) := (x : list (bytes * jval) * list (bytes * jval)) in Ok ((k, v) :: mine, rest).
Proof. intros H1 H2. cbn [scan]. now rewrite H1, H2. Qed.
Lemma scan_pass fs seen k v l : owned fs k = None ->
  scan fs seen ((k, v) :: l) = let? x := scan fs seen l in
    let (mine, rest) := (x : list (bytes * jval) * list (bytes * jval)) in Ok (mine, (k, v) :: rest).
Proof. intros H1. cbn [scan]. now rewrite H1. Qed.
Lemma chk_ok {A} (f : jval -> out A) v a : f v = Ok a -> chk f v = Ok tt.
Proof. intros H. unfold chk. now rewrite H. Qed.
(** one field that fails, none that panics *)
Lemma scan_err fs : forall l seen,
  Forall (fun kv => forall f, owned fs (fst kv) = Some f -> f (snd kv) <> Panic) l ->
  Exists (fun kv => exists f e, owned fs (fst kv) = Some f /\ f (snd kv) = Err e) l ->
  exists e, scan fs seen l = Err e.
Proof.
  induction l as [|[k v] l IH]; intros seen Hp He; [inversion He|]. apply Forall_cons_iff in Hp as [Hk Hp]. cbn [fst snd] in Hk. cbn [scan].
  destruct (owned fs k) as [f|] eqn:Ek.
  - destruct (existsb _ seen); [eexists; reflexivity|]. specialize (Hk f eq_refl). destruct (f v) as [u|e|] eqn:Ef; cbn [obind]; [|now exists e|congruence].
    inversion He as [? ? (f' & e & H1 & H2)|? ? H]; subst; cbn [fst snd] in *.
    + assert (f' = f) by congruence. subst. congruence.
    + destruct (IH (k :: seen) Hp H) as [e ->]. now exists e.
  - inversion He as [? ? (f' & e & H1 & H2)|? ? H]; subst; cbn [fst snd] in *; [congruence|].
    destruct (IH seen Hp H) as [e ->]. now exists e.
Qed.
(** no field panics *)
Lemma scan_calm fs : forall l seen,
  Forall (fun kv => forall f, owned fs (fst kv) = Some f -> f (snd kv) <> Panic) l -> scan fs seen l <> Panic.
Proof.
  induction l as [|[k v] l IH]; intros seen Hp; [discriminate|]. apply Forall_cons_iff in Hp as [Hk Hp]. cbn [fst snd] in Hk. cbn [scan].
  destruct (owned fs k) as [f|].
  - destruct (existsb _ seen); [discriminate|]. specialize (Hk f eq_refl). destruct (f v); cbn [obind]; [|discriminate|congruence].
    specialize (IH (k :: seen) Hp). destruct (scan fs (k :: seen) l) as [[? ?]|?|]; cbn [obind]; congruence.
  - specialize (IH seen Hp). destruct (scan fs seen l) as [[? ?]|?|]; cbn [obind]; congruence.
Qed.
Lemma got_ok {A} (f : jval -> out A) l k v a : jget l k = Some v -> f v = Ok a -> got f l k = Ok a.
Proof. intros H1 H2. unfold got. rewrite H1. cbn [field]. rewrite H2. reflexivity. Qed.
Lemma got_opt_ok {A} (f : jval -> out A) l k v o : jget l k = Some v -> as_opt f v = Ok o -> got_opt f l k = Ok o.
Proof. intros H1 H2. unfold got_opt. now rewrite H1. Qed.

(** ** The parts *)
Lemma keys_plain l : to_value (erase (keys_val l)) = erase (keys_val l).
Proof. unfold keys_val. cbn [erase to_value]. rewrite !map_map. reflexivity. Qed.
Lemma keys_text l : Forall bp_stable l -> as_vec as_bp (erase (keys_val l)) = Ok l.
Proof. intros H. rewrite <- keys_plain. now apply keys_st. Qed.
Lemma strings_text l : as_vec as_str (erase (VSeq (map VStr l))) = Ok l.
Proof. rewrite <- (strings_ok l) at 1. cbn [erase to_value]. rewrite !map_map. reflexivity. Qed.
Lemma clause_plain c : to_value (erase (clause_val c)) = erase (clause_val c).
Proof. unfold clause_val. cbn [erase to_value]. rewrite !map_map. reflexivity. Qed.
Lemma threshold_plain t : to_value (erase (threshold_val t)) = erase (threshold_val t).
Proof.
  destruct t as [n|[c|cs]]; cbn [threshold_val]; [reflexivity|apply clause_plain|].
  cbn [erase to_value]. f_equal. rewrite !map_map. apply map_ext. intros c. apply clause_plain.
Qed.
Lemma opt_sap_text o : Forall sap_stable (opt_list o) -> as_opt as_sap (erase (opt_val sap_str o)) = Ok o.
Proof.
  destruct o as [d|]; [|reflexivity]. cbn [opt_list opt_val erase as_opt]. intros H. inversion_clear H.
  rewrite as_sap_st by assumption. reflexivity.
Qed.
Lemma opt_tag_text o : as_opt as_tag_q (erase (opt_val tag_str o)) = Ok o.
Proof. destruct o as [[]|]; reflexivity. Qed.
Lemma eat_app p s : eat p (p ++ s) = Some s.
Proof. induction p as [|c p IH]; [reflexivity|]. cbn [app eat]. destruct (Byte.byte_eq_dec c c); congruence. Qed.
Lemma route_text r : Forall id_stable (route_ids r) -> route_from (route_str r) = Ok r.
Proof.
  destruct r as [| |i]; [reflexivity|reflexivity|]. cbn [route_ids route_str]. intros H. inversion_clear H as [|? ? Hi _].
  unfold route_from, starts. rewrite eat_app. change (skipn 5 (bstr "/ksn/" ++ id_str i)) with (id_str i). now rewrite Hi.
Qed.
Lemma digits_10 n : Forall (fun c => (48 <= b2n c <= 57)%N) (fmt_dec n).
Proof.
  apply Forall_forall. intros c Hc. destruct (fmt_chars 10 n c JsonProofs2.radix10 Hc) as (d & Hd & ->).
  assert (D : (d = 0 \/ d = 1 \/ d = 2 \/ d = 3 \/ d = 4 \/ d = 5 \/ d = 6 \/ d = 7 \/ d = 8 \/ d = 9)%N) by lia.
  repeat (destruct D as [D|D]); subst d; split; intro; discriminate.
Qed.

Section Read.
  Context (hx : bytes -> option N) (Hhx : reads_hex hx) (Hdx : reads_digits hx)
    (tw : Z -> bytes) (tr : bytes -> option Z).
  Lemma dec_text n : as_hex hx (JStr (fmt_dec n)) = custom (ReplyStore.read_number (write_number n)).
  Proof.
    unfold as_hex, as_str. cbn [obind]. rewrite Hdx; [|apply fmt_ne|apply digits_10]. unfold ReplyStore.read_number, write_number.
    pose proof (parse_radix_no_panic 16 u64_max (fmt_dec n)). destruct (parse_radix 16 u64_max (fmt_dec n)); [reflexivity|reflexivity|congruence].
  Qed.
  Lemma instant_text t : instant_kept tw tr t -> as_instant tr (JStr (tw t)) = Ok (micros t).
  Proof. intros (_ & H & _). unfold as_instant, as_str. cbn [obind]. rewrite H. reflexivity. Qed.
  Lemma si_text v : version_readable v -> as_si (JStr (si_str v)) = Ok v.
  Proof. intros H. unfold as_si, as_str. cbn [obind]. now rewrite version_back. Qed.
  Lemma last_est_text e : u64 (le_sn e) -> sap_stable (le_digest e) -> Forall bp_stable (le_br e) -> Forall bp_stable (le_ba e) ->
    as_last_est hx (erase (last_est_val e)) = Ok e.
  Proof.
    intros H1 H2 H3 H4. destruct e as [s d br ba]. cbn [le_sn le_digest le_br le_ba] in *.
    unfold last_est_val. cbn [erase map fst snd sfld fld le_sn le_digest le_br le_ba as_last_est].
    erewrite scan_mine; [|reflexivity|reflexivity|eapply chk_ok, as_hex_ok; eassumption|].
    2:{ eapply scan_mine; [reflexivity|reflexivity|eapply chk_ok, as_sap_st; eassumption|].
        eapply scan_mine; [reflexivity|reflexivity|eapply chk_ok, keys_text; eassumption|].
        eapply scan_mine; [reflexivity|reflexivity|eapply chk_ok, keys_text; eassumption|]. apply scan_nil. }
    cbn [obind].
    erewrite got_ok; [|reflexivity|exact (as_hex_ok hx Hhx s H1)]. cbn [obind].
    erewrite got_ok; [|reflexivity|exact (as_sap_st d H2)]. cbn [obind].
    erewrite got_ok; [|reflexivity|exact (keys_text br H3)]. cbn [obind].
    erewrite got_ok; [|reflexivity|exact (keys_text ba H4)]. reflexivity.
  Qed.
  Ltac step := erewrite scan_step; [|reflexivity|reflexivity]; unfold chk at 1.
  Ltac pass := erewrite scan_pass; [|reflexivity].
  Ltac got lem := erewrite got_ok; [|reflexivity|exact lem]; cbn [obind].
  Lemma next_text n : sap_stable n -> as_next (JStr (sap_str n)) = Ok (Some n).
  Proof. intros H. exact (next_st (Some n) (Forall_cons _ H (Forall_nil _))). Qed.
  Lemma threshold_text t : threshold_readable t -> as_threshold hx (erase (threshold_val t)) = Ok t.
  Proof. intros H. rewrite <- threshold_plain. now apply threshold_ok. Qed.
  Lemma kc_text t ks n : threshold_readable t -> Forall bp_stable ks -> sap_stable n ->
    read_kc_text hx [(bstr "kt", erase (threshold_val t)); (bstr "k", erase (keys_val ks)); (bstr "n", JStr (sap_str n))]
    = Ok (mkKC t ks (Some n)).
  Proof.
    intros H1 H2 H3. unfold read_kc_text.
    step. rewrite (threshold_text t H1). cbn [omap obind].
    step. rewrite (keys_text ks H2). cbn [omap obind].
    step. rewrite (next_text n H3). cbn [omap obind].
    rewrite scan_nil. cbn [obind]. got (threshold_text t H1). got (keys_text ks H2). got (next_text n H3). reflexivity.
  Qed.
  Lemma delegator_text o : as_opt as_id (JStr (write_delegator o)) = custom (read_delegator (write_delegator o)).
  Proof.
    unfold as_opt, as_id, as_str, read_delegator. cbn [obind]. now destruct (id_from (write_delegator o)).
  Qed.
  Lemma number_calm n : ReplyStore.read_number (write_number n) <> Panic.
  Proof. apply parse_radix_no_panic. Qed.
  (** what a notice is read as *)
  Lemma notice_text k a : notice_stable tw tr k -> notice_val tw k = Ok a -> as_notice hx tr (erase a) = custom (reread_notice k).
  Proof.
    destruct k as [v st f t c], st as [i sn d p et kc bt b di ee]. destruct kc as [kt ks n].
    intros (H1 & H2 & H3 & H4 & H5 & H6 & H7 & H8). unfold state_digests, state_keys in *.
    unfold notice_val, reread_notice.
    cbn [ksn_info ksn_state ksn_first_seen ksn_timestamp ksn_config st_prefix st_sn st_last_digest st_last_previous st_last_type st_current st_tally st_witnesses st_delegator st_last_est kc_threshold kc_keys kc_next] in *.
    destruct n as [n|]; [|discriminate]. intros [= <-].
    apply Forall_app in H5 as [H51 H5]. apply Forall_app in H5 as [H52 H53]. inversion_clear H51 as [|? ? Hd H5]. inversion_clear H5 as [|? ? He _]. inversion_clear H53 as [|? ? Hn _].
    apply Forall_app in H6 as [Hk H6]. apply Forall_app in H6 as [Hb H6]. apply Forall_app in H6 as [Hbr Hba].
    pose proof (number_calm f) as Cf. pose proof (number_calm sn) as Cs. pose proof (number_calm bt) as Cb.
    remember (VSeq (map VStr c)) as vc eqn:Evc. cbn [erase map fst snd sfld fld as_notice]. subst vc.
    step. rewrite (si_text v H1). cbn [omap obind].
    do 4 pass. step. rewrite dec_text.
    destruct (ReplyStore.read_number (write_number f)) as [f'|e|] eqn:Ef; [| |congruence].
    2:{ cbn [custom jerr omap obind]. destruct (ReplyStore.read_number (write_number sn)); [reflexivity|reflexivity|congruence]. }
    cbn [custom omap obind].
    step. rewrite (instant_text t H2). cbn [omap obind]. do 6 pass. step. rewrite (strings_text c). cbn [omap obind]. do 2 pass.
    rewrite scan_nil. cbn [obind].
    got (si_text v H1).
    erewrite got_ok; [|reflexivity|rewrite dec_text, Ef; reflexivity]. cbn [obind].
    got (instant_text t H2). got (strings_text c).
    assert (R : read_state hx [(bstr "i", JStr (id_str i)); (bstr "s", JStr (fmt_dec sn)); (bstr "p", erase (opt_val sap_str p)); (bstr "d", JStr (sap_str d));
        (bstr "et", erase (opt_val tag_str et)); (bstr "kt", erase (threshold_val kt)); (bstr "k", erase (keys_val ks)); (bstr "n", JStr (sap_str n));
        (bstr "bt", JStr (fmt_dec bt)); (bstr "b", erase (keys_val b)); (bstr "ee", erase (last_est_val ee)); (bstr "di", JStr (write_delegator di))]
      = custom (let? sn := ReplyStore.read_number (write_number sn) in let? bt := ReplyStore.read_number (write_number bt) in let? di := read_delegator (write_delegator di) in
                Ok (mkState i sn d p et (mkKC kt ks (Some n)) bt b di ee))).
    { unfold read_state. step. rewrite (as_id_st i H4). cbn [omap obind].
      step. rewrite dec_text. destruct (ReplyStore.read_number (write_number sn)) as [sn'|e|] eqn:Es; [|reflexivity|congruence]. cbn [custom omap obind].
      step. rewrite (opt_sap_text p H52). cbn [omap obind].
      step. rewrite (as_sap_st d Hd). cbn [omap obind].
      step. rewrite (opt_tag_text et). cbn [omap obind]. do 3 pass.
      step. rewrite dec_text. destruct (ReplyStore.read_number (write_number bt)) as [bt'|e|] eqn:Eb; [|reflexivity|congruence]. cbn [custom omap obind].
      step. rewrite (keys_text b Hb). cbn [omap obind].
      step. rewrite (last_est_text ee H8 He Hbr Hba). cbn [omap obind].
      step. rewrite delegator_text. destruct (read_delegator (write_delegator di)) as [di'|e|] eqn:Ed; [|reflexivity|reflexivity]. cbn [custom omap obind].
      rewrite scan_nil. cbn [obind].
      got (as_id_st i H4).
      erewrite got_ok; [|reflexivity|rewrite dec_text, Es; reflexivity]. cbn [obind].
      got (as_sap_st d Hd).
      erewrite got_opt_ok; [|reflexivity|exact (opt_sap_text p H52)]. cbn [obind].
      erewrite got_opt_ok; [|reflexivity|exact (opt_tag_text et)]. cbn [obind].
      erewrite got_ok; [|reflexivity|rewrite dec_text, Eb; reflexivity]. cbn [obind].
      got (keys_text b Hb).
      erewrite got_opt_ok; [|reflexivity|rewrite delegator_text, Ed; reflexivity]. cbn [obind].
      got (last_est_text ee H8 He Hbr Hba).
      rewrite (kc_text kt ks n H7 Hk Hn). reflexivity. }
    unfold write_delegator in R at 1. rewrite R.
    destruct (ReplyStore.read_number (write_number sn)) as [sn'|e|]; [|reflexivity|congruence]. cbn [obind].
    destruct (ReplyStore.read_number (write_number bt)) as [bt'|e|]; [|reflexivity|congruence]. cbn [obind].
    destruct (read_delegator (write_delegator di)); reflexivity.
  Qed.

  (** ** Envelopes *)
  Lemma envelope_text tv d t rt tl k v m r : sap_stable d -> instant_kept tw tr t -> Forall id_stable (route_ids rt) ->
    scan [own "d" as_sap] [bstr "d"] ((k, v) :: tl) = Ok ([], (k, v) :: tl) ->
    scan [own "dt" (as_instant tr); own "r" as_route] [bstr "r"; bstr "dt"] ((k, v) :: tl) = Ok (m, r) ->
    read_envelope tr ((bstr "t", tv) :: (bstr "d", JStr (sap_str d)) :: (bstr "dt", JStr (tw t)) :: (bstr "r", JStr (route_str rt)) :: (k, v) :: tl)
    = Ok (d, micros t, rt, (bstr "t", tv) :: r).
  Proof.
    intros Hd Ht Hr S1 S2. unfold read_envelope. pass. step. rewrite (as_sap_st d Hd). cbn [omap obind]. pass. pass. rewrite S1. cbn [obind].
    got (as_sap_st d Hd). pass. step. rewrite (instant_text t Ht). cbn [omap obind].
    assert (R : as_route (JStr (route_str rt)) = Ok rt) by exact (route_text rt Hr).
    step. rewrite R. cbn [omap obind]. rewrite S2. cbn [obind]. got (instant_text t Ht). got R. reflexivity.
  Qed.
  Lemma scan_two fs seen k v : owned fs k = None -> scan fs seen [(k, v)] = Ok ([], [(k, v)]).
  Proof. intros H. rewrite scan_pass by exact H. reflexivity. Qed.
  Lemma query_text info tv d t rt rr i : sap_stable d -> instant_kept tw tr t -> Forall id_stable (route_ids rt) -> id_stable i ->
    read_query tr info [(bstr "t", tv); (bstr "d", JStr (sap_str d)); (bstr "dt", JStr (tw t)); (bstr "r", JStr (route_str rt));
      (bstr "rr", JStr rr); (bstr "q", JObj [(bstr "i", JStr (id_str i))])] = Ok (mkQry info d (micros t) rt rr i).
  Proof.
    intros Hd Ht Hr Hi. unfold read_query. erewrite envelope_text; [|assumption|assumption|assumption|reflexivity|reflexivity]. cbn [obind].
    assert (A : as_args (JObj [(bstr "i", JStr (id_str i))]) = Ok i).
    { unfold as_args. step. rewrite (as_id_st i Hi). cbn [omap obind]. rewrite scan_nil. cbn [obind]. got (as_id_st i Hi). reflexivity. }
    pass. step. cbn [as_str omap obind]. step. rewrite A. cbn [omap obind]. rewrite scan_nil. cbn [obind].
    erewrite got_ok; [|reflexivity|reflexivity]. cbn [obind]. got A. reflexivity.
  Qed.
  Lemma reply_text info tv d t rt k a : sap_stable d -> instant_kept tw tr t -> Forall id_stable (route_ids rt) ->
    notice_stable tw tr k -> notice_val tw k = Ok a ->
    read_reply hx tr info [(bstr "t", tv); (bstr "d", JStr (sap_str d)); (bstr "dt", JStr (tw t)); (bstr "r", JStr (route_str rt)); (bstr "a", erase a)]
    = let? k := custom (reread_notice k) in Ok (mkReply info d (micros t) rt k).
  Proof.
    intros Hd Ht Hr Hk Ha. unfold read_reply. erewrite envelope_text; [|assumption|assumption|assumption|reflexivity|reflexivity]. cbn [obind].
    pass. step. rewrite (notice_text k a Hk Ha). destruct (reread_notice k) as [k'|e|] eqn:R; cbn [custom omap obind]; [|reflexivity|reflexivity].
    rewrite scan_nil. cbn [obind]. erewrite got_ok; [|reflexivity|rewrite (notice_text k a Hk Ha), R; reflexivity]. reflexivity.
  Qed.
  (** ** The readers of the other kinds *)
  Lemma key_event_refuses info tv dv l : (exists d, as_sap dv = Ok d) ->
    Forall (fun kv : bytes * jval => plain_key (fst kv)) l -> exists e, read_key_event hx info ((bstr "t", tv) :: (bstr "d", dv) :: l) = Err e.
  Proof.
    intros [d Hd] Hl. unfold read_key_event. cbn [take1]. change (is (bstr "t") "d") with false. change (is (bstr "d") "d") with true. cbv iota.
    rewrite Hd. cbn [obind]. rewrite take1_other by (eapply Forall_impl; [|exact Hl]; intros kv H; exact (proj1 (proj2 H))).
    cbn [obind]. unfold need at 1, ok_or at 1. cbn [obind take2].
    change (is (bstr "t") "i") with false. change (is (bstr "t") "s") with false. cbv iota.
    rewrite take2_other by (eapply Forall_impl; [|exact Hl]; intros kv H; exact (proj2 (proj2 H))). cbn [obind]. eexists. reflexivity.
  Qed.
  Lemma receipt_refuses info tv dv l : (exists d, as_sap dv = Ok d) ->
    Forall (fun kv : bytes * jval => plain_key (fst kv)) l -> exists e, read_receipt hx info ((bstr "t", tv) :: (bstr "d", dv) :: l) = Err e.
  Proof.
    intros [d Hd] Hl. unfold read_receipt. cbn [take_rct].
    change (is (bstr "t") "d") with false. change (is (bstr "t") "i") with false. change (is (bstr "t") "s") with false. change (is (bstr "d") "d") with true. cbv iota.
    rewrite Hd. cbn [obind]. rewrite take_rct_other by assumption. eexists. reflexivity.
  Qed.
End Read.
(** ** Whole messages *)
Lemma json_message_deep {D} (read : SerializationInfo -> list (bytes * jval) -> out D) x l r :
  Forall (fits_kv 126) ((bstr "v", VStr x) :: l) -> Forall (fun kv => is (fst kv) "v" = false) l ->
  json_message read (json (VMap ((bstr "v", VStr x) :: l)) ++ r) = to_pres r (let? v := custom (si_from x) in read v (map erase_kv l)).
Proof.
  intros Hf Hv. apply Forall_cons_iff in Hf as [Hx Hf].
  unfold json_message. rewrite skip_json. rewrite json_obj. cbn [app]. change (c_is x7b 123) with true. cbv iota.
  rewrite <- app_assoc. change (bstr "}" ++ r) with (x7d :: r).
  rewrite (read_top_obj x l 126); [| exact Hx| exact Hf | exact Hv |].
  - destruct (custom (si_from x)) as [v|e|]; cbn [obind]; [|reflexivity|reflexivity]. unfold need, ok_or. cbn [obind].
    destruct (read v (map erase_kv l)); reflexivity.
  - unfold fuel_for. rewrite json_obj. cbn [List.length]. rewrite !app_length. cbn. lia.
Qed.
Lemma str_kv n k s : rust_string s -> valid_utf8 (bstr k) = true -> fits_kv n (sfld k s).
Proof. intros H Hk. split; [exact Hk|exact H]. Qed.
Lemma route_ascii r : ascii (route_str r).
Proof. destruct r as [| |i]; [repeat constructor|repeat constructor|]. apply Forall_app. split; [repeat constructor|apply id_str_ascii]. Qed.
Lemma fits_opt {A} n (f : A -> bytes) o : (forall a, ascii (f a)) -> fits n (opt_val f o).
Proof. intros H. destruct o as [a|]; [apply fits_ascii, H|exact I]. Qed.
Lemma fits_last_est e : fits 2 (last_est_val e).
Proof.
  apply fits_struct. constructor; [one|]. constructor; [one|]. constructor; [split; [reflexivity|apply fits_keys]|]. constructor; [split; [reflexivity|apply fits_keys]|]. constructor.
Qed.
Ltac txt := first [apply id_str_ascii|apply hex_ascii|apply sap_str_ascii|apply si_ascii|apply tag_ascii|apply dec_ascii|apply route_ascii].
Lemma fits_notice tw k a : rust_string (tw (ksn_timestamp k)) -> Forall rust_string (ksn_config k) -> notice_val tw k = Ok a -> fits 3 a.
Proof.
  intros Ht Hc. unfold notice_val. destruct (kc_next (st_current (ksn_state k))) as [n|]; [|discriminate]. intros [= <-]. apply fits_struct.
  repeat match goal with
  | |- Forall _ (_ :: _) => constructor
  | |- Forall _ [] => constructor
  | |- fits_kv _ (sfld "dt" _) => apply str_kv; [exact Ht|reflexivity]
  | |- fits_kv _ (sfld _ _) => apply kv_ascii; [txt|reflexivity]
  | |- fits_kv _ (fld _ (opt_val sap_str _)) => split; [reflexivity|apply fits_opt, sap_str_ascii]
  | |- fits_kv _ (fld _ (opt_val tag_str _)) => split; [reflexivity|apply fits_opt, tag_ascii]
  | |- fits_kv _ (fld _ (last_est_val _)) => split; [reflexivity|apply fits_last_est]
  | |- fits_kv _ (fld "c" _) => split; [reflexivity|apply (fits_le 1 2); [lia|now apply fits_strings]]
  | |- fits_kv _ _ => one
  end.
Qed.
Lemma envelope_fits tw t r n : rust_string (tw t) -> Forall (fits_kv n) (envelope_fields tw t r).
Proof. intros H. constructor; [now apply str_kv|]. constructor; [apply kv_ascii; [txt|reflexivity]|constructor]. Qed.
Lemma head_fits v t d n : ascii d -> Forall (fits_kv n) (head_fields v t d).
Proof. intros H. unfold head_fields. repeat (constructor; [apply kv_ascii; [first [txt|exact H]|reflexivity]|]). constructor. Qed.
Lemma query_result {D} (read : SerializationInfo -> list (bytes * jval) -> out D) tw q r :
  rust_string (tw (q_timestamp q)) -> rust_string (q_reply_route q) ->
  json_message read (json (query_val tw q) ++ r)
  = to_pres r (let? v := custom (si_from (si_str (q_info q))) in
      read v [(bstr "t", JStr (bstr "qry")); (bstr "d", JStr (sap_str (q_digest q))); (bstr "dt", JStr (tw (q_timestamp q)));
              (bstr "r", JStr (route_str (q_route q))); (bstr "rr", JStr (q_reply_route q)); (bstr "q", JObj [(bstr "i", JStr (id_str (q_i q)))])]).
Proof.
  intros Ht Hr. unfold query_val, head_fields, query_fields, envelope_fields. cbn [app]. (etransitivity; [apply json_message_deep|reflexivity]).
  - repeat match goal with
    | |- Forall _ (_ :: _) => constructor
    | |- Forall _ [] => constructor
    | |- fits_kv _ (sfld "dt" _) => now apply str_kv
    | |- fits_kv _ (sfld "rr" _) => now apply str_kv
    | |- fits_kv _ (bstr "v", VStr _) => apply (kv_ascii 126 "v"); [txt|reflexivity]
    | |- fits_kv _ (sfld _ _) => apply kv_ascii; [txt|reflexivity]
    end.
    split; [reflexivity|]. apply fits_struct. constructor; [|constructor]. apply kv_ascii; [txt|reflexivity].
  - repeat constructor.
Qed.
Lemma reply_result {D} (read : SerializationInfo -> list (bytes * jval) -> out D) tw m a r :
  rust_string (tw (rp_timestamp m)) -> rust_string (tw (ksn_timestamp (rp_ksn m))) -> Forall rust_string (ksn_config (rp_ksn m)) ->
  notice_val tw (rp_ksn m) = Ok a ->
  omap json (reply_val tw m) = Ok (json (VMap (head_fields (rp_info m) TRpy (sap_str (rp_digest m)) ++ envelope_fields tw (rp_timestamp m) (rp_route m) ++ [fld "a" a])))
  /\ json_message read (json (VMap (head_fields (rp_info m) TRpy (sap_str (rp_digest m)) ++ envelope_fields tw (rp_timestamp m) (rp_route m) ++ [fld "a" a])) ++ r)
  = to_pres r (let? v := custom (si_from (si_str (rp_info m))) in
      read v [(bstr "t", JStr (bstr "rpy")); (bstr "d", JStr (sap_str (rp_digest m))); (bstr "dt", JStr (tw (rp_timestamp m)));
              (bstr "r", JStr (route_str (rp_route m))); (bstr "a", erase a)]).
Proof.
  intros Ht Hk Hc Ha. split; [unfold reply_val, reply_fields; rewrite Ha; reflexivity|].
  unfold head_fields, envelope_fields. cbn [app]. (etransitivity; [apply json_message_deep|reflexivity]).
  - repeat match goal with
    | |- Forall _ (_ :: _) => constructor
    | |- Forall _ [] => constructor
    | |- fits_kv _ (sfld "dt" _) => now apply str_kv
    | |- fits_kv _ (bstr "v", VStr _) => apply (kv_ascii 126 "v"); [txt|reflexivity]
    | |- fits_kv _ (sfld _ _) => apply kv_ascii; [txt|reflexivity]
    end.
    split; [reflexivity|]. apply (fits_le 3 126); [lia|]. now apply (fits_notice tw (rp_ksn m)).
  - repeat constructor.
Qed.
