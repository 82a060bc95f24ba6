(** Two controllers that introduce themselves over JSON. *)
From Coq Require Import ZifyBool ZifyN ZifyNat.
From Verif Require Import Base Base64 Base64Proofs Codes NumFmt NumProofs Types KeyConf SpecCodec CodecProofs Version Cesr SpecCesr CesrProofs CesrProofs2 Message
  Keri Json JsonRead JsonProofs SpecJson JsonProofs2 JsonProofs3 JsonProofs4 JsonProofs5 Prop_Version Prop_Message Prop_Json Prop_Json2 Prop_Json3
  State Db Processor Spec SpecProc SpecHistory StateProofs LogProofs LogTheorems ProcProofs ProcProofs2 ProcProofs3 HistoryProofs Prop_State Prop_Proc Prop_Rules SpecKeri KeriProofs KeriProofs2 Prop_Keri SpecRespond RespondProofs Prop_Respond.

(** ** Sizes *)
Lemma prefix_len code d n : List.length code <= 4 -> List.length d = n -> List.length (prefix_str code d) <= 4 + enc_len n.
Proof. intros H1 H2. unfold prefix_str. destruct d; [cbn; lia|]. rewrite app_length, encode_length, H2. lia. Qed.
Lemma sap_len p : sap_sized p -> List.length (sap_str p) <= 200.
Proof.
  unfold sap_sized. destruct p as [g d]. cbn [sap_code sap_digest]. intros H. unfold sap_str. cbn [sap_code sap_digest].
  etransitivity; [eapply prefix_len; [|exact H]; destruct g; cbn; lia|]. destruct g; vm_compute; lia.
Qed.
Lemma bp_len p : bp_sized p -> List.length (bp_str p) <= 200.
Proof.
  unfold bp_sized. destruct p as [g d]. cbn [bp_code bp_key]. intros H. unfold bp_str. cbn [bp_code bp_key].
  etransitivity; [eapply prefix_len; [|exact H]; destruct g; cbn; lia|]. destruct g; vm_compute; lia.
Qed.
Lemma ssp_len p : ssp_sized p -> List.length (ssp_str p) <= 200.
Proof.
  unfold ssp_sized. destruct p as [g d]. cbn [ssp_code ssp_sig]. intros H. unfold ssp_str. cbn [ssp_code ssp_sig].
  etransitivity; [eapply prefix_len; [|exact H]; destruct g; cbn; lia|]. destruct g; vm_compute; lia.
Qed.
Lemma id_len p : id_sized p -> List.length (id_str p) <= 200.
Proof. destruct p; cbn [id_sized id_str]; [apply bp_len|apply sap_len|apply ssp_len]. Qed.
Lemma hex_len n : u64 n -> List.length (fmt_hex n) <= 16.
Proof. intros H. apply (fmt_len 16 16 n radix16); [|lia]. unfold u64 in H. eapply N.le_lt_trans; [exact H|]. vm_compute. reflexivity. Qed.
Lemma member_length k s : plain s -> plain (bstr k) -> List.length (member (sfld k s)) = List.length (bstr k) + List.length s + 5.
Proof. intros H Hk. unfold member, sfld, fld. cbn [fst snd Json.json]. rewrite !quote_plain by assumption. unfold bytes in *. repeat (rewrite ?app_length; cbn [List.length app]). change (List.length (bstr """")) with 1. change (List.length (bstr ":")) with 1. lia. Qed.

Lemma receipt_len r : (si_size (rct_info r) < 16777216)%N -> version_ok (rct_info r) -> sap_sized (rct_digest r) -> id_sized (rct_prefix r) -> u64 (rct_sn r) ->
  List.length (Json.json (receipt_val r)) <= 1000.
Proof.
  intros Hz Hv Hd Hi Hs. unfold receipt_val, head_fields. cbn [app]. rewrite json_v_len by apply si_plain.
  assert (L : List.length (si_str (rct_info r)) = 17).
  { rewrite (si_len _ (si_new JSON 0)) by (assumption || (split; reflexivity) || reflexivity). apply si_new_len. reflexivity. }
  rewrite L. unfold tail_text. cbn [flat_map]. rewrite app_nil_r. pose proof (sap_len _ Hd). pose proof (id_len _ Hi). pose proof (hex_len _ Hs).
  repeat (cbn [List.length app]; rewrite ?app_length). rewrite !member_length by (apply tag_plain || apply sap_plain || apply id_plain || apply hex_plain || lit_plain).
  cbn [tag_str]. repeat match goal with |- context [List.length (bstr ?x)] => let v := eval vm_compute in (List.length (bstr x)) in change (List.length (bstr x)) with v end. change (List.length (tag_str TRct)) with 3. lia.
Qed.

(** ** Careful controllers *)
Section Careful.
  Context (E : Env) (K : KEnv).
  Lemma careful_log k : careful E K k -> exists cs l s, k_db k = run E db_empty cs /\ get_kel (k_db k) (k_prefix k) = Some l /\ l <> [] /\ k_prefix k <> id_default
    /\ good_log E (k_prefix k) l s /\ st_delegator s = None /\ (forall e, In e l -> SpecProc.is_delegated (sem_msg e) = false).
  Proof.
    intros H. destruct (careful_working E K k H) as (_ & (l & [Hid Hl Hne (s & more & Hg & Hd & _) _ _]) & cs & Hcs).
    exists cs, l, s. repeat (split; [assumption|]).
    intros e He. rewrite Hcs in Hl. destruct l as [|e0 l]; [congruence|].
    destruct (reach_good E cs _ _ Hid Hl) as (s' & Hg' & Hc'). assert (s' = s) by (destruct Hg as [_ Hg], Hg' as [_ Hg']; congruence). subst s'.
    destruct (C05_delegation_is_fixed E cs _ _ e0 s Hid Hl eq_refl Hc') as [D1 D2]. rewrite Hd in D1. specialize (D2 e He). rewrite <- D1 in D2.
    apply In_nth_error in He as (n & He). destruct (C03_one_inception_first E cs _ _ n e Hid Hl He) as [[I1 _] _].
    unfold SpecProc.is_delegated. unfold is_inception in I1. destruct (em_data (sem_msg e)) as [x|x|x|x|x] eqn:Hx; try reflexivity; [|congruence].
    exfalso. specialize (I1 eq_refl). subst n. cbn in He. injection He as ->. unfold named_delegator in D1. rewrite Hx in D1. discriminate.
  Qed.
  Lemma careful_first k l e0 l' : careful E K k -> get_kel (k_db k) (k_prefix k) = Some l -> l = e0 :: l' ->
    (exists i, em_data (sem_msg e0) = Icp i) /\ em_sn (sem_msg e0) = 0%N /\ (forall e, In e l' -> forall i, em_data (sem_msg e) <> Icp i)
    /\ (forall e, In e l -> em_prefix (sem_msg e) = k_prefix k).
  Proof.
    intros H Hl E0. destruct (careful_log k H) as (cs & l1 & s & Hcs & Hl1 & _ & Hid & Hg & _ & Hnd). rewrite Hl in Hl1. injection Hl1 as <-.
    rewrite Hcs in Hl. subst l. split; [|split; [|split]].
    - destruct (C03_one_inception_first E cs _ _ 0 e0 Hid Hl eq_refl) as [[_ I] _]. specialize (I eq_refl). specialize (Hnd e0 (or_introl eq_refl)).
      unfold is_inception, SpecProc.is_delegated in *. destruct (em_data (sem_msg e0)); try discriminate. eauto.
    - exact (C01_log_sequence_numbers E cs _ _ 0 e0 Hid Hl eq_refl).
    - intros e He i Hi. apply In_nth_error in He as (n & He). destruct (C03_one_inception_first E cs _ _ (S n) e Hid Hl He) as [[I _] _].
      unfold is_inception in I. rewrite Hi in I. discriminate (I eq_refl).
    - intros e He. apply In_nth_error in He as (n & He). apply (C03_one_inception_first E cs _ _ n e Hid Hl He).
  Qed.
  Lemma careful_prefix_kind k : careful E K k -> forall s, k_prefix k <> IdSelfSigning s.
  Proof.
    intros H s Hs. destruct (careful_log k H) as (cs & l & st & Hcs & Hl & Hne & Hid & _). rewrite Hcs in Hl. destruct l as [|e l]; [congruence|].
    pose proof (c09_binding E cs _ _ e Hid Hl eq_refl) as B. now rewrite Hs in B.
  Qed.
End Careful.

(** ** Receipts one after another *)
Section Take.
  Context (E : Env).
  Lemma take_all rs : forall cs, let d := run E db_empty cs in
    Forall (fun r => forall cs', (forall id, log (run E db_empty cs') id = log d id) ->
       exists s, process E (run E db_empty cs') (MTransferableRct r) = (add_receipt_t (run E db_empty cs') r (rct_prefix (tr_body r)), Ok (Some s))) rs ->
    let calls := map CProcess (map MTransferableRct rs) in
    successes E d calls = map MTransferableRct rs /\ quiet E d calls = true
    /\ (forall id, get_kel (run E d calls) id = get_kel d id)
    /\ forall id, olist (get_receipts_t (run E d calls) id) = olist (get_receipts_t d id) ++ about id rs.
  Proof.
    induction rs as [|r rs IH]; intros cs; cbv zeta; intros H.
    { cbn [map successes quiet run fold_left]. repeat (split; [reflexivity|]). intros id. cbn. now rewrite app_nil_r. }
    inversion H as [|? ? Hr Hrs]; subst. destruct (Hr cs (fun _ => eq_refl)) as (s & Hp).
    set (d := run E db_empty cs) in *. set (d1 := add_receipt_t d r (rct_prefix (tr_body r))) in *.
    assert (R1 : run E db_empty (cs ++ [CProcess (MTransferableRct r)]) = d1) by (unfold run; rewrite fold_left_app; cbn [fold_left call]; fold (run E db_empty cs); fold d; now rewrite Hp).
    assert (K1 : forall id, get_kel d1 id = get_kel d id) by reflexivity.
    destruct (IH (cs ++ [CProcess (MTransferableRct r)])) as (I1 & I2 & I3 & I4).
    { rewrite R1. exact Hrs. }
    rewrite R1 in *. cbn [map successes quiet run fold_left call]. unfold succeeds, panics. rewrite Hp. cbn [fst snd is_panic negb andb app].
    fold (run E d1 (map CProcess (map MTransferableRct rs))). split; [now rewrite I1|]. split; [exact I2|]. split; [intros id; now rewrite I3|].
    intros id. rewrite I4. subst d1. unfold get_receipts_t, add_receipt_t. cbn [db_rct_t set_rct_t]. rewrite tget_tpush.
    destruct (IdentifierPrefix_eq_dec id (rct_prefix (tr_body r))) as [-> |Hn].
    - cbn [olist]. rewrite about_cons_same by reflexivity. now rewrite <- app_assoc.
    - rewrite about_cons_other by congruence. reflexivity.
  Qed.
  Lemma accepts_successes l : forall d, accepts_each E d l -> successes E d (ProcProofs2.submit l) = map MEvent l.
  Proof.
    induction l as [|e l IH]; intros d H; [reflexivity|]. unfold ProcProofs2.submit. cbn [map successes].
    destruct (H [] e l eq_refl) as (d' & s & Hp). cbn [ProcProofs2.submit map run fold_left] in Hp. unfold succeeds. rewrite Hp. cbn [snd app call fst]. rewrite Hp. cbn [fst]. f_equal.
    apply IH. intros pre se post E1. destruct (H (e :: pre) se post) as (d'' & s' & Hp'); [now rewrite E1|]. exists d'', s'.
    cbn [ProcProofs2.submit map run fold_left call] in Hp'. rewrite Hp in Hp'. exact Hp'.
  Qed.
  Lemma submit_receipts l : forall d id, get_receipts_t (run E d (ProcProofs2.submit l)) id = get_receipts_t d id.
  Proof.
    induction l as [|e l IH]; intros d id; [reflexivity|]. unfold ProcProofs2.submit. cbn [map run fold_left].
    change (fold_left (call E) (map (fun m => CProcess (MEvent m)) l) ?x) with (run E x (ProcProofs2.submit l)). rewrite IH.
    unfold get_receipts_t. cbn [call process]. rewrite (event_frame E db_rct_t); reflexivity.
  Qed.
  Lemma successes_app2 a : forall d b, successes E d (a ++ b) = successes E d a ++ successes E (run E d a) b.
  Proof. induction a as [|c a IH]; intros d b; [reflexivity|]. cbn [app successes run fold_left]. rewrite IH, app_assoc. reflexivity. Qed.
  Lemma quiet_app2 a : forall d b, quiet E d (a ++ b) = (quiet E d a && quiet E (run E d a) b)%bool.
  Proof. induction a as [|c a IH]; intros d b; [reflexivity|]. cbn [app quiet run fold_left]. rewrite IH, andb_assoc. reflexivity. Qed.
End Take.

(** ** What an answer to a log and receipts is *)
Section Answers.
  Context (E : Env) (K : KEnv) (d : Db) (me : IdentifierPrefix) (p : KeyPair).
  Lemma answers_receipts rs0 rs out : answers E K d me p (map MTransferableRct rs0) rs out -> rs = [] /\ out = [].
  Proof.
    revert rs out. induction rs0 as [|r rs0 IH]; intros rs out H; cbn [map] in H; inversion H; subst; auto.
  Qed.
  Lemma answers_events l : forall rs0 rs out, (forall e, In e l -> forall i, em_data (sem_msg e) <> Icp i) ->
    answers E K d me p (map MEvent l ++ map MTransferableRct rs0) rs out ->
    Forall2 (fun e r => my_receipt E K d me p (sem_msg e) r) l rs
    /\ exists ts, Forall2 (receipt_text K) rs ts /\ out = List.concat ts.
  Proof.
    induction l as [|e l IH]; intros rs0 rs out Hn H; cbn [map app] in H.
    { apply answers_receipts in H as [-> ->]. split; [apply Forall2_nil|]. exists []. split; [apply Forall2_nil|reflexivity]. }
    inversion H as [| |ev ms r rs' intro t out' Hr Ht Hi Hrest]; subst.
    destruct (IH _ _ _ (fun e' H' => Hn e' (or_intror H')) Hrest) as (I1 & ts & I2 & ->).
    destruct Hi as [((i & Hi) & _)|[_ ->]]; [now destruct (Hn e (or_introl eq_refl) i)|].
    split; [now apply Forall2_cons|]. exists (t :: ts). split; [now apply Forall2_cons|reflexivity].
  Qed.
  Lemma answers_log e0 l rs0 rs out : (forall e, In e l -> forall i, em_data (sem_msg e) <> Icp i) ->
    answers E K d me p (map MEvent (e0 :: l) ++ map MTransferableRct rs0) rs out ->
    exists intro ts, introduction E d me (sem_msg e0) intro /\ Forall2 (fun e r => my_receipt E K d me p (sem_msg e) r) (e0 :: l) rs
      /\ Forall2 (receipt_text K) rs ts /\ out = intro ++ List.concat ts.
  Proof.
    intros Hn H. cbn [map app] in H. inversion H as [| |ev ms r rs' intro t out' Hr Ht Hi Hrest]; subst.
    destruct (answers_events l rs0 _ _ Hn Hrest) as (I1 & ts & I2 & ->).
    exists intro, (t :: ts). split; [exact Hi|]. split; [now apply Forall2_cons|]. split; [now apply Forall2_cons|reflexivity].
  Qed.
End Answers.

(** ** Texts *)
Lemma oconcat_app {A} (f : A -> out bytes) a b x y : oconcat f a = Ok x -> oconcat f b = Ok y -> oconcat f (a ++ b) = Ok (x ++ y).
Proof.
  revert x. induction a as [|c a IH]; intros x Ha Hb; cbn [oconcat app] in *; [injection Ha as <-; exact Hb|].
  apply obind_ok in Ha as (u & Hu & Ha). apply obind_ok in Ha as (v & Hv & Ha). injection Ha as <-.
  rewrite Hu. cbn [obind]. rewrite (IH v Hv Hb). cbn [obind]. now rewrite app_assoc.
Qed.
Section Wire.
  Context (hx : bytes -> option N) (bk : bytes -> pres EventMessage) (br : bytes -> pres ReceiptMessage).
  Context (Hhx : reads_hex hx) (Hbk : refuses_text bk) (Hbr : refuses_text br).
  Context (E0 : Env) (K0 : KEnv).
  Context (Hparse : k_parse K0 = read_event_type hx bk br).
  Context (Hdig : forall x, List.length (e_digest E0 Blake3_256 x) = 32).
  Context (Hsig : forall pr m s, k_sign_ed K0 pr m = Ok s -> List.length s = 64).
  Let E := with_json E0.
  Let K := with_json_k K0.
  Let rd := read_event_type hx bk br.
  Lemma rct_serialize r : SpecKeri.json (rct_info r) -> exists b, k_ser_rct K r = Ok b.
  Proof. intros H. unfold SpecKeri.json in H. eexists. unfold K. cbn [k_ser_rct with_json_k]. rewrite H. reflexivity. Qed.

  Lemma receipt_fits d me pr e r : my_receipt E K d me pr (sem_msg e) r -> sendable e -> Forall sendable (log d me) ->
    (forall y, In y (log d me) -> em_prefix (sem_msg y) = me) -> (forall s, me <> IdSelfSigning s) ->
    data_fits rd ser_json_type (sed_of_tr r) /\ SpecKeri.json (rct_info (tr_body r)).
  Proof.
    intros (R1 & R2 & (ser & sig & _ & R3 & R4 & R5) & (b & R6 & R7) & R8 & (y & Y1 & Y2 & Y3) & _) He Hl Hp Hme.
    rewrite Forall_forall in Hl. pose proof (Hl y Y1) as ((_ & Yd & Yi & Yn & _) & _). rewrite (Hp y Y1) in Yi.
    destruct He as ((_ & _ & Ei & En & _) & _).
    assert (Hd : sap_readable (rct_digest (tr_body r))) by (rewrite R3; split; [unfold sap_sized, derive; cbn; apply Hdig|reflexivity]).
    assert (Hb : receipt_readable (tr_body r)).
    { split; [|split; [exact Hd|split; [now rewrite R1|now rewrite R2]]]. rewrite R7. split; [split; reflexivity|]. cbn [si_size si_new].
      set (c0 := mkRct (si_new JSON 0) (rct_digest (tr_body r)) (rct_prefix (tr_body r)) (rct_sn (tr_body r))) in R6.
      assert (Hb0 : b = Json.json (receipt_val c0)) by (change (k_ser_rct K c0) with (Ok (Json.json (receipt_val c0))) in R6; congruence).
      assert (L : List.length (Json.json (receipt_val c0)) <= 1000).
      { apply receipt_len; cbn [c0 rct_info rct_digest rct_prefix rct_sn]; [reflexivity|split; reflexivity|apply Hd|rewrite R1; apply Ei|now rewrite R2]. }
      rewrite <- Hb0 in L. apply N.le_trans with 1000%N; [lia|]. apply N.leb_le. vm_compute. reflexivity. }
    split; [|unfold SpecKeri.json; now rewrite R7].
    assert (Hj : ser_json_type (ReceiptT (tr_body r)) = Ok (Json.json (receipt_val (tr_body r)))).
    { unfold ser_json_type, json_event_type. rewrite R7. reflexivity. }
    split; [|split].
    - exists (Json.json (receipt_val (tr_body r))). split; [exact Hj|]. intros x. now apply c76_receipt.
    - intros x Hx. cbn [sed_of_tr sed_event] in Hx. rewrite Hj in Hx. injection Hx as <-. apply receipt_opens.
    - apply Forall_cons; [|apply Forall_nil]. rewrite R5.
      assert (Hs : sig_fits (mkASP 0 (mkSSP Ed25519Sha512 sig))).
      { split; [unfold asp_sized; cbn; exact (Hsig _ _ _ R4)|reflexivity]. }
      split.
      + cbn [att_fits]. split; [cbn; lia|]. apply Forall_cons; [|apply Forall_nil]. cbn [fst snd]. split.
        * split; [|split; [now rewrite <- Y2|rewrite <- Y3; apply Yd]]. rewrite R8. destruct Yi as (I1 & I2 & I3). split; [exact I1|split; [exact I2|split; [exact I3|exact Hme]]].
        * split; [cbn; lia|]. apply Forall_cons; [exact Hs|apply Forall_nil].
      + cbn [att_small]. split; [cbn; lia|]. apply Forall_cons; [|apply Forall_nil]. cbn [snd]. split; [cbn; lia|]. apply Forall_cons; [reflexivity|apply Forall_nil].
  Qed.
  Lemma receipts_text rs ts : Forall2 (receipt_text K) rs ts -> Forall (fun r => SpecKeri.json (rct_info (tr_body r))) rs ->
    oconcat (sed_cesr ser_json_type) (map sed_of_tr rs) = Ok (List.concat ts).
  Proof.
    induction 1 as [|r t rs ts (b & a & Hb & Ha & ->) _ IH]; intros Hj; [reflexivity|]. inversion Hj as [|? ? Hr Hj']; subst.
    cbn [map oconcat List.concat]. unfold sed_cesr at 1. cbn [sed_of_tr sed_atts sed_event oconcat]. rewrite Ha. cbn [obind]. rewrite app_nil_r.
    unfold ser_json_type at 1, json_event_type. unfold K in Hb. cbn [k_ser_rct with_json_k] in Hb. rewrite Hr in *. injection Hb as <-. cbn [obind].
    rewrite (IH Hj'). reflexivity.
  Qed.
  Lemma parse_nil : rd [] = PErr.
  Proof. unfold rd, read_event_type, palt, key_event_message, receipt_message, palt. cbn [json_message skip_ws]. now rewrite (proj1 Hbk), (proj1 Hbr). Qed.
  Lemma stream_of ds t : Forall (data_fits rd ser_json_type) ds -> oconcat (sed_cesr ser_json_type) ds = Ok t -> signed_event_stream rd t = POk [] ds.
  Proof.
    intros H Ht. destruct (C68_stream_round_trip_partial rd ser_json_type ds H [] eq_refl parse_nil) as (t' & Ht' & Hr).
    rewrite Ht in Ht'. injection Ht' as <-. now rewrite app_nil_r in Hr.
  Qed.
  Lemma own_text d id l : get_kel d id = Some l -> Forall sendable l ->
    exists t, get_kerl E d id = Ok (Some t) /\ oconcat (sed_cesr ser_json_type) (map sed_of_event l) = Ok t.
  Proof.
    intros Hl Hs. destruct (C68_stream_round_trip_partial rd ser_json_type (map sed_of_event l)) with (r := @nil byte) as (t & Ht & _).
    - apply Forall_map. eapply Forall_impl; [|exact Hs]. intros e He. now apply sendable_fits.
    - reflexivity.
    - exact parse_nil.
    - exists t. split; [|exact Ht]. unfold get_kerl. rewrite Hl.
      pose proof (kerl_sendable E0 l Hs t Ht [] [] eq_refl) as Q. rewrite !app_nil_r in Q. unfold E. rewrite Q. reflexivity.
  Qed.

  Lemma step k p lp rs0 t :
    careful E K k -> p <> k_prefix k -> p <> id_default ->
    (forall e, In e lp -> em_prefix (sem_msg e) = p) -> Forall sendable lp -> (forall e, In e lp -> SpecProc.is_delegated (sem_msg e) = false) ->
    accepts_each E (k_db k) lp ->
    Forall (fun r => data_fits rd ser_json_type (sed_of_tr r)) rs0 ->
    oconcat (sed_cesr ser_json_type) (map sed_of_event lp ++ map sed_of_tr rs0) = Ok t ->
    let d1 := run E (k_db k) (ProcProofs2.submit lp) in
    Forall (fun r => forall cs', (forall id, log (run E db_empty cs') id = log d1 id) ->
       exists s, process E (run E db_empty cs') (MTransferableRct r) = (add_receipt_t (run E db_empty cs') r (rct_prefix (tr_body r)), Ok (Some s))) rs0 ->
    (exists own, get_kerl E (k_db k) (k_prefix k) = Ok (Some own)) ->
    exists k' rs out d2, respond E K k t = (k', Ok out)
      /\ answers E K d2 (k_prefix k) (cb_cur (k_box k)) (map MEvent lp ++ map MTransferableRct rs0) rs out
      /\ Forall (taken_elsewhere E d2 (k_prefix k)) rs
      /\ k_prefix k' = k_prefix k /\ k_box k' = k_box k /\ careful E K k'
      /\ (forall id, get_kel d2 id = get_kel d1 id) /\ (forall id, get_kel (k_db k') id = get_kel d1 id)
      /\ (forall id, olist (get_receipts_t d2 id) = olist (get_receipts_t (k_db k) id) ++ about id rs0)
      /\ (forall id, olist (get_receipts_t (k_db k') id) = olist (get_receipts_t (k_db k) id) ++ about id rs0 ++ about id rs).
  Proof.
    intros Hk Hp Hid Hpre Hs Hnd Hacc Hfit Ht d1 Htake Hown.
    assert (Hseal : Forall (fun e => sem_seal e = None) lp) by (eapply Forall_impl; [|exact Hs]; intros e He; apply He).
    destruct (converted_log lp Hnd Hseal) as [Hcv Hpn].
    set (l := map sed_of_event lp ++ map sed_of_tr rs0) in *.
    assert (Hread : signed_event_stream (k_parse K) t = POk [] l).
    { unfold K. cbn [k_parse with_json_k]. rewrite Hparse. apply stream_of; [|exact Ht]. apply Forall_app. split; [|now apply Forall_map].
      apply Forall_map. eapply Forall_impl; [|exact Hs]. intros e He. now apply sendable_fits. }
    assert (Hcr : converted (map sed_of_tr rs0) = map MTransferableRct rs0 /\ Forall (fun x => to_message x <> Panic) (map sed_of_tr rs0)).
    { clear. induction rs0 as [|r rs0 [I1 I2]]; [split; [reflexivity|apply Forall_nil]|]. unfold converted in *. cbn [map flat_map].
      rewrite C66_transferable_receipt_round_trip. cbn [app]. rewrite I1. split; [reflexivity|]. apply Forall_cons; [rewrite C66_transferable_receipt_round_trip; discriminate|exact I2]. }
    destruct Hcr as [Hcr Hpr].
    assert (Hcs : map CProcess (converted l) = ProcProofs2.submit lp ++ map CProcess (map MTransferableRct rs0)).
    { unfold l, converted. rewrite flat_map_app. fold (converted (map sed_of_event lp)). fold (converted (map sed_of_tr rs0)). rewrite Hcv, Hcr, map_app, submit_process. reflexivity. }
    destruct (careful_log E K k Hk) as (cs & lo & so & Hdb & _).
    assert (Hd1 : d1 = run E db_empty (cs ++ ProcProofs2.submit lp)) by (unfold d1; rewrite Hdb; apply run_from).
    destruct (take_all E rs0 (cs ++ ProcProofs2.submit lp)) as (T1 & T2 & T3 & T4).
    { rewrite <- Hd1. exact Htake. }
    rewrite <- Hd1 in *.
    assert (Hsucc : successes E (k_db k) (map CProcess (converted l)) = map MEvent lp ++ map MTransferableRct rs0).
    { rewrite Hcs, successes_app2, accepts_successes by exact Hacc. fold d1. now rewrite T1. }
    destruct (C112_answer E K k t [] l Hk rct_serialize Hread) as (k' & rs & out & H1 & H2 & H3 & H4 & H5 & H6 & H7 & H8).
    - apply Forall_app. split; assumption.
    - rewrite Hcs, quiet_app2, accepts_quiet by exact Hacc. exact T2.
    - rewrite Hcs. apply Forall_app. split.
      + rewrite submit_process. apply Forall_map, Forall_map, Forall_forall. intros e He. cbn. rewrite (Hpre e He). exact Hp.
      + apply Forall_map, Forall_map, Forall_forall. intros e _. exact I.
    - exact Hown.
    - rewrite Hsucc. apply Forall_app. split; apply Forall_map, Forall_forall; [|intros e _; exact I].
      intros e He. rewrite Forall_forall in Hs. destruct (Hs e He) as (_ & Hj & _). cbn [answerable]. rewrite (Hpre e He). split; [exact Hp|]. split; [exact Hid|].
      unfold E. cbn [e_ser_event with_json]. rewrite Hj. eauto.
    - rewrite Hsucc in H2. rewrite Hcs in *.
      assert (Hrun : run E (k_db k) (ProcProofs2.submit lp ++ map CProcess (map MTransferableRct rs0)) = run E d1 (map CProcess (map MTransferableRct rs0))).
      { unfold d1, run. now rewrite fold_left_app. }
      rewrite Hrun in *. exists k', rs, out, (run E d1 (map CProcess (map MTransferableRct rs0))).
      assert (Hr0 : forall id, olist (get_receipts_t (run E d1 (map CProcess (map MTransferableRct rs0))) id) = olist (get_receipts_t (k_db k) id) ++ about id rs0).
      { intros id. rewrite T4. unfold d1. now rewrite submit_receipts. }
      split; [exact H1|]. split; [exact H2|]. split; [exact H3|]. split; [exact H4|]. split; [exact H5|]. split; [exact H8|].
      split; [exact T3|]. split; [intros id; now rewrite H6, T3|]. split; [exact Hr0|].
      intros id. rewrite H7, Hr0. now rewrite app_assoc.
  Qed.
End Wire.
