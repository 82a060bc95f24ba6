(** * ReceiptsProofs: see [Prop_Receipts.v]. *)
From Verif Require Import Base Base64 Codes NumFmt Types KeyConf SpecSig State Db Processor Cesr Message Keri Builder Json
  Spec SpecProc SpecRules SpecRules2 SpecCodec SpecJson JsonProofs JsonProofs2 Receipts SpecReceipts StateProofs LogProofs LogTheorems LogTheorems2 RulesProofs.

(** The text of an event is not the text its digest is made of. *)
Lemma sap_not_dummy p g : sap_str p <> dummy_prefix g.
Proof.
  unfold sap_str, dummy_prefix, prefix_str. intros H.
  assert (D : exists r, repeat "#"%byte (sa_code_len g + sa_b64_len g) = "#"%byte :: r) by (destruct g; eexists; reflexivity).
  destruct D as (r & D). rewrite D in H.
  destruct (sap_digest p); [discriminate H|].
  destruct (sap_code p); cbn [sa_code bstr app] in H; injection H as H; try discriminate H.
Qed.

Lemma head_neq v1 v2 t p g x1 y1 :
  json (VMap (head_fields v1 t (sap_str p) ++ x1)) = json (VMap (head_fields v2 t (dummy_prefix g) ++ y1)) ->
  x1 <> [] -> y1 <> [] -> False.
Proof.
  intros H Hx Hy. unfold head_fields in H. cbn [app json map] in H. unfold sfld in H. cbn [fst snd] in H.
  destruct x1 as [|x x1]; [congruence|]. destruct y1 as [|y y1]; [congruence|]. cbn [map join] in H.
  rewrite <- !app_assoc in H. apply app_inv_head in H. apply app_inv_head in H. apply app_inv_head in H.
  change (quote ?a) with (json (VStr a)) in H.
  apply (json_prefix_free 0) in H as [_ H]; [|apply fits_ascii, si_ascii..].
  apply app_inv_head in H. apply app_inv_head in H. apply app_inv_head in H. apply app_inv_head in H.
  apply app_inv_head in H. apply app_inv_head in H. apply app_inv_head in H.
  apply (json_prefix_free 0) in H as [H _]; [|apply fits_ascii; [apply sap_str_ascii||apply dummy_ascii]..].
  cbn [erase] in H. injection H as H. now apply sap_not_dummy in H.
Qed.

Section WithEnv.
  Context (E : Env) (K : KEnv).

  Lemma rb_sets l b :
    fold_left rb_set l b = mkRB (or_else (set_format l) (rb_format b)) (or_else (set_derivation l) (rb_derivation b))
                                (or_else (set_event l) (rb_event b)).
  Proof.
    revert b. induction l as [|s l IH]; intros [f g m]; cbn [fold_left].
    - reflexivity.
    - rewrite IH. unfold set_format, set_derivation, set_event. cbn [last_set].
      destruct s as [f'|g'|m']; cbn [rb_set rb_format rb_derivation rb_event];
        destruct (last_set (fun s => match s with RFormat f => Some f | _ => None end) l),
                 (last_set (fun s => match s with RDerivation g => Some g | _ => None end) l),
                 (last_set (fun s => match s with REvent m => Some m | _ => None end) l); reflexivity.
  Qed.

  Lemma receipt_body g p sn f c :
    receipt_to_message K g p sn f = Ok c ->
    exists b, k_ser_rct K (mkRct (si_new f 0) g p sn) = Ok b /\ c = mkRct (si_new f (List.length b)) g p sn.
  Proof.
    unfold receipt_to_message. intros H. apply obind_ok in H. destruct H as (b & Hb & H). injection H as <-. eauto.
  Qed.

  Lemma receipt_with_ok pk npk l c m :
    set_event l = Some m -> receipt_with E K pk npk l = Ok c ->
    exists ser b, e_ser_event E m = Ok ser
      /\ let g := or_else (set_derivation l) Blake3_256 in let f := or_else (set_format l) JSON in
         digest_aborts g = false
         /\ k_ser_rct K (mkRct (si_new f 0) (mkSAP g (e_digest E g ser)) (em_prefix m) (em_sn m)) = Ok b
         /\ c = mkRct (si_new f (List.length b)) (mkSAP g (e_digest E g ser)) (em_prefix m) (em_sn m).
  Proof.
    intros Hm H. unfold receipt_with in H. apply obind_ok in H. destruct H as (b0 & H0 & H).
    unfold rb_default in H0. destruct (build E K (builder_new E TIcp pk npk)) as [m0| |]; [|discriminate H0..]. injection H0 as <-.
    rewrite rb_sets, Hm in H. unfold rb_build in H. cbn [rb_format rb_derivation rb_event or_else] in H.
    apply obind_ok in H. destruct H as (ser & Hser & H).
    destruct (digest_aborts (or_else (set_derivation l) Blake3_256)) eqn:Hab; [discriminate H|].
    apply receipt_body in H. destruct H as (b & Hb & ->). exists ser, b. split; [exact Hser|]. cbv zeta. auto.
  Qed.

  Lemma receipt_with_panics pk npk l m ser :
    set_event l = Some m -> e_ser_event E m = Ok ser -> (exists m0, build E K (builder_new E TIcp pk npk) = Ok m0) ->
    ~ computable (or_else (set_derivation l) Blake3_256) -> receipt_with E K pk npk l = Panic.
  Proof.
    intros Hm Hser (m0 & H0) Hc. unfold receipt_with, rb_default. rewrite H0. cbn [obind].
    rewrite rb_sets, Hm. unfold rb_build. cbn [rb_format rb_derivation rb_event or_else]. rewrite Hser. cbn [obind].
    destruct (digest_aborts (or_else (set_derivation l) Blake3_256)) eqn:Hab; [reflexivity|].
    exfalso. apply Hc. destruct (or_else (set_derivation l) Blake3_256); try discriminate Hab; exact I.
  Qed.
End WithEnv.

(** Two texts that a digest of an event would have to confuse. *)
Lemma texts_differ E m ser data :
  si_kind (em_info m) = JSON -> e_ser_event (with_json E) m = Ok ser -> e_deriv_data (with_json E) m = Ok data -> ser <> data.
Proof.
  intros Hk Hs Hd. cbn [e_ser_event e_deriv_data with_json] in Hs, Hd. rewrite Hk in Hs, Hd.
  assert (A : ser = json (event_val m)) by congruence. assert (B : data = json_deriv m) by congruence. subst ser data. clear Hs Hd.
  unfold json_deriv, event_val. unfold dummy_icp_sized, dummy_icp_val, dummy_event_val, event_fields.
  intros H. destruct (em_data m); apply head_neq in H; first [exact H|discriminate].
Qed.

Section WithEnv2.
  Context (E : Env) (K : KEnv).
  Lemma make_rct_body k m k' r : make_rct E K k m = (k', Ok r) ->
    exists ser, e_ser_event E m = Ok ser /\ rct_digest (tr_body r) = derive E Blake3_256 ser
      /\ rct_prefix (tr_body r) = em_prefix m /\ rct_sn (tr_body r) = em_sn m.
  Proof.
    unfold make_rct. destruct (let? ser := e_ser_event E m in _) as [r0|e|] eqn:H; [|discriminate..].
    destruct (process E (k_db k) (MTransferableRct r0)) as [d [res| |]]; unfold omap; cbn [obind]; intros Q; try discriminate Q.
    apply (f_equal snd) in Q. cbn [snd] in Q. assert (r = r0) by congruence. subst r0. clear Q.
    apply obind_ok in H. destruct H as (ser & Hs & H). apply obind_ok in H. destruct H as (sg & _ & H).
    apply obind_ok in H. destruct H as (os & _ & H). apply obind_ok in H. destruct H as (seal & _ & H).
    apply obind_ok in H. destruct H as (c & Hc & H). apply receipt_body in Hc. destruct Hc as (b & _ & ->).
    injection H as <-. exists ser. auto.
  Qed.
  Lemma make_ntr_body k m k' r : make_ntr E K k m = (k', Ok r) ->
    exists ser, e_ser_event E m = Ok ser /\ rct_digest (nr_body r) = derive E Blake3_256 ser
      /\ rct_prefix (nr_body r) = em_prefix m /\ rct_sn (nr_body r) = em_sn m.
  Proof.
    intros Hm. assert (G : generate_ntr E K k m = (k', Ok r)).
    { unfold make_ntr in Hm. destruct (k_prefix k); try discriminate Hm. destruct (em_data m); try discriminate Hm.
      - destruct (bp_mem _ _); [exact Hm|discriminate Hm].
      - destruct (bp_mem _ (wc_prune _)); [discriminate Hm|]. destruct (bp_mem _ (wc_graft _)); [exact Hm|discriminate Hm]. }
    unfold generate_ntr in G. destruct (let? ser := e_ser_event E m in _) as [r0|e|] eqn:H; [|discriminate G..].
    assert (r = r0) by congruence. subst r0. clear G.
    apply obind_ok in H. destruct H as (ser & Hs & H). apply obind_ok in H. destruct H as (sg & _ & H).
    apply obind_ok in H. destruct H as (c & Hc & H). apply receipt_body in Hc. destruct Hc as (b & _ & ->).
    injection H as <-. exists ser. auto.
  Qed.
End WithEnv2.
