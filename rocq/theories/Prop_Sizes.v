(** * Prop_Sizes: what key state replies say about themselves (C115). *)
From Coq Require Import ZifyBool ZifyN ZifyNat.
From Verif Require Import Base Base64 Codes NumFmt Types SpecCodec KeyConf Version Cesr Message Keri Json JsonRead JsonProofs SpecJson JsonProofs2 JsonProofs3 JsonProofs4 JsonProofs5 JsonProofs6 JsonProofs7 JsonProofs10
  State Db Processor Spec StateProofs SpecKeri KeriProofs KeriProofs2 Prop_Version Prop_Message Prop_Json Prop_Json2 Prop_Keri Demo ReplyStore SpecJsonQ JsonQuery JsonProofs11 Prop_JsonQ Prop_Answer.
Notation json := Json.json.

(** The version text of every message, and of every message inside it, gives the length of
    the text of that message. *)
Definition C115_statement : Prop :=
  forall (E : Env) (tw : Z -> bytes) (s : IdentifierState) (route : Route) (g : SelfAddressing) (t1 t2 : Z) (m : ReplyMessage) (t k : bytes),
    digests_sized E -> new_reply (with_json_q tw E) (new_ksn s t1) route g JSON t2 = Ok m -> e_ser_reply (with_json_q tw E) m = Ok t ->
    List.length t <= N.to_nat u16_max -> omap json (notice_val tw (rp_ksn m)) = Ok k ->
    si_size (rp_info m) = N.of_nat (List.length t) /\ si_size (ksn_info (rp_ksn m)) = N.of_nat (List.length k).
Theorem C115_reply_states_size_and_digest_partial :
  forall (E : Env) (tw : Z -> bytes) (s : IdentifierState) (route : Route) (g : SelfAddressing) (t1 t2 : Z) (m : ReplyMessage) (t : bytes),
    digests_sized E -> new_reply (with_json_q tw E) (new_ksn s t1) route g JSON t2 = Ok m -> e_ser_reply (with_json_q tw E) m = Ok t ->
    List.length t <= N.to_nat u16_max ->
    si_kind (rp_info m) = JSON /\ si_size (rp_info m) = N.of_nat (List.length t)
    /\ rp_route m = route /\ rp_timestamp m = t2 /\ ksn_state (rp_ksn m) = s /\ ksn_timestamp (rp_ksn m) = t1
    /\ exists x z, t = x ++ sap_str (rp_digest m) ++ z
         /\ rp_digest m = mkSAP g (e_digest E g (x ++ blank (List.length (sap_str (rp_digest m))) ++ z)).
Proof.
  intros E tw s route g t1 t2 m t HE Hm Ht Hl. unfold new_reply in Hm. apply obind_ok in Hm as (b & Hb & Hm).
  cbn [e_deriv_reply with_json_q rp_info si_kind si_new] in Hb. apply obind_ok in Hb as (l & Hf & Hb).
  assert (Eb : b = json (dummy_sized JSON TRpy g l)) by (cbn [rp_digest sap_code] in Hb; congruence). clear Hb.
  assert (Em : m = mkReply (si_new JSON (List.length b)) (mkSAP g (e_digest E g b)) t2 route (new_ksn s t1)) by (unfold derive in Hm; cbn [e_digest with_json_q with_json] in Hm; destruct (digest_aborts g); [discriminate Hm|congruence]). clear Hm.
  assert (Hf' : reply_fields tw m = Ok l) by (subst m; exact Hf).
  cbn [e_ser_reply with_json_q] in Ht. assert (Hk : si_kind (rp_info m) = JSON) by (now rewrite Em). rewrite Hk in Ht. unfold reply_val in Ht. rewrite Hf' in Ht. cbn [obind omap] in Ht.
  assert (Et : t = json (VMap (head_fields (rp_info m) TRpy (sap_str (rp_digest m)) ++ l))) by congruence. clear Ht.
  assert (Ld : List.length (dummy_prefix g) = List.length (sap_str (rp_digest m))).
  { symmetry. rewrite Em. cbn [rp_digest]. apply digest_text_len. apply HE. }
  assert (P2 : plain (sap_str (rp_digest m))) by apply sap_plain.
  assert (L0 : List.length (json (dummy_val (si_new JSON 0) TRpy g l)) + List.length (si_str (rp_info m)) = List.length t + 17).
  { rewrite Et. unfold dummy_val, head_fields. cbn [app]. rewrite !json_v_len by apply si_plain. unfold tail_text. cbn [flat_map]. rewrite !app_length. cbn [List.length].
    rewrite (member_len "d" _ _ (dummy_plain g) P2 Ld), (si_new_len 0) by reflexivity. lia. }
  assert (Lv : 17 <= List.length (si_str (rp_info m))) by (rewrite Em; apply si_new_ge).
  set (n0 := List.length (json (dummy_val (si_new JSON 0) TRpy g l))) in *.
  change (N.to_nat u16_max) with (N.to_nat 65535) in Hl.
  assert (Lb : List.length b = n0).
  { assert (Q : List.length (si_str (si_new JSON n0)) = 17) by (apply si_new_len; lia).
    assert (G : forall n, List.length (json (dummy_val (si_new JSON n) TRpy g l)) + 17 = n0 + List.length (si_str (si_new JSON n))).
    { intros n. unfold n0, dummy_val, head_fields. cbn [app]. rewrite !json_v_len by apply si_plain. rewrite (si_new_len 0) by reflexivity. lia. }
    rewrite Eb. unfold dummy_sized. fold n0. specialize (G n0). rewrite Q in G. lia. }
  assert (Sz : si_size (rp_info m) = N.of_nat (List.length t)).
  { assert (Q : List.length (si_str (rp_info m)) = 17) by (rewrite Em; cbn [rp_info]; apply si_new_len; lia).
    rewrite Em. cbn [rp_info si_new si_size]. f_equal. lia. }
  split; [exact Hk|]. split; [exact Sz|]. rewrite Em at 1 2 3 4. split; [reflexivity|]. split; [reflexivity|]. split; [reflexivity|]. split; [reflexivity|].
  rewrite (head_layout _ _ _ _ P2) in Et. eexists _, _. split; [exact Et|].
  replace (blank (List.length (sap_str (rp_digest m)))) with (dummy_prefix g) by (rewrite <- Ld; unfold dummy_prefix, blank; now rewrite repeat_length).
  rewrite <- (head_layout _ _ _ _ (dummy_plain g)). rewrite Em. cbn [rp_digest rp_info]. f_equal. f_equal. rewrite Lb, Eb. reflexivity.
Qed.
Print Assumptions C115_reply_states_size_and_digest_partial.
(** The full statement is false: the notice inside a reply never states its length. *)
Theorem C115_notice_never_states_its_size :
  forall (E : Env) (tw : Z -> bytes) (s : IdentifierState) (route : Route) (g : SelfAddressing) (f : SerializationFormats) (t1 t2 : Z) (m : ReplyMessage) (k : bytes),
    new_reply E (new_ksn s t1) route g f t2 = Ok m -> omap json (notice_val tw (rp_ksn m)) = Ok k ->
    si_size (ksn_info (rp_ksn m)) = 0%N /\ 0 < List.length k.
Proof.
  intros E tw s route g f t1 t2 m k Hm Hk. unfold new_reply in Hm. apply obind_ok in Hm as (b & _ & Hm).
  destruct (digest_aborts g); [discriminate Hm|].
  assert (Em : rp_ksn m = new_ksn s t1) by (assert (Q : forall x y : ReplyMessage, Ok x = Ok y -> y = x) by congruence; now rewrite (Q _ _ Hm)). rewrite Em in *. split; [reflexivity|].
  unfold notice_val in Hk. destruct (kc_next (st_current (ksn_state (new_ksn s t1)))); [|discriminate Hk]. cbn [omap obind] in Hk.
  assert (Q : forall x y : bytes, Ok x = Ok y -> y = x) by congruence. apply Q in Hk. subst k. cbn [json]. rewrite app_length. cbn [List.length]. change (List.length (bstr "{")) with 1. lia.
Qed.
Print Assumptions C115_notice_never_states_its_size.
(** a reply of a witness *)
Definition sz_state : IdentifierState := mkState j_id 3 (jd x02) (Some (jd x01)) (Some TRot) (mkKC (Simple 1) [jk x11] (Some (jd x21))) 0 [] None (mkLE 2 (jd x05) [] []).
Definition sz_reply : ReplyMessage :=
  match new_reply (with_json_q tw0 jtoy) (new_ksn sz_state 5000) (RReplyKsn (IdBasic (jk x15))) Blake3_256 JSON 7000 with Ok m => m | _ => r_reply 0 None end.
Definition sz_text : bytes := of_ok [] (e_ser_reply (with_json_q tw0 jtoy) sz_reply).
Definition sz_notice : bytes := of_ok [] (omap json (notice_val tw0 (rp_ksn sz_reply))).
Example C115_example :
  new_reply (with_json_q tw0 jtoy) (new_ksn sz_state 5000) (RReplyKsn (IdBasic (jk x15))) Blake3_256 JSON 7000 = Ok sz_reply
  /\ e_ser_reply (with_json_q tw0 jtoy) sz_reply = Ok sz_text /\ (List.length sz_text <=? 1000) = true
  /\ omap json (notice_val tw0 (rp_ksn sz_reply)) = Ok sz_notice /\ (100 <=? si_size (rp_info sz_reply))%N = true.
Proof. repeat (apply conj; [vm_compute; reflexivity|]). vm_compute. reflexivity. Qed.
Theorem C115_refuted : ~ C115_statement.
Proof.
  intros H. destruct C115_example as (H1 & H2 & H3 & H4 & _). apply Nat.leb_le in H3.
  destruct (H jtoy tw0 sz_state (RReplyKsn (IdBasic (jk x15))) Blake3_256 5000%Z 7000%Z sz_reply sz_text sz_notice jtoy_sized H1 H2 ltac:(change (N.to_nat u16_max) with (N.to_nat 65535); lia) H4) as [_ Q].
  destruct (C115_notice_never_states_its_size _ tw0 _ _ _ _ _ _ _ sz_notice H1 H4) as [Q1 Q2]. lia.
Qed.
Print Assumptions C115_refuted.
