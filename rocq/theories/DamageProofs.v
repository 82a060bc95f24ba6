(** What the readers of attachments do with a character that no attachment contains. *)
From Coq Require Import ZifyBool ZifyN ZifyNat.
From Verif Require Import Base Base64 Base64Proofs Codes NumFmt Types SpecCodec CodecProofs CodecProofs2 Cesr CesrProofs SpecCesr CesrProofs2 CesrProofs3 SpecCesr2 CesrProofs4 CesrProofs5 CesrProofs6 Message.

(** ** Accepted text has only base64 characters and padding *)
Definition okc (c : byte) : Prop := In c alphabet \/ c = "="%byte.
Definition okt (t : bytes) : Prop := Forall okc t.
Lemma okt_app a b : okt (a ++ b) <-> okt a /\ okt b.
Proof. apply Forall_app. Qed.
Lemma safe_ok t : url_safe t -> okt t.
Proof. apply Forall_impl. intros c H. now left. Qed.
Lemma dec6_ok c n : dec6 c = Some n -> okc c.
Proof. intros H. apply dec6_spec in H as [_ <-]. left. apply enc6_in. Qed.
Lemma pad_ok c : is_pad c = true -> okc c.
Proof. unfold is_pad. intros H. apply Byte.byte_dec_bl in H. now right. Qed.
Lemma group2_ok a b d : dec_group2 a b = Some d -> okt [a; b].
Proof.
  unfold dec_group2. destruct (dec6 a) eqn:Ea; [|discriminate]. destruct (dec6 b) eqn:Eb; [|discriminate]. intros _.
  apply Forall_cons; [eapply dec6_ok; eauto|]. apply Forall_cons; [eapply dec6_ok; eauto|]. apply Forall_nil.
Qed.
Lemma group3_ok a b c d : dec_group3 a b c = Some d -> okt [a; b; c].
Proof.
  unfold dec_group3. destruct (dec6 a) eqn:Ea; [|discriminate]. destruct (dec6 b) eqn:Eb; [|discriminate]. destruct (dec6 c) eqn:Ec; [|discriminate]. intros _.
  repeat (apply Forall_cons; [eapply dec6_ok; eauto|]). apply Forall_nil.
Qed.
Lemma group4_ok a b c e d : dec_group4 a b c e = Some d -> okt [a; b; c; e].
Proof.
  unfold dec_group4. destruct (dec6 a) eqn:Ea; [|discriminate]. destruct (dec6 b) eqn:Eb; [|discriminate]. destruct (dec6 c) eqn:Ec; [|discriminate]. destruct (dec6 e) eqn:Ee; [|discriminate]. intros _.
  repeat (apply Forall_cons; [eapply dec6_ok; eauto|]). apply Forall_nil.
Qed.
Lemma decode_okt s : forall d, decode s = Ok d -> okt s.
Proof.
  intros d H. unfold decode in H. destruct (b64_decode s) as [d'|] eqn:E; [|discriminate]. clear H d. revert d' E.
  remember (List.length s) as n eqn:En. revert s En. induction n as [n IH] using lt_wf_ind. intros s -> d E.
  destruct s as [|a [|b [|c [|e [|f s]]]]].
  - apply Forall_nil.
  - discriminate.
  - now apply group2_ok in E.
  - cbn [b64_decode] in E. destruct (is_pad c) eqn:Ec.
    + apply group2_ok in E. apply (okt_app [a; b] [c]). split; [exact E|]. apply Forall_cons; [now apply pad_ok|apply Forall_nil].
    + now apply group3_ok in E.
  - cbn [b64_decode] in E. destruct (is_pad e) eqn:Ee.
    + apply pad_ok in Ee. destruct (is_pad c) eqn:Ec.
      * apply pad_ok in Ec. apply group2_ok in E. apply (okt_app [a; b] [c; e]). split; [exact E|]. apply Forall_cons; [exact Ec|]. apply Forall_cons; [exact Ee|apply Forall_nil].
      * apply group3_ok in E. apply (okt_app [a; b; c] [e]). split; [exact E|]. apply Forall_cons; [exact Ee|apply Forall_nil].
    + now apply group4_ok in E.
  - rewrite b64_decode_step in E. destruct (dec_group4 a b c e) eqn:E4; [|discriminate]. destruct (b64_decode (f :: s)) eqn:Er; [|discriminate].
    apply (okt_app [a; b; c; e] (f :: s)). split; [now apply group4_ok in E4|]. eapply IH; [|reflexivity|exact Er]. cbn [List.length]. lia.
Qed.
Lemma num_okt t n : b64_to_num t = Ok n -> List.length t = 1 \/ List.length t = 2 -> okt t.
Proof.
  intros H L. unfold b64_to_num in H. apply obind_okv in H as (d & Ed & _). apply decode_okt in Ed.
  destruct L as [L|L]; rewrite L in Ed; apply okt_app in Ed as [_ Ed]; exact Ed.
Qed.

Definition clean {A} (f : bytes -> pres A) : Prop := forall s r a, f s = POk r a -> exists t, s = t ++ r /\ okt t.
Lemma clean_index k : k = 1 \/ k = 2 -> clean (p_index k).
Proof.
  intros Hk s r a H. unfold p_index in H. apply pbnd_inv in H as (r1 & t & H1 & H). apply take_inv in H1 as [-> L]. apply plift_inv in H; [|discriminate]. destruct H as [-> H].
  exists t. split; [reflexivity|]. eapply num_okt; [exact H|lia].
Qed.
Lemma clean_decode k : clean (p_decode k).
Proof.
  intros s r a H. unfold p_decode in H. apply pbnd_inv in H as (r1 & t & H1 & H). apply take_inv in H1 as [-> L]. apply plift_inv in H; [|discriminate]. destruct H as [-> H].
  exists t. split; [reflexivity|]. eapply decode_okt; exact H.
Qed.
Lemma clean_count : clean b64_count.
Proof.
  intros s r a H. unfold b64_count in H. apply pbnd_inv in H as (r1 & t & H1 & H). apply take_inv in H1 as [-> L]. apply plift_inv in H; [|discriminate]. destruct H as [-> H].
  exists t. split; [reflexivity|]. eapply num_okt; [exact H|lia].
Qed.
Lemma okt_is c s : is c s = true -> okt (bstr s) -> okt c.
Proof. intros H. apply is_true_eq in H. now subst c. Qed.
Ltac safe_code := apply safe_ok, safe_vm; reflexivity.
Lemma clean_sig : clean attached_signature.
Proof.
  intros s r p H. unfold attached_signature in H. apply pbnd_inv in H as (r0 & c & H0 & H). apply take_inv in H0 as [-> L0].
  assert (T : forall c k m code r0, k = 1 \/ k = 2 -> okt c -> (let! (r, i) := p_index k r0 in let! (r, sig) := p_decode m r in POk r (mkASP i (mkSSP code sig))) = POk r p ->
    exists t, c ++ r0 = t ++ r /\ okt t).
  { intros c' k m code q Hk Hc G. apply pbnd_inv in G as (r1 & i & G1 & G). apply pbnd_inv in G as (r2 & x & G2 & G). injection G as <- <-.
    apply clean_index in G1 as (t1 & -> & O1); [|exact Hk]. apply clean_decode in G2 as (t2 & -> & O2).
    exists (c' ++ t1 ++ t2). split; [now rewrite <- !app_assoc|]. now rewrite !okt_app. }
  destruct (is c "A") eqn:EA; [eapply T; [left; reflexivity|eapply okt_is; [exact EA|safe_code]|exact H]|].
  destruct (is c "B") eqn:EB; [eapply T; [left; reflexivity|eapply okt_is; [exact EB|safe_code]|exact H]|].
  destruct (is c "0") eqn:E0; [|discriminate]. apply pbnd_inv in H as (r1 & c2 & H2 & H). apply take_inv in H2 as [-> L2]. destruct (is c2 "A") eqn:E2; [|discriminate].
  rewrite app_assoc. eapply T; [right; reflexivity| |exact H]. rewrite okt_app. split; [eapply okt_is; [exact E0|safe_code]|eapply okt_is; [exact E2|safe_code]].
Qed.
Lemma clean_sn : clean attached_sn.
Proof.
  intros s r n H. unfold attached_sn in H. apply pbnd_inv in H as (m & c & Hc & H). apply take_inv in Hc as [-> Hc].
  destruct (is c "0A") eqn:Ec; [|discriminate].
  apply pbnd_inv in H as (r1 & t & Ht & H). apply take_inv in Ht as [-> Ht].
  apply pbnd_inv in H as (r2 & d & Hd & H). apply plift_inv in Hd; [|discriminate]. destruct Hd as [-> Hd].
  destruct (List.length d =? 16); [|discriminate]. injection H as <- <-.
  exists (c ++ t). split; [now rewrite <- app_assoc|]. rewrite okt_app. split; [eapply okt_is; [exact Ec|safe_code]|eapply decode_okt; exact Hd].
Qed.
(** the code in front *)
Lemma basic_code_ok c cs code : c = firstn 1 cs -> List.length cs = (if is c "1" then 4 else 1) -> basic_code_from cs = Ok code -> okt cs /\ cs = basic_code code.
Proof.
  intros Ec L H. apply basic_code_text in H. assert (cs = basic_code code).
  { rewrite H in Ec |- *. subst c. replace (skipn (basic_code_len code) cs) with (@nil byte); [now rewrite app_nil_r|].
    symmetry. apply skipn_all2. revert L. rewrite H. destruct code; cbn; lia. }
  split; [|assumption]. subst cs. destruct code; safe_code.
Qed.
Lemma sa_code_ok c cs code : c = firstn 1 cs -> List.length cs = (if is c "0" then 2 else 1) -> sa_code_from cs = Ok code -> okt cs /\ cs = sa_code code.
Proof.
  intros Ec L H. apply sa_code_text in H. assert (cs = sa_code code).
  { rewrite H in Ec |- *. subst c. replace (skipn (sa_code_len code) cs) with (@nil byte); [now rewrite app_nil_r|].
    symmetry. apply skipn_all2. revert L. rewrite H. destruct code; cbn; lia. }
  split; [|assumption]. subst cs. destruct code; safe_code.
Qed.
Lemma ss_code_ok c cs code : c = firstn 1 cs -> List.length cs = (if is c "1" then 4 else 2) -> ss_code_from cs = Ok code -> okt cs /\ cs = ss_code code.
Proof.
  intros Ec L H. apply ss_code_text in H. assert (cs = ss_code code).
  { rewrite H in Ec |- *. subst c. replace (skipn (ss_code_len code) cs) with (@nil byte); [now rewrite app_nil_r|].
    symmetry. apply skipn_all2. revert L. rewrite H. destruct code; cbn; lia. }
  split; [|assumption]. subst cs. destruct code; safe_code.
Qed.
Lemma clean_basic : clean basic_prefix.
Proof.
  intros s r p H. unfold basic_prefix in H. apply pbnd_inv in H as (r0 & c & H0 & H). apply take_inv in H0 as [E0 L0].
  apply pbnd_inv in H as (r1 & cs & H1 & H). apply take_inv in H1 as [E1 L1].
  apply pbnd_inv in H as (r2 & code & H2 & H). apply p_code_inv in H2 as (-> & H2 & _).
  apply pbnd_inv in H as (r3 & b & H3 & H). apply take_inv in H3 as [-> L3].
  apply pbnd_inv in H as (r4 & k & H4 & H). apply plift_inv in H4; [|discriminate]. destruct H4 as [-> H4]. injection H as <- <-.
  exists (cs ++ b). split; [now rewrite <- app_assoc|]. rewrite okt_app. split; [|eapply decode_okt; exact H4].
  rewrite E0 in E1. refine (proj1 (basic_code_ok c cs code _ L1 H2)). destruct (is c "1"); eapply first_char; eauto.
Qed.
Lemma clean_ssp : clean self_signing_prefix.
Proof.
  intros s r p H. unfold self_signing_prefix in H. apply pbnd_inv in H as (r0 & c & H0 & H). apply take_inv in H0 as [E0 L0].
  apply pbnd_inv in H as (r1 & cs & H1 & H). apply take_inv in H1 as [E1 L1].
  apply pbnd_inv in H as (r2 & code & H2 & H). apply p_code_inv in H2 as (-> & H2 & _).
  apply pbnd_inv in H as (r3 & b & H3 & H). apply take_inv in H3 as [-> L3].
  apply pbnd_inv in H as (r4 & k & H4 & H). apply plift_inv in H4; [|discriminate]. destruct H4 as [-> H4]. injection H as <- <-.
  exists (cs ++ b). split; [now rewrite <- app_assoc|]. rewrite okt_app. split; [|eapply decode_okt; exact H4].
  rewrite E0 in E1. refine (proj1 (ss_code_ok c cs code _ L1 H2)). destruct (is c "1"); eapply first_char; eauto.
Qed.
Lemma str_slice_ok a b s x : str_slice a b s = Ok x -> x = firstn (b - a) (skipn a s).
Proof. unfold str_slice. repeat match goal with |- context [if ?q then _ else _] => destruct q end; try discriminate. intros H; now injection H. Qed.
Lemma sap_from_okt s p : sap_from s = Ok p -> okt s.
Proof.
  intros H. unfold sap_from in H. apply obind_okv in H as (code & Hc & H). cbv zeta in H.
  destruct (List.length s =? sa_code_len code + sa_b64_len code) eqn:El; [|discriminate]. apply Nat.eqb_eq in El.
  apply obind_okv in H as (sub & Hs & H). apply obind_okv in H as (d & Hd & _). apply decode_okt in Hd.
  apply str_slice_ok in Hs. rewrite firstn_all2 in Hs by (rewrite skipn_length; lia). subst sub.
  apply sa_code_text in Hc. rewrite Hc, okt_app. split; [|exact Hd]. destruct code; safe_code.
Qed.
Lemma clean_sap : clean self_addressing_prefix.
Proof.
  intros s r p H. unfold self_addressing_prefix in H. apply pbnd_inv in H as (r0 & c & H0 & H). apply take_inv in H0 as [E0 L0].
  apply pbnd_inv in H as (r1 & cs & H1 & H). apply take_inv in H1 as [E1 L1].
  apply pbnd_inv in H as (r2 & code & H2 & H). apply p_code_inv in H2 as (-> & H2 & _).
  apply pbnd_inv in H as (r3 & b & H3 & H). apply take_inv in H3 as [-> L3]. apply p_code_inv in H as (-> & H & _).
  exists (cs ++ b). split; [now rewrite <- app_assoc|]. eapply sap_from_okt; exact H.
Qed.
Lemma clean_prefix : clean prefix.
Proof.
  intros s r p H. unfold prefix in H. destruct (self_addressing_prefix s) as [r1 d| | | |] eqn:E; try discriminate.
  2-4: apply pbnd_inv in H as (r1 & b & H1 & H); injection H as <- <-; exact (clean_basic _ _ _ H1).
  injection H as <- <-. exact (clean_sap _ _ _ E).
Qed.
Lemma clean_source : clean source_seal1.
Proof.
  intros s r x H. unfold source_seal1 in H. apply pbnd_inv in H as (r1 & n & H1 & H). apply pbnd_inv in H as (r2 & d & H2 & H). injection H as <- <-.
  apply clean_sn in H1 as (t1 & -> & S1). apply clean_sap in H2 as (t2 & -> & S2). exists (t1 ++ t2). split; [now rewrite <- app_assoc|]. now rewrite okt_app.
Qed.
Lemma clean_seal : clean event_seal.
Proof.
  intros s r x H. unfold event_seal in H. apply pbnd_inv in H as (r0 & i & H0 & H). apply pbnd_inv in H as (r1 & n & H1 & H). apply pbnd_inv in H as (r2 & d & H2 & H). injection H as <- <-.
  apply clean_prefix in H0 as (t0 & -> & S0). apply clean_sn in H1 as (t1 & -> & S1). apply clean_sap in H2 as (t2 & -> & S2).
  exists (t0 ++ t1 ++ t2). split; [now rewrite <- !app_assoc|]. now rewrite !okt_app.
Qed.
Lemma clean_couplet : clean couplet.
Proof.
  intros s r x H. unfold couplet in H. apply pbnd_inv in H as (r1 & n & H1 & H). apply pbnd_inv in H as (r2 & d & H2 & H). injection H as <- <-.
  apply clean_basic in H1 as (t1 & -> & S1). apply clean_ssp in H2 as (t2 & -> & S2). exists (t1 ++ t2). split; [now rewrite <- app_assoc|]. now rewrite okt_app.
Qed.
Definition clean_to {A} (m : nat) (f : bytes -> pres A) : Prop := forall s r a, List.length s < m -> f s = POk r a -> exists t, s = t ++ r /\ okt t.
Lemma clean_clean {A} m (f : bytes -> pres A) : clean f -> clean_to m f.
Proof. intros H s r a _. apply H. Qed.
Lemma clean_pcount {A} m (f : bytes -> pres A) n : clean_to m f -> clean_to m (pcount f n).
Proof.
  intros Hf. induction n as [|n IH]; intros s r l Hs H; cbn [pcount] in H.
  - injection H as <- <-. exists []. split; [reflexivity|apply Forall_nil].
  - apply pbnd_inv in H as (r1 & a & H1 & H). apply pbnd_inv in H as (r2 & l' & H2 & H). injection H as <- <-.
    apply Hf in H1 as (t1 & -> & S1); [|exact Hs]. rewrite app_length in Hs. apply IH in H2 as (t2 & -> & S2); [|lia].
    exists (t1 ++ t2). split; [now rewrite <- app_assoc|]. now rewrite okt_app.
Qed.
Lemma clean_counted {A} m (f : bytes -> pres A) s r l : clean_to m f -> List.length s < m ->
  (let! (rest, sc) := b64_count s in pcount f (N.to_nat sc) rest) = POk r l -> exists t, s = t ++ r /\ okt t.
Proof.
  intros Hf Hs H. apply pbnd_inv in H as (r1 & n & H1 & H). apply clean_count in H1 as (t1 & -> & S1). rewrite app_length in Hs.
  apply (clean_pcount m) in H as (t2 & -> & S2); [|exact Hf|lia]. exists (t1 ++ t2). split; [now rewrite <- app_assoc|]. now rewrite okt_app.
Qed.
Lemma clean_many0 {A} m (f : bytes -> pres A) n s l r : clean_to m f -> List.length s < m -> many0_f f n s = POk r l -> exists t, s = t ++ r /\ okt t.
Proof.
  intros Hf. revert s l r. induction n as [|n IH]; intros s l r Hs H; [discriminate|]. cbn [many0_f] in H.
  destruct (f s) as [r' a| | | |] eqn:E; try discriminate.
  - destruct (List.length r' =? List.length s); [discriminate|]. apply pbnd_inv in H as (r2 & l' & H & H'). injection H' as <- <-.
    apply Hf in E as (t & -> & S); [|exact Hs]. rewrite app_length in Hs. apply IH in H as (t' & -> & S'); [|lia]. exists (t ++ t'). split; [now rewrite <- app_assoc|]. now rewrite okt_app.
  - injection H as <- <-. exists []. split; [reflexivity|apply Forall_nil].
Qed.
Lemma clean_indexed m : clean_to m attachment -> clean_to m (indexed_signatures attachment).
Proof. intros Ha s r l Hs H. unfold indexed_signatures in H. apply pbnd_inv in H as (r1 & a & H1 & H). destruct a; try discriminate. injection H as <- <-. eapply Ha; eauto. Qed.
Lemma clean_with {A} m (f : bytes -> pres A) (g : bytes -> pres (A * list AttachedSignaturePrefix)) :
  (forall s, g s = let! (r, i) := f s in let! (r, l) := indexed_signatures attachment r in POk r (i, l)) ->
  clean f -> clean_to m attachment -> clean_to m g.
Proof.
  intros Eg Hf Ha s r x Hs H. rewrite Eg in H. apply pbnd_inv in H as (r1 & i & H1 & H). apply pbnd_inv in H as (r2 & l & H2 & H). injection H as <- <-.
  apply Hf in H1 as (t1 & -> & S1). rewrite app_length in Hs. apply (clean_indexed m Ha) in H2 as (t2 & -> & S2); [|lia]. exists (t1 ++ t2). split; [now rewrite <- app_assoc|]. now rewrite okt_app.
Qed.
Theorem att_clean : clean attachment.
Proof.
  assert (G : forall n, clean_to n attachment); [|intros s r a H; eapply (G (S (List.length s))); [lia|exact H]].
  induction n as [|n IH]; [intros s r a Hs; lia|]. intros s r a Hs H.
  rewrite attachment_eq in H. unfold attachment_body in H. apply pbnd_inv in H as (r1 & c & H1 & H). apply take_inv in H1 as [-> Lc].
  rewrite app_length, Lc in Hs. assert (Hr : List.length r1 < n) by lia.
  destruct (valid_utf8 c); cbn [negb] in H; [|discriminate]. destruct (pt_from c) as [x| |] eqn:Ep; try discriminate.
  pose proof (code_cases c x Ep Lc) as Hc.
  assert (K : forall t, okt c -> r1 = t ++ r -> okt t -> exists t, c ++ r1 = t ++ r /\ okt t).
  { intros t Oc -> Ot. exists (c ++ t). split; [now rewrite <- app_assoc|]. now rewrite okt_app. }
  destruct x; try discriminate; cbv iota in Hc; subst c.
  - apply pbnd_inv in H as (r2 & l' & H2 & H). injection H as <- <-. unfold signatures in H2. apply (clean_counted n) in H2 as (t & E & S); [|apply clean_clean, clean_sig|exact Hr]. eapply K; [safe_code|exact E|exact S].
  - apply pbnd_inv in H as (r2 & l' & H2 & H). injection H as <- <-. unfold couplets in H2. apply (clean_counted n) in H2 as (t & E & S); [|apply clean_clean, clean_couplet|exact Hr]. eapply K; [safe_code|exact E|exact S].
  - assert (Q : exists l, (let! (rest, sc) := b64_count r1 in pcount (seal_sigs attachment) (N.to_nat sc) rest) = POk r l).
    { apply pbnd_inv in H as (r2 & l' & H2 & H). apply pbnd_inv in H as (r3 & l & H3 & H). injection H as <- <-. exists l. rewrite H2. exact H3. }
    destruct Q as (l & Q). apply (clean_counted n) in Q as (t & E & S); [|apply (clean_with n event_seal); [reflexivity|apply clean_seal|exact IH]|exact Hr]. eapply K; [safe_code|exact E|exact S].
  - apply pbnd_inv in H as (r2 & l' & H2 & H). injection H as <- <-. unfold source_seal in H2. apply (clean_counted n) in H2 as (t & E & S); [|apply clean_clean, clean_source|exact Hr]. eapply K; [safe_code|exact E|exact S].
  - assert (Q : exists l, (let! (rest, sc) := b64_count r1 in pcount (id_sigs attachment) (N.to_nat sc) rest) = POk r l).
    { apply pbnd_inv in H as (r2 & l' & H2 & H). apply pbnd_inv in H as (r3 & l & H3 & H). injection H as <- <-. exists l. rewrite H2. exact H3. }
    destruct Q as (l & Q). apply (clean_counted n) in Q as (t & E & S); [|apply (clean_with n prefix); [reflexivity|apply clean_prefix|exact IH]|exact Hr]. eapply K; [safe_code|exact E|exact S].
  - apply pbnd_inv in H as (r2 & k & H2 & H). cbv zeta in H. apply clean_count in H2 as (tk & -> & S2). rewrite app_length in Hr.
    destruct (take (4 * N.to_nat k) r2) as [r3 tot| | | |] eqn:Et; try discriminate. apply take_inv in Et as [-> Lt]. rewrite app_length in Hr.
    apply pbnd_inv in H as (r4 & l & H4 & H). destruct r4; [|destruct (_ <=? _); discriminate]. injection H as <- <-.
    apply (clean_many0 n) in H4 as (t & E & S); [|exact IH|lia]. rewrite app_nil_r in E. subst t.
    eapply K; [safe_code|rewrite app_assoc; reflexivity|now rewrite okt_app].
Qed.

(** ** A character that stands in no attachment *)
Section Damage.
  Context (c : byte) (Hc : ~ okc c) (Ha : (b2n c < 128)%N).
  Lemma not_ok u w : ~ okt (u ++ c :: w).
  Proof. intros H. apply okt_app in H as [_ H]. apply Forall_inv in H. contradiction. Qed.
  Lemma before_damage u w t r : u ++ c :: w = t ++ r -> okt t -> exists u2, u = t ++ u2.
  Proof.
    revert t. induction u as [|x u IH]; intros t E O.
    - destruct t as [|y t]; [now exists []|]. cbn in E. injection E as <- _. apply Forall_inv in O. contradiction.
    - destruct t as [|y t]; [now exists (x :: u)|]. cbn in E. injection E as <- E. apply Forall_inv_tail in O. destruct (IH t E O) as [u2 ->]. now exists u2.
  Qed.
  Theorem noticed a u o v w r a' : spells a (u ++ o :: v) -> attachment (u ++ c :: w) <> POk r a'.
  Proof.
    intros Hs H. pose proof (att_clean _ _ _ H) as (t & E & O). destruct (before_damage _ _ _ _ E O) as [u2 ->].
    pose proof (spells_safe _ _ Hs) as Hsafe. rewrite <- app_assoc in Hsafe. apply Forall_app in Hsafe as [St _].
    rewrite E in H. apply (att_exact t r a' (safe_nopad _ St)) in H.
    pose proof (att_complete _ _ [] Hs) as H1. rewrite app_nil_r, <- app_assoc, (att_complete _ _ _ H) in H1. injection H1 as H1 _. now destruct u2.
  Qed.
  (** the code *)
  Lemma code_bad t : List.length t = 2 -> ~ okt t -> ascii t -> forall att r, attachment_body att (t ++ r) = PErr.
  Proof.
    intros L Hn As att r. unfold attachment_body. rewrite take_app by now rewrite L. cbn [pbnd]. rewrite (ascii_valid _ As). cbn [negb].
    destruct (pt_from t) as [x|e|] eqn:E; [|reflexivity|now apply pt_from_no_panic in E]. exfalso. apply Hn.
    apply pt_from_ok in E as [-> | ->]; destruct x; try (now cbn in L); safe_code.
  Qed.
  Lemma ascii_c l : ascii l -> ascii (c :: l).
  Proof. intros H. apply Forall_cons; assumption. Qed.
  (** the count *)
  Lemma num_bad t : List.length t = 2 -> ~ okt t -> exists e, b64_to_num t = Err e.
  Proof.
    intros L Hn. destruct (b64_to_num t) as [n|e|] eqn:E; [|eauto|].
    - exfalso. apply Hn. eapply num_okt; [exact E|]. now right.
    - exfalso. pose proof (b64_count_calm (t ++ [])) as H. apply H. unfold b64_count. rewrite take_app by now rewrite L. cbn [pbnd]. now rewrite E.
  Qed.
  Lemma count_bad x y r : x = c \/ y = c -> b64_count (x :: y :: r) = PFail.
  Proof.
    intros H. unfold b64_count. change (x :: y :: r) with ([x; y] ++ r). rewrite take_app by reflexivity. cbn [pbnd].
    destruct (num_bad [x; y]) as [e E]; [reflexivity| |now rewrite E].
    destruct H as [-> | ->]; [apply (not_ok [])|apply (not_ok [x])].
  Qed.
  Lemma count_fails code p d r : In (code, p) [("-G", MG); ("-A", MA); ("-C", MC); ("-F", MF); ("-H", MH); ("-V", MV)]%string ->
    b64_count (d ++ r) = PFail -> attachment (bstr code ++ d ++ r) = PFail.
  Proof.
    intros Hi Hd. rewrite attachment_eq. rewrite (att_head _ code p).
    - cbn [In] in Hi. repeat (destruct Hi as [Hi|Hi]; [injection Hi as <- <-; unfold source_seal, signatures, couplets; rewrite Hd; reflexivity|]). contradiction.
    - cbn [In] in Hi. repeat (destruct Hi as [Hi|Hi]; [injection Hi as <- <-; code_ascii|]). contradiction.
    - cbn [In] in Hi. repeat (destruct Hi as [Hi|Hi]; [injection Hi as <- <-; reflexivity|]). contradiction.
    - cbn [In] in Hi. repeat (destruct Hi as [Hi|Hi]; [injection Hi as <- <-; reflexivity|]). contradiction.
  Qed.
  Lemma spells_head a t : spells a t -> exists code p n body,
    In (code, p) [("-G", MG); ("-A", MA); ("-C", MC); ("-F", MF); ("-H", MH); ("-V", MV)]%string /\ t = bstr code ++ two_digits n ++ body.
  Proof.
    intros H. destruct H as [l t H|l t H|l t H|l t H|l t H|l ts k _ _ _].
    1-5: destruct H as (_ & ts & _ & ->).
    - exists "-G"%string, MG. do 2 eexists. split; [cbn; tauto|reflexivity].
    - exists "-A"%string, MA. do 2 eexists. split; [cbn; tauto|reflexivity].
    - exists "-C"%string, MC. do 2 eexists. split; [cbn; tauto|reflexivity].
    - exists "-F"%string, MF. do 2 eexists. split; [cbn; tauto|reflexivity].
    - exists "-H"%string, MH. do 2 eexists. split; [cbn; tauto|reflexivity].
    - exists "-V"%string, MV. do 2 eexists. split; [cbn; tauto|reflexivity].
  Qed.
  Lemma code_two code p : In (code, p) [("-G", MG); ("-A", MA); ("-C", MC); ("-F", MF); ("-H", MH); ("-V", MV)]%string ->
    exists x y, bstr code = [x; y] /\ ascii [x; y].
  Proof.
    cbn [In]. intros Hi. repeat (destruct Hi as [Hi|Hi]; [injection Hi as <- <-; do 2 eexists; split; [reflexivity|code_ascii]|]). contradiction.
  Qed.
  Theorem count_damaged a u o v w : spells a (u ++ o :: v) -> List.length u = 2 \/ List.length u = 3 -> attachment (u ++ c :: v ++ w) = PFail.
  Proof.
    intros Hs L. apply spells_head in Hs as (code & p & n & body & Hi & E). destruct (code_two _ _ Hi) as (x & y & Ec & _). rewrite Ec in E. unfold two_digits in E. cbn [app] in E.
    assert (P : exists d1 d2, (d1 = c \/ d2 = c) /\ u ++ c :: v ++ w = bstr code ++ [d1; d2] ++ body ++ w).
    { rewrite Ec. destruct L as [L|L].
      - destruct u as [|u0 [|u1 [|]]]; try discriminate L. cbn [app] in E |- *. injection E as -> -> _ ->.
        exists c, (enc6 (n mod 64)). split; [now left|reflexivity].
      - destruct u as [|u0 [|u1 [|u2 [|]]]]; try discriminate L. cbn [app] in E |- *. injection E as -> -> -> _ ->.
        exists (enc6 (n / 64)), c. split; [now right|reflexivity]. }
    destruct P as (d1 & d2 & Hd & ->). eapply count_fails; [exact Hi|]. now apply count_bad.
  Qed.
  Theorem code_damaged a u o v w : spells a (u ++ o :: v) -> List.length u < 2 -> attachment (u ++ c :: v ++ w) = PErr.
  Proof.
    intros Hs L. apply spells_head in Hs as (code & p & n & body & Hi & E). destruct (code_two _ _ Hi) as (x & y & Ec & As). rewrite Ec in E. unfold two_digits in E. cbn [app] in E.
    rewrite attachment_eq. destruct u as [|u0 [|]]; [| |cbn in L; lia]; cbn [app] in E |- *; injection E as -> E.
    - subst v. cbn [app]. apply (code_bad [c; y]); [reflexivity|apply (not_ok [])|]. apply ascii_c. now apply Forall_inv_tail in As.
    - subst v. apply (code_bad [x; c]); [reflexivity|apply (not_ok [x])|]. apply Forall_cons; [now apply Forall_inv in As|]. apply ascii_c, Forall_nil.
  Qed.
  Theorem sigs_damaged l u o v w : sigs_spelling l (u ++ o :: v) -> List.length u <> 2 -> List.length u <> 3 -> attachment (u ++ c :: v ++ w) = PErr.
  Proof.
    intros H L2 L3. assert (Hs : spells (AttachedSignatures l) (u ++ o :: v)) by now apply sp_sigs.
    destruct (le_lt_dec 2 (List.length u)) as [L|L]; [|eapply code_damaged; eassumption].
    destruct H as (Hl & ts & F & E). unfold group, two_digits in E. cbn [app bstr] in E.
    destruct u as [|u0 [|u1 [|u2 [|u3 u]]]]; cbn [List.length] in L, L2, L3; try lia. cbn [app] in E. injection E as -> -> -> -> E.
    destruct (attachment (("-" :: "A" :: enc6 (N.of_nat (List.length l) / 64) :: enc6 (N.of_nat (List.length l) mod 64) :: u)%byte ++ c :: v ++ w)) as [r a| | | |] eqn:R; [|reflexivity| | |].
    - exfalso. eapply noticed; [exact Hs|exact R].
    - exfalso. revert R. rewrite attachment_eq. set (k := N.of_nat (List.length l)).
      change (("-" :: "A" :: enc6 (k / 64) :: enc6 (k mod 64) :: u)%byte ++ c :: v ++ w) with (bstr "-A" ++ two_digits k ++ u ++ c :: v ++ w).
      rewrite (att_head _ "-A" MA) by (code_ascii || reflexivity). unfold signatures. rewrite digits_count by (unfold k; lia). cbn [pbnd].
      destruct (pcount_soft attached_signature (N.to_nat k) sig_soft (u ++ c :: v ++ w)) as [-> |(r & b & ->)]; discriminate.
    - exfalso. revert R. rewrite attachment_eq. set (k := N.of_nat (List.length l)).
      change (("-" :: "A" :: enc6 (k / 64) :: enc6 (k mod 64) :: u)%byte ++ c :: v ++ w) with (bstr "-A" ++ two_digits k ++ u ++ c :: v ++ w).
      rewrite (att_head _ "-A" MA) by (code_ascii || reflexivity). unfold signatures. rewrite digits_count by (unfold k; lia). cbn [pbnd].
      destruct (pcount_soft attached_signature (N.to_nat k) sig_soft (u ++ c :: v ++ w)) as [-> |(r & b & ->)]; discriminate.
    - exfalso. revert R. rewrite attachment_eq. set (k := N.of_nat (List.length l)).
      change (("-" :: "A" :: enc6 (k / 64) :: enc6 (k mod 64) :: u)%byte ++ c :: v ++ w) with (bstr "-A" ++ two_digits k ++ u ++ c :: v ++ w).
      rewrite (att_head _ "-A" MA) by (code_ascii || reflexivity). unfold signatures. rewrite digits_count by (unfold k; lia). cbn [pbnd].
      destruct (pcount_soft attached_signature (N.to_nat k) sig_soft (u ++ c :: v ++ w)) as [-> |(r & b & ->)]; discriminate.
  Qed.
  (** ** Source seals *)
  Lemma decode_bad u w : exists e, decode (u ++ c :: w) = Err e.
  Proof.
    destruct (decode (u ++ c :: w)) as [d|e|] eqn:E; [|eauto|now apply decode_calm in E]. apply decode_okt in E. now apply not_ok in E.
  Qed.
  Lemma sn_bad n u o v w : sn_spelling n (u ++ o :: v) -> 2 <= List.length u -> attached_sn (u ++ c :: v ++ w) = PFail.
  Proof.
    intros (_ & high & Hh & E) L. remember (b64_encode (high ++ be_bytes 8 n)) as z eqn:Ez. destruct u as [|u0 [|u1 u]]; cbn [List.length] in L; try lia. cbn [app bstr] in E. injection E as -> -> E.
    assert (Le : List.length (u ++ o :: v) = 22) by (rewrite E, Ez, encode_length, app_length, Hh, be_bytes_length; reflexivity).
    unfold attached_sn. change (("0" :: "A" :: u)%byte ++ c :: v ++ w) with (bstr "0A" ++ u ++ c :: v ++ w). rewrite take_app by reflexivity. cbn [pbnd]. rewrite is_self by reflexivity.
    replace (u ++ c :: v ++ w) with ((u ++ c :: v) ++ w) by (now rewrite <- app_assoc). rewrite take_app by (rewrite <- Le, !app_length; reflexivity). cbn [pbnd].
    destruct (decode_bad u v) as [e ->]. reflexivity.
  Qed.
  Lemma p_code_bad {A} (f : bytes -> out A) t r : (forall a, f t <> Ok a) -> p_code f t r <> PPanic -> p_code f t r = PFail.
  Proof. unfold p_code. intros H P. destruct (valid_utf8 t); [|reflexivity]. destruct (f t) as [a|e|]; cbn [plift] in *; [now destruct (H a)|reflexivity|congruence]. Qed.
  Lemma digest_bad d u o v w : digest_spelling d (u ++ o :: v) -> self_addressing_prefix (u ++ c :: v ++ w) = PFail.
  Proof.
    intros [[Hz _] E]. unfold sap_sized, sap_str in *. destruct d as [code d]. cbn [sap_code sap_digest] in *.
    rewrite prefix_str_ne in E by (intros ->; destruct code; discriminate Hz).
    assert (Le : List.length (u ++ o :: v) = List.length (sa_code code) + sa_b64_len code) by (rewrite E, app_length, encode_length, Hz; destruct code; reflexivity).
    pose proof (sap_calm (u ++ c :: v ++ w)) as Calm. unfold self_addressing_prefix in Calm |- *.
    destruct (le_lt_dec (List.length (sa_code code)) (List.length u)) as [Lu|Lu].
    - (* the code is whole *)
      assert (Eu : exists u2, u = sa_code code ++ u2).
      { exists (skipn (List.length (sa_code code)) u). rewrite <- (firstn_skipn (List.length (sa_code code)) u) at 1. f_equal.
        apply (f_equal (firstn (List.length (sa_code code)))) in E. rewrite firstn_app in E. replace (_ - _) with 0 in E by lia. cbn [firstn] in E. rewrite app_nil_r in E.
        rewrite E, firstn_app, Nat.sub_diag, firstn_all. cbn [firstn]. now rewrite app_nil_r. }
      destruct Eu as [u2 ->]. rewrite <- !app_assoc in Calm |- *.
      rewrite (take_firstn 1) in Calm |- * by (destruct code; cbn; lia). cbn [pbnd] in Calm |- *.
      replace (if is (firstn 1 (sa_code code)) "0" then 2 else 1) with (List.length (sa_code code)) in Calm |- * by (destruct code; reflexivity).
      rewrite take_app in Calm |- * by reflexivity. cbn [pbnd] in Calm |- *.
      destruct (p_code sa_code_from (sa_code code) (u2 ++ c :: v ++ w)) as [r2 code'| | | |] eqn:Ep; cbn [pbnd] in Calm |- *; [|exfalso|reflexivity|exfalso|congruence].
      2,3: revert Ep; unfold p_code; destruct (valid_utf8 _); [|discriminate]; destruct (sa_code_from _); discriminate.
      apply p_code_inv in Ep as (-> & Hcode & _).
      assert (Lc : sa_b64_len code' = sa_b64_len code) by (clear -Hcode; destruct code; vm_compute in Hcode; injection Hcode as <-; reflexivity).
      rewrite Lc in Calm |- *. replace (u2 ++ c :: v ++ w) with ((u2 ++ c :: v) ++ w) in Calm |- * by (now rewrite <- app_assoc).
      assert (Lt : sa_b64_len code = List.length (u2 ++ c :: v)) by (clear -Le; rewrite !app_length in Le; rewrite !app_length; cbn [List.length] in Le |- *; lia). rewrite take_app in Calm by exact Lt. rewrite take_app by exact Lt.
      cbn [pbnd] in Calm |- *. apply p_code_bad; [|exact Calm]. intros a Hs. apply sap_from_okt in Hs. rewrite app_assoc in Hs. now apply not_ok in Hs.
    - (* inside the code *)
      assert (Nz : is [c] "0" = false) by (destruct (is [c] "0") eqn:Ei; [|reflexivity]; exfalso; apply (not_ok [] []); eapply okt_is; [exact Ei|safe_code]).
      destruct u as [|u0 u].
      + cbn [app] in Calm |- *. change (c :: v ++ w) with ([c] ++ v ++ w) in Calm |- *. rewrite (take_app 1) in Calm by reflexivity. rewrite (take_app 1) by reflexivity. cbn [pbnd] in Calm |- *. rewrite Nz in Calm |- *.
        rewrite (take_app 1) in Calm by reflexivity. rewrite (take_app 1) by reflexivity. cbn [pbnd] in Calm |- *.
        assert (P : p_code sa_code_from [c] (v ++ w) = PFail); [|rewrite P; reflexivity]. apply p_code_bad.
        * intros a Hs. apply (not_ok [] []). refine (proj1 (sa_code_ok [c] [c] a eq_refl _ Hs)). now rewrite Nz.
        * intros Hs. rewrite Hs in Calm. now apply Calm.
      + assert (L2 : List.length (sa_code code) = 2 /\ u = []) by (cbn [List.length] in Lu; destruct code; cbn in Lu |- *; destruct u; cbn in Lu; split; try reflexivity; lia). destruct L2 as [L2 ->].
        assert (u0 = "0"%byte) by (clear -E L2; destruct code; try discriminate L2; cbn in E; now injection E). subst u0.
        cbn [app] in Calm |- *. change ("0"%byte :: c :: v ++ w) with (["0"%byte; c] ++ v ++ w) in Calm |- *.
        rewrite (take_firstn 1) in Calm by (cbn; lia). rewrite (take_firstn 1) by (cbn; lia). cbn [pbnd firstn] in Calm |- *.
        change (is ["0"%byte] "0") with true in Calm |- *. cbv iota in Calm |- *.
        rewrite (take_app 2) in Calm by reflexivity. rewrite (take_app 2) by reflexivity. cbn [pbnd] in Calm |- *.
        assert (P : p_code sa_code_from ["0"%byte; c] (v ++ w) = PFail); [|rewrite P; reflexivity]. apply p_code_bad.
        * intros a Hs. apply (not_ok ["0"%byte] []). exact (proj1 (sa_code_ok (bstr "0") ["0"%byte; c] a eq_refl eq_refl Hs)).
        * intros Hs. rewrite Hs in Calm. now apply Calm.
  Qed.
  Lemma app_split {A} (a b u v : list A) o : a ++ b = u ++ o :: v ->
    (exists v1, a = u ++ o :: v1 /\ v = v1 ++ b) \/ (exists u2, u = a ++ u2 /\ b = u2 ++ o :: v).
  Proof.
    revert u. induction a as [|x a IH]; intros u E; [right; now exists u|]. destruct u as [|y u].
    - cbn in E. injection E as -> <-. left. now exists a.
    - cbn in E. injection E as -> E. destruct (IH u E) as [(v1 & -> & ->)|(u2 & -> & ->)]; [left; now exists v1|right; now exists u2].
  Qed.
  Lemma source_bad s u o v w : source_spelling s (u ++ o :: v) -> 2 <= List.length u -> source_seal1 (u ++ c :: v ++ w) = PFail.
  Proof.
    intros (a & b & Hn & Hd & E) L. symmetry in E. unfold source_seal1. destruct (app_split _ _ _ _ _ E) as [(v1 & -> & ->)|(u2 & -> & ->)].
    - rewrite <- app_assoc. rewrite (sn_bad _ _ _ _ _ Hn L). reflexivity.
    - rewrite <- app_assoc. rewrite (sn_complete _ _ _ Hn). cbn [pbnd]. rewrite (digest_bad _ _ _ _ _ Hd). reflexivity.
  Qed.
  Lemma pcount_fails {A} (f : bytes -> pres A) R l ts k s : complete f R -> Forall2 R l ts -> f s = PFail ->
    pcount f (List.length l + S k) (List.concat ts ++ s) = PFail.
  Proof.
    intros Hf F Hs. induction F as [|a t l ts Ht F IH]; cbn [List.length List.concat Nat.add pcount app]; [now rewrite Hs|].
    rewrite <- app_assoc, (Hf _ _ _ Ht). cbn [pbnd]. now rewrite IH.
  Qed.
  Theorem source_damaged l1 ts1 l2 ts2 s u o v w : Forall2 source_spelling l1 ts1 -> source_spelling s (u ++ o :: v) -> Forall2 source_spelling l2 ts2 ->
    List.length (l1 ++ s :: l2) < 4096 -> 2 <= List.length u ->
    attachment (group "-G" (List.length (l1 ++ s :: l2)) (List.concat ts1 ++ u ++ c :: v ++ List.concat ts2) ++ w) = PFail.
  Proof.
    intros F1 Hs F2 Hl L. unfold group. rewrite <- !app_assoc. rewrite attachment_eq, (att_head _ "-G" MG) by (code_ascii || reflexivity). unfold source_seal.
    rewrite digits_count by lia. cbn [pbnd]. rewrite Nat2N.id, app_length. cbn [List.length].
    rewrite (pcount_fails _ source_spelling l1 ts1 _ _ source_complete F1); [reflexivity|]. cbn [app]. rewrite <- app_assoc. eapply source_bad; eassumption.
  Qed.
  (** ** Frames *)
  Lemma many0_stops l ts s n : Forall2 spells l ts -> attachment s = PErr -> List.length (List.concat ts ++ s) < n ->
    many0_f attachment n (List.concat ts ++ s) = POk s l.
  Proof. exact (atts_complete (fun _ => PErr) l ts s n). Qed.
  Theorem frame_damaged l1 ts1 sigs l2 ts2 u o v k w : Forall2 spells l1 ts1 -> spells (AttachedSignatures sigs) (u ++ o :: v) -> Forall2 spells l2 ts2 ->
    List.length (List.concat ts1 ++ (u ++ o :: v) ++ List.concat ts2) = 4 * k -> k < 4096 -> List.length u <> 2 -> List.length u <> 3 ->
    attachment (group "-V" k (List.concat ts1 ++ u ++ c :: v ++ List.concat ts2) ++ w) = if List.length w <=? 4 * k then PInc else PPanic.
  Proof.
    intros F1 Hs F2 Lk Hk L2 L3. unfold group. rewrite <- !app_assoc. rewrite attachment_eq, (att_head _ "-V" MV) by (code_ascii || reflexivity).
    rewrite digits_count by lia. cbn [pbnd]. rewrite Nat2N.id. cbv zeta.
    replace (List.concat ts1 ++ u ++ (c :: v ++ List.concat ts2) ++ w) with ((List.concat ts1 ++ u ++ c :: v ++ List.concat ts2) ++ w) by (now rewrite <- !app_assoc).
    rewrite take_app by (rewrite <- Lk, !app_length; cbn [List.length]; rewrite !app_length; lia).
    assert (D : attachment (u ++ c :: v ++ List.concat ts2) = PErr) by (inversion Hs; subst; eapply sigs_damaged; eassumption).
    unfold many0. rewrite (many0_stops l1 ts1 (u ++ c :: v ++ List.concat ts2)) by (assumption || lia). cbn [pbnd]. now destruct u.
  Qed.
End Damage.

(** ** Streams *)
Section Stream.
  Context (parse : bytes -> pres EventType).
  (** a text of a signed message: a JSON object that is read as the event, then its attachments *)
  Definition sent (d : SignedEventData) (t : bytes) : Prop :=
    exists x ts, (exists y, x = bstr "{""" ++ y) /\ (forall rest, parse (x ++ rest) = POk rest (sed_event d))
      /\ Forall2 spells (sed_atts d) ts /\ t = x ++ List.concat ts.
  Lemma json_stops y s : attachment ((bstr "{""" ++ y) ++ s) = PErr.
  Proof. rewrite <- app_assoc, attachment_eq. unfold attachment_body. now rewrite take_app. Qed.
  Lemma sent_read d t r : sent d t -> attachment r = PErr -> signed_message parse (t ++ r) = POk r d.
  Proof.
    intros (x & ts & _ & Hp & F & ->) Hr. rewrite (msg_complete parse _ r (sed_event d) (sed_atts d) ts); [now destruct d| |exact F|exact Hr].
    now rewrite <- app_assoc, Hp.
  Qed.
  Lemma sent_stops d t s : sent d t -> attachment (t ++ s) = PErr.
  Proof. intros (x & ts & (y & ->) & _ & _ & ->). rewrite <- app_assoc. apply json_stops. Qed.
  Lemma sent_ne d t : sent d t -> List.length t <> 0.
  Proof. intros (x & ts & (y & ->) & _ & _ & ->). discriminate. Qed.
  (** the messages before are read; then [s] decides *)
  Lemma stream_from ds dts s : Forall2 sent ds dts -> attachment s = PErr ->
    forall n, List.length (List.concat dts ++ s) < n -> exists m, List.length s < m /\
    many0_f (signed_message parse) n (List.concat dts ++ s) = let! (r, l) := many0_f (signed_message parse) m s in POk r (ds ++ l).
  Proof.
    intros F Hs. induction F as [|d t ds dts Hd F IH]; intros n Hn.
    - exists n. split; [exact Hn|]. cbn [List.concat app]. destruct (many0_f _ n s); reflexivity.
    - destruct n as [|n]; [lia|]. cbn [List.concat] in Hn |- *. rewrite <- app_assoc in Hn |- *. pose proof (sent_ne _ _ Hd) as Hne.
      assert (Hl : List.length (List.concat dts ++ s) < n) by (rewrite app_length in Hn; lia).
      destruct (IH n Hl) as (m & Hm & E). exists m. split; [exact Hm|]. cbn [many0_f].
      rewrite (sent_read d t); [|exact Hd|].
      + match goal with |- (if ?b then _ else _) = _ => replace b with false by (symmetry; apply Nat.eqb_neq; rewrite (app_length t); lia) end. rewrite E. destruct (many0_f _ m s); reflexivity.
      + destruct F as [|d' t' ds dts Hd' F]; [exact Hs|]. cbn [List.concat]. rewrite <- app_assoc. eapply sent_stops; exact Hd'.
  Qed.
  Lemma many0_fails {A} (f : bytes -> pres A) n s : 0 < n -> (f s = PFail \/ f s = PInc \/ f s = PPanic) ->
    many0_f f n s = match f s with PFail => PFail | PInc => PInc | _ => PPanic end.
  Proof. intros Hn H. destruct n; [lia|]. cbn [many0_f]. destruct H as [-> |[-> | ->]]; reflexivity. Qed.
  Lemma atts_fail l ts s n : Forall2 spells l ts -> (attachment s = PFail \/ attachment s = PInc \/ attachment s = PPanic) -> List.length (List.concat ts ++ s) < n ->
    many0_f attachment n (List.concat ts ++ s) = match attachment s with PFail => PFail | PInc => PInc | _ => PPanic end.
  Proof.
    intros F Hs. revert n. induction F as [|a t l ts Ht F IH]; intros n Hn; [apply many0_fails; [lia|exact Hs]|].
    destruct n as [|n]; [lia|]. cbn [List.concat many0_f] in *. rewrite <- app_assoc in *. rewrite (att_complete _ _ _ Ht).
    assert (List.length t <> 0) by (pose proof (spells_ne a t Ht); destruct t; [congruence|discriminate]). rewrite app_length in Hn.
    match goal with |- (if ?b then _ else _) = _ => replace b with false by (symmetry; apply Nat.eqb_neq; rewrite (app_length t); lia) end. rewrite IH by lia. destruct Hs as [-> |[-> | ->]]; reflexivity.
  Qed.
  (** a hard failure in an attachment is the answer to the whole stream *)
  Theorem stream_fails ds dts d t s : Forall2 sent ds dts -> sent d t -> (attachment s = PFail \/ attachment s = PInc \/ attachment s = PPanic) ->
    signed_event_stream parse (List.concat dts ++ t ++ s) = match attachment s with PFail => PFail | PInc => PInc | _ => PPanic end.
  Proof.
    intros F Hd Hs. unfold signed_event_stream, many0.
    destruct (stream_from ds dts (t ++ s) F (sent_stops d t s Hd) _ (Nat.lt_succ_diag_r _)) as (m & Hm & ->).
    assert (M : signed_message parse (t ++ s) = match attachment s with PFail => PFail | PInc => PInc | _ => PPanic end).
    { destruct Hd as (x & ts & _ & Hp & Fa & ->). unfold signed_message. rewrite <- app_assoc, Hp. cbn [pbnd]. unfold many0. rewrite (atts_fail _ _ _ _ Fa Hs) by lia. destruct Hs as [-> |[-> | ->]]; reflexivity. }
    rewrite many0_fails; rewrite ?M; [|lia|]; destruct Hs as [-> |[-> | ->]]; cbn; tauto.
  Qed.
  (** a soft one ends it *)
  Theorem stream_stops ds dts s : Forall2 sent ds dts -> attachment s = PErr -> parse s = PErr ->
    signed_event_stream parse (List.concat dts ++ s) = POk s ds.
  Proof.
    intros F Hs Hp. unfold signed_event_stream, many0.
    destruct (stream_from ds dts s F Hs _ (Nat.lt_succ_diag_r _)) as (m & Hm & ->). destruct m; [lia|]. cbn [many0_f]. unfold signed_message. rewrite Hp. cbn [pbnd]. now rewrite app_nil_r.
  Qed.
End Stream.
