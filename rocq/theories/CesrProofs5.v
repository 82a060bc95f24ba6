(** Attachments: exactly which texts are read (groups and frames). *)
From Coq Require Import ZifyBool ZifyN ZifyNat.
From Verif Require Import Base Base64 Base64Proofs Codes NumFmt Types SpecCodec CodecProofs CodecProofs2 Cesr CesrProofs SpecCesr CesrProofs2 CesrProofs3 SpecCesr2 CesrProofs4.

Lemma ssp_complete : complete self_signing_prefix (fun p t => ssp_sized p /\ t = ssp_str p).
Proof. intros p t r [H ->]. now apply ssp_round_trip. Qed.
Lemma source_sound : sound source_seal1 source_spelling.
Proof.
  intros s r x H. unfold source_seal1 in H. apply pbnd_inv in H as (r1 & n & H1 & H). apply pbnd_inv in H as (r2 & d & H2 & H). injection H as <- <-.
  apply sn_sound in H1 as (t1 & -> & S1). apply sap_sound in H2 as (t2 & -> & S2).
  exists (t1 ++ t2). split; [now rewrite <- app_assoc|]. rewrite nopad_app. intros [N1 N2]. exists t1, t2. cbn [src_sn src_digest]. auto.
Qed.
Lemma source_complete : complete source_seal1 source_spelling.
Proof.
  intros [n d] t r (a & b & Ha & Hb & ->). cbn [src_sn src_digest] in *. unfold source_seal1. rewrite <- app_assoc.
  rewrite (sn_complete _ _ _ Ha). cbn [pbnd]. now rewrite (sap_complete _ _ _ Hb).
Qed.
Lemma seal_sound : sound event_seal seal_spelling.
Proof.
  intros s r x H. unfold event_seal in H. apply pbnd_inv in H as (r0 & i & H0 & H). apply pbnd_inv in H as (r1 & n & H1 & H). apply pbnd_inv in H as (r2 & d & H2 & H). injection H as <- <-.
  apply prefix_sound in H0 as (t0 & -> & S0). apply sn_sound in H1 as (t1 & -> & S1). apply sap_sound in H2 as (t2 & -> & S2).
  exists (t0 ++ t1 ++ t2). split; [now rewrite <- !app_assoc|]. rewrite !nopad_app. intros (N0 & N1 & N2). exists t0, t1, t2. cbn [es_prefix es_sn es_digest]. auto.
Qed.
Lemma seal_complete : complete event_seal seal_spelling.
Proof.
  intros [i n d] t r (a & b & c & Ha & Hb & Hc & ->). cbn [es_prefix es_sn es_digest] in *. unfold event_seal. rewrite <- !app_assoc.
  rewrite (prefix_complete _ _ _ Ha). cbn [pbnd]. rewrite (sn_complete _ _ _ Hb). cbn [pbnd]. now rewrite (sap_complete _ _ _ Hc).
Qed.
Lemma couplet_sound : sound couplet couplet_spelling.
Proof.
  intros s r x H. unfold couplet in H. apply pbnd_inv in H as (r1 & n & H1 & H). apply pbnd_inv in H as (r2 & d & H2 & H). injection H as <- <-.
  apply basic_sound in H1 as (t1 & -> & S1). apply ssp_sound in H2 as (t2 & -> & S2).
  exists (t1 ++ t2). split; [now rewrite <- app_assoc|]. rewrite nopad_app. intros [N1 N2].
  destruct (S1 N1) as [K1 ->]. destruct (S2 N2) as [K2 ->]. now split; [|split].
Qed.
Lemma couplet_complete : complete couplet couplet_spelling.
Proof.
  intros [n d] t r (Ha & Hb & ->). cbn [fst snd] in *. unfold couplet. rewrite <- app_assoc.
  rewrite (basic_complete _ _ _ (conj Ha eq_refl)). cbn [pbnd]. now rewrite (ssp_complete _ _ _ (conj Hb eq_refl)).
Qed.

(** ** Groups *)
Lemma pcount_sound {A} (f : bytes -> pres A) R n : sound f R ->
  sound (pcount f n) (fun l t => List.length l = n /\ exists ts, Forall2 R l ts /\ t = List.concat ts).
Proof.
  intros Hf. induction n as [|n IH]; intros s r l H; cbn [pcount] in H.
  - injection H as <- <-. exists []. split; [reflexivity|]. intros _. split; [reflexivity|]. exists []. split; [apply Forall2_nil|reflexivity].
  - apply pbnd_inv in H as (r1 & a & H1 & H). apply pbnd_inv in H as (r2 & l' & H2 & H). injection H as <- <-.
    apply Hf in H1 as (t1 & -> & S1). apply IH in H2 as (t2 & -> & S2).
    exists (t1 ++ t2). split; [now rewrite <- app_assoc|]. rewrite nopad_app. intros [N1 N2].
    destruct (S2 N2) as (L & ts & F & ->). split; [cbn; congruence|]. exists (t1 :: ts). split; [apply Forall2_cons; auto|reflexivity].
Qed.
Lemma pcount_complete {A} (f : bytes -> pres A) R l ts r : complete f R -> Forall2 R l ts ->
  pcount f (List.length l) (List.concat ts ++ r) = POk r l.
Proof.
  intros Hf. induction 1 as [|a t l ts Ha _ IH]; [reflexivity|]. cbn [List.length List.concat pcount]. rewrite <- app_assoc.
  rewrite (Hf _ _ _ Ha). cbn [pbnd]. now rewrite IH.
Qed.
Lemma group_sound {A} (f : bytes -> pres A) R code s r l : sound f R ->
  (let! (rest, sc) := b64_count s in pcount f (N.to_nat sc) rest) = POk r l ->
  exists t, bstr code ++ s = t ++ r /\ (nopad t -> group_spelling code R l t).
Proof.
  intros Hf H. apply pbnd_inv in H as (r1 & n & H1 & H). apply count_sound in H1 as (t1 & -> & S1).
  apply (pcount_sound f R _ Hf) in H as (t2 & -> & S2).
  exists (bstr code ++ t1 ++ t2). split; [now rewrite <- !app_assoc|]. rewrite !nopad_app. intros (_ & N1 & N2).
  destruct (S1 N1) as [B ->]. destruct (S2 N2) as (L & ts & F & ->). split; [lia|]. exists ts. split; [exact F|].
  unfold group. rewrite L, N2Nat.id. reflexivity.
Qed.
Lemma group_complete {A} (f : bytes -> pres A) R code t r l : complete f R -> group_spelling code R l t ->
  exists s, t ++ r = bstr code ++ s /\ (let! (rest, sc) := b64_count s in pcount f (N.to_nat sc) rest) = POk r l.
Proof.
  intros Hf (Hl & ts & F & ->). unfold group. exists (two_digits (N.of_nat (List.length l)) ++ List.concat ts ++ r).
  split; [now rewrite <- !app_assoc|]. rewrite digits_count by lia. cbn [pbnd]. rewrite Nat2N.id. now apply (pcount_complete f R).
Qed.

(** ** One step of the parser *)
Lemma code_cases t x : pt_from t = Ok x -> List.length t = 2 ->
  match x with
  | MG => t = bstr "-G" | MF => t = bstr "-F" | MA => t = bstr "-A" | MC => t = bstr "-C"
  | MH => t = bstr "-H" | MV => t = bstr "-V" | _ => True
  end.
Proof.
  intros H L. apply pt_from_ok in H as [H|H]; subst t; [destruct x; discriminate L|]. destruct x; try exact I; reflexivity.
Qed.
Lemma sigs_sound att s r l : attachment_body att s = POk r (AttachedSignatures l) ->
  exists t, s = t ++ r /\ (nopad t -> sigs_spelling l t).
Proof.
  intros H. unfold attachment_body in H. apply pbnd_inv in H as (r1 & c & H1 & H). apply take_inv in H1 as [-> Lc].
  destruct (valid_utf8 c) eqn:Ev; cbn [negb] in H; [|discriminate]. destruct (pt_from c) as [x| |] eqn:Ep; try discriminate.
  pose proof (code_cases c x Ep Lc) as Hc.
  destruct x; try discriminate.
  - apply pbnd_inv in H as (r2 & l' & H2 & H). injection H as <- <-. subst c. unfold signatures in H2.
    apply (group_sound _ _ "-A" _ _ _ sig_sound) in H2 as (t & E & S). exists t. split; [exact E|exact S].
  - apply pbnd_inv in H as (r2 & l' & _ & H). discriminate.
  - apply pbnd_inv in H as (r2 & l' & _ & H). apply pbnd_inv in H as (r3 & l2 & _ & H). discriminate.
  - apply pbnd_inv in H as (r2 & l' & _ & H). discriminate.
  - apply pbnd_inv in H as (r2 & l' & _ & H). apply pbnd_inv in H as (r3 & l2 & _ & H). discriminate.
  - apply pbnd_inv in H as (r2 & l' & _ & H). cbv zeta in H. destruct (take _ r2) as [r3 tot| | | |]; try discriminate.
    apply pbnd_inv in H as (r4 & l2 & _ & H). destruct r4; [discriminate|]. destruct (_ <=? _); discriminate.
Qed.
Lemma indexed_sound : sound (indexed_signatures attachment) sigs_spelling.
Proof.
  intros s r l H. unfold indexed_signatures in H. apply pbnd_inv in H as (r1 & a & H1 & H). rewrite attachment_eq in H1.
  destruct a; try discriminate. injection H as <- <-. now apply sigs_sound in H1.
Qed.
Lemma sigs_complete att t r l : sigs_spelling l t -> attachment_body att (t ++ r) = POk r (AttachedSignatures l).
Proof.
  intros H. destruct (group_complete attached_signature sig_spelling "-A" t r l sig_complete H) as (s & -> & E).
  rewrite (att_head att "-A" MA) by (code_ascii || reflexivity). unfold signatures. now rewrite E.
Qed.
Lemma indexed_complete : complete (indexed_signatures attachment) sigs_spelling.
Proof. intros l t r H. unfold indexed_signatures. rewrite attachment_eq, (sigs_complete _ _ _ _ H). reflexivity. Qed.
Lemma with_sigs_sound {A} (f : bytes -> pres A) R (g : bytes -> pres (A * list AttachedSignaturePrefix)) :
  (forall s, g s = (let! (r, i) := f s in let! (r, l) := indexed_signatures attachment r in POk r (i, l))) ->
  sound f R -> sound g (with_sigs R).
Proof.
  intros Eg Hf s r x H. rewrite Eg in H. apply pbnd_inv in H as (r1 & i & H1 & H). apply pbnd_inv in H as (r2 & l & H2 & H). injection H as <- <-.
  apply Hf in H1 as (t1 & -> & S1). apply indexed_sound in H2 as (t2 & -> & S2).
  exists (t1 ++ t2). split; [now rewrite <- app_assoc|]. rewrite nopad_app. intros [N1 N2]. exists t1, t2. cbn [fst snd]. auto.
Qed.
Lemma with_sigs_complete {A} (f : bytes -> pres A) R (g : bytes -> pres (A * list AttachedSignaturePrefix)) :
  (forall s, g s = (let! (r, i) := f s in let! (r, l) := indexed_signatures attachment r in POk r (i, l))) ->
  complete f R -> complete g (with_sigs R).
Proof.
  intros Eg Hf [i l] t r (a & b & Ha & Hb & ->). cbn [fst snd] in *. rewrite Eg, <- app_assoc.
  rewrite (Hf _ _ _ Ha). cbn [pbnd]. now rewrite (indexed_complete _ _ _ Hb).
Qed.

(** ** Attachments *)
Lemma many0_sound (f : bytes -> pres Attachment) n s l :
  (forall u r a, List.length u <= List.length s -> f u = POk r a -> exists t, u = t ++ r /\ (nopad t -> spells a t)) ->
  many0_f f n s = POk [] l -> nopad s -> exists ts, s = List.concat ts /\ Forall2 spells l ts.
Proof.
  revert s l. induction n as [|n IH]; intros s l Hf H Hn; [discriminate|]. cbn [many0_f] in H.
  destruct (f s) as [r a| | | |] eqn:E; try discriminate.
  - destruct (List.length r =? List.length s); [discriminate|]. apply pbnd_inv in H as (r' & l' & H & H'). inversion H'; subst. clear H'.
    apply Hf in E as (t & -> & S); [|reflexivity]. apply nopad_app in Hn as [N1 N2].
    apply IH in H as (ts & -> & F); [|intros u r' b Lu; apply Hf; rewrite app_length; lia|exact N2].
    exists (t :: ts). split; [reflexivity|]. apply Forall2_cons; auto.
  - inversion H; subst. exists []. split; [reflexivity|apply Forall2_nil].
Qed.
Theorem att_sound : sound attachment spells.
Proof.
  intros s. remember (List.length s) as n eqn:En. revert s En. induction n as [n IH] using lt_wf_ind. intros s -> r a H.
  rewrite attachment_eq in H. pose proof H as H0. unfold attachment_body in H. apply pbnd_inv in H as (r1 & c & H1 & H). apply take_inv in H1 as [-> Lc].
  destruct (valid_utf8 c) eqn:Ev; cbn [negb] in H; [|discriminate]. destruct (pt_from c) as [x| |] eqn:Ep; try discriminate.
  pose proof (code_cases c x Ep Lc) as Hc.
  destruct x; try discriminate; cbv iota in Hc.
  - apply pbnd_inv in H as (r2 & l' & H2 & H). injection H as <- <-. apply sigs_sound in H0 as (t & E & S). exists t. split; [exact E|]. intros Hn. now apply sp_sigs, S.
  - apply pbnd_inv in H as (r2 & l' & H2 & H). injection H as <- <-. subst c. unfold couplets in H2.
    apply (group_sound _ _ "-C" _ _ _ couplet_sound) in H2 as (t & E & S). exists t. split; [exact E|]. intros Hn. now apply sp_couplets, S.
  - assert (K : exists l, a = SealSignaturesGroups l /\ (let! (rest, sc) := b64_count r1 in pcount (seal_sigs attachment) (N.to_nat sc) rest) = POk r l).
    { apply pbnd_inv in H as (r2 & l' & H2 & H). apply pbnd_inv in H as (r3 & l & H3 & H). injection H as <- <-. exists l. split; [reflexivity|]. rewrite H2. exact H3. }
    destruct K as (l & -> & K). subst c. apply (group_sound _ (with_sigs seal_spelling) "-F") in K as (t & E & S).
    + exists t. split; [exact E|]. intros Hn. now apply sp_seals, S.
    + apply (with_sigs_sound event_seal); [reflexivity|apply seal_sound].
  - apply pbnd_inv in H as (r2 & l' & H2 & H). injection H as <- <-. subst c. unfold source_seal in H2.
    apply (group_sound _ _ "-G" _ _ _ source_sound) in H2 as (t & E & S). exists t. split; [exact E|]. intros Hn. now apply sp_source, S.
  - assert (K : exists l, a = LastEstSignaturesGroups l /\ (let! (rest, sc) := b64_count r1 in pcount (id_sigs attachment) (N.to_nat sc) rest) = POk r l).
    { apply pbnd_inv in H as (r2 & l' & H2 & H). apply pbnd_inv in H as (r3 & l & H3 & H). injection H as <- <-. exists l. split; [reflexivity|]. rewrite H2. exact H3. }
    destruct K as (l & -> & K). subst c. apply (group_sound _ (with_sigs id_spelling) "-H") in K as (t & E & S).
    + exists t. split; [exact E|]. intros Hn. now apply sp_last, S.
    + apply (with_sigs_sound prefix); [reflexivity|apply prefix_sound].
  - subst c. clear H0. apply pbnd_inv in H as (r2 & k & H2 & H). cbv zeta in H. apply count_sound in H2 as (tk & -> & S2).
    destruct (take (4 * N.to_nat k) r2) as [r3 tot| | | |] eqn:Et; try discriminate. apply take_inv in Et as [-> Lt].
    apply pbnd_inv in H as (r4 & l & H4 & H). destruct r4; [|destruct (_ <=? _); discriminate]. injection H as <- <-.
    exists (bstr "-V" ++ tk ++ tot). split; [now rewrite <- !app_assoc|]. rewrite !nopad_app. intros (_ & Nk & Nt).
    destruct (S2 Nk) as [B ->]. apply many0_sound in H4 as (ts & -> & F); [|intros u r b Lu Hu|exact Nt].
    + replace k with (N.of_nat (N.to_nat k)) at 1 by lia. apply (sp_frame l ts (N.to_nat k)); [lia|exact Lt|exact F].
    + eapply IH; [|reflexivity|exact Hu]. rewrite !app_length. change (List.length (bstr "-V")) with 2. lia.
Qed.
Lemma many0_complete l ts n : Forall2 (fun a t => t <> [] /\ forall r, attachment (t ++ r) = POk r a) l ts ->
  List.length (List.concat ts) < n -> many0_f attachment n (List.concat ts) = POk [] l.
Proof.
  intros F. revert n. induction F as [|a t l ts [Hne Ht] F IH]; intros n Hn.
  - destruct n; [lia|]. reflexivity.
  - destruct n as [|n]; [lia|]. cbn [List.concat many0_f] in *. rewrite Ht. rewrite app_length in *.
    assert (List.length t <> 0) by (destruct t; [congruence|discriminate]).
    replace (_ =? _) with false by (symmetry; apply Nat.eqb_neq; lia). rewrite IH by lia. reflexivity.
Qed.
Lemma spells_ne a t : spells a t -> t <> [].
Proof. destruct 1 as [l t H|l t H|l t H|l t H|l t H|]; try (destruct H as (_ & ts & _ & ->)); discriminate. Qed.
Theorem att_complete : complete attachment spells.
Proof.
  intros a. induction a as [l|l|l|l|l|l IH] using attachment_ind'; intros t r H; inversion H as [l' t' G|l' t' G|l' t' G|l' t' G|l' t' G|l' ts k Hk Hl F]; subst; rewrite attachment_eq.
  - destruct (group_complete source_seal1 source_spelling "-G" t r l source_complete G) as (s & -> & E).
    rewrite (att_head _ "-G" MG) by (code_ascii || reflexivity). unfold source_seal. now rewrite E.
  - now apply sigs_complete.
  - destruct (group_complete couplet couplet_spelling "-C" t r l couplet_complete G) as (s & -> & E).
    rewrite (att_head _ "-C" MC) by (code_ascii || reflexivity). unfold couplets. now rewrite E.
  - destruct (group_complete (seal_sigs attachment) (with_sigs seal_spelling) "-F" t r l) as (s & -> & E); [|exact G|].
    { apply (with_sigs_complete event_seal); [reflexivity|apply seal_complete]. }
    rewrite (att_head _ "-F" MF) by (code_ascii || reflexivity).
    destruct (b64_count s) as [r' n| | | |]; try discriminate E. cbn [pbnd] in *. now rewrite E.
  - destruct (group_complete (id_sigs attachment) (with_sigs id_spelling) "-H" t r l) as (s & -> & E); [|exact G|].
    { apply (with_sigs_complete prefix); [reflexivity|apply prefix_complete]. }
    rewrite (att_head _ "-H" MH) by (code_ascii || reflexivity).
    destruct (b64_count s) as [r' n| | | |]; try discriminate E. cbn [pbnd] in *. now rewrite E.
  - unfold group. rewrite <- !app_assoc. rewrite (att_head _ "-V" MV) by (code_ascii || reflexivity).
    rewrite digits_count by lia. cbn [pbnd]. cbv zeta. rewrite Nat2N.id, take_app by (now rewrite Hl).
    unfold many0. rewrite (many0_complete l ts); [reflexivity| |lia].
    clear -IH F. induction F as [|a t l ts Ha F IHF]; [apply Forall2_nil|]. inversion IH; subst. apply Forall2_cons; [|auto].
    split; [now apply (spells_ne a)|]. intros r. auto.
Qed.
