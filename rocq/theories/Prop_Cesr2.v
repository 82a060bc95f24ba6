(** * Attachments as a language: C109, C110, C111.  [spells a t] (SpecCesr2) lists the texts of
    an attachment: codes, counts and members, without the parser. *)
From Coq Require Import ZifyBool ZifyN ZifyNat.
From Verif Require Import Base Base64 Base64Proofs Codes NumFmt Types SpecCodec CodecProofs CodecProofs2 Demo Cesr CesrProofs SpecCesr CesrProofs2 CesrProofs3 SpecCesr2 CesrProofs4 CesrProofs5 CesrProofs6 Message.

(** ** C109: which texts are attachments *)
(** A text without padding characters is read as the attachment [a], whatever follows it,
    exactly when it is one of the texts of [a]. *)
Theorem C109_exact :
  forall t rest a, ~ In "="%byte t -> (attachment (t ++ rest) = POk rest a <-> spells a t).
Proof. intros t rest a. apply att_exact. Qed.
Print Assumptions C109_exact.
(** Whatever is accepted is a beginning of the input, and unless it contains padding it is a
    text of the attachment. *)
Theorem C109_accepted :
  forall s rest a, attachment s = POk rest a -> exists t, s = t ++ rest /\ (~ In "="%byte t -> spells a t).
Proof. exact att_sound. Qed.
(** The texts use the 64 characters of URL-safe base64 only. *)
Theorem C109_alphabet : forall a t, spells a t -> Forall (fun c => In c alphabet) t.
Proof. exact spells_safe. Qed.
(** No text of an attachment is also a text of another one, or the beginning of one. *)
Theorem C109_unambiguous :
  forall a t a' t' r r', spells a t -> spells a' t' -> t ++ r = t' ++ r' -> a = a' /\ t = t' /\ r = r'.
Proof.
  intros a t a' t' r r' H H' E. apply (att_complete _ _ r) in H. apply (att_complete _ _ r') in H'. rewrite E in H. rewrite H in H'.
  injection H' as -> ->. apply app_inv_tail in E. auto.
Qed.
Print Assumptions C109_unambiguous.
(** the specified text of C49 is one of them *)
Lemma flat_concat {A} (g : A -> bytes) l : flat_map g l = List.concat (map g l).
Proof. apply flat_map_concat_map. Qed.
Lemma safe_sn_text n : url_safe (sn_text n).
Proof. apply safe_app; [apply safe_vm; reflexivity|apply safe_encode]. Qed.
Lemma safe_id_str i : url_safe (id_str i).
Proof. destruct i; [apply safe_bp|apply safe_sap|apply safe_ssp]. Qed.
Lemma safe_flat {A} code (g : A -> bytes) n l : url_safe (bstr code) -> (forall a, In a l -> url_safe (g a)) -> url_safe (group code n (flat_map g l)).
Proof.
  intros Hc H. rewrite flat_concat. apply safe_group_of; [exact Hc|]. apply Forall_forall. intros x Hx. apply in_map_iff in Hx as (a & <- & Ha). auto.
Qed.
Lemma safe_sigs_text l : url_safe (sigs_text l).
Proof. apply safe_flat; [apply safe_vm; reflexivity|]. intros. apply safe_sig. Qed.
Lemma safe_att_text a : url_safe (att_text a).
Proof.
  induction a as [l|l|l|l|l|l IH] using attachment_ind'.
  1-5: cbn [att_text].
  - apply safe_flat; [apply safe_vm; reflexivity|]. intros. apply safe_app; [apply safe_sn_text|apply safe_sap].
  - apply safe_sigs_text.
  - apply safe_flat; [apply safe_vm; reflexivity|]. intros. apply safe_app; [apply safe_bp|apply safe_ssp].
  - apply safe_flat; [apply safe_vm; reflexivity|]. intros. unfold seal_text. apply safe_app; [|apply safe_sigs_text]. apply safe_app; [apply safe_id_str|]. apply safe_app; [apply safe_sn_text|apply safe_sap].
  - apply safe_flat; [apply safe_vm; reflexivity|]. intros. apply safe_app; [apply safe_id_str|apply safe_sigs_text].
  - rewrite frame_text. apply safe_flat; [apply safe_vm; reflexivity|]. rewrite Forall_forall in IH. exact IH.
Qed.
Theorem C109_specified_text : forall a, att_fits a -> spells a (att_text a).
Proof.
  intros a H. apply (att_exact _ [] a); [apply safe_nopad, safe_att_text|]. now apply att_read.
Qed.

(** ** C110: one text for an attachment *)
(** Holds for attachments without sequence numbers: signatures, receipt couplets,
    last-establishment groups, and frames of these. *)
Theorem C110_one_text_partial :
  forall a, numberless a -> forall t t' rest, ~ In "="%byte t -> ~ In "="%byte t' ->
  attachment (t ++ rest) = POk rest a -> attachment (t' ++ rest) = POk rest a -> t = t'.
Proof. intros a Hn t t' rest N N' H H'. apply (att_exact t rest a N) in H. apply (att_exact t' rest a N') in H'. eapply spells_fun; eauto. Qed.
Print Assumptions C110_one_text_partial.
(** False with a sequence number: of its 16 bytes the first eight are not looked at.  Any two
    different choices give two texts of the same seal. *)
Theorem C110_refuted :
  forall n d h h', (n <= u64_max)%N -> digest_fits d -> List.length h = 8 -> List.length h' = 8 -> h <> h' ->
  let text x := bstr "-GAB" ++ (bstr "0A" ++ b64_encode (x ++ be_bytes 8 n)) ++ sap_str d in
  text h <> text h' /\ forall rest,
  attachment (text h ++ rest) = POk rest (SealSourceCouplets [mkSrc n d])
  /\ attachment (text h' ++ rest) = POk rest (SealSourceCouplets [mkSrc n d]).
Proof.
  intros n d h h' Hn Hd L L' D text.
  assert (T : forall x, List.length x = 8 -> forall rest, attachment (text x ++ rest) = POk rest (SealSourceCouplets [mkSrc n d])).
  { intros x Lx rest. apply att_complete, sp_source. split; [cbn; lia|].
    exists [(bstr "0A" ++ b64_encode (x ++ be_bytes 8 n)) ++ sap_str d]. split.
    - apply Forall2_cons; [|apply Forall2_nil]. exists (bstr "0A" ++ b64_encode (x ++ be_bytes 8 n)), (sap_str d).
      split; [split; [exact Hn|now exists x]|]. split; [split; [exact Hd|reflexivity]|reflexivity].
    - unfold text, group. cbn [List.concat]. rewrite app_nil_r. reflexivity. }
  split; [|intros rest; split; apply T; assumption].
  unfold text. intros E. apply app_inv_head, app_inv_tail, app_inv_head, encode_inj, app_inv_tail in E. contradiction.
Qed.
Print Assumptions C110_refuted.
(** False with padding: a count may be written with a padding character. *)
Theorem C110_padding_refuted :
  forall s, List.length s = 64 ->
  let sig := mkASP 0 (mkSSP Ed25519Sha512 s) in
  attachment (bstr "-AE=" ++ sig_text sig) = POk [] (AttachedSignatures [sig])
  /\ attachment (bstr "-AAB" ++ sig_text sig) = POk [] (AttachedSignatures [sig]).
Proof.
  intros s Hs sig. assert (R : forall r, attached_signature (sig_text sig ++ r) = POk r sig).
  { intros r. apply sig_read. split; [exact Hs|reflexivity]. }
  assert (E : forall d, b64_count (d ++ sig_text sig) = POk (sig_text sig) 1%N ->
              attachment (bstr "-A" ++ d ++ sig_text sig) = POk [] (AttachedSignatures [sig])).
  { intros d Hd. rewrite attachment_eq, (att_head _ "-A" MA) by (code_ascii || reflexivity). unfold signatures. rewrite Hd. cbn [pbnd].
    change (N.to_nat 1) with 1. cbn [pcount]. rewrite <- (app_nil_r (sig_text sig)), R. reflexivity. }
  split.
  - change (bstr "-AE=" ++ sig_text sig) with (bstr "-A" ++ bstr "E=" ++ sig_text sig). apply E. unfold b64_count. rewrite take_app by reflexivity. reflexivity.
  - change (bstr "-AAB" ++ sig_text sig) with (bstr "-A" ++ bstr "AB" ++ sig_text sig). apply E. unfold b64_count. rewrite take_app by reflexivity. reflexivity.
Qed.
Print Assumptions C110_padding_refuted.

(** ** C111: a signed message *)
(** [parse] reads the event at the beginning of a text.  What follows it is read as attachments
    as long as that is possible; the message has exactly these. *)
Theorem C111_message_exactly :
  forall parse s rest d, ~ In "="%byte s -> (forall body e, parse s = POk body e -> exists x, s = x ++ body) ->
  (signed_message parse s = POk rest d <->
   exists ts, parse s = POk (List.concat ts ++ rest) (sed_event d) /\ Forall2 spells (sed_atts d) ts /\ attachment rest = PErr).
Proof.
  intros parse s rest d Hn Hs. split.
  - intros H. apply msg_sound in H as (body & t & Hp & -> & Hr & S). destruct (Hs _ _ Hp) as [x E].
    assert (Nt : nopad t). { intros Hi. apply Hn. rewrite E. apply in_or_app. right. apply in_or_app. now left. }
    destruct (S Nt) as (ts & -> & F). exists ts. auto.
  - intros (ts & Hp & F & Hr). rewrite (msg_complete parse s rest _ _ ts Hp F Hr). now destruct d.
Qed.
Print Assumptions C111_message_exactly.
(** A last group of signatures that is cut short, wherever, is not refused: the message is
    read without it, and its remains are left over. *)
Theorem C111_cut_short :
  forall parse x e l ts sigs t u v,
  (forall rest, parse (x ++ rest) = POk rest e) -> Forall2 spells l ts ->
  spells (AttachedSignatures sigs) t -> t = u ++ v -> v <> [] ->
  signed_message parse (x ++ List.concat ts ++ u) = POk u (mkSED e l).
Proof.
  intros parse x e l ts sigs t u v Hp F Hs E Hv. apply (msg_complete _ _ _ _ _ ts); [apply Hp|exact F|].
  inversion Hs; subst. eapply sigs_cut; eauto.
Qed.
Print Assumptions C111_cut_short.

(** ** Cases *)
Definition s1 : AttachedSignaturePrefix := mkASP 1 (mkSSP Ed25519Sha512 (repeat x01 64)).
Definition d1 : SelfAddressingPrefix := mkSAP Blake3_256 (repeat x05 32).
Definition k1 : BasicPrefix := mkBP ECDSAsecp256k1 (repeat x02 35).
Definition g_sigs : bytes := bstr "-AAB" ++ sig_text s1.
Lemma g_sigs_spelled : spells (AttachedSignatures [s1]) g_sigs.
Proof.
  apply sp_sigs. split; [cbn; lia|]. exists [sig_text s1]. split.
  - apply Forall2_cons; [split; [split; vm_compute; reflexivity|reflexivity]|apply Forall2_nil].
  - vm_compute. reflexivity.
Qed.
Example C109_example : spells (AttachedSignatures [s1]) g_sigs /\ ~ In "="%byte g_sigs
  /\ attachment (g_sigs ++ bstr "rest") = POk (bstr "rest") (AttachedSignatures [s1])
  /\ attachment (bstr "-VAX" ++ g_sigs) = POk [] (Frame [AttachedSignatures [s1]])
  /\ numberless (Frame [AttachedSignatures [s1]])
  /\ spells (Frame [AttachedSignatures [s1]]) (bstr "-VAX" ++ g_sigs).
Proof.
  assert (N : ~ In "="%byte g_sigs) by (apply safe_nopad, (spells_safe _ _ g_sigs_spelled)).
  apply conj; [exact g_sigs_spelled|]. apply conj; [exact N|]. apply conj; [vm_compute; reflexivity|]. apply conj; [vm_compute; reflexivity|].
  apply conj; [apply nl_frame, Forall_cons; [apply nl_sigs|apply Forall_nil]|].
  change (bstr "-VAX" ++ g_sigs) with (bstr "-VAX" ++ g_sigs ++ []).
  change (spells (Frame [AttachedSignatures [s1]]) (group "-V" 23 (List.concat [g_sigs]))).
  apply sp_frame; [lia|vm_compute; reflexivity|]. apply Forall2_cons; [exact g_sigs_spelled|apply Forall2_nil].
Qed.
Example C110_example : digest_fits d1 /\ repeat x00 8 <> repeat x01 8 /\ List.length (repeat x01 8) = 8
  /\ key_carried k1
  /\ attachment (bstr "-HAB" ++ bp_str k1 ++ g_sigs) = POk [] (LastEstSignaturesGroups [(IdBasic k1, [s1])]).
Proof.
  apply conj; [split; vm_compute; reflexivity|]. apply conj; [discriminate|]. apply conj; [reflexivity|]. apply conj; [vm_compute; reflexivity|]. vm_compute; reflexivity.
Qed.
(** a toy reader of events: one character *)
Definition one_char (s : bytes) : pres EventType :=
  let! (r, t) := take 1 s in if is t "E" then POk r (KeyEventT a_icp) else PErr.
Example C111_example :
  (forall rest, one_char (bstr "E" ++ rest) = POk rest (KeyEventT a_icp))
  /\ ~ In "="%byte (bstr "E" ++ g_sigs)
  /\ signed_message one_char (bstr "E" ++ g_sigs) = POk [] (mkSED (KeyEventT a_icp) [AttachedSignatures [s1]])
  /\ signed_message one_char (bstr "E" ++ g_sigs ++ firstn 20 g_sigs) = POk (firstn 20 g_sigs) (mkSED (KeyEventT a_icp) [AttachedSignatures [s1]])
  /\ g_sigs = firstn 20 g_sigs ++ skipn 20 g_sigs /\ skipn 20 g_sigs <> [].
Proof.
  apply conj; [intros rest; unfold one_char; now rewrite take_app|].
  apply conj; [apply safe_nopad, safe_app; [apply safe_vm; reflexivity|apply (spells_safe _ _ g_sigs_spelled)]|].
  apply conj; [vm_compute; reflexivity|]. apply conj; [vm_compute; reflexivity|]. apply conj; [vm_compute; reflexivity|]. vm_compute. discriminate.
Qed.
