(** * Attachments: C47, C48, C49, C50. *)
From Coq Require Import ZifyBool ZifyN ZifyNat.
From Verif Require Import Base Base64 Base64Proofs Codes NumFmt Types SpecCodec CodecProofs CodecProofs2 Demo Cesr CesrProofs SpecCesr CesrProofs2 CesrProofs3.
Ltac Zify.zify_post_hook ::= Z.div_mod_to_equations.

(** ** C47: packed sequence numbers *)
(** a packed number is the text of the 16 big-endian bytes of the number, and it is read
    back whatever follows it *)
Theorem C47_sn_round_trip :
  forall n, (n <= u64_max)%N -> pack_sn n = sn_text n /\ forall r, attached_sn (pack_sn n ++ r) = POk r n.
Proof. intros n H. split; [now apply pack_sn_text|]. intros r. now apply sn_round_trip. Qed.
Print Assumptions C47_sn_round_trip.
Theorem C47_sn_distinct :
  forall n m, (n <= u64_max)%N -> (m <= u64_max)%N -> pack_sn n = pack_sn m -> n = m.
Proof.
  intros n m Hn Hm H. pose proof (sn_round_trip n [] Hn) as E. rewrite H, sn_round_trip in E by exact Hm. congruence.
Qed.
Example C47_example : (18446744073709551615 <= u64_max)%N
  /\ pack_sn 1 = bstr "0AAAAAAAAAAAAAAAAAAAAAAQ"
  /\ attached_sn (bstr "0AAAAAAAAAAAAAAAAAAAAAAQrest") = POk (bstr "rest") 1%N.
Proof. split; [vm_compute; discriminate|split; reflexivity]. Qed.

(** ** C48: count codes *)
(** Written counts below 63 are read back with their kind.  [count_kind] lists the kinds
    that carry a count. *)
Definition count_kinds : list PayloadType := [MA; MB; MC; MD; ME; MF; MG; MH; MU; MV; MW; MX; MY; MZ].
Definition read_count (s : bytes) : pres (PayloadType * N) :=
  let! (r, t) := take 2 s in let! (r, t) := plift (pt_from t) PErr r in let! (r, n) := b64_count r in POk r (t, n).
Lemma count_kind_code t : In t count_kinds -> t <> MH -> is_count_code t.
Proof. intros H Hm. destruct t; try reflexivity; try congruence; unfold count_kinds in H; cbn [In] in H; intuition discriminate. Qed.
Lemma read_count_text t n r : In t count_kinds -> (n < 4096)%N ->
  read_count (pt_str t ++ two_digits n ++ r) = POk r (t, n).
Proof.
  intros Ht Hn. unfold read_count.
  assert (L : List.length (pt_str t) = 2) by (destruct t; try reflexivity; unfold count_kinds in Ht; cbn [In] in Ht; intuition discriminate).
  rewrite take_app by (symmetry; exact L). cbn [pbnd]. rewrite pt_from_str.
  - cbn [plift pbnd]. rewrite digits_count by exact Hn. reflexivity.
  - intros ->. unfold count_kinds in Ht. cbn [In] in Ht. intuition discriminate.
Qed.
Theorem C48_count_round_trip_partial :
  forall t n, In t count_kinds -> t <> MH -> (n < 63)%N ->
  exists c, adjust_with_num t n = Ok c /\ List.length c = 4 /\ forall r, read_count (c ++ r) = POk r (t, n).
Proof.
  intros t n Ht Hm Hn. exists (pt_str t ++ [enc6 0; enc6 n]).
  split; [apply adjust_small; [now apply count_kind_code|exact Hn]|].
  split; [destruct t; try reflexivity; unfold count_kinds in Ht; cbn [In] in Ht; intuition discriminate|].
  intros r. rewrite <- app_assoc. rewrite <- (read_count_text t n r Ht) by lia.
  unfold two_digits. rewrite N.div_small, N.mod_small by lia. reflexivity.
Qed.
Print Assumptions C48_count_round_trip_partial.
(** the reader is right for every count the two characters can express: what is missing is
    the writer *)
Theorem C48_reader_complete :
  forall t n r, In t count_kinds -> (n < 4096)%N -> read_count (pt_str t ++ two_digits n ++ r) = POk r (t, n).
Proof. exact read_count_text. Qed.
(** from 63 on, within the capacity of two characters (4095), the writer writes a code that
    reads as another count *)
Theorem C48_refuted_from_63 :
  forall t n c, In t count_kinds -> t <> MH -> (63 <= n <= 4095)%N -> adjust_with_num t n = Ok c ->
  forall r, exists r' m, read_count (c ++ r) = POk r' (t, m) /\ m <> n /\ m = (n / 16)%N.
Proof.
  intros t n c Ht Hm Hn H r. destruct (adjust_big t n) as (x & E & _); [now apply count_kind_code|lia|].
  rewrite E in H. assert (Ec : c = pt_str t ++ two_digits (n / 16) ++ x) by congruence. subst c.
  exists (x ++ r), (n / 16)%N. rewrite <- !app_assoc. rewrite read_count_text by (exact Ht || lia).
  split; [reflexivity|lia].
Qed.
Print Assumptions C48_refuted_from_63.
(** and the count of last-establishment groups cannot be written at all *)
Theorem C48_last_est_count_panics : forall n, adjust_with_num MH n = Panic.
Proof. reflexivity. Qed.
(** kinds are read back from their text, except E *)
Theorem C48_kinds : forall t, t <> PE -> pt_from (pt_str t) = Ok t.
Proof. exact pt_from_str. Qed.
Theorem C48_kind_E_refuted : pt_from (pt_str PE) = Ok PD.
Proof. reflexivity. Qed.
(** The declared size of a kind is the length of the texts of that kind: of keys, digests,
    signatures and packed numbers. *)
Theorem C48_sizes :
  (forall p t, bp_sized p -> pt_str t = basic_code (bp_code p) -> pt_size t = List.length (bp_str p))
  /\ (forall d t, sap_sized d -> pt_str t = sa_code (sap_code d) -> pt_size t = List.length (sap_str d))
  /\ (forall s t, ssp_sized s -> pt_str t = ss_code (ssp_code s) -> pt_size t = List.length (ssp_str s))
  /\ (forall n, pt_size ZA = List.length (pack_sn n)).
Proof.
  split; [|split; [|split]].
  - intros [c k] t Hz E. unfold bp_sized, bp_str in *. cbn [bp_code bp_key] in *.
    rewrite prefix_str_ne by (intros ->; destruct c; discriminate Hz). rewrite app_length, encode_length, Hz.
    destruct c, t; try discriminate E; reflexivity.
  - intros [c k] t Hz E. unfold sap_sized, sap_str in *. cbn [sap_code sap_digest] in *.
    rewrite prefix_str_ne by (intros ->; destruct c; discriminate Hz). rewrite app_length, encode_length, Hz.
    destruct c, t; try discriminate E; reflexivity.
  - intros [c k] t Hz E. unfold ssp_sized, ssp_str in *. cbn [ssp_code ssp_sig] in *.
    rewrite prefix_str_ne by (intros ->; destruct c; discriminate Hz). rewrite app_length, encode_length, Hz.
    destruct c, t; try discriminate E; reflexivity.
  - intros n. unfold pack_sn. rewrite app_length, encode_length, app_length, u64_be_length, repeat_length. reflexivity.
Qed.
Print Assumptions C48_sizes.
Example C48_example : In MA count_kinds /\ MA <> MH /\ adjust_with_num MA 2 = Ok (bstr "-AAC")
  /\ adjust_with_num MA 64 = Ok (bstr "-AAE") /\ read_count (bstr "-AAE") = POk [] (MA, 4%N).
Proof. split; [now left|]. split; [discriminate|]. repeat split. Qed.

(** ** C49: attachments *)
(** Every attachment that the format can carry is read from its specified text, whatever
    follows, and for attachments with counts and indices below 63 that text is what is
    written. *)
Theorem C49_attachment_round_trip_partial :
  forall a, att_fits a -> att_small a ->
  exists t, to_cesr a = Ok t /\ forall r, attachment (t ++ r) = POk r a.
Proof. intros a H Hs. exists (att_text a). split; [now apply att_write|]. now apply att_read. Qed.
Print Assumptions C49_attachment_round_trip_partial.
Theorem C49_written_as_specified :
  forall a, att_fits a -> att_small a -> to_cesr a = Ok (att_text a).
Proof. exact att_write. Qed.
Theorem C49_reader_complete :
  forall a, att_fits a -> forall r, attachment (att_text a ++ r) = POk r a.
Proof. exact att_read. Qed.
Print Assumptions C49_reader_complete.
(** distinct attachments have distinct texts *)
Theorem C49_text_unambiguous :
  forall a b, att_fits a -> att_fits b -> att_text a = att_text b -> a = b.
Proof.
  intros a b Ha Hb H. pose proof (att_read a Ha []) as E. rewrite H, att_read in E by exact Hb. congruence.
Qed.
(** The full statement is false for frames (written with their size in bytes, read as a
    number of four-character groups), for last-establishment groups (the writer panics) and
    for counts of 63 and more. *)
Theorem C49_frames_refuted :
  forall l t, l <> [] -> to_cesr (Frame l) = Ok t -> forall a, attachment t <> POk [] a.
Proof. exact frame_lost. Qed.
Print Assumptions C49_frames_refuted.
Theorem C49_last_est_refuted : forall l, to_cesr (LastEstSignaturesGroups l) = Panic.
Proof. exact last_est_panics. Qed.
Print Assumptions C49_last_est_refuted.
Lemma pcount_length {A} (f : bytes -> pres A) n : forall s r l, pcount f n s = POk r l -> List.length l = n.
Proof.
  induction n as [|n IH]; intros s r l H; cbn [pcount] in H; [inversion H; reflexivity|].
  apply pbnd_inv in H as (r1 & a & _ & H). apply pbnd_inv in H as (r2 & l' & H1 & H). inversion H; subst.
  cbn [List.length]. f_equal. eapply IH, H1.
Qed.
(** more than 62 signatures: the text never reads back as the same list *)
Theorem C49_many_signatures_refuted :
  forall sigs t, 63 <= List.length sigs < 4096 -> to_cesr (AttachedSignatures sigs) = Ok t ->
  forall r r', attachment (t ++ r) <> POk r' (AttachedSignatures sigs).
Proof.
  intros sigs t Hn H r r' Hr. cbn [to_cesr] in H. unfold sigs_cesr, with_count in H. cbn [obind] in H.
  assert (Hu : as_u16 (List.length sigs) = N.of_nat (List.length sigs)).
  { unfold as_u16. apply N.mod_small. assert (N.of_nat (List.length sigs) < 4096)%N by lia. lia. }
  rewrite Hu in H. destruct (adjust_big MA (N.of_nat (List.length sigs))) as (x & E & _); [reflexivity|lia|].
  rewrite E in H. cbn [obind] in H.
  assert (Et : t = (pt_str MA ++ two_digits (N.of_nat (List.length sigs) / 16) ++ x) ++ flat_map asp_str sigs) by congruence.
  subst t. change (pt_str MA) with (bstr "-A") in Hr. rewrite <- !app_assoc in Hr.
  rewrite attachment_eq, (att_head _ "-A" MA) in Hr by (code_ascii || reflexivity).
  apply pbnd_inv in Hr as (r1 & l & H1 & H2). unfold signatures in H1. rewrite digits_count in H1 by lia.
  cbn [pbnd] in H1. apply pcount_length in H1. inversion H2; subst. lia.
Qed.
Print Assumptions C49_many_signatures_refuted.
Definition ex_att : Attachment :=
  SealSignaturesGroups [(mkES alice 3 (mkSAP Blake3_256 (repeat x05 32)), [mkASP 0 (mkSSP Ed25519Sha512 (repeat x01 64)); mkASP 2 (mkSSP Ed448Sig (repeat x07 114))])].
Example C49_example : att_fits ex_att /\ att_small ex_att.
Proof.
  unfold ex_att. cbn [att_fits att_small]. unfold counted, small.
  split.
  - split; [cbn; lia|]. apply Forall_cons; [|apply Forall_nil]. split.
    + unfold seal_fits. cbn [es_prefix es_sn es_digest fst]. split; [|split; [vm_compute; discriminate|split; reflexivity]].
      unfold id_fits. split; [vm_compute; reflexivity|]. split; [vm_compute; reflexivity|].
      split; [vm_compute; reflexivity|]. vm_compute; discriminate.
    + split; [cbn; lia|]. apply Forall_cons; [|apply Forall_cons; [|apply Forall_nil]]; (split; [vm_compute; reflexivity|vm_compute; reflexivity]).
  - split; [cbn; lia|]. apply Forall_cons; [|apply Forall_nil]. cbn [snd]. split; [cbn; lia|].
    apply Forall_cons; [|apply Forall_cons; [|apply Forall_nil]]; vm_compute; reflexivity.
Qed.

(** ** C50: parsing attachments *)
(** A panic comes from a code of the table that is not implemented, or from a frame: in an
    input without these texts there is none. *)
Theorem C50_no_panic_partial :
  forall s, attachment s = PPanic ->
  exists u p, s = p ++ u /\ ((exists c r, In c unimplemented /\ u = c ++ r) \/ exists r, u = bstr "-V" ++ r).
Proof. intros s H. apply panic_source in H as (u & (p & Hp) & H). exists u, p. split; [exact Hp|exact H]. Qed.
Print Assumptions C50_no_panic_partial.
(** groups of signatures, receipts and source seals never panic whatever follows the code *)
Theorem C50_flat_groups_no_panic :
  forall code r, In code ["-A"; "-C"; "-G"]%string -> attachment (bstr code ++ r) <> PPanic.
Proof. exact flat_calm. Qed.
Print Assumptions C50_flat_groups_no_panic.
(** the parsers of identifiers, keys, digests, signatures and numbers never panic *)
Theorem C50_prefix_parsers_no_panic :
  forall s, attached_signature s <> PPanic /\ basic_prefix s <> PPanic /\ self_addressing_prefix s <> PPanic
    /\ self_signing_prefix s <> PPanic /\ attached_sn s <> PPanic /\ prefix s <> PPanic.
Proof.
  intros s. split; [apply attached_signature_calm|]. split; [apply basic_prefix_calm|]. split; [apply sap_calm|].
  split; [apply ssp_calm|]. split; [apply attached_sn_calm|apply prefix_calm].
Qed.
Print Assumptions C50_prefix_parsers_no_panic.
(** The full statement is false: every input that starts with an unimplemented code panics *)
Theorem C50_unimplemented_codes_panic :
  forall c r, In c unimplemented -> attachment (c ++ r) = PPanic.
Proof. exact todo_panics. Qed.
Print Assumptions C50_unimplemented_codes_panic.
(** and so does a frame that does not parse to its end, when more input follows than the
    frame is long *)
Theorem C50_frame_leftover_panics :
  forall k body rest, (k < 4096)%N -> List.length body = 4 * N.to_nat k ->
  (exists extra l, many0 attachment body = POk extra l /\ extra <> []) -> List.length body < List.length rest ->
  attachment (bstr "-V" ++ two_digits k ++ body ++ rest) = PPanic.
Proof. exact frame_underflow. Qed.
Print Assumptions C50_frame_leftover_panics.
Example C50_example : attachment (bstr "-VABjunk01234") = PPanic /\ attachment (bstr "-BAA") = PPanic
  /\ In (bstr "-B") unimplemented /\ many0 attachment (bstr "junk") = POk (bstr "junk") [].
Proof. split; [reflexivity|]. split; [reflexivity|]. split; [unfold unimplemented; cbn [map In]; tauto|reflexivity]. Qed.
Print Assumptions C49_text_unambiguous.
Print Assumptions C49_written_as_specified.
Print Assumptions C48_kind_E_refuted.
Print Assumptions C48_kinds.
Print Assumptions C48_last_est_count_panics.
Print Assumptions C48_reader_complete.
Print Assumptions C47_sn_distinct.
