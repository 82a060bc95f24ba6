(** Proofs about the attachment writer and parser. *)
From Coq Require Import ZifyBool ZifyN ZifyNat.
From Verif Require Import Base Base64 Base64Proofs Codes NumFmt Types SpecCodec CodecProofs CodecProofs2 Cesr.
Ltac Zify.zify_post_hook ::= Z.div_mod_to_equations.

(** ** Small parsers *)
Lemma take_app n (a r : bytes) : n = List.length a -> take n (a ++ r) = POk r a.
Proof.
  intros ->. unfold take. rewrite app_length.
  replace (List.length a <=? List.length a + List.length r) with true by (symmetry; apply Nat.leb_le; lia).
  rewrite skipn_app, skipn_all, Nat.sub_diag. cbn [app skipn].
  rewrite firstn_app, firstn_all, Nat.sub_diag. cbn [firstn]. now rewrite app_nil_r.
Qed.
Lemma take_inv n s r a : take n s = POk r a -> s = a ++ r /\ List.length a = n.
Proof.
  unfold take. destruct (n <=? List.length s) eqn:E; [|discriminate]. apply Nat.leb_le in E.
  intros H. inversion H; subst. split; [now rewrite firstn_skipn|]. apply firstn_length_le. exact E.
Qed.
Lemma take_kind n s : (exists r a, take n s = POk r a) \/ take n s = PErr.
Proof. unfold take. destruct (n <=? List.length s); eauto. Qed.

(** ** Numbers *)
Lemma u64_be_length n : List.length (u64_be n) = 8.
Proof. reflexivity. Qed.
Lemma n2b_mod n : b2n (n2b n) = (n mod 256)%N.
Proof.
  replace (n2b n) with (n2b (n mod 256)) by (unfold n2b; now rewrite N.mod_mod by lia).
  apply b2n_n2b. apply N.mod_lt. lia.
Qed.
Lemma be_step n k : (k <> 0)%N -> (n / (k * 256) * 256 + (n / k) mod 256 = n / k)%N.
Proof.
  intros Hk. rewrite <- N.div_div by lia. pose proof (N.div_mod (n / k) 256 ltac:(lia)). lia.
Qed.
Lemma be_value_u64 n : (n <= u64_max)%N -> be_value (u64_be n) = n.
Proof.
  intros H. unfold u64_max in H. unfold u64_be, be_value. cbn [map fold_left]. rewrite !n2b_mod.
  assert (E : (0 * 256 + (n / 256 ^ 7) mod 256 = n / 256 ^ 7)%N).
  { rewrite N.mod_small; [lia|]. apply N.div_lt_upper_bound; [discriminate|].
    change (256 ^ 7 * 256)%N with 18446744073709551616%N. lia. }
  rewrite E. clear E.
  pose proof (be_step n (256 ^ 6) ltac:(discriminate)) as E. change (256 ^ 6 * 256)%N with (256 ^ 7)%N in E. rewrite E; clear E.
  pose proof (be_step n (256 ^ 5) ltac:(discriminate)) as E. change (256 ^ 5 * 256)%N with (256 ^ 6)%N in E. rewrite E; clear E.
  pose proof (be_step n (256 ^ 4) ltac:(discriminate)) as E. change (256 ^ 4 * 256)%N with (256 ^ 5)%N in E. rewrite E; clear E.
  pose proof (be_step n (256 ^ 3) ltac:(discriminate)) as E. change (256 ^ 3 * 256)%N with (256 ^ 4)%N in E. rewrite E; clear E.
  pose proof (be_step n (256 ^ 2) ltac:(discriminate)) as E. change (256 ^ 2 * 256)%N with (256 ^ 3)%N in E. rewrite E; clear E.
  pose proof (be_step n (256 ^ 1) ltac:(discriminate)) as E. change (256 ^ 1 * 256)%N with (256 ^ 2)%N in E. rewrite E; clear E.
  pose proof (be_step n (256 ^ 0) ltac:(discriminate)) as E. change (256 ^ 0 * 256)%N with (256 ^ 1)%N in E. rewrite E; clear E.
  apply N.div_1_r.
Qed.

(** unused input after a text *)
Lemma is_self x s : x = bstr s -> is x s = true.
Proof. intros ->. apply bytes_eqb_refl. Qed.
Theorem sn_round_trip n r : (n <= u64_max)%N -> attached_sn (pack_sn n ++ r) = POk r n.
Proof.
  intros H. unfold attached_sn, pack_sn.
  change (pt_size ZA / 4 * 3 - master_code_size ZA false - List.length (u64_be n)) with 8.
  rewrite <- app_assoc. rewrite take_app by reflexivity. cbn [pbnd].
  rewrite is_self by reflexivity.
  rewrite take_app.
  2:{ rewrite encode_length, app_length, repeat_length, u64_be_length. reflexivity. }
  cbn [pbnd]. unfold decode. rewrite decode_encode. cbn [ok_or plift pbnd].
  rewrite app_length, repeat_length, u64_be_length. cbn [Nat.add Nat.eqb].
  change (skipn 8 (repeat x00 8 ++ u64_be n)) with (u64_be n). now rewrite be_value_u64.
Qed.

(** ** Codes *)
Lemma ascii_valid s : ascii s -> valid_utf8 s = true.
Proof.
  induction 1 as [|c s Hc Hs IH]; [reflexivity|]. cbn [valid_utf8]. apply N.ltb_lt in Hc. now rewrite Hc.
Qed.
Lemma p_code_ok {A} (parse : bytes -> out A) code rest a :
  ascii code -> parse code = Ok a -> p_code parse code rest = POk rest a.
Proof. intros H E. unfold p_code. now rewrite (ascii_valid _ H), E. Qed.
Lemma basic_code_first c : is (firstn 1 (basic_code c)) "1" = match basic_code_len c with 4 => true | _ => false end.
Proof. destruct c; reflexivity. Qed.

Lemma take_firstn n (a r : bytes) : n <= List.length a -> take n (a ++ r) = POk (skipn n a ++ r) (firstn n a).
Proof.
  intros H. unfold take. rewrite app_length.
  replace (n <=? List.length a + List.length r) with true by (symmetry; apply Nat.leb_le; lia).
  rewrite skipn_app, firstn_app. replace (n - List.length a) with 0 by lia. cbn [skipn firstn]. now rewrite app_nil_r.
Qed.
Theorem basic_round_trip p r :
  bp_sized p -> is_ecdsa (bp_code p) = false -> basic_prefix (bp_str p ++ r) = POk r p.
Proof.
  destruct p as [c k]. unfold bp_sized, bp_str. cbn [bp_key bp_code]. intros Hs He.
  rewrite prefix_str_ne by (apply (sized_nonempty _ _ Hs); destruct c; discriminate).
  rewrite <- app_assoc. unfold basic_prefix.
  rewrite (take_firstn 1) by (destruct c; cbn; lia). cbn [pbnd].
  replace (if is (firstn 1 (basic_code c)) "1" then 4 else 1) with (List.length (basic_code c)) by (destruct c; reflexivity).
  rewrite take_app by reflexivity. cbn [pbnd].
  rewrite (p_code_ok _ _ _ c); [ | apply basic_code_ascii | rewrite <- (app_nil_r (basic_code c)); apply basic_code_from_app; apply Forall_nil].
  cbn [pbnd]. rewrite take_app by (rewrite encode_length, Hs; destruct c; try discriminate He; reflexivity).
  cbn [pbnd]. unfold decode. rewrite decode_encode. reflexivity.
Qed.
Theorem sap_round_trip p r :
  sap_sized p -> self_addressing_prefix (sap_str p ++ r) = POk r (mkSAP (unkeyed (sap_code p)) (sap_digest p)).
Proof.
  intros Hs. pose proof (c42 p Hs) as Hf. revert Hs Hf.
  destruct p as [c k]. unfold sap_sized, sap_str. cbn [sap_digest sap_code]. intros Hs.
  rewrite prefix_str_ne by (apply (sized_nonempty _ _ Hs); destruct c; discriminate). intros Hf.
  rewrite <- app_assoc. unfold self_addressing_prefix.
  rewrite (take_firstn 1) by (destruct c; cbn; lia). cbn [pbnd].
  replace (if is (firstn 1 (sa_code c)) "0" then 2 else 1) with (List.length (sa_code c)) by (destruct c; reflexivity).
  rewrite take_app by reflexivity. cbn [pbnd].
  rewrite (p_code_ok _ _ _ (unkeyed c)); [ | apply sa_code_ascii | rewrite <- (app_nil_r (sa_code c)); apply sa_code_from_app; apply Forall_nil].
  cbn [pbnd]. rewrite take_app by (rewrite encode_length, Hs; destruct c; reflexivity).
  cbn [pbnd]. apply p_code_ok; [apply Forall_app; split; [apply sa_code_ascii|apply encode_ascii]|exact Hf].
Qed.
Theorem ssp_round_trip p r : ssp_sized p -> self_signing_prefix (ssp_str p ++ r) = POk r p.
Proof.
  destruct p as [c k]. unfold ssp_sized, ssp_str. cbn [ssp_sig ssp_code]. intros Hs.
  rewrite prefix_str_ne by (apply (sized_nonempty _ _ Hs); destruct c; discriminate).
  rewrite <- app_assoc. unfold self_signing_prefix.
  rewrite (take_firstn 1) by (destruct c; cbn; lia). cbn [pbnd].
  replace (if is (firstn 1 (ss_code c)) "1" then 4 else 2) with (List.length (ss_code c)) by (destruct c; reflexivity).
  rewrite take_app by reflexivity. cbn [pbnd].
  rewrite (p_code_ok _ _ _ c); [ | apply ss_code_ascii | rewrite <- (app_nil_r (ss_code c)); apply ss_code_from_app; apply Forall_nil].
  cbn [pbnd]. rewrite take_app by (rewrite encode_length, Hs; destruct c; reflexivity).
  cbn [pbnd]. unfold decode. rewrite decode_encode. reflexivity.
Qed.
(** a count or index of two characters *)
Lemma b64_to_num_two n : (n < 64)%N -> b64_to_num [enc6 0; enc6 n] = Ok n.
Proof.
  intros H. unfold b64_to_num, decode. cbn [List.length].
  change (bstr "AA" ++ [enc6 0; enc6 n]) with [enc6 0; enc6 0; enc6 0; enc6 n].
  cbn [b64_decode]. rewrite !is_pad_enc6 by lia. unfold dec_group4. rewrite !dec6_enc6 by lia.
  cbn [ok_or obind rev app].
  change (n2b (0 * 4 + 0 / 16)) with x00. change (n2b ((0 mod 16) * 16 + 0 / 4)) with x00.
  f_equal. rewrite b2n_n2b by lia. change (b2n x00) with 0%N. lia.
Qed.
Theorem asp_round_trip p r : asp_sized p -> (asp_index p < 63)%N -> attached_signature (asp_str p ++ r) = POk r p.
Proof.
  destruct p as [i [c k]]; unfold asp_sized, ssp_sized; cbn [asp_sig asp_index ssp_sig ssp_code].
  intros Hs Hi. unfold asp_str. cbn [asp_sig asp_index ssp_sig ssp_code].
  rewrite prefix_str_ne by (apply (sized_nonempty _ _ Hs); destruct c; discriminate).
  unfold as_code. rewrite num_to_b64_small by exact Hi. rewrite <- !app_assoc. cbn [app].
  assert (Hl : List.length (b64_encode k) = as_b64_len c) by (rewrite encode_length, Hs; destruct c; reflexivity).
  unfold attached_signature.
  destruct c.
  - change (bstr "A" ++ enc6 i :: b64_encode k ++ r) with (["A"%byte] ++ [enc6 i] ++ b64_encode k ++ r).
    rewrite take_app by reflexivity. cbn [pbnd]. eval_is. unfold p_index, p_decode.
    rewrite take_app by reflexivity. cbn [pbnd]. rewrite b64_to_num_one by lia. cbn [plift pbnd].
    rewrite take_app by now rewrite Hl. cbn [pbnd]. unfold decode. rewrite decode_encode. reflexivity.
  - change (bstr "B" ++ enc6 i :: b64_encode k ++ r) with (["B"%byte] ++ [enc6 i] ++ b64_encode k ++ r).
    rewrite take_app by reflexivity. cbn [pbnd]. eval_is. unfold p_index, p_decode.
    rewrite take_app by reflexivity. cbn [pbnd]. rewrite b64_to_num_one by lia. cbn [plift pbnd].
    rewrite take_app by now rewrite Hl. cbn [pbnd]. unfold decode. rewrite decode_encode. reflexivity.
  - change (bstr "0AA" ++ enc6 i :: b64_encode k ++ r) with (["0"%byte] ++ ["A"%byte] ++ [enc6 0; enc6 i] ++ b64_encode k ++ r).
    rewrite take_app by reflexivity. cbn [pbnd]. eval_is. rewrite take_app by reflexivity. cbn [pbnd]. eval_is.
    unfold p_index, p_decode.
    rewrite take_app by reflexivity. cbn [pbnd]. rewrite b64_to_num_two by lia. cbn [plift pbnd].
    rewrite take_app by now rewrite Hl. cbn [pbnd]. unfold decode. rewrite decode_encode. reflexivity.
Qed.
(** identifiers: key prefixes are not taken for digests, and self-signing identifiers are not read *)
Lemma sap_fails_basic p r : bp_sized p -> exists x, self_addressing_prefix (bp_str p ++ r) = x /\ (x = PFail \/ x = PErr).
Proof.
  destruct p as [c k]. unfold bp_sized, bp_str. cbn [bp_key bp_code]. intros Hs.
  rewrite prefix_str_ne by (apply (sized_nonempty _ _ Hs); destruct c; discriminate).
  rewrite <- app_assoc. unfold self_addressing_prefix. eexists; split; [reflexivity|]. left.
  rewrite (take_firstn 1) by (destruct c; cbn; lia). cbn [pbnd].
  replace (if is (firstn 1 (basic_code c)) "0" then 2 else 1) with 1 by (destruct c; reflexivity).
  rewrite (take_firstn 1) by (destruct c; cbn; lia). cbn [pbnd].
  destruct c; reflexivity.
Qed.
Theorem prefix_round_trip p r :
  id_sized p -> id_not_ecdsa p -> (forall s, p <> IdSelfSigning s) -> prefix (id_str p ++ r) = POk r (id_unkeyed p).
Proof.
  destruct p as [p|p|p]; cbn [id_sized id_not_ecdsa id_str id_unkeyed]; intros Hs He Hn; unfold prefix.
  - destruct (sap_fails_basic p r Hs) as (x & -> & [-> | ->]); rewrite basic_round_trip by assumption; reflexivity.
  - rewrite sap_round_trip by exact Hs. reflexivity.
  - now destruct (Hn p).
Qed.

(** ** Counted lists *)
Lemma pcount_app {A} (f : bytes -> pres A) (g : A -> bytes) l r :
  (forall x r, In x l -> f (g x ++ r) = POk r x) -> pcount f (List.length l) (flat_map g l ++ r) = POk r l.
Proof.
  induction l as [|a l IH]; intros H; [reflexivity|].
  cbn [List.length pcount flat_map]. rewrite <- app_assoc, H by (left; reflexivity). cbn [pbnd].
  rewrite IH by (intros x r' Hx; apply H; right; exact Hx). reflexivity.
Qed.
Definition is_count_code (t : PayloadType) : Prop := index_length t = Ok 2.
Lemma adjust_small t n : is_count_code t -> (n < 63)%N -> adjust_with_num t n = Ok (pt_str t ++ [enc6 0; enc6 n]).
Proof.
  intros Ht Hn. unfold adjust_with_num. rewrite Ht. cbn [obind]. rewrite num_to_b64_small by exact Hn. reflexivity.
Qed.
Lemma count_app n r : (n < 64)%N -> b64_count ([enc6 0; enc6 n] ++ r) = POk r n.
Proof.
  intros H. unfold b64_count. rewrite take_app by reflexivity. cbn [pbnd]. now rewrite b64_to_num_two.
Qed.
Lemma pt_from_str t : t <> PE -> pt_from (pt_str t) = Ok t.
Proof. intros H. destruct t; try congruence; vm_compute; reflexivity. Qed.
Lemma pt_str_ascii t : ascii (pt_str t).
Proof. destruct t; code_ascii. Qed.
Lemma with_count_inv t n body x : with_count t n (Ok body) = Ok x -> exists c, adjust_with_num t (as_u16 n) = Ok c /\ x = c ++ body.
Proof.
  unfold with_count. cbn [obind]. destruct (adjust_with_num t (as_u16 n)) as [c| |]; cbn [obind]; try discriminate.
  intros H. inversion H. eauto.
Qed.

(** ** What is left is a suffix of the input *)
Definition suffix (r s : bytes) : Prop := exists p, s = p ++ r.
Lemma suffix_refl s : suffix s s. Proof. now exists []. Qed.
Lemma suffix_trans a b c : suffix a b -> suffix b c -> suffix a c.
Proof. intros [p ->] [q ->]. exists (q ++ p). now rewrite app_assoc. Qed.
Lemma suffix_len a b : suffix a b -> List.length a <= List.length b.
Proof. intros [p ->]. rewrite app_length. lia. Qed.
Definition shrinks {A} (f : bytes -> pres A) : Prop := forall s r a, f s = POk r a -> suffix r s.
Lemma pbnd_inv {A B} (x : pres A) (f : bytes -> A -> pres B) r b :
  pbnd x f = POk r b -> exists r' a, x = POk r' a /\ f r' a = POk r b.
Proof. destruct x; cbn [pbnd]; try discriminate. eauto. Qed.
Lemma plift_inv {A} (x : out A) fail rest r a : (forall r a, fail <> POk r a) ->
  plift x fail rest = POk r a -> r = rest /\ x = Ok a.
Proof. intros Hf. destruct x; cbn [plift]; try discriminate; intros H; [inversion H; auto|now apply Hf in H]. Qed.
Lemma p_code_inv {A} (parse : bytes -> out A) c rest r a : p_code parse c rest = POk r a -> r = rest /\ parse c = Ok a /\ valid_utf8 c = true.
Proof.
  unfold p_code. destruct (valid_utf8 c); [|discriminate]. intros H. apply plift_inv in H; [|discriminate].
  destruct H; auto.
Qed.
Lemma take_shrinks n : shrinks (take n).
Proof. intros s r a H. apply take_inv in H as [-> _]. now exists a. Qed.

Ltac pinv :=
  repeat match goal with
  | H : pbnd _ _ = POk _ _ |- _ => apply pbnd_inv in H; destruct H as (? & ? & ? & H)
  | H : plift _ _ _ = POk _ _ |- _ => apply plift_inv in H; [destruct H; subst|discriminate]
  | H : p_code _ _ _ = POk _ _ |- _ => apply p_code_inv in H; destruct H as (? & ? & ?); subst
  | H : POk _ _ = POk _ _ |- _ => inversion H; subst; clear H
  | H : take _ _ = POk _ _ |- _ => apply take_shrinks in H
  | H : PErr = POk _ _ |- _ => discriminate H
  | H : PFail = POk _ _ |- _ => discriminate H
  | H : PPanic = POk _ _ |- _ => discriminate H
  | H : PInc = POk _ _ |- _ => discriminate H
  | H : (if ?b then _ else _) = POk _ _ |- _ => destruct b
  end.
Ltac sfx := solve [eauto 8 using suffix_trans, suffix_refl].

Lemma p_index_shrinks k : shrinks (p_index k).
Proof. intros s r a H. unfold p_index in H. pinv. sfx. Qed.
Lemma p_decode_shrinks k : shrinks (p_decode k).
Proof. intros s r a H. unfold p_decode in H. pinv. sfx. Qed.
Ltac shr :=
  repeat match goal with
  | H : p_index _ _ = POk _ _ |- _ => apply p_index_shrinks in H
  | H : p_decode _ _ = POk _ _ |- _ => apply p_decode_shrinks in H
  end.
Lemma attached_signature_shrinks : shrinks attached_signature.
Proof. intros s r a H. unfold attached_signature in H. pinv; shr; sfx. Qed.
Lemma basic_prefix_shrinks : shrinks basic_prefix.
Proof. intros s r a H. unfold basic_prefix in H. pinv; sfx. Qed.
Lemma sap_shrinks : shrinks self_addressing_prefix.
Proof. intros s r a H. unfold self_addressing_prefix in H. pinv; sfx. Qed.
Lemma ssp_shrinks : shrinks self_signing_prefix.
Proof. intros s r a H. unfold self_signing_prefix in H. pinv; sfx. Qed.
Lemma attached_sn_shrinks : shrinks attached_sn.
Proof. intros s r a H. unfold attached_sn in H. pinv; sfx. Qed.
Lemma prefix_shrinks : shrinks prefix.
Proof.
  intros s r a H. unfold prefix in H.
  destruct (self_addressing_prefix s) eqn:E; pinv; try discriminate H;
    try (match goal with H : basic_prefix _ = _ |- _ => apply basic_prefix_shrinks in H end; sfx).
  apply sap_shrinks in E. sfx.
Qed.
Lemma b64_count_shrinks : shrinks b64_count.
Proof. intros s r a H. unfold b64_count in H. pinv; sfx. Qed.
Lemma pcount_shrinks {A} (f : bytes -> pres A) n : shrinks f -> shrinks (pcount f n).
Proof.
  intros Hf. induction n as [|n IH]; intros s r a H; cbn [pcount] in H; pinv; [apply suffix_refl|].
  match goal with H : f _ = _ |- _ => apply Hf in H end.
  match goal with H : pcount _ _ _ = _ |- _ => apply IH in H end. sfx.
Qed.
Lemma source_seal1_shrinks : shrinks source_seal1.
Proof.
  intros s r a H. unfold source_seal1 in H. pinv.
  repeat match goal with H : attached_sn _ = _ |- _ => apply attached_sn_shrinks in H
                       | H : self_addressing_prefix _ = _ |- _ => apply sap_shrinks in H end. sfx.
Qed.
Lemma couplet_shrinks : shrinks couplet.
Proof.
  intros s r a H. unfold couplet in H. pinv.
  repeat match goal with H : basic_prefix _ = _ |- _ => apply basic_prefix_shrinks in H
                       | H : self_signing_prefix _ = _ |- _ => apply ssp_shrinks in H end. sfx.
Qed.
Lemma event_seal_shrinks : shrinks event_seal.
Proof.
  intros s r a H. unfold event_seal in H. pinv.
  repeat match goal with H : prefix _ = _ |- _ => apply prefix_shrinks in H
                       | H : attached_sn _ = _ |- _ => apply attached_sn_shrinks in H
                       | H : self_addressing_prefix _ = _ |- _ => apply sap_shrinks in H end. sfx.
Qed.
Section RecShrinks.
  Context (att : bytes -> pres Attachment) (Hatt : shrinks att).
  Lemma indexed_shrinks : shrinks (indexed_signatures att).
  Proof.
    intros s r a H. unfold indexed_signatures in H. apply pbnd_inv in H as (r' & x & H1 & H2).
    apply Hatt in H1. destruct x; pinv. exact H1.
  Qed.
  Lemma id_sigs_shrinks : shrinks (id_sigs att).
  Proof.
    intros s r a H. unfold id_sigs in H. pinv.
    repeat match goal with H : prefix _ = _ |- _ => apply prefix_shrinks in H
                         | H : indexed_signatures _ _ = _ |- _ => apply indexed_shrinks in H end. sfx.
  Qed.
  Lemma seal_sigs_shrinks : shrinks (seal_sigs att).
  Proof.
    intros s r a H. unfold seal_sigs in H. pinv.
    repeat match goal with H : event_seal _ = _ |- _ => apply event_seal_shrinks in H
                         | H : indexed_signatures _ _ = _ |- _ => apply indexed_shrinks in H end. sfx.
  Qed.
  Lemma many0_f_shrinks n : shrinks (many0_f att n).
  Proof.
    induction n as [|n IH]; intros s r a H; cbn [many0_f] in H; [discriminate|].
    destruct (att s) as [r1 x| | | |] eqn:E; try discriminate H.
    - destruct (_ =? _); [discriminate|]. pinv. apply Hatt in E.
      match goal with H : many0_f _ _ _ = _ |- _ => apply IH in H end. sfx.
    - pinv. apply suffix_refl.
  Qed.
  Lemma attachment_body_shrinks : shrinks (attachment_body att).
  Proof.
    intros s r a H. unfold attachment_body in H.
    apply pbnd_inv in H as (rest & t & H1 & H). apply take_shrinks in H1.
    destruct (negb (valid_utf8 t)); [discriminate|].
    assert (C : forall B (f : bytes -> pres B) n s r l, pcount f n s = POk r l -> shrinks f -> suffix r s)
      by (intros B f n s0 r0 l Hc Hf; exact (pcount_shrinks f n Hf _ _ _ Hc)).
    destruct (pt_from t) as [p| |]; try discriminate H.
    destruct p; try discriminate H.
    - (* MA *) unfold signatures in H. pinv.
      repeat match goal with H : b64_count _ = _ |- _ => apply b64_count_shrinks in H
                           | H : pcount _ _ _ = _ |- _ => apply C in H; [|exact attached_signature_shrinks] end. sfx.
    - unfold couplets in H. pinv.
      repeat match goal with H : b64_count _ = _ |- _ => apply b64_count_shrinks in H
                           | H : pcount _ _ _ = _ |- _ => apply C in H; [|exact couplet_shrinks] end. sfx.
    - pinv.
      repeat match goal with H : b64_count _ = _ |- _ => apply b64_count_shrinks in H
                           | H : pcount _ _ _ = _ |- _ => apply C in H; [|exact seal_sigs_shrinks] end. sfx.
    - unfold source_seal in H. pinv.
      repeat match goal with H : b64_count _ = _ |- _ => apply b64_count_shrinks in H
                           | H : pcount _ _ _ = _ |- _ => apply C in H; [|exact source_seal1_shrinks] end. sfx.
    - pinv.
      repeat match goal with H : b64_count _ = _ |- _ => apply b64_count_shrinks in H
                           | H : pcount _ _ _ = _ |- _ => apply C in H; [|exact id_sigs_shrinks] end. sfx.
    - apply pbnd_inv in H as (r1 & sc & H2 & H). apply b64_count_shrinks in H2. cbv zeta in H.
      destruct (take (4 * N.to_nat sc) r1) as [r2 total| | | |] eqn:E; try discriminate H.
      apply take_shrinks in E. apply pbnd_inv in H as (extra & atts & H3 & H).
      destruct extra; [pinv; sfx|]. pinv.
  Qed.
End RecShrinks.
Lemma attachment_f_shrinks n : shrinks (attachment_f n).
Proof.
  induction n as [|n IH]; [discriminate|]. cbn [attachment_f]. apply attachment_body_shrinks, IH.
Qed.

(** ** The recursion: enough levels are enough *)
Lemma pcount_ext {A} (f g : bytes -> pres A) n s m :
  shrinks f -> List.length s <= m -> (forall s, List.length s <= m -> f s = g s) -> pcount f n s = pcount g n s.
Proof.
  intros Hf. revert s. induction n as [|n IH]; intros s Hs H; [reflexivity|]. cbn [pcount].
  rewrite <- (H s Hs). destruct (f s) as [r a| | | |] eqn:E; cbn [pbnd]; try reflexivity.
  apply Hf, suffix_len in E. rewrite IH; [reflexivity|lia|exact H].
Qed.
Lemma many0_f_ext {A} (f g : bytes -> pres A) n n' s m :
  shrinks f -> List.length s <= m -> List.length s < n -> List.length s < n' ->
  (forall s, List.length s <= m -> f s = g s) -> many0_f f n s = many0_f g n' s.
Proof.
  intros Hf. revert n' s. induction n as [|n IH]; intros n' s Hs Hn Hn' H; [lia|].
  destruct n' as [|n']; [lia|]. cbn [many0_f]. rewrite <- (H s Hs).
  destruct (f s) as [r a| | | |] eqn:E; try reflexivity.
  apply Hf, suffix_len in E. destruct (_ =? _) eqn:El; [reflexivity|]. apply Nat.eqb_neq in El.
  rewrite (IH n' r); [reflexivity|lia|lia|lia|exact H].
Qed.
Lemma indexed_ext att att' s : att s = att' s -> indexed_signatures att s = indexed_signatures att' s.
Proof. unfold indexed_signatures. now intros ->. Qed.
Lemma attachment_body_ext att att' s :
  shrinks att -> (forall t, List.length t < List.length s -> att t = att' t) ->
  attachment_body att s = attachment_body att' s.
Proof.
  intros Hf H. unfold attachment_body.
  destruct (take 2 s) as [rest t| | | |] eqn:E; cbn [pbnd]; try reflexivity.
  apply take_inv in E as [-> E2]. rewrite app_length in H.
  assert (H' : forall t, List.length t <= List.length rest -> att t = att' t) by (intros x Hx; apply H; lia).
  clear H. destruct (negb (valid_utf8 t)); [reflexivity|]. destruct (pt_from t) as [p| |]; try reflexivity.
  destruct p; try reflexivity.
  - destruct (b64_count rest) as [r sc| | | |] eqn:E; cbn [pbnd]; try reflexivity.
    apply b64_count_shrinks, suffix_len in E.
    rewrite (pcount_ext (seal_sigs att) (seal_sigs att') _ r (List.length r)); [reflexivity|now apply seal_sigs_shrinks|lia|].
    intros x Hx. unfold seal_sigs. destruct (event_seal x) as [y e| | | |] eqn:Ee; cbn [pbnd]; try reflexivity.
    apply event_seal_shrinks, suffix_len in Ee. rewrite (indexed_ext att att'); [reflexivity|]. apply H'. lia.
  - destruct (b64_count rest) as [r sc| | | |] eqn:E; cbn [pbnd]; try reflexivity.
    apply b64_count_shrinks, suffix_len in E.
    rewrite (pcount_ext (id_sigs att) (id_sigs att') _ r (List.length r)); [reflexivity|now apply id_sigs_shrinks|lia|].
    intros x Hx. unfold id_sigs. destruct (prefix x) as [y e| | | |] eqn:Ee; cbn [pbnd]; try reflexivity.
    apply prefix_shrinks, suffix_len in Ee. rewrite (indexed_ext att att'); [reflexivity|]. apply H'. lia.
  - destruct (b64_count rest) as [r sc| | | |] eqn:E; cbn [pbnd]; try reflexivity.
    apply b64_count_shrinks, suffix_len in E. cbv zeta.
    destruct (take (4 * N.to_nat sc) r) as [r2 total| | | |] eqn:Et; try reflexivity.
    apply take_inv in Et as [-> _]. rewrite app_length in E.
    unfold many0. rewrite (many0_f_ext att att' _ (S (List.length total)) total (List.length total)); auto; try lia.
    intros x Hx. apply H'. lia.
Qed.
Lemma attachment_f_enough n s : List.length s < n -> attachment_f n s = attachment s.
Proof.
  unfold attachment. revert s. induction n as [|n IH]; intros s H; [lia|].
  cbn [attachment_f]. apply attachment_body_ext; [apply attachment_f_shrinks|].
  intros t Ht. rewrite IH by lia.
  assert (G : forall m s t, List.length t < m -> List.length t < s -> attachment_f m t = attachment_f s t).
  { clear. intros m. induction m as [|m IH]; intros k t Hm Hk; [lia|]. destruct k as [|k]; [lia|].
    cbn [attachment_f]. apply attachment_body_ext; [apply attachment_f_shrinks|].
    intros u Hu. apply IH; lia. }
  apply G; lia.
Qed.
Theorem attachment_eq s : attachment s = attachment_body attachment s.
Proof.
  unfold attachment at 1. cbn [attachment_f]. apply attachment_body_ext; [apply attachment_f_shrinks|].
  intros t Ht. apply attachment_f_enough. exact Ht.
Qed.
Lemma attachment_shrinks : shrinks attachment.
Proof. intros s r a H. unfold attachment in H. exact (attachment_f_shrinks _ _ _ _ H). Qed.
