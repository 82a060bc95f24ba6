(** Attachments: reading the specified texts, writing them, panics. *)
From Coq Require Import ZifyBool ZifyN ZifyNat.
From Verif Require Import Base Base64 Base64Proofs Codes NumFmt Types SpecCodec CodecProofs CodecProofs2 Cesr CesrProofs SpecCesr.
Ltac Zify.zify_post_hook ::= Z.div_mod_to_equations.

Fixpoint attachment_ind' (P : Attachment -> Prop)
  (h1 : forall l, P (SealSourceCouplets l)) (h2 : forall l, P (AttachedSignatures l))
  (h3 : forall l, P (ReceiptCouplets l)) (h4 : forall l, P (SealSignaturesGroups l))
  (h5 : forall l, P (LastEstSignaturesGroups l)) (h6 : forall l, Forall P l -> P (Frame l))
  (a : Attachment) : P a :=
  match a with
  | SealSourceCouplets l => h1 l | AttachedSignatures l => h2 l | ReceiptCouplets l => h3 l
  | SealSignaturesGroups l => h4 l | LastEstSignaturesGroups l => h5 l
  | Frame l => h6 l ((fix all (l : list Attachment) : Forall P l :=
                        match l with [] => Forall_nil P
                        | a :: l => Forall_cons a (attachment_ind' P h1 h2 h3 h4 h5 h6 a) (all l) end) l)
  end.
Lemma frame_text l : att_text (Frame l) = group "-V" (List.length (flat_map att_text l) / 4) (flat_map att_text l).
Proof.
  cbn [att_text].
  assert (E : (fix all (l : list Attachment) : bytes := match l with [] => [] | a :: l => att_text a ++ all l end) l
              = flat_map att_text l) by (induction l as [|a l IH]; cbn; congruence).
  now rewrite E.
Qed.
Lemma frame_fits l : att_fits (Frame l) <-> List.length (flat_map att_text l) < 4 * 4096 /\ Forall att_fits l.
Proof.
  cbn [att_fits]. split; intros [H1 H2]; (split; [exact H1|]); clear H1.
  - induction l as [|a l IH]; [apply Forall_nil|]. destruct H2. apply Forall_cons; auto.
  - induction H2; auto.
Qed.

(** ** Digits *)
Lemma digits_num n : (n < 4096)%N -> b64_to_num (two_digits n) = Ok n.
Proof.
  intros H. unfold b64_to_num, decode, two_digits. cbn [List.length].
  change (bstr "AA" ++ [enc6 (n / 64); enc6 (n mod 64)]) with [enc6 0; enc6 0; enc6 (n / 64); enc6 (n mod 64)].
  cbn [b64_decode]. rewrite !is_pad_enc6 by lia. unfold dec_group4. rewrite !dec6_enc6 by lia.
  cbn [ok_or obind rev app].
  change (n2b (0 * 4 + 0 / 16)) with x00.
  f_equal. rewrite !b2n_n2b by lia. lia.
Qed.
Lemma digits_count n r : (n < 4096)%N -> b64_count (two_digits n ++ r) = POk r n.
Proof.
  intros H. unfold b64_count. rewrite take_app by reflexivity. cbn [pbnd]. now rewrite digits_num.
Qed.
Lemma digits_small n : (n < 64)%N -> two_digits n = [enc6 0; enc6 n].
Proof. intros H. unfold two_digits. rewrite N.div_small, N.mod_small by lia. reflexivity. Qed.
Lemma b64_count_bound s r n : b64_count s = POk r n -> (n < 4096)%N.
Proof.
  unfold b64_count. intros H. apply pbnd_inv in H as (r' & t & H1 & H). apply take_inv in H1 as [_ Hl].
  apply plift_inv in H; [|discriminate]. destruct H as [_ H].
  destruct t as [|a [|b [|]]]; try discriminate Hl. revert H. unfold b64_to_num, decode. cbn [List.length].
  change (bstr "AA" ++ [a; b]) with ["A"%byte; "A"%byte; a; b]. cbn [b64_decode].
  assert (D : dec6 "A"%byte = Some 0%N) by reflexivity.
  destruct (is_pad b); [destruct (is_pad a)|].
  - vm_compute. intros H. inversion H. reflexivity.
  - unfold dec_group3. rewrite D. destruct (dec6 a) as [v|] eqn:Ea; cbn [ok_or obind]; [|discriminate].
    destruct (v mod 4 =? 0)%N; cbn [ok_or obind rev app]; [|discriminate]. intros H. injection H as <-.
    apply dec6_spec in Ea as [L _]. change (n2b (0 * 4 + 0 / 16)) with x00. change (b2n x00) with 0%N.
    rewrite n2b_mod. lia.
  - unfold dec_group4. rewrite D. destruct (dec6 a) as [v|] eqn:Ea; cbn [ok_or obind]; [|discriminate].
    destruct (dec6 b) as [w|] eqn:Eb; cbn [ok_or obind rev app]; [|discriminate]. intros H. injection H as <-.
    apply dec6_spec in Ea as [L1 _]. apply dec6_spec in Eb as [L2 _]. rewrite !b2n_n2b by lia. lia.
Qed.

(** ** Sequence numbers *)
Lemma be_bytes_u64 n : be_bytes 8 n = u64_be n.
Proof.
  cbn [be_bytes app]. unfold u64_be. cbn [map].
  assert (E : forall k, (n / 256 ^ (N.succ k) = n / 256 ^ k / 256)%N).
  { intros k. rewrite N.div_div by (try apply N.pow_nonzero; discriminate). now rewrite N.pow_succ_r', N.mul_comm. }
  pose proof (E 0%N) as E0. pose proof (E 1%N) as E1. pose proof (E 2%N) as E2. pose proof (E 3%N) as E3.
  pose proof (E 4%N) as E4. pose proof (E 5%N) as E5. pose proof (E 6%N) as E6. clear E.
  change (N.succ 0) with 1%N in *. change (N.succ 1) with 2%N in *. change (N.succ 2) with 3%N in *.
  change (N.succ 3) with 4%N in *. change (N.succ 4) with 5%N in *. change (N.succ 5) with 6%N in *.
  change (N.succ 6) with 7%N in *.
  rewrite E6, E5, E4, E3, E2, E1, E0, N.pow_0_r, N.div_1_r. reflexivity.
Qed.
Lemma be_bytes_app a b n : be_bytes (a + b) n = be_bytes a (n / 256 ^ N.of_nat b) ++ be_bytes b n.
Proof.
  revert n. induction b as [|b IH]; intros n.
  - rewrite Nat.add_0_r. cbn [be_bytes]. change (N.of_nat 0) with 0%N. now rewrite N.pow_0_r, N.div_1_r, app_nil_r.
  - rewrite Nat.add_succ_r. cbn [be_bytes]. rewrite IH, <- app_assoc. f_equal. f_equal.
    rewrite N.div_div by (try apply N.pow_nonzero; discriminate).
    now rewrite Nat2N.inj_succ, N.pow_succ_r'.
Qed.
Lemma be_bytes_0 k : be_bytes k 0 = repeat x00 k.
Proof.
  induction k as [|k IH]; [reflexivity|]. cbn [be_bytes]. change (0 / 256)%N with 0%N. rewrite IH.
  change (n2b 0) with x00. change [x00] with (repeat x00 1). rewrite <- repeat_app, Nat.add_comm. reflexivity.
Qed.
Lemma pack_sn_text n : (n <= u64_max)%N -> pack_sn n = sn_text n.
Proof.
  intros H. unfold pack_sn, sn_text.
  change (pt_size ZA / 4 * 3 - master_code_size ZA false - List.length (u64_be n)) with 8.
  change 16 with (8 + 8). rewrite be_bytes_app, (be_bytes_u64 n).
  rewrite (N.div_small n), be_bytes_0; [reflexivity|]. unfold u64_max in H.
  change (256 ^ N.of_nat 8)%N with 18446744073709551616%N. lia.
Qed.
Lemma sn_text_read n r : (n <= u64_max)%N -> attached_sn (sn_text n ++ r) = POk r n.
Proof. intros H. rewrite <- pack_sn_text by exact H. now apply sn_round_trip. Qed.

(** ** Reading *)
Lemma sig_read p r : sig_fits p -> attached_signature (sig_text p ++ r) = POk r p.
Proof.
  destruct p as [i [c k]]; unfold sig_fits, asp_sized, ssp_sized; cbn [asp_sig asp_index ssp_sig ssp_code].
  intros [Hs Hi]. unfold sig_text. cbn [asp_sig asp_index ssp_sig ssp_code].
  assert (Hl : List.length (b64_encode k) = as_b64_len c) by (rewrite encode_length, Hs; destruct c; reflexivity).
  unfold attached_signature. rewrite <- app_assoc.
  destruct c; rewrite <- app_assoc.
  - change (bstr "A") with ["A"%byte].
    rewrite take_app by reflexivity. cbn [pbnd]. eval_is. unfold p_index, p_decode.
    rewrite take_app by reflexivity. cbn [pbnd]. rewrite b64_to_num_one by lia. cbn [plift pbnd].
    rewrite take_app by now rewrite Hl. cbn [pbnd]. unfold decode. rewrite decode_encode. reflexivity.
  - change (bstr "B") with ["B"%byte].
    rewrite take_app by reflexivity. cbn [pbnd]. eval_is. unfold p_index, p_decode.
    rewrite take_app by reflexivity. cbn [pbnd]. rewrite b64_to_num_one by lia. cbn [plift pbnd].
    rewrite take_app by now rewrite Hl. cbn [pbnd]. unfold decode. rewrite decode_encode. reflexivity.
  - change (bstr "0A") with (["0"%byte] ++ ["A"%byte]). rewrite <- !app_assoc.
    rewrite take_app by reflexivity. cbn [pbnd]. eval_is. rewrite take_app by reflexivity. cbn [pbnd]. eval_is.
    unfold p_index, p_decode.
    rewrite take_app by reflexivity. cbn [pbnd]. rewrite digits_num by lia. cbn [plift pbnd].
    rewrite take_app by now rewrite Hl. cbn [pbnd]. unfold decode. rewrite decode_encode. reflexivity.
Qed.
Lemma digest_read d r : digest_fits d -> self_addressing_prefix (sap_str d ++ r) = POk r d.
Proof. intros [H1 H2]. rewrite sap_round_trip by exact H1. rewrite H2. now destruct d. Qed.
Lemma id_read p r : id_fits p -> prefix (id_str p ++ r) = POk r p.
Proof. intros (H1 & H2 & H3 & H4). rewrite prefix_round_trip by assumption. now rewrite H3. Qed.

Lemma counted_read {A} (f : bytes -> pres A) (g : A -> bytes) (P : A -> Prop) l r :
  (forall x r, P x -> f (g x ++ r) = POk r x) -> counted P l ->
  (let! (rest, sc) := b64_count (two_digits (N.of_nat (List.length l)) ++ flat_map g l ++ r) in pcount f (N.to_nat sc) rest)
  = POk r l.
Proof.
  intros Hf [Hl HP]. rewrite digits_count by lia. cbn [pbnd]. rewrite Nat2N.id. apply pcount_app.
  intros x r' Hx. apply Hf. rewrite Forall_forall in HP. now apply HP.
Qed.
(** the head of [attachment] on one of the implemented codes *)
Lemma att_head att (code : string) p r :
  ascii (bstr code) -> List.length (bstr code) = 2 -> pt_from (bstr code) = Ok p ->
  attachment_body att (bstr code ++ r) =
  match p with
  | MG => let! (r, l) := source_seal r in POk r (SealSourceCouplets l)
  | MF => let! (r, sc) := b64_count r in let! (r, l) := pcount (seal_sigs att) (N.to_nat sc) r in POk r (SealSignaturesGroups l)
  | MA => let! (r, l) := signatures r in POk r (AttachedSignatures l)
  | MC => let! (r, l) := couplets r in POk r (ReceiptCouplets l)
  | MH => let! (r, sc) := b64_count r in let! (r, l) := pcount (id_sigs att) (N.to_nat sc) r in POk r (LastEstSignaturesGroups l)
  | MV =>
        let! (r, sc) := b64_count r in
        let n := 4 * N.to_nat sc in
        match take n r with
        | POk r total =>
            let! (extra, atts) := many0 att total in
            match extra with
            | [] => POk r (Frame atts)
            | _ => if List.length r <=? n then PInc else PPanic
            end
        | PErr => PInc | PFail => PFail | PInc => PInc | PPanic => PPanic
        end
  | _ => PPanic
  end.
Proof.
  intros Ha Hl Hp. unfold attachment_body. rewrite take_app by now rewrite Hl. cbn [pbnd].
  rewrite (ascii_valid _ Ha). cbn [negb]. rewrite Hp. reflexivity.
Qed.
Ltac att_code := rewrite att_head with (code := "-A"%string) (p := MA) || idtac.

Lemma sigs_read att l r : counted sig_fits l -> attachment_body att (sigs_text l ++ r) = POk r (AttachedSignatures l).
Proof.
  intros H. unfold sigs_text, group. rewrite <- !app_assoc.
  rewrite (att_head att "-A" MA) by (code_ascii || reflexivity). unfold signatures.
  rewrite (counted_read attached_signature sig_text sig_fits l r sig_read H). reflexivity.
Qed.
Lemma indexed_read l r : counted sig_fits l -> indexed_signatures attachment (sigs_text l ++ r) = POk r l.
Proof. intros H. unfold indexed_signatures. rewrite attachment_eq, sigs_read by exact H. reflexivity. Qed.

(** lengths: every text is a whole number of quadlets *)
Definition quads (t : bytes) : Prop := List.length t mod 4 = 0.
Lemma quads_app a b : quads a -> quads b -> quads (a ++ b).
Proof. unfold quads. rewrite app_length. intros. lia. Qed.
Lemma quads_flat {A} (g : A -> bytes) l : Forall (fun x => quads (g x)) l -> quads (flat_map g l).
Proof. induction 1; [reflexivity|]. cbn [flat_map]. now apply quads_app. Qed.
Lemma prefix_quads code d n k : d <> [] -> List.length d = n -> List.length code = k -> (k + enc_len n) mod 4 = 0 -> quads (prefix_str code d).
Proof.
  intros Hd Hn Hk H. rewrite prefix_str_ne by exact Hd. unfold quads. rewrite app_length, encode_length, Hn, Hk. exact H.
Qed.
Lemma sap_quads d : sap_sized d -> quads (sap_str d).
Proof.
  intros H. unfold sap_str. eapply prefix_quads; [now apply sap_ne|exact H|reflexivity|].
  destruct d as [c ?]; destruct c; reflexivity.
Qed.
Lemma bp_quads d : bp_sized d -> quads (bp_str d).
Proof.
  intros H. unfold bp_str. eapply prefix_quads; [now apply bp_ne|exact H|reflexivity|].
  destruct d as [c ?]; destruct c; reflexivity.
Qed.
Lemma ssp_quads d : ssp_sized d -> quads (ssp_str d).
Proof.
  intros H. unfold ssp_str. eapply prefix_quads; [now apply ssp_ne|exact H|reflexivity|].
  destruct d as [c ?]; destruct c; reflexivity.
Qed.
Lemma id_quads p : id_sized p -> quads (id_str p).
Proof. destruct p; [apply bp_quads|apply sap_quads|apply ssp_quads]. Qed.
Lemma be_bytes_length k n : List.length (be_bytes k n) = k.
Proof. revert n. induction k as [|k IH]; intros n; [reflexivity|]. cbn [be_bytes]. rewrite app_length, IH. cbn. lia. Qed.
Lemma sn_quads n : quads (sn_text n).
Proof. unfold quads, sn_text. rewrite app_length, encode_length, be_bytes_length. reflexivity. Qed.
Lemma sig_quads p : sig_fits p -> quads (sig_text p).
Proof.
  intros [H _]. unfold asp_sized, ssp_sized in H. unfold quads, sig_text. rewrite app_length, encode_length, H.
  destruct (ssp_code (asp_sig p)); reflexivity.
Qed.
Lemma group_quads code n body : List.length (bstr code) = 2 -> quads body -> quads (group code n body).
Proof. unfold quads, group. rewrite !app_length. intros -> H. unfold two_digits. cbn [List.length]. lia. Qed.
Lemma sigs_quads l : counted sig_fits l -> quads (sigs_text l).
Proof.
  intros [_ H]. apply group_quads; [reflexivity|]. apply quads_flat. eapply Forall_impl; [|exact H]. exact sig_quads.
Qed.
Lemma seal_quads e : seal_fits e -> quads (seal_text e).
Proof.
  intros ((H1 & _) & _ & (H2 & _)). unfold seal_text.
  apply quads_app; [now apply id_quads|]. apply quads_app; [apply sn_quads|now apply sap_quads].
Qed.
Lemma att_quads a : att_fits a -> quads (att_text a).
Proof.
  induction a as [l|l|l|l|l|l IH] using attachment_ind'.
  - intros [_ H]. cbn [att_text]. apply group_quads; [reflexivity|]. apply quads_flat.
    eapply Forall_impl; [|exact H]. intros s [_ [Hd _]]. apply quads_app; [apply sn_quads|now apply sap_quads].
  - intros H. now apply sigs_quads.
  - intros [_ H]. cbn [att_text]. apply group_quads; [reflexivity|]. apply quads_flat.
    eapply Forall_impl; [|exact H]. intros s (H1 & _ & H2). apply quads_app; [now apply bp_quads|now apply ssp_quads].
  - intros [_ H]. cbn [att_text]. apply group_quads; [reflexivity|]. apply quads_flat.
    eapply Forall_impl; [|exact H]. intros s (H1 & H2). apply quads_app; [now apply seal_quads|now apply sigs_quads].
  - intros [_ H]. cbn [att_text]. apply group_quads; [reflexivity|]. apply quads_flat.
    eapply Forall_impl; [|exact H]. intros s ((H1 & _) & H2). apply quads_app; [now apply id_quads|now apply sigs_quads].
  - intros H. apply frame_fits in H as [_ H]. rewrite frame_text. apply group_quads; [reflexivity|]. apply quads_flat.
    rewrite Forall_forall in *. auto.
Qed.
Lemma att_text_ne a : att_text a <> [].
Proof. destruct a; discriminate. Qed.
Lemma attachment_nil : attachment [] = PErr.
Proof. reflexivity. Qed.
Lemma many0_read {A} (f : bytes -> pres A) (g : A -> bytes) l n rest :
  f rest = PErr -> (forall x r, In x l -> f (g x ++ r) = POk r x) -> (forall x, In x l -> g x <> []) ->
  List.length (flat_map g l ++ rest) < n -> many0_f f n (flat_map g l ++ rest) = POk rest l.
Proof.
  intros Hr. revert n. induction l as [|a l IH]; intros n Hf Hne Hn.
  - destruct n; [lia|]. cbn [flat_map app many0_f]. now rewrite Hr.
  - destruct n as [|n]; [lia|]. cbn [flat_map many0_f] in *. rewrite <- app_assoc in *.
    rewrite Hf by (left; reflexivity).
    assert (Ha : List.length (g a) <> 0).
    { pose proof (Hne a (or_introl eq_refl)). destruct (g a); [congruence|discriminate]. }
    rewrite (app_length (g a)) in *.
    replace (_ =? _) with false by (symmetry; apply Nat.eqb_neq; lia).
    rewrite IH; [reflexivity| | |lia]; intros x; [intros r Hx; apply Hf|intros Hx; apply Hne]; now right.
Qed.
Theorem att_read a : att_fits a -> forall r, attachment (att_text a ++ r) = POk r a.
Proof.
  induction a as [l|l|l|l|l|l IH] using attachment_ind'; intros H r; rewrite attachment_eq.
  - cbn [att_text att_fits] in *. unfold group. rewrite <- !app_assoc.
    rewrite (att_head _ "-G" MG) by (code_ascii || reflexivity). unfold source_seal.
    rewrite (counted_read source_seal1 _ _ l r) with (2 := H); [reflexivity|].
    intros x r' [H1 H2]. unfold source_seal1. rewrite <- app_assoc, sn_text_read by exact H1. cbn [pbnd].
    rewrite digest_read by exact H2. now destruct x.
  - now apply sigs_read.
  - cbn [att_text att_fits] in *. unfold group. rewrite <- !app_assoc.
    rewrite (att_head _ "-C" MC) by (code_ascii || reflexivity). unfold couplets.
    rewrite (counted_read couplet _ _ l r) with (2 := H); [reflexivity|].
    intros x r' (H1 & H2 & H3). unfold couplet. rewrite <- app_assoc, basic_round_trip by assumption. cbn [pbnd].
    rewrite ssp_round_trip by exact H3. now destruct x.
  - cbn [att_text att_fits] in *. unfold group. rewrite <- !app_assoc.
    rewrite (att_head _ "-F" MF) by (code_ascii || reflexivity).
    pose proof (counted_read (seal_sigs attachment) (fun x => seal_text (fst x) ++ sigs_text (snd x))
                  (fun x => seal_fits (fst x) /\ counted sig_fits (snd x)) l r) as C.
    rewrite digits_count in * by (destruct H; lia). cbn [pbnd] in *. rewrite C with (2 := H); [reflexivity|].
    intros x r' ((H1 & H2 & H3) & H4). unfold seal_sigs, event_seal, seal_text. rewrite <- !app_assoc, id_read by exact H1.
    cbn [pbnd]. rewrite sn_text_read by exact H2. cbn [pbnd]. rewrite digest_read by exact H3. cbn [pbnd].
    rewrite indexed_read by exact H4. cbn [pbnd]. destruct x as [[? ? ?] ?]. reflexivity.
  - cbn [att_text att_fits] in *. unfold group. rewrite <- !app_assoc.
    rewrite (att_head _ "-H" MH) by (code_ascii || reflexivity).
    pose proof (counted_read (id_sigs attachment) (fun x => id_str (fst x) ++ sigs_text (snd x))
                  (fun x => id_fits (fst x) /\ counted sig_fits (snd x)) l r) as C.
    rewrite digits_count in * by (destruct H; lia). cbn [pbnd] in *. rewrite C with (2 := H); [reflexivity|].
    intros x r' (H1 & H4). unfold id_sigs. rewrite <- !app_assoc, id_read by exact H1.
    cbn [pbnd]. rewrite indexed_read by exact H4. cbn [pbnd]. now destruct x.
  - apply frame_fits in H as [Hl H]. rewrite frame_text. unfold group. rewrite <- !app_assoc.
    rewrite (att_head _ "-V" MV) by (code_ascii || reflexivity).
    assert (Q : quads (flat_map att_text l)).
    { apply quads_flat. eapply Forall_impl; [|exact H]. exact att_quads. }
    unfold quads in Q.
    rewrite digits_count by lia. cbn [pbnd]. cbv zeta. rewrite Nat2N.id.
    rewrite take_app by lia. unfold many0.
    rewrite <- (app_nil_r (flat_map att_text l)).
    rewrite (many0_read attachment att_text l _ []); [reflexivity|exact attachment_nil| | |lia].
    + intros x r' Hx. rewrite Forall_forall in IH, H. now apply IH; auto.
    + intros x _. apply att_text_ne.
Qed.

(** ** Writing *)
Lemma asp_text p : asp_sized p -> small_sig p -> asp_str p = sig_text p.
Proof.
  destruct p as [i [c k]]; unfold asp_sized, ssp_sized, small_sig; cbn [asp_sig asp_index ssp_sig ssp_code].
  intros Hs Hi. unfold asp_str, sig_text. cbn [asp_sig asp_index ssp_sig ssp_code].
  rewrite prefix_str_ne by (apply (sized_nonempty _ _ Hs); destruct c; discriminate).
  unfold as_code. rewrite num_to_b64_small by exact Hi. destruct c; try reflexivity.
  rewrite digits_small by lia. reflexivity.
Qed.
Lemma as_u16_small n : (N.of_nat n < 65536)%N -> as_u16 n = N.of_nat n.
Proof. intros H. unfold as_u16. now apply N.mod_small. Qed.
Lemma with_count_small t n body : is_count_code t -> n < 63 ->
  with_count t n (Ok body) = Ok (pt_str t ++ two_digits (N.of_nat n) ++ body).
Proof.
  intros Ht Hn. unfold with_count. cbn [obind]. rewrite as_u16_small by lia.
  rewrite adjust_small by (exact Ht || lia). cbn [obind]. rewrite digits_small by lia. now rewrite <- app_assoc.
Qed.
Lemma flat_map_ext_in {A} (f g : A -> bytes) l : (forall x, In x l -> f x = g x) -> flat_map f l = flat_map g l.
Proof.
  induction l as [|a l IH]; intros H; [reflexivity|]. cbn [flat_map]. rewrite (H a) by (now left).
  rewrite IH; [reflexivity|]. intros x Hx. apply H. now right.
Qed.
Lemma oconcat_ok {A} (f : A -> out bytes) (g : A -> bytes) l :
  (forall x, In x l -> f x = Ok (g x)) -> oconcat f l = Ok (flat_map g l).
Proof.
  induction l as [|a l IH]; intros H; [reflexivity|]. cbn [oconcat flat_map]. rewrite (H a) by (now left). cbn [obind].
  rewrite IH; [reflexivity|]. intros x Hx. apply H. now right.
Qed.
Lemma sigs_write l : counted sig_fits l -> small small_sig l -> sigs_cesr l = Ok (sigs_text l).
Proof.
  intros [_ H] [Hl Hs]. unfold sigs_cesr. rewrite with_count_small by (reflexivity || exact Hl).
  unfold sigs_text, group. change (pt_str MA) with (bstr "-A"). do 3 f_equal.
  apply flat_map_ext_in. intros x Hx. rewrite Forall_forall in H, Hs. apply asp_text; [now apply H|now apply Hs].
Qed.
Theorem att_write a : att_fits a -> att_small a -> to_cesr a = Ok (att_text a).
Proof.
  destruct a as [l|l|l|l|l|l]; cbn [att_small]; intros H Hs.
  - destruct Hs as [Hs _]. cbn [to_cesr att_text]. rewrite with_count_small by (reflexivity || exact Hs).
    unfold group. change (pt_str MG) with (bstr "-G"). do 3 f_equal.
    apply flat_map_ext_in. intros x Hx. destruct H as [_ H]. rewrite Forall_forall in H.
    rewrite pack_sn_text; [reflexivity|]. now apply H.
  - now apply sigs_write.
  - destruct Hs as [Hs _]. cbn [to_cesr att_text]. rewrite with_count_small by (reflexivity || exact Hs). reflexivity.
  - destruct Hs as [Hl Hs]. destruct H as [_ H]. cbn [to_cesr att_text].
    rewrite (oconcat_ok _ (fun x => seal_text (fst x) ++ sigs_text (snd x))).
    + rewrite with_count_small by (reflexivity || exact Hl). reflexivity.
    + intros [e sigs] Hx. rewrite Forall_forall in H, Hs. apply H in Hx as H'. apply Hs in Hx. cbn [fst snd] in *.
      destruct H' as ((_ & H1 & _) & H2). rewrite sigs_write by assumption. cbn [obind].
      unfold seal_text. rewrite pack_sn_text by exact H1. now rewrite <- !app_assoc.
  - destruct Hs.
  - subst l. reflexivity.
Qed.
