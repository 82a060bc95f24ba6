(** Attachments: counts the writer gets wrong, frames, panics. *)
From Coq Require Import ZifyBool ZifyN ZifyNat.
From Verif Require Import Base Base64 Base64Proofs Codes NumFmt Types SpecCodec CodecProofs CodecProofs2 Cesr CesrProofs SpecCesr CesrProofs2.
Ltac Zify.zify_post_hook ::= Z.div_mod_to_equations.

(** ** Counts of 63 and more *)
Lemma num_big_text n : (63 <= n <= 65535)%N ->
  exists x, num_to_b64 n = two_digits (n / 16) ++ x /\ List.length x <= 1.
Proof.
  intros H. unfold num_to_b64. replace (n <? 63)%N with false by lia.
  assert (E : b64_encode (u16_be n) = two_digits (n / 16) ++ [enc6 (b2n (n2b n) mod 16 * 4)]).
  { unfold u16_be. cbn [b64_encode]. unfold two_digits. cbn [app]. rewrite !n2b_mod.
    f_equal; [f_equal; lia|]. f_equal. f_equal. lia. }
  rewrite E. destruct (n <? 4095)%N; [exists []|eexists]; (split; [reflexivity|cbn; lia]).
Qed.
Lemma adjust_big t n : is_count_code t -> (63 <= n <= 65535)%N ->
  exists x, adjust_with_num t n = Ok (pt_str t ++ two_digits (n / 16) ++ x) /\ List.length x <= 1.
Proof.
  intros Ht Hn. unfold adjust_with_num. rewrite Ht. cbn [obind].
  destruct (num_big_text n Hn) as (x & E & Hx). exists x. split; [|exact Hx].
  rewrite E, app_length. replace (List.length (two_digits (n / 16)) + List.length x <? 2) with false by (cbn; lia).
  reflexivity.
Qed.
Lemma count_big t n c : is_count_code t -> (63 <= n <= 65535)%N -> adjust_with_num t n = Ok c ->
  forall r, exists x, List.length x <= 1 /\ take 2 (c ++ r) = POk (two_digits (n / 16) ++ x ++ r) (pt_str t)
    /\ b64_count (two_digits (n / 16) ++ x ++ r) = POk (x ++ r) (n / 16)%N.
Proof.
  intros Ht Hn E r. destruct (adjust_big t n Ht Hn) as (x & E' & Hx). rewrite E' in E. inversion E; subst c; clear E.
  exists x. split; [exact Hx|]. split.
  - rewrite <- !app_assoc. apply take_app. destruct t; try discriminate Ht; reflexivity.
  - apply digits_count. lia.
Qed.

(** ** Frames *)
Lemma to_cesr_ne a t : to_cesr a = Ok t -> List.length t <> 0.
Proof.
  assert (A : forall p n x, adjust_with_num p n = Ok x -> List.length x <> 0).
  { intros p n x. unfold adjust_with_num. destruct (index_length p) as [k| |]; cbn [obind]; try discriminate.
    assert (Hp : List.length (pt_str p) <> 0) by (destruct p; discriminate).
    destruct (0 <? k); [destruct (_ <? _)|]; intros H; inversion H; subst x; rewrite ?app_length; lia. }
  assert (W : forall p n b, with_count p n b = Ok t -> List.length t <> 0).
  { intros p n b. unfold with_count. destruct b as [b| |]; cbn [obind]; try discriminate.
    destruct (adjust_with_num p (as_u16 n)) as [c| |] eqn:E; cbn [obind]; try discriminate.
    intros H. inversion H. apply A in E. rewrite app_length. lia. }
  destruct a; cbn [to_cesr]; try (unfold sigs_cesr; apply W).
  match goal with |- (let? b := ?x in _) = _ -> _ => destruct x as [b| |]; cbn [obind]; try discriminate end.
  destruct (adjust_with_num MV _) as [c| |] eqn:E; cbn [obind]; try discriminate.
  intros H. inversion H. apply A in E. rewrite app_length. lia.
Qed.
Lemma frame_exact s a : attachment (bstr "-V" ++ s) = POk [] a ->
  exists r k, b64_count s = POk r k /\ 4 * N.to_nat k = List.length r.
Proof.
  rewrite attachment_eq, (att_head _ "-V" MV) by (code_ascii || reflexivity). intros H.
  apply pbnd_inv in H as (r & k & H1 & H). cbv zeta in H. exists r, k. split; [exact H1|].
  destruct (take (4 * N.to_nat k) r) as [r2 total| | | |] eqn:E; try discriminate H.
  apply take_inv in E as [-> <-]. apply pbnd_inv in H as (extra & atts & _ & H).
  destruct extra; [inversion H; subst; now rewrite app_nil_r|].
  destruct (_ <=? _); discriminate H.
Qed.
Theorem frame_lost l t : l <> [] -> to_cesr (Frame l) = Ok t -> forall a, attachment t <> POk [] a.
Proof.
  intros Hl H a Ha. cbn [to_cesr] in H.
  match type of H with (let? b := ?x in _) = _ => destruct x as [b| |] eqn:Eb; cbn [obind] in H; try discriminate H end.
  destruct (adjust_with_num MV _) as [c| |] eqn:Ec; cbn [obind] in H; try discriminate H. inversion H; subst t; clear H.
  assert (Hb : List.length b <> 0).
  { destruct l as [|x l]; [congruence|].
    destruct (to_cesr x) as [y| |] eqn:Ex; cbn [obind] in Eb; try discriminate Eb.
    match type of Eb with (let? y := ?z in _) = _ => destruct z; cbn [obind] in Eb; try discriminate Eb end.
    inversion Eb. apply to_cesr_ne in Ex. rewrite app_length. lia. }
  unfold as_u16 in Ec. set (m := (N.of_nat (List.length b) mod 65536)%N) in *.
  assert (Hm : (m <= 65535)%N) by lia.
  destruct (N.lt_ge_cases m 63) as [Hs|Hs].
  - rewrite adjust_small in Ec by (reflexivity || exact Hs).
    assert (c = pt_str MV ++ [enc6 0; enc6 m]) by congruence. subst c; clear Ec.
    change (pt_str MV) with (bstr "-V") in Ha. rewrite <- (app_assoc (bstr "-V")) in Ha. apply frame_exact in Ha as (r & k & H1 & H2).
    rewrite count_app in H1 by lia. inversion H1; subst r k; clear H1. lia.
  - destruct (adjust_big MV m eq_refl) as (x & E & Hx); [lia|]. rewrite E in Ec.
    assert (c = pt_str MV ++ two_digits (m / 16) ++ x) by congruence. subst c; clear Ec.
    change (pt_str MV) with (bstr "-V") in Ha. rewrite <- !app_assoc in Ha. apply frame_exact in Ha as (r & k & H1 & H2).
    rewrite digits_count in H1 by lia. inversion H1; subst r k; clear H1. rewrite app_length in H2. lia.
Qed.
Theorem last_est_panics l : to_cesr (LastEstSignaturesGroups l) = Panic.
Proof.
  cbn [to_cesr]. unfold with_count.
  assert (E : forall f : IdentifierPrefix * list AttachedSignaturePrefix -> out bytes,
             (forall x e, f x <> Err e) -> (let? b := oconcat f l in let? c := @Panic bytes in Ok (c ++ b)) = Panic).
  { intros f Hf. induction l as [|a l' IH]; [reflexivity|]. cbn [oconcat].
    destruct (f a) as [y|e|] eqn:Ea; cbn [obind]; [|now apply Hf in Ea|reflexivity].
    destruct (oconcat f l') as [z|e|]; cbn [obind] in *; [reflexivity|discriminate IH|reflexivity]. }
  apply E. intros [i sigs] e. unfold sigs_cesr, with_count. cbn [obind].
  unfold adjust_with_num. cbn [index_length obind]. change (0 <? 2) with true. cbv iota zeta.
  match goal with |- context [if ?b then _ else _] => destruct b end; cbn [obind]; discriminate.
Qed.

(** ** Panics *)
Definition calm {A} (f : bytes -> pres A) : Prop := forall s, f s <> PPanic.
Lemma pbnd_calm {A B} (x : pres A) (f : bytes -> A -> pres B) :
  x <> PPanic -> (forall r a, x = POk r a -> f r a <> PPanic) -> pbnd x f <> PPanic.
Proof. intros H1 H2. destruct x; cbn [pbnd]; try discriminate; [now apply H2|congruence]. Qed.
Lemma plift_calm {A} (x : out A) fail r : x <> Panic -> fail <> PPanic -> plift x fail r <> PPanic.
Proof. intros H1 H2. destruct x; cbn [plift]; congruence. Qed.
Lemma take_calm n : calm (take n).
Proof. intros s. destruct (take_kind n s) as [(r & a & E)|E]; rewrite E; discriminate. Qed.
Lemma valid_shape s : valid_utf8 s = true -> utf8 s = true.
Proof.
  remember (List.length s) as n eqn:En. revert s En. induction n as [n IH] using lt_wf_ind. intros s ->.
  destruct s as [|a r]; [reflexivity|]. cbn [valid_utf8 utf8].
  destruct (b2n a <? 128)%N eqn:E1; [intros H; eapply IH; [|reflexivity|exact H]; cbn; lia|].
  destruct r as [|b r1]; [discriminate|]. unfold cont, is_continuation.
  destruct ((194 <=? b2n a) && (b2n a <? 224))%N eqn:E2.
  - replace ((192 <=? b2n a) && (b2n a <? 224))%N with true by lia.
    rewrite !andb_true_iff. intros [H1 H2]. split; [exact H1|]. eapply IH; [|reflexivity|exact H2]. cbn; lia.
  - destruct r1 as [|c r2]; [discriminate|]. destruct ((224 <=? b2n a) && (b2n a <? 240))%N eqn:E3.
    + replace ((192 <=? b2n a) && (b2n a <? 224))%N with false by lia.
      rewrite !andb_true_iff. intros ((((H1 & H2) & _) & _) & H3). split; [tauto|]. eapply IH; [|reflexivity|exact H3]. cbn; lia.
    + destruct r2 as [|d r3]; [discriminate|].
      rewrite !andb_true_iff. intros (((((((H0 & H0') & H1) & H2) & H3) & _) & _) & H4).
      replace ((192 <=? b2n a) && (b2n a <? 224))%N with false by lia.
      replace (240 <=? b2n a)%N with true by lia. rewrite !andb_true_iff.
      split; [tauto|]. eapply IH; [|reflexivity|exact H4]. cbn; lia.
Qed.
Lemma p_code_calm {A} (parse : bytes -> out A) c r : (utf8 c = true -> parse c <> Panic) -> p_code parse c r <> PPanic.
Proof.
  intros H. unfold p_code. destruct (valid_utf8 c) eqn:E; [|discriminate].
  apply plift_calm; [apply H, valid_shape, E|discriminate].
Qed.
Lemma p_index_calm k : calm (p_index k).
Proof.
  intros s. unfold p_index. apply pbnd_calm; [apply take_calm|]. intros r a _.
  apply plift_calm; [apply b64_to_num_no_panic|discriminate].
Qed.
Lemma p_decode_calm k : calm (p_decode k).
Proof.
  intros s. unfold p_decode. apply pbnd_calm; [apply take_calm|]. intros r a _.
  apply plift_calm; [apply decode_no_panic|discriminate].
Qed.
Ltac calm_step :=
  match goal with
  | |- pbnd _ _ <> PPanic => apply pbnd_calm; [|intros ? ? ?]
  | |- take _ _ <> PPanic => apply take_calm
  | |- p_index _ _ <> PPanic => apply p_index_calm
  | |- p_decode _ _ <> PPanic => apply p_decode_calm
  | |- plift (decode _) _ _ <> PPanic => apply plift_calm; [apply decode_no_panic|discriminate]
  | |- POk _ _ <> PPanic => discriminate
  | |- PErr <> PPanic => discriminate
  | |- (if ?b then _ else _) <> PPanic => destruct b eqn:?
  end.
Lemma attached_signature_calm : calm attached_signature.
Proof. intros s. unfold attached_signature. repeat calm_step. Qed.
Lemma first_byte s r c r' code n :
  take 1 s = POk r c -> take n s = POk r' code -> n <> 0 -> forall x, starts_with [x] code -> c = [x].
Proof.
  intros H1 H2 Hn x [t ->]. apply take_inv in H1 as [-> H1]. apply take_inv in H2 as [H2 _].
  destruct c as [|c [|]]; try discriminate H1. cbn [app] in H2. congruence.
Qed.
Lemma basic_prefix_calm : calm basic_prefix.
Proof.
  intros s. unfold basic_prefix. calm_step; [calm_step|]. rename H into H1. calm_step; [calm_step|]. rename H into H2.
  calm_step; [|repeat calm_step].
  apply p_code_calm. intros Hu Hp. apply (basic_code_panic _ Hu) in Hp as [Hs Hc].
  assert (E : a = bstr "1") by (eapply first_byte; [exact H1|exact H2|destruct (is a "1"); discriminate|exact Hs]).
  subst a. change (is (bstr "1") "1") with true in H2. cbv iota in H2. apply take_inv in H2 as [_ H2].
  rewrite <- H2, cut_len in Hc. discriminate.
Qed.
Lemma ssp_calm : calm self_signing_prefix.
Proof.
  intros s. unfold self_signing_prefix. calm_step; [calm_step|]. rename H into H1. calm_step; [calm_step|]. rename H into H2.
  calm_step; [|repeat calm_step].
  apply p_code_calm. intros Hu Hp. apply (ss_code_panic _ Hu) in Hp as [[Hs Hc]|[Hs Hc]].
  - assert (E : a = bstr "0") by (eapply first_byte; [exact H1|exact H2|destruct (is a "1"); discriminate|exact Hs]).
    subst a. change (is (bstr "0") "1") with false in H2. cbv iota in H2. apply take_inv in H2 as [_ H2].
    rewrite <- H2, cut_len in Hc. discriminate.
  - assert (E : a = bstr "1") by (eapply first_byte; [exact H1|exact H2|destruct (is a "1"); discriminate|exact Hs]).
    subst a. change (is (bstr "1") "1") with true in H2. cbv iota in H2. apply take_inv in H2 as [_ H2].
    rewrite <- H2, cut_len in Hc. discriminate.
Qed.
Lemma sap_calm : calm self_addressing_prefix.
Proof.
  intros s. unfold self_addressing_prefix. calm_step; [calm_step|]. rename H into H1. calm_step; [calm_step|]. rename H into H2.
  calm_step.
  - apply p_code_calm. intros Hu Hp. apply (sa_code_panic _ Hu) in Hp as [Hs Hc].
    assert (E : a = bstr "0") by (eapply first_byte; [exact H1|exact H2|destruct (is a "0"); discriminate|exact Hs]).
    subst a. change (is (bstr "0") "0") with true in H2. cbv iota in H2. apply take_inv in H2 as [_ H2].
    rewrite <- H2, cut_len in Hc. discriminate.
  - rename H into H3. calm_step; [calm_step|]. rename H into H4. apply p_code_calm. intros Hu Hp.
    apply (sap_panic _ Hu) in Hp as [Hs Hc]. apply p_code_inv in H3 as (-> & H3 & _).
    pose proof (sa_code_text _ _ H3) as Ht. apply Hc. apply cutb_spec.
    assert (Ha0 : a0 <> []).
    { destruct a0; [|discriminate]. apply take_inv in H2 as [_ H2]. destruct (is a "0"); discriminate H2. }
    assert (Ha : starts_with [x30] a0).
    { destruct a0 as [|x a0]; [congruence|]. destruct Hs as [t Ht']. exists a0. inversion Ht'. reflexivity. }
    assert (E : a = bstr "0") by (eapply first_byte; [exact H1|exact H2|destruct (is a "0"); discriminate|exact Ha]).
    subst a. change (is (bstr "0") "0") with true in H2. cbv iota in H2. apply take_inv in H2 as [_ H2].
    rewrite <- H2. apply cut_app; [|exact Hu].
    assert (Hn : List.length a0 = sa_code_len a1).
    { rewrite Ht in Ha. destruct Ha as [q Hq]. destruct a1; cbn in Hq |- *; try discriminate Hq; exact H2. }
    rewrite Ht. rewrite <- Hn, skipn_all, app_nil_r. apply sa_code_ascii.
Qed.
Lemma b64_decode_step a b c e f r : b64_decode (a :: b :: c :: e :: f :: r) =
  match dec_group4 a b c e, b64_decode (f :: r) with Some x, Some y => Some (x ++ y) | _, _ => None end.
Proof. reflexivity. Qed.
Lemma decode_two_length s : forall d, (exists k, List.length s = 4 * k + 2) -> b64_decode s = Some d ->
  exists k, List.length s = 4 * k + 2 /\ List.length d = 3 * k + 1.
Proof.
  induction s as [| a | a b | a b c | a b c e r IH] using list_ind4; intros x [k Hk] H; cbn in Hk; try lia.
  - exists 0. split; [reflexivity|]. cbn [b64_decode] in H. unfold dec_group2 in H.
    destruct (dec6 a); [|discriminate]. destruct (dec6 b); [|discriminate].
    destruct (_ =? _)%N; [|discriminate]. inversion H. reflexivity.
  - destruct r as [|f r]; [cbn in Hk; lia|]. rewrite b64_decode_step in H.
    destruct (dec_group4 a b c e) as [z|] eqn:Ez; [|discriminate H].
    destruct (b64_decode (f :: r)) as [y|] eqn:Ey; [|discriminate H].
    destruct (IH y) as (j & H1 & H2); [exists (k - 1); cbn in Hk |- *; lia|reflexivity|].
    exists (S j). split; [cbn in H1 |- *; lia|].
    assert (x = z ++ y) by congruence. subst x. rewrite app_length, H2.
    unfold dec_group4 in Ez. destruct (dec6 a), (dec6 b), (dec6 c), (dec6 e); try discriminate Ez.
    assert (List.length z = 3) by (inversion Ez; reflexivity). lia.
Qed.
Lemma attached_sn_calm : calm attached_sn.
Proof.
  intros s. unfold attached_sn. repeat calm_step; try discriminate.
  exfalso. apply plift_inv in H1 as [_ H1]; [|discriminate]. apply take_inv in H0 as [_ H0].
  unfold decode, ok_or in H1. destruct (b64_decode a0) as [d|] eqn:Ed; [|discriminate H1].
  apply decode_two_length in Ed as (k & H3 & H4); [|exists 5; exact H0].
  assert (d = a1) by congruence. subst. apply Nat.eqb_neq in Heqb0. lia.
Qed.
Lemma prefix_calm : calm prefix.
Proof.
  intros s. unfold prefix. pose proof (sap_calm s) as H.
  destruct (self_addressing_prefix s); try congruence; try discriminate; (calm_step; [apply basic_prefix_calm|discriminate]).
Qed.
Lemma b64_count_calm : calm b64_count.
Proof.
  intros s. unfold b64_count. calm_step; [calm_step|]. apply plift_calm; [apply b64_to_num_no_panic|discriminate].
Qed.
Lemma pcount_calm {A} (f : bytes -> pres A) n : calm f -> calm (pcount f n).
Proof. intros Hf. induction n as [|n IH]; intros s; cbn [pcount]; [discriminate|]. repeat calm_step; [apply Hf|apply IH]. Qed.
Lemma source_seal_calm : calm source_seal.
Proof.
  intros s. unfold source_seal. calm_step; [apply b64_count_calm|]. apply pcount_calm. intros t. unfold source_seal1.
  calm_step; [apply attached_sn_calm|]. calm_step; [apply sap_calm|]. calm_step.
Qed.
Lemma event_seal_calm : calm event_seal.
Proof.
  intros s. unfold event_seal. calm_step; [apply prefix_calm|]. calm_step; [apply attached_sn_calm|].
  calm_step; [apply sap_calm|]. calm_step.
Qed.
Lemma signatures_calm : calm signatures.
Proof. intros s. unfold signatures. calm_step; [apply b64_count_calm|]. apply pcount_calm, attached_signature_calm. Qed.
Lemma couplets_calm : calm couplets.
Proof.
  intros s. unfold couplets. calm_step; [apply b64_count_calm|]. apply pcount_calm. intros t. unfold couplet.
  calm_step; [apply basic_prefix_calm|]. calm_step; [apply ssp_calm|]. calm_step.
Qed.

(** ** Where a panic comes from *)
Definition todo_code (u : bytes) : Prop := exists c r, In c unimplemented /\ u = c ++ r.
Definition frame_code (u : bytes) : Prop := exists r, u = bstr "-V" ++ r.
Lemma pbnd_panic {A B} (x : pres A) (f : bytes -> A -> pres B) :
  pbnd x f = PPanic -> x = PPanic \/ exists r a, x = POk r a /\ f r a = PPanic.
Proof. destruct x; cbn [pbnd]; try discriminate; eauto. Qed.
Lemma pcount_panic {A} (f : bytes -> pres A) n : shrinks f -> forall s, pcount f n s = PPanic ->
  exists u, suffix u s /\ f u = PPanic.
Proof.
  intros Hf. induction n as [|n IH]; intros s; cbn [pcount]; [discriminate|]. intros H.
  apply pbnd_panic in H as [H|(r & a & H1 & H)]; [exists s; split; [apply suffix_refl|exact H]|].
  apply pbnd_panic in H as [H|(r' & a' & H2 & H)]; [|discriminate].
  apply IH in H as (u & Hu & H). exists u. split; [|exact H]. eapply suffix_trans; [exact Hu|eapply Hf, H1].
Qed.
Lemma many0_panic {A} (f : bytes -> pres A) : shrinks f -> forall n s, many0_f f n s = PPanic ->
  exists u, suffix u s /\ f u = PPanic.
Proof.
  intros Hf. induction n as [|n IH]; intros s; cbn [many0_f]; [discriminate|].
  destruct (f s) as [r a| | | |] eqn:E; try discriminate.
  - destruct (_ =? _); [discriminate|]. intros H. apply pbnd_panic in H as [H|(r' & a' & _ & H)]; [|discriminate].
    apply IH in H as (u & Hu & H). exists u. split; [|exact H]. eapply suffix_trans; [exact Hu|eapply Hf, E].
  - intros _. exists s. split; [apply suffix_refl|exact E].
Qed.
Lemma pt_find_in l t x : pt_find l t = Ok x -> exists n, In (n, x) l /\ t = bstr n.
Proof.
  induction l as [|[n y] l IH]; cbn [pt_find]; [discriminate|]. unfold is. destruct (bytes_eqb t (bstr n)) eqn:E.
  - intros H. inversion H; subst. apply bytes_eqb_eq in E. exists n. split; [now left|exact E].
  - intros H. apply IH in H as (m & H & ->). exists m. split; [now right|reflexivity].
Qed.
Lemma pt_from_ok t x : pt_from t = Ok x -> t = bstr match x with PE => "E" | _ => "" end \/ t = pt_str x.
Proof.
  intros H. apply pt_find_in in H as (n & H & ->). unfold pt_table in H. cbn [In] in H.
  repeat (destruct H as [H|H]; [inversion H; subst; clear H; (right; reflexivity) || (left; reflexivity)|]). contradiction.
Qed.
Lemma pt_from_todo t x : pt_from t = Ok x -> List.length t = 2 ->
  match x with MG | MF | MA | MC | MH => True | MV => t = bstr "-V" | _ => In t unimplemented end.
Proof.
  intros H Hl. apply pt_from_ok in H as [H|H]; subst t; [destruct x; discriminate Hl|].
  destruct x; try discriminate Hl; try exact I; try reflexivity; unfold unimplemented; cbn [map In]; tauto.
Qed.
Lemma pt_from_no_panic t : pt_from t <> Panic.
Proof. unfold pt_from. generalize pt_table. induction l as [|[n y] l IH]; cbn [pt_find]; [discriminate|]. destruct (is t n); [discriminate|exact IH]. Qed.
Theorem panic_source s : attachment s = PPanic ->
  exists u, suffix u s /\ (todo_code u \/ frame_code u).
Proof.
  remember (List.length s) as n eqn:En. revert s En. induction n as [n IH] using lt_wf_ind. intros s -> H.
  assert (Sh : forall r, suffix r s -> List.length r < List.length s -> attachment r = PPanic ->
             exists u, suffix u s /\ (todo_code u \/ frame_code u)).
  { intros r Hr Hl H'. apply (IH _ Hl r eq_refl) in H' as (u & Hu & H'). exists u. split; [eapply suffix_trans; eauto|exact H']. }
  rewrite attachment_eq in H. unfold attachment_body in H.
  apply pbnd_panic in H as [H|(rest & t & H1 & H)]; [now apply take_calm in H|].
  apply take_inv in H1 as [-> Ht]. destruct (negb (valid_utf8 t)); [discriminate|].
  destruct (pt_from t) as [x|e|] eqn:Ep; [|discriminate|now apply pt_from_no_panic in Ep].
  pose proof (pt_from_todo t x Ep Ht) as Hx.
  assert (Hs : suffix rest (t ++ rest)) by (exists t; reflexivity).
  assert (Hin : forall u, suffix u rest -> List.length u < List.length (t ++ rest)).
  { intros u Hu. apply suffix_len in Hu. rewrite app_length. lia. }
  assert (IX : forall u, suffix u rest -> indexed_signatures attachment u = PPanic -> 
             exists u, suffix u (t ++ rest) /\ (todo_code u \/ frame_code u)).
  { intros u Hu H'. unfold indexed_signatures in H'. apply pbnd_panic in H' as [H'|(r & a & _ & H')]; [|destruct a; discriminate].
    eapply Sh; [|apply Hin, Hu|exact H']. eapply suffix_trans; eauto. }
  destruct x; cbv iota beta in H, Hx;
    try (exists (t ++ rest); split; [apply suffix_refl|left; exists t, rest; split; [exact Hx|reflexivity]]).
  - apply pbnd_panic in H as [H|(r & l & _ & H)]; [now apply signatures_calm in H|discriminate].
  - apply pbnd_panic in H as [H|(r & l & _ & H)]; [now apply couplets_calm in H|discriminate].
  - apply pbnd_panic in H as [H|(r & k & H1 & H)]; [now apply b64_count_calm in H|].
    apply pbnd_panic in H as [H|(r' & l & _ & H)]; [|discriminate].
    apply pcount_panic in H as (u & Hu & H).
    + unfold seal_sigs in H. apply pbnd_panic in H as [H|(r1 & e & H2 & H)]; [now apply event_seal_calm in H|].
      apply pbnd_panic in H as [H|(r2 & l & _ & H)]; [|discriminate]. eapply IX; [|exact H].
      eapply suffix_trans; [eapply event_seal_shrinks, H2|]. eapply suffix_trans; [exact Hu|eapply b64_count_shrinks, H1].
    + apply seal_sigs_shrinks, attachment_shrinks.
  - apply pbnd_panic in H as [H|(r & l & _ & H)]; [now apply source_seal_calm in H|discriminate].
  - apply pbnd_panic in H as [H|(r & k & H1 & H)]; [now apply b64_count_calm in H|].
    apply pbnd_panic in H as [H|(r' & l & _ & H)]; [|discriminate].
    apply pcount_panic in H as (u & Hu & H).
    + unfold id_sigs in H. apply pbnd_panic in H as [H|(r1 & e & H2 & H)]; [now apply prefix_calm in H|].
      apply pbnd_panic in H as [H|(r2 & l & _ & H)]; [|discriminate]. eapply IX; [|exact H].
      eapply suffix_trans; [eapply prefix_shrinks, H2|]. eapply suffix_trans; [exact Hu|eapply b64_count_shrinks, H1].
    + apply id_sigs_shrinks, attachment_shrinks.
  - subst t. exists (bstr "-V" ++ rest). split; [apply suffix_refl|right; exists rest; reflexivity].
Qed.
Lemma todo_panics c r : In c unimplemented -> attachment (c ++ r) = PPanic.
Proof.
  intros H. rewrite attachment_eq. unfold attachment_body.
  unfold unimplemented in H. cbn [map In] in H.
  repeat (destruct H as [<-|H]; [rewrite take_app by reflexivity; cbn [pbnd]; reflexivity|]). contradiction.
Qed.
Lemma flat_calm code r : In code ["-A"; "-C"; "-G"]%string -> attachment (bstr code ++ r) <> PPanic.
Proof.
  intros H. rewrite attachment_eq. cbn [In] in H.
  destruct H as [<-|[<-|[<-|[]]]].
  - rewrite (att_head _ "-A" MA) by (code_ascii || reflexivity). calm_step; [apply signatures_calm|discriminate].
  - rewrite (att_head _ "-C" MC) by (code_ascii || reflexivity). calm_step; [apply couplets_calm|discriminate].
  - rewrite (att_head _ "-G" MG) by (code_ascii || reflexivity). calm_step; [apply source_seal_calm|discriminate].
Qed.
(** a frame whose content does not parse to the end panics when more input follows than the
    frame is long *)
Lemma frame_underflow k body rest : (k < 4096)%N -> List.length body = 4 * N.to_nat k ->
  (exists extra l, many0 attachment body = POk extra l /\ extra <> []) -> List.length body < List.length rest ->
  attachment (bstr "-V" ++ two_digits k ++ body ++ rest) = PPanic.
Proof.
  intros Hk Hb (extra & l & Hm & He) Hr.
  rewrite attachment_eq, (att_head _ "-V" MV) by (code_ascii || reflexivity).
  rewrite digits_count by exact Hk. cbn [pbnd]. cbv zeta. rewrite take_app by (symmetry; exact Hb). rewrite Hm. cbn [pbnd].
  destruct extra; [congruence|]. replace (List.length rest <=? 4 * N.to_nat k) with false by lia. reflexivity.
Qed.
