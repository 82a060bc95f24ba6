(** * C135: a commitment to next keys fixes which signatures the next rotation needs. *)
From Coq Require Import QArith Permutation.
From Verif Require Import Base Base64 Base64Proofs Codes NumFmt NumProofs Types KeyConf SpecSig State Db Processor Spec SpecProc SpecRules SpecBuild SpecBind SpecCodec SpecJson SpecThreshold
  StateProofs LogProofs LogTheorems LogTheorems2 SigProofs ProcProofs ProcProofs2 CodecProofs BindProofs TakeoverProofs
  Version Cesr CesrProofs Message Keri Json JsonRead JsonProofs JsonProofs2 JsonProofs4 Demo Prop_Bind.
Local Open Scope nat_scope.

(** The full statement: the same keys with two thresholds give the same commitment, under any
    digest without relations between the texts, only when the thresholds ask for the same
    signatures. *)
Definition C135_statement : Prop :=
  forall E d n t1 t2 ks,
    digest_size E d n -> has_weights t1 -> has_weights t2 ->
    independent E d n [threshold_str t1; threshold_str t2] ->
    commitment E d t1 ks = commitment E d t2 ks ->
    forall sigs, threshold_met t1 sigs <-> threshold_met t2 sigs.

(** ** Texts *)
Definition only_once (c : byte) (s : bytes) : Prop := Forall (fun x => x <> c) s.
Lemma join_split c a b x y : only_once c a -> only_once c b -> a ++ c :: x = b ++ c :: y -> a = b /\ x = y.
Proof.
  intros Ha; revert b; induction Ha as [|u a Hu _ IH]; intros b Hb E; destruct Hb as [|v b Hv Hb]; cbn [app] in E.
  - injection E as ->. now split.
  - injection E as E _. congruence.
  - injection E as E _. congruence.
  - injection E as -> E. destruct (IH b Hb E) as [-> ->]. now split.
Qed.
Lemma join_inj c l1 : forall l2, Forall (only_once c) l1 -> Forall (only_once c) l2 -> l1 <> [] -> l2 <> [] ->
  join [c] l1 = join [c] l2 -> l1 = l2.
Proof.
  assert (W : forall b x, only_once c b -> b <> x ++ c :: match x with _ => [] end -> True) by trivial. clear W.
  assert (N : forall b x y, only_once c b -> b <> x ++ c :: y).
  { intros b x y Hb ->. apply Forall_app in Hb as [_ Hb]. inversion Hb; congruence. }
  induction l1 as [|a l1 IH]; intros l2 H1 H2 N1 N2 E; [congruence|]. destruct l2 as [|b l2]; [congruence|].
  inversion H1 as [|? ? Ha H1']; subst. inversion H2 as [|? ? Hb H2']; subst.
  destruct l1 as [|a' l1], l2 as [|b' l2].
  - cbn [join] in E. now subst.
  - exfalso. cbn [join] in E. exact (N _ _ _ Ha E).
  - exfalso. cbn [join] in E. symmetry in E. exact (N _ _ _ Hb E).
  - change (join [c] (a :: a' :: l1)) with (a ++ c :: join [c] (a' :: l1)) in E.
    change (join [c] (b :: b' :: l2)) with (b ++ c :: join [c] (b' :: l2)) in E.
    apply join_split in E as [-> E]; [|assumption|assumption]. f_equal. apply IH; auto; discriminate.
Qed.
Lemma join_chars c (P : byte -> Prop) l : P c -> Forall (Forall P) l -> Forall P (join [c] l).
Proof.
  intros Hc H. induction H as [|a l Ha Hl IH]; [constructor|]. destruct l as [|b l]; [exact Ha|].
  change (join [c] (a :: b :: l)) with (a ++ c :: join [c] (b :: l)). apply Forall_app. split; [exact Ha|]. constructor; assumption.
Qed.
(** the characters of a fraction *)
Definition frac_char (x : byte) : Prop := is_digit x = true \/ In x (bstr "/NaNinf").
Lemma frac_chars f : Forall frac_char (frac_str f).
Proof.
  destruct f as [| |n d]; cbn [frac_str].
  1,2: repeat (constructor; [right; cbn; tauto|]); constructor.
  assert (D : forall n, Forall frac_char (fmt_dec n)) by (intros k; eapply Forall_impl; [|apply dec_digits]; intros a Ha; now left).
  destruct (d =? 1)%N; [apply D|]. apply Forall_app. split; [apply D|]. constructor; [right; cbn; tauto|]. apply D.
Qed.
Lemma frac_char_not x c : frac_char x -> is_digit c = false -> ~ In c (bstr "/NaNinf") -> x <> c.
Proof. intros [H|H] Hc Hn ->; [congruence|contradiction]. Qed.
Lemma no_comma f : only_once x2c (frac_str f).
Proof. eapply Forall_impl; [|apply frac_chars]. intros a Ha. apply frac_char_not; [exact Ha|reflexivity|]. cbn. intuition discriminate. Qed.
Lemma frac_text_ne f : frac_str f <> [].
Proof.
  destruct f as [| |n d]; cbn [frac_str]; try discriminate. assert (H : fmt_dec n <> []) by apply fmt_ne.
  destruct (d =? 1)%N; [exact H|]. destruct (fmt_dec n); [congruence|discriminate].
Qed.
Lemma clause_inj c1 c2 : c1 <> [] -> c2 <> [] -> clause_str c1 = clause_str c2 -> c1 = c2.
Proof.
  intros H1 H2 E. unfold clause_str in E. change (bstr ",") with [x2c] in E. apply join_inj in E.
  - revert E. apply (map_inj frac_str (fun _ => True)); [|apply Forall_all|apply Forall_all]. intros a b _ _. apply frac_str_inj.
  - apply Forall_forall. intros s Hs. apply in_map_iff in Hs as (f & <- & _). apply no_comma.
  - apply Forall_forall. intros s Hs. apply in_map_iff in Hs as (f & <- & _). apply no_comma.
  - now destruct c1.
  - now destruct c2.
Qed.
Lemma clause_char c : Forall (fun x => frac_char x \/ x = x2c) (clause_str c).
Proof.
  unfold clause_str. change (bstr ",") with [x2c]. apply join_chars; [now right|]. apply Forall_forall. intros s Hs.
  apply in_map_iff in Hs as (f & <- & _). eapply Forall_impl; [|apply frac_chars]. intros a Ha. now left.
Qed.
Lemma no_and c : only_once x26 (clause_str c).
Proof.
  eapply Forall_impl; [|apply clause_char]. intros a [Ha| ->]; [|discriminate]. apply frac_char_not; [exact Ha|reflexivity|]. cbn. intuition discriminate.
Qed.
(** the text of a threshold with weights, from its clauses *)
Lemma weights_single c : weights (WSingle c) = [c].
Proof. reflexivity. Qed.
Lemma weights_multi cs : weights (WMulti cs) = cs.
Proof. unfold weights. cbn [clauses_of]. generalize 0. induction cs as [|c cs IH]; intros k; cbn [with_starts map snd]; [reflexivity|]. now rewrite IH. Qed.
Lemma weights_text w : extract_threshold w = join (bstr "&") (map clause_str (weights w)).
Proof. destruct w; [reflexivity|]. now rewrite weights_multi. Qed.
Lemma starts_of w : clauses_of w = with_starts 0 (weights w).
Proof. destruct w; [reflexivity|]. now rewrite weights_multi. Qed.

(** ** Which thresholds have the same text *)
Theorem C135_same_text :
  forall t1 t2, has_weights t1 -> has_weights t2 ->
    (threshold_str t1 = threshold_str t2
     <-> same_threshold t1 t2 \/ count_as_weight t1 t2 \/ count_as_weight t2 t1).
Proof.
  assert (W : forall v w, has_weights (Weighted v) -> has_weights (Weighted w) -> extract_threshold v = extract_threshold w -> weights v = weights w).
  { intros v w (V1 & V2) (W1 & W2) E. rewrite !weights_text in E. change (bstr "&") with [x26] in E. apply join_inj in E.
    - revert E. apply (map_inj clause_str (fun c => c <> [])); auto. intros a b Ha Hb. now apply clause_inj.
    - apply Forall_forall. intros s Hs. apply in_map_iff in Hs as (f & <- & _). apply no_and.
    - apply Forall_forall. intros s Hs. apply in_map_iff in Hs as (f & <- & _). apply no_and.
    - now destruct (weights v).
    - now destruct (weights w). }
  assert (M : forall n w, has_weights (Weighted w) -> fmt_hex n = extract_threshold w -> count_as_weight (Simple n) (Weighted w)).
  { intros n w (W1 & W2) E. rewrite weights_text in E.
    assert (HX : Forall (fun x => In x (bstr "0123456789abcdef")) (fmt_hex n)).
    { apply Forall_forall. intros c Hc. destruct (fmt_chars 16 n c radix16 Hc) as (d & Hd & ->). unfold digit_char.
      apply nth_In. change (List.length (bstr "0123456789abcdef")) with 16. lia. }
    assert (NO : forall c a b, ~ In c (bstr "0123456789abcdef") -> fmt_hex n <> a ++ c :: b).
    { intros c a b Hc He. rewrite He in HX. apply Forall_app in HX as [_ HX]. inversion HX; contradiction. }
    destruct (weights w) as [|c cs] eqn:Hw; [congruence|]. inversion W2 as [|? ? Hc _]; subst.
    destruct cs as [|c' cs].
    2:{ exfalso. change (join (bstr "&") (map clause_str (c :: c' :: cs))) with (clause_str c ++ x26 :: join (bstr "&") (map clause_str (c' :: cs))) in E.
        revert E. apply NO. cbn. intuition discriminate. }
    cbn [map join] in E. destruct c as [|f c]; [congruence|]. destruct c as [|f' c].
    2:{ exfalso. unfold clause_str in E. change (join (bstr ",") (map frac_str (f :: f' :: c))) with (frac_str f ++ x2c :: join (bstr ",") (map frac_str (f' :: c))) in E.
        revert E. apply NO. cbn. intuition discriminate. }
    unfold clause_str in E. cbn [map join] in E. destruct f as [| |a d]; cbn [frac_str] in E.
    1: { exfalso. apply (NO x4e [] (bstr "aN")); [cbn; intuition discriminate|exact E]. }
    1: { exfalso. apply (NO x69 [] (bstr "nf")); [cbn; intuition discriminate|exact E]. }
    destruct (N.eqb_spec d 1) as [->|Hd].
    - exists n, a, w. repeat split; [exact Hw|exact E].
    - exfalso. revert E. change (bstr "/") with [x2f]. change ([x2f] ++ fmt_dec d) with (x2f :: fmt_dec d). apply NO. cbn. intuition discriminate. }
  intros t1 t2 H1 H2. split.
  - destruct t1 as [n|v], t2 as [m|w]; cbn [threshold_str]; intros E.
    + left. cbn. now apply hex_inj.
    + right. left. now apply M.
    + right. right. apply M; [exact H1|now symmetry].
    + left. cbn. now apply W.
  - assert (C : forall u v, count_as_weight u v -> threshold_str u = threshold_str v).
    { intros u v (n & m & w & -> & -> & Hw & Hd). cbn [threshold_str]. rewrite weights_text, Hw. unfold same_digits in Hd. rewrite Hd. reflexivity. }
    intros [H|[H|H]]; [|now apply C|symmetry; now apply C].
    destruct t1 as [n|v], t2 as [m|w]; cbn [same_threshold threshold_str] in *; try contradiction; [now subst|]. rewrite !weights_text. now rewrite H.
Qed.
Print Assumptions C135_same_text.

(** ** The commitment *)
Lemma same_met t1 t2 sigs : same_threshold t1 t2 -> threshold_met t1 sigs <-> threshold_met t2 sigs.
Proof.
  destruct t1 as [n|v], t2 as [m|w]; cbn [same_threshold threshold_met]; try contradiction; [now intros ->|]. intros H. now rewrite !starts_of, H.
Qed.
Lemma same_text_bound E d n t1 t2 ks : digest_size E d n -> independent E d n [threshold_str t1; threshold_str t2] ->
  commitment E d t1 ks = commitment E d t2 ks -> threshold_str t1 = threshold_str t2.
Proof.
  intros Hn Hi H. unfold commitment in H.
  assert (Hx : forall t, xor_all (e_digest E d (threshold_str t)) (map (fun k => e_digest E d (bp_str k)) ks) = combined E d n (map bp_str ks ++ [threshold_str t])).
  { intros t. rewrite <- (map_map bp_str (e_digest E d)), (X_start E d n Hn). apply (X_perm E d n). change (threshold_str t :: map bp_str ks) with ([threshold_str t] ++ map bp_str ks). apply Permutation_app_comm. }
  rewrite !Hx in H. assert (H' : combined E d n (map bp_str ks ++ [threshold_str t1]) = combined E d n (map bp_str ks ++ [threshold_str t2])) by congruence.
  apply (X_app_inv_l E d n Hn) in H'.
  assert (P : Permutation [threshold_str t1] [threshold_str t2]).
  { apply (combined_inj E d n Hn _ _ _ Hi); [repeat constructor; auto| repeat constructor; auto|intros x [<-|[]]; now left|intros x [<-|[]]; right; now left|exact H']. }
  apply Permutation_length_1 in P. exact P.
Qed.
(** Between two thresholds of the same kind the full statement holds. *)
Theorem C135_same_kind_partial :
  forall E d n t1 t2 ks,
    digest_size E d n -> has_weights t1 -> has_weights t2 -> ~ different_kinds t1 t2 ->
    independent E d n [threshold_str t1; threshold_str t2] ->
    commitment E d t1 ks = commitment E d t2 ks ->
    same_threshold t1 t2 /\ forall sigs, threshold_met t1 sigs <-> threshold_met t2 sigs.
Proof.
  intros E d n t1 t2 ks Hn W1 W2 Hk Hi H. pose proof (same_text_bound E d n t1 t2 ks Hn Hi H) as Ht.
  apply C135_same_text in Ht; [|assumption|assumption].
  assert (S : same_threshold t1 t2).
  { destruct Ht as [S|[(a & b & w & -> & -> & _)|(a & b & w & -> & -> & _)]]; [exact S| |]; exfalso; apply Hk; exact I. }
  split; [exact S|]. intros sigs. now apply same_met.
Qed.
Print Assumptions C135_same_kind_partial.
(** An accepted rotation asks for the signatures that were committed to, if its threshold is of
    the committed kind (and under the conditions of [C88_committed_keys_partial]). *)
Theorem C135_rotation_partial :
  forall E cs id s n se d' s' t ks sz,
    let d := run E db_empty cs in
    id <> id_default -> log d id <> [] -> compute_state E d id = Ok (Some s) ->
    kc_next (st_current s) = Some n -> n = commitment E (sap_code n) t ks ->
    em_prefix (sem_msg se) = id -> is_rotation (sem_msg se) = true ->
    process E d (MEvent se) = (d', Ok (Some s')) ->
    let ks' := kc_keys (st_current s') in let t' := kc_threshold (st_current s') in
    digest_size E (sap_code n) sz ->
    independent E (sap_code n) sz ((threshold_str t :: map bp_str ks) ++ threshold_str t' :: map bp_str ks') ->
    Forall (fun k => bp_key k <> []) (ks ++ ks') -> NoDup ks -> NoDup ks' ->
    ~ In (threshold_str t) (map bp_str (ks ++ ks')) -> ~ In (threshold_str t') (map bp_str (ks ++ ks')) ->
    has_weights t -> has_weights t' -> ~ different_kinds t t' ->
    Permutation ks' ks /\ same_threshold t t' /\ forall sigs, threshold_met t sigs <-> threshold_met t' sigs.
Proof.
  cbv zeta. intros E cs id s n se d' s' t ks sz Hid Hne Hs Hn Hc Hp Hrot Hpr Hsz Hi Hk N1 N2 T1 T2 W1 W2 Hd.
  destruct (C88_committed_keys_partial E cs id s n se d' s' t ks sz Hid Hne Hs Hn Hc Hp Hrot Hpr Hsz Hi Hk N1 N2 T1 T2) as (P & Ht).
  symmetry in Ht. apply C135_same_text in Ht; [|assumption|assumption].
  assert (S : same_threshold t (kc_threshold (st_current s'))).
  { destruct Ht as [S|[(a & b & w & E1 & E2 & _)|(a & b & w & E1 & E2 & _)]]; [exact S| |]; exfalso; apply Hd; rewrite E1, E2; exact I. }
  split; [exact P|]. split; [exact S|]. intros sigs. now apply same_met.
Qed.
Print Assumptions C135_rotation_partial.

(** Refuted otherwise.  An identifier is committed to a number [h] of signatures by the keys
    [ks].  Any one of these keys, alone, makes a rotation to the same keys that is accepted
    everywhere and after which the same key alone controls the identifier: the rotation has the
    threshold [["h"]], which gives its first key the weight [h]. *)
Theorem C135_downgrade :
  forall E cs id s n h m ks k rest,
    let d := run E db_empty cs in
    id <> id_default -> log d id <> [] -> compute_state E d id = Ok (Some s) -> st_delegator s = None ->
    kc_next (st_current s) = Some n -> computable (sap_code n) -> n = commitment E (sap_code n) (Simple h) ks ->
    Permutation ks (k :: rest) -> same_digits h m -> (1 <= m)%N -> rotations_written E -> can_sign E k ->
    exists msg sg ser d' s',
      process E d (MEvent (mkSEM msg [mkASP 0 sg] None)) = (d', Ok (Some s'))
      /\ em_prefix msg = id /\ e_ser_event E msg = Ok ser /\ sig_ok E k ser sg
      /\ kc_keys (st_current s') = k :: rest
      /\ kc_threshold (st_current s') = Weighted (WSingle [FRat m 1])
      /\ forall data sg2, sig_ok E k data sg2 -> satisfies E (st_current s') data [mkASP 0 sg2].
Proof.
  cbv zeta. intros E cs id s n h m ks k rest Hid Hne Hs Hdel Hn Hcm Hc Hp Hd Hm Hw Hk.
  set (t := Weighted (WSingle [FRat m 1])). set (kc := mkKC t (k :: rest) None).
  set (r := mkRot (st_last_digest s) kc (mkWC 0 [] []) []).
  set (msg := mkEM info0 sap_default id (st_sn s + 1)%N (Rot r)).
  destruct (Hw msg r eq_refl) as (Hx & ser & Hser). destruct (Hk ser) as (sg & Hsg).
  assert (Sat : forall data sg2, sig_ok E k data sg2 -> satisfies E kc data [mkASP 0 sg2]).
  { intros data sg2 Hg. unfold satisfies, kc. cbn [kc_threshold kc_keys]. split; [|split].
    - unfold t. cbn [threshold_met clauses_of]. constructor; [|constructor]. unfold total_weight. cbn [fst snd map fold_right].
      unfold key_weight, index_of. cbn. unfold Qle. cbn. lia.
    - repeat constructor; auto.
    - constructor; [|constructor]. exists k. split; [reflexivity|exact Hg]. }
  destruct (rotation_accepted E cs id s n msg r [mkASP 0 sg] ser) as (d' & s' & Hpr & Hcur); auto.
  - assert (Hdg : sap_digest n = sap_digest (commitment E (sap_code n) (Simple h) ks)) by now rewrite <- Hc.
    rewrite Hdg. unfold commitment. cbn [sap_digest]. unfold r. cbn [rot_kc]. unfold kc. cbn [kc_threshold kc_keys].
    assert (Ht : threshold_str (Simple h) = threshold_str t).
    { unfold t. cbn [threshold_str extract_threshold clause_str map join frac_str]. cbn [N.eqb Pos.eqb]. unfold clause_str. cbn [map join frac_str]. exact Hd. }
    rewrite Ht. apply xor_all_perm. now apply Permutation_map.
  - unfold r, kc, t. cbn. repeat constructor. discriminate.
  - unfold r, kc, t. cbn. repeat constructor.
  - exists msg, sg, ser, d', s'. rewrite Hcur. split; [exact Hpr|]. split; [reflexivity|]. split; [exact Hser|].
    split; [exact Hsg|]. split; [reflexivity|]. split; [reflexivity|exact Sat].
Qed.
Print Assumptions C135_downgrade.
(** And weights do not stay with their keys: the order of the keys is not part of the commitment
    (C16), and weights belong to places in the list.  Whoever holds keys that would be enough in
    another order makes the rotation with that order. *)
Theorem C135_weights_move :
  forall E cs id s n t ks ks' places,
    let d := run E db_empty cs in
    id <> id_default -> log d id <> [] -> compute_state E d id = Ok (Some s) -> st_delegator s = None ->
    kc_next (st_current s) = Some n -> computable (sap_code n) -> n = commitment E (sap_code n) t ks ->
    Permutation ks ks' -> rational_threshold t -> rotations_written E ->
    (* the keys at these places of [ks'] are his, and enough there *)
    NoDup places -> Forall (fun i => exists k, nth_error ks' i = Some k /\ can_sign E k) places ->
    (forall sigs, map index_of sigs = places -> threshold_met t sigs /\ in_single t sigs) ->
    exists msg sigs ser d' s',
      process E d (MEvent (mkSEM msg sigs None)) = (d', Ok (Some s'))
      /\ em_prefix msg = id /\ e_ser_event E msg = Ok ser
      /\ map index_of sigs = places
      /\ kc_keys (st_current s') = ks' /\ kc_threshold (st_current s') = t.
Proof.
  cbv zeta. intros E cs id s n t ks ks' places Hid Hne Hs Hdel Hn Hcm Hc Hp Hr Hw Hnd Hk Hm.
  set (kc := mkKC t ks' None). set (r := mkRot (st_last_digest s) kc (mkWC 0 [] []) []).
  set (msg := mkEM info0 sap_default id (st_sn s + 1)%N (Rot r)).
  destruct (Hw msg r eq_refl) as (Hx & ser & Hser).
  assert (HS : exists sigs, map index_of sigs = places
    /\ Forall (fun a => exists k, nth_error ks' (index_of a) = Some k /\ sig_ok E k ser (asp_sig a)) sigs).
  { clear -Hk. induction Hk as [|i l (k & Hi & Hc) _ (sigs & E1 & E2)]; [exists []; split; constructor|].
    destruct (Hc ser) as (sg & Hsg). assert (Q : index_of (mkASP (N.of_nat i) sg) = i) by apply Nat2N.id.
    exists (mkASP (N.of_nat i) sg :: sigs). split; [cbn [map]; rewrite Q; now f_equal|]. constructor; [|exact E2].
    exists k. rewrite Q. split; [exact Hi|exact Hsg]. }
  destruct HS as (sigs & E1 & E2). destruct (Hm sigs E1) as [M1 M2].
  destruct (rotation_accepted E cs id s n msg r sigs ser) as (d' & s' & Hpr & Hcur).
  1-8: solve [assumption|reflexivity].
  1: reflexivity.
  1: reflexivity.
  - assert (Hdg : sap_digest n = sap_digest (commitment E (sap_code n) t ks)) by now rewrite <- Hc.
    rewrite Hdg. unfold commitment. cbn [sap_digest]. unfold r. cbn [rot_kc]. unfold kc. cbn [kc_threshold kc_keys].
    apply xor_all_perm. now apply Permutation_map.
  - exact Hx.
  - exact Hser.
  - exact Hr.
  - exact M2.
  - split; [exact M1|]. split; [rewrite E1; exact Hnd|exact E2].
  - exists msg, sigs, ser, d', s'. rewrite Hcur. split; [exact Hpr|]. split; [reflexivity|]. split; [exact Hser|].
    split; [exact E1|]. split; reflexivity.
Qed.
Print Assumptions C135_weights_move.
(** Every number of signatures from one to nine is such a number. *)
Theorem C135_small_counts : forall h, (h < 10)%N -> same_digits h h.
Proof.
  intros h H. unfold same_digits.
  assert (D : (h = 0 \/ h = 1 \/ h = 2 \/ h = 3 \/ h = 4 \/ h = 5 \/ h = 6 \/ h = 7 \/ h = 8 \/ h = 9)%N) by lia.
  repeat (destruct D as [->|D]; [reflexivity|]). subst h. reflexivity.
Qed.
Print Assumptions C135_small_counts.
Theorem C135_refuted : ~ C135_statement.
Proof.
  intros H. specialize (H toy Blake3_256 32 (Simple 2) (Weighted (WSingle [FRat 2 1])) [key x03; key x04] (toy_digest_len _) I).
  assert (W : has_weights (Weighted (WSingle [FRat 2 1]))) by (split; [discriminate|repeat constructor; discriminate]).
  specialize (H W).
  assert (I2 : independent toy Blake3_256 32 [threshold_str (Simple 2); threshold_str (Weighted (WSingle [FRat 2 1]))]).
  { (* one text *) intros l Hl Hin Hz. destruct l as [|a [|b l]]; [reflexivity| |].
    - exfalso. assert (a = bstr "2") as ->. { specialize (Hin a (or_introl eq_refl)). destruct Hin as [<-|[<-|[]]]; reflexivity. }
      vm_compute in Hz. discriminate Hz.
    - exfalso. assert (A : forall x, In x (a :: b :: l) -> x = bstr "2") by (intros x Hx; specialize (Hin x Hx); destruct Hin as [<-|[<-|[]]]; reflexivity).
      inversion Hl as [|? ? Hna _]; subst. apply Hna. left. rewrite (A a (or_introl eq_refl)). apply A. right. now left. }
  destruct (H I2 ltac:(vm_compute; reflexivity) [mkASP 0 (sig_over (key x03) [])]) as [_ B].
  assert (F : threshold_met (Simple 2) [mkASP 0 (sig_over (key x03) [])]); [apply B|].
  - cbn [threshold_met clauses_of]. constructor; [|constructor]. vm_compute. discriminate.
  - vm_compute in F. apply F. reflexivity.
Qed.
Print Assumptions C135_refuted.

(** ** Cases *)
(** alice's first rotation needs two signatures by the keys 3 and 4; key 4 is enough *)
Example C135_example :
  exists msg sg ser d' s',
    process toy (run toy db_empty after_icp) (MEvent (mkSEM msg [mkASP 0 sg] None)) = (d', Ok (Some s'))
    /\ em_prefix msg = alice /\ e_ser_event toy msg = Ok ser /\ sig_ok toy (key x04) ser sg
    /\ kc_keys (st_current s') = [key x04; key x03].
Proof.
  destruct C88_example as (H1 & H2 & H3 & H4 & H5 & Hcm & H6).
  destruct (C135_downgrade toy after_icp alice alice_state alice_next 2 2 [key x03; key x04] (key x04) [key x03]
    H1 H2 H3 H4 H5 Hcm H6 ltac:(apply perm_swap) (C135_small_counts 2 ltac:(lia)) ltac:(lia) toy_rotations (toy_can_sign x04))
    as (msg & sg & ser & d' & s' & A1 & A2 & A3 & A4 & A5 & _).
  exists msg, sg, ser, d', s'. auto.
Qed.
(** the honest rotation meets the hypotheses of the positive theorem *)
Example C135_rotation_example :
  (match process toy (run toy db_empty after_icp) (MEvent s_rot) with
   | (_, Ok (Some s')) => kc_threshold (st_current s')
   | _ => Simple 0 end) = Simple 2.
Proof. vm_compute. reflexivity. Qed.
(** two thresholds of one kind and different texts; sixteen signatures and the weight ten *)
Example C135_kinds_example :
  let h := FRat 1 2 in
  has_weights (Weighted (WMulti [[h; h]; [h; h]])) /\ has_weights (Weighted (WSingle [h; h; h; h]))
  /\ threshold_str (Weighted (WMulti [[h; h]; [h; h]])) <> threshold_str (Weighted (WSingle [h; h; h; h]))
  /\ same_threshold (Weighted (WMulti [[h; h]])) (Weighted (WSingle [h; h]))
  /\ same_digits 16 10 /\ same_digits 256 100.
Proof.
  cbv zeta. repeat apply conj; try (vm_compute; first [discriminate|reflexivity]); repeat constructor; discriminate.
Qed.
(** Carol's next rotation: key 21 alone is enough, key 22 counts nothing.  Key 22 takes over. *)
Definition carol_t : SignatureThreshold := Weighted (WSingle [FRat 1 1; FRat 0 1]).
Definition carol_icp : EventMessage :=
  mkEM info0 sap_default (IdBasic (key x20)) 0
    (Icp (mkIcp (mkKC (Simple 1) [key x20] (Some (commitment toy Blake3_256 carol_t [key x21; key x22]))) (mkIWC 0 []) [] [])).
Definition carol_calls : list Call := [CProcess (MEvent (signed carol_icp [key x20] None))].
Definition carol_id : IdentifierPrefix := IdBasic (key x20).
Definition carol_state : IdentifierState := state_of toy (run toy db_empty carol_calls) carol_id.
Definition carol_next : SelfAddressingPrefix := match kc_next (st_current carol_state) with Some n => n | None => sap_default end.
Example C135_weights_example :
  exists msg sigs ser d' s',
    process toy (run toy db_empty carol_calls) (MEvent (mkSEM msg sigs None)) = (d', Ok (Some s'))
    /\ em_prefix msg = carol_id /\ e_ser_event toy msg = Ok ser
    /\ map index_of sigs = [0]
    /\ kc_keys (st_current s') = [key x22; key x21] /\ kc_threshold (st_current s') = carol_t.
Proof.
  apply (C135_weights_move toy carol_calls carol_id carol_state carol_next carol_t [key x21; key x22] [key x22; key x21] [0]).
  - vm_compute; discriminate.
  - vm_compute; discriminate.
  - vm_compute; reflexivity.
  - vm_compute; reflexivity.
  - vm_compute; reflexivity.
  - vm_compute; exact I.
  - vm_compute; reflexivity.
  - apply perm_swap.
  - repeat constructor; discriminate.
  - exact toy_rotations.
  - repeat constructor; auto.
  - constructor; [|constructor]. exists (key x22). split; [reflexivity|apply toy_can_sign].
  - intros sigs H. destruct sigs as [|a [|b sigs]]; try discriminate H. cbn [map] in H. injection H as H. split.
    + cbn [threshold_met carol_t clauses_of]. constructor; [|constructor]. unfold total_weight. cbn [fst snd map fold_right]. rewrite H. vm_compute. discriminate.
    + cbn [in_single carol_t]. constructor; [rewrite H; cbn; lia|constructor].
Qed.
