(** * Thresholds in machine arithmetic: C98. *)
From Coq Require Import QArith Lqa ZifyBool ZifyN ZifyNat.
From Verif Require Import Base Base64 Codes NumFmt Types KeyConf SpecSig State Db Processor Spec
  StateProofs LogProofs LogTheorems SigProofs SpecArith Arith ArithProofs Demo Prop_Sig.
Local Open Scope nat_scope.

Definition C98_statement : Prop :=
  forall (m : build) (E : Env) (kc : KeyConfig) (msg : bytes) (sigs : list AttachedSignaturePrefix),
    rational_threshold (kc_threshold kc) -> threshold_addressable (kc_threshold kc) -> in_single (kc_threshold kc) sigs ->
    (kc_verify64 m E kc msg sigs = Ok true <-> satisfies E kc msg sigs).
(** Overflow never makes a build accept signatures that do not reach the threshold. *)
Theorem C98_never_too_lenient :
  forall (m : build) (E : Env) (kc : KeyConfig) (msg : bytes) (sigs : list AttachedSignaturePrefix),
    rational_threshold (kc_threshold kc) -> threshold_addressable (kc_threshold kc) ->
    kc_verify64 m E kc msg sigs = Ok true -> satisfies E kc msg sigs.
Proof. exact verify64_sound. Qed.
Print Assumptions C98_never_too_lenient.
(** When the sums fit, every build decides exactly, as the other theorems about signatures say. *)
Theorem C98_exact_partial :
  forall (m : build) (E : Env) (kc : KeyConfig) (msg : bytes) (sigs : list AttachedSignaturePrefix),
    threshold_fits (kc_threshold kc) sigs ->
    kc_verify64 m E kc msg sigs = kc_verify E kc msg sigs
    /\ (in_single (kc_threshold kc) sigs -> (kc_verify64 m E kc msg sigs = Ok true <-> satisfies E kc msg sigs)).
Proof.
  intros m E kc msg sigs H. pose proof (verify_agrees m E kc msg sigs H) as A. split; [exact A|]. rewrite A. intros Hs.
  assert (Hr : rational_threshold (kc_threshold kc)).
  { assert (G : forall start c, clause_fits sigs start c -> Forall rational c).
    { intros start c (D & [HD Hc] & _). eapply Forall_impl; [|exact Hc]. intros f. apply (over_rational D). lia. }
    destruct (kc_threshold kc) as [n|[c|cs]]; cbn [threshold_fits rational_threshold clauses_of] in *; [exact I| |].
    - destruct H as [_ H]. inversion_clear H. eapply G; eassumption.
    - destruct H as [_ H]. clear - G H. revert H. generalize 0. induction cs as [|c cs IH]; intros n H; [constructor|]. cbn [with_starts] in H. apply Forall_cons_iff in H as [H1 H2].
      constructor; [exact (G _ _ H1)|exact (IH _ H2)]. }
  destruct (kc_threshold kc) as [n|w] eqn:Et.
  - rewrite (C12_verify_numeric_threshold E kc msg sigs n Et). unfold satisfies. rewrite Et. reflexivity.
  - rewrite (C13_verify_weighted_threshold E kc msg sigs w Et Hr Hs). unfold satisfies. rewrite Et. reflexivity.
Qed.
Print Assumptions C98_exact_partial.
(** Weights of at most one with a common denominator that leaves room for the number of
    signatures always fit. *)
Theorem C98_ordinary_weights_fit :
  forall (c : ThresholdClause) (D : N) (sigs : list AttachedSignaturePrefix),
    common_denominator D c -> Forall (fun f => (weight f <= 1)%Q) c -> (N.of_nat (List.length sigs) * D <= u64_max)%N ->
    threshold_fits (Weighted (WSingle c)) sigs.
Proof.
  intros c D sigs [HD Hc] Hw Hn. split; [exact I|]. constructor; [|constructor]. cbn [fst snd]. exists D. split; [now split|].
  assert (T : (total_weight 0 c sigs <= inject_Z (Z.of_nat (List.length sigs)))%Q).
  { clear Hn. induction sigs as [|s sigs IH]; [apply Qle_refl|]. unfold total_weight in *. cbn [map fold_right List.length]. rewrite Nat2Z.inj_succ. unfold Z.succ. rewrite inject_Z_plus.
    assert (K : (key_weight 0 c (index_of s) <= 1)%Q).
    { unfold key_weight. cbn [Nat.leb]. destruct (nth_error c (index_of s - 0)) as [f|] eqn:E; [|lra]. rewrite Forall_forall in Hw. apply Hw. eapply nth_error_In; eauto. }
    change (inject_Z 1) with 1%Q. lra. }
  apply (Qle_trans _ (inject_Z (Z.of_nat (List.length sigs)) * inject_Z (Z.of_N D))).
  - apply Qmult_le_compat_r; [exact T|]. change 0%Q with (inject_Z 0). rewrite <- Zle_Qle. lia.
  - rewrite <- inject_Z_mult, <- Zle_Qle. lia.
Qed.
(** ** The full statement is false *)
(** In a debug build two signers whose weights have no 64 bit common denominator make
    verification panic, before any signature is checked. *)
Theorem C98_overflow_panics :
  forall (E : Env) (kc : KeyConfig) (c : ThresholdClause) (msg : bytes) (s1 s2 : AttachedSignaturePrefix) (sigs : list AttachedSignaturePrefix) (n1 d1 n2 d2 : N),
    kc_threshold kc = Weighted (WSingle c) ->
    nth_error c (index_of s1) = Some (FRat n1 d1) -> nth_error c (index_of s2) = Some (FRat n2 d2) ->
    n1 <> 0%N -> N.gcd n1 d1 = 1%N -> d1 <> 0%N -> (n1 <= u64_max)%N -> (d1 <= u64_max)%N -> (u64_max < N.lcm d1 d2)%N ->
    kc_verify64 Debug E kc msg (s1 :: s2 :: sigs) = Panic.
Proof.
  intros E kc c msg s1 s2 sigs n1 d1 n2 d2 Ht H1 H2 Hn Hg Hd Bn Bd Hl.
  unfold kc_verify64. rewrite Ht. cbn [enough_signatures64]. unfold clause_enough64. fold (sum_step64 Debug c 0). cbn [fold_left].
  assert (S1 : sum_step64 Debug c 0 (Ok frac_zero) s1 = Ok (FRat n1 d1)).
  { unfold sum_step64. cbn [obind]. destruct (N.ltb_spec (asp_index s1) 0); [lia|]. rewrite N.sub_0_r. unfold index_of in H1. rewrite H1. unfold frac_zero, frac_add64, ratio_add, add64, mul64.
    assert (R : forall a, (a + n1)%N = n1 -> ratio_new (a + n1) d1 = Ok (FRat n1 d1)).
    { intros a ->. unfold ratio_new. destruct (N.eqb_spec d1 0); [contradiction|]. destruct (N.eqb_spec n1 0); [contradiction|]. now rewrite Hg, !N.div_1_r. }
    destruct (N.eqb_spec 1 d1) as [<-|Hd1].
    - rewrite machine_ok by lia. cbn [obind]. now apply R.
    - rewrite N.gcd_1_l, N.div_1_r, N.mul_1_l, machine_ok by lia. cbn [obind]. rewrite N.mul_0_l, machine_ok by (apply N.le_0_l). cbn [obind]. rewrite N.div_same, N.mul_1_r by assumption.
      rewrite machine_ok by lia. cbn [obind]. rewrite machine_ok by lia. cbn [obind]. now apply R. }
  rewrite S1. assert (S2 : sum_step64 Debug c 0 (Ok (FRat n1 d1)) s2 = Panic).
  { unfold sum_step64. cbn [obind]. destruct (N.ltb_spec (asp_index s2) 0); [lia|]. rewrite N.sub_0_r. unfold index_of in H2. rewrite H2. unfold frac_add64, ratio_add, mul64.
    destruct (N.eqb_spec d1 d2) as [<-|_]; [rewrite N.lcm_diag in Hl; lia|]. change (d1 * (d2 / N.gcd d1 d2))%N with (N.lcm d1 d2). unfold machine at 1.
    destruct (N.leb_spec (N.lcm d1 d2) u64_max); [lia|]. reflexivity. }
  rewrite S2, step_stuck by discriminate. reflexivity.
Qed.
Print Assumptions C98_overflow_panics.
Definition kc98 : KeyConfig :=
  mkKC (Weighted (WSingle [frac_new 4294967310 4294967311; frac_new 4294967356 4294967357])) (map key [x01; x02]) None.
Definition kc98r : KeyConfig :=
  mkKC (Weighted (WSingle [frac_new 9223372036854775808 1; frac_new 9223372036854775808 1])) (map key [x01; x02]) None.
Example C98_example :
  threshold_fits (kc_threshold kc13) [sg 0 x01; sg 1 x02; sg 3 x04] /\ in_single (kc_threshold kc13) [sg 0 x01; sg 1 x02; sg 3 x04]
  /\ kc_verify64 Debug toy kc13 msg12 [sg 0 x01; sg 1 x02; sg 3 x04] = Ok true /\ kc_verify64 Release toy kc13 msg12 [sg 0 x01; sg 1 x02; sg 3 x04] = Ok true
  /\ common_denominator 6 [frac_new 1 2; frac_new 1 2; frac_new 1 3].
Proof.
  split; [|split; [exact I|split; [vm_compute; reflexivity|split; [vm_compute; reflexivity|]]]].
  - split; [vm_compute; discriminate|]. constructor; [exists 6%N|constructor; [exists 4%N|constructor]]; cbn [fst snd]; (split; [split; [split; [reflexivity|discriminate]|]|vm_compute; discriminate]).
    + repeat constructor; [exists 3%N|exists 3%N|exists 2%N]; reflexivity.
    + repeat constructor; [exists 4%N|exists 1%N]; reflexivity.
  - split; [split; [reflexivity|discriminate]|]. repeat constructor; [exists 3%N|exists 3%N|exists 2%N]; reflexivity.
Qed.
(** two signers that reach the threshold: a panic in a debug build, a refusal in a release build *)
Example C98_overflow :
  kc_verify toy kc98 msg12 [sg 0 x01; sg 1 x02] = Ok true /\ kc_verify64 Debug toy kc98 msg12 [sg 0 x01; sg 1 x02] = Panic
  /\ kc_verify toy kc98r msg12 [sg 0 x01; sg 1 x02] = Ok true /\ kc_verify64 Release toy kc98r msg12 [sg 0 x01; sg 1 x02] = Err ENotEnoughSigs.
Proof. ex_vm. Qed.
Theorem C98_refuted : ~ C98_statement.
Proof.
  intros H. assert (Hr : rational_threshold (kc_threshold kc98)) by (vm_compute; repeat constructor; discriminate).
  assert (Hs : in_single (kc_threshold kc98) [sg 0 x01; sg 1 x02]) by (vm_compute; repeat constructor).
  specialize (H Debug toy kc98 msg12 [sg 0 x01; sg 1 x02] Hr I Hs). destruct C98_overflow as (A & B & _).
  assert (S : satisfies toy kc98 msg12 [sg 0 x01; sg 1 x02]) by (now apply C13_verify_is_sound).
  apply H in S. rewrite B in S. discriminate S.
Qed.
Print Assumptions C98_refuted.
