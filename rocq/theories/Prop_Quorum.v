(** * C136: two groups of keys cannot sign two stories. *)
From Coq Require Import QArith Permutation ZifyBool ZifyN ZifyNat Lqa.
From Verif Require Import Base Base64 Codes NumFmt Types KeyConf SpecSig State Db Processor Spec SpecProc SpecRules SpecBuild SpecBind SpecQuorum
  StateProofs LogProofs LogTheorems LogTheorems2 SigProofs ProcProofs CodecProofs TakeoverProofs Demo Prop_Sig Prop_State Prop_Proc Prop_Converge Prop_Bind Prop_Threshold SpecThreshold ProcProofs2.
Local Open Scope nat_scope.

(** ** Two signature lists that meet a threshold of more than half share a key *)
Lemma disjoint_or (l1 l2 : list nat) : (exists i, In i l1 /\ In i l2) \/ (forall i, In i l1 -> ~ In i l2).
Proof.
  induction l1 as [|a l1 IH]; [right; intros i []|]. destruct (in_dec Nat.eq_dec a l2) as [H|H]; [left; exists a; cbn; auto|].
  destruct IH as [(i & H1 & H2)|IH]; [left; exists i; cbn; auto|]. right. intros i [<-|Hi]; auto.
Qed.
Definition sumQ (f : nat -> Q) (l : list nat) : Q := fold_right Qplus 0%Q (map f l).
Lemma sumQ_app f a b : (sumQ f (a ++ b) == sumQ f a + sumQ f b)%Q.
Proof. unfold sumQ. induction a as [|x a IH]; cbn [app map fold_right]; [ring|]. rewrite IH. ring. Qed.
Lemma sumQ_perm f a b : Permutation a b -> (sumQ f a == sumQ f b)%Q.
Proof.
  unfold sumQ. induction 1; cbn [map fold_right]; try reflexivity; [now rewrite IHPermutation|ring|now rewrite IHPermutation1].
Qed.
Lemma sumQ_nonneg f l : (forall i, 0 <= f i)%Q -> (0 <= sumQ f l)%Q.
Proof. intros H. unfold sumQ. induction l as [|x l IH]; cbn [map fold_right]; [lra|]. specialize (H x). lra. Qed.
Lemma sumQ_ext f g l : (forall i, In i l -> f i == g i)%Q -> (sumQ f l == sumQ g l)%Q.
Proof.
  unfold sumQ. induction l as [|x l IH]; intros H; cbn [map fold_right]; [reflexivity|].
  rewrite (H x) by now left. rewrite IH; [reflexivity|]. intros i Hi. apply H. now right.
Qed.
(** a function that vanishes outside a list: sums over distinct places are at most the sum over it *)
Lemma sumQ_le (l : list nat) : forall f m, (forall i, 0 <= f i)%Q -> (forall i, ~ In i m -> f i == 0)%Q -> NoDup l -> (sumQ f l <= sumQ f m)%Q.
Proof.
  induction l as [|x l IH]; intros f m Hp Hz Hn; [now apply sumQ_nonneg|]. inversion Hn as [|? ? Hx Hl]; subst.
  set (g := fun i => if Nat.eq_dec i x then 0%Q else f i).
  assert (Hgp : forall i, (0 <= g i)%Q) by (intros i; unfold g; destruct (Nat.eq_dec i x); [lra|apply Hp]).
  assert (Hlg : (sumQ f l == sumQ g l)%Q).
  { apply sumQ_ext. intros i Hi. unfold g. destruct (Nat.eq_dec i x) as [->|]; [contradiction|reflexivity]. }
  assert (Hmg : forall m, (sumQ g m <= sumQ f m)%Q).
  { clear -Hp. intros m. unfold sumQ. induction m as [|y m IHm]; cbn [map fold_right]; [lra|]. unfold g at 1. specialize (Hp y). destruct (Nat.eq_dec y x); lra. }
  unfold sumQ at 1. cbn [map fold_right]. fold (sumQ f l). rewrite Hlg.
  destruct (in_dec Nat.eq_dec x m) as [Hi|Hi].
  - apply in_split in Hi as (m1 & m2 & ->). rewrite <- (sumQ_perm f _ _ (Permutation_middle m1 m2 x)).
    unfold sumQ at 2. cbn [map fold_right]. fold (sumQ f (m1 ++ m2)).
    assert (A : (sumQ g l <= sumQ g (m1 ++ m2))%Q).
    { apply IH; auto. intros i Hi. unfold g. destruct (Nat.eq_dec i x) as [|Hne]; [reflexivity|]. apply Hz. rewrite in_app_iff in *. cbn. intuition congruence. }
    specialize (Hmg (m1 ++ m2)). lra.
  - assert (A : (sumQ g l <= sumQ g m)%Q).
    { apply IH; auto. intros i Hi'. unfold g. destruct (Nat.eq_dec i x) as [|Hne]; [reflexivity|]. now apply Hz. }
    specialize (Hmg m). specialize (Hz x Hi). lra.
Qed.
Lemma weight_nonneg f : (0 <= weight f)%Q.
Proof. destruct f as [| |n d]; cbn [weight]; try (cbn; lra). unfold Qle. cbn. lia. Qed.
Lemma key_weight_nonneg st c i : (0 <= key_weight st c i)%Q.
Proof. unfold key_weight. destruct (st <=? i); [|lra]. destruct (nth_error c (i - st)); [apply weight_nonneg|lra]. Qed.
Lemma key_weight_out st c i : ~ In i (seq st (List.length c)) -> (key_weight st c i == 0)%Q.
Proof.
  intros H. unfold key_weight. destruct (Nat.leb_spec st i); [|reflexivity].
  destruct (nth_error c (i - st)) eqn:Q; [|reflexivity]. exfalso. apply H. apply in_seq.
  assert (i - st < List.length c) by (apply nth_error_Some; congruence). lia.
Qed.
Lemma clause_sum_all c : forall st, (sumQ (key_weight st c) (seq st (List.length c)) == clause_weight c)%Q.
Proof.
  induction c as [|f c IH]; intros st; [reflexivity|]. cbn [List.length seq]. unfold sumQ, clause_weight. cbn [map fold_right].
  fold (sumQ (key_weight st (f :: c)) (seq (S st) (List.length c))) (clause_weight c). rewrite <- (IH (S st)).
  assert (A : key_weight st (f :: c) st = weight f). { unfold key_weight. rewrite Nat.leb_refl, Nat.sub_diag. reflexivity. }
  rewrite A. apply Qplus_comp; [reflexivity|]. apply sumQ_ext. intros i Hi. apply in_seq in Hi. unfold key_weight.
  replace (st <=? i) with true by lia. replace (S st <=? i) with true by lia. replace (i - st) with (S (i - S st)) by lia. reflexivity.
Qed.
Lemma total_sum st c sigs : total_weight st c sigs = sumQ (key_weight st c) (map index_of sigs).
Proof. unfold total_weight, sumQ. now rewrite map_map. Qed.

Lemma quorums_meet_index E kc msg1 sigs1 msg2 sigs2 :
  majority kc -> satisfies E kc msg1 sigs1 -> satisfies E kc msg2 sigs2 -> exists i, In i (map index_of sigs1) /\ In i (map index_of sigs2).
Proof.
  intros Hm (T1 & N1 & F1) (T2 & N2 & F2). destruct (disjoint_or (map index_of sigs1) (map index_of sigs2)) as [H|H]; [exact H|]. exfalso.
  assert (ND : NoDup (map index_of sigs1 ++ map index_of sigs2)).
  { clear -N1 N2 H. induction (map index_of sigs1) as [|a l IH]; [exact N2|]. inversion N1; subst. cbn [app]. constructor.
    - rewrite in_app_iff. intros [Q|Q]; [contradiction|]. apply (H a); [now left|exact Q].
    - apply IH; [assumption|]. intros i Hi. apply H. now right. }
  unfold majority in Hm. destruct (kc_threshold kc) as [t|w]; cbn [threshold_met] in T1, T2.
  - assert (IN : incl (map index_of sigs1 ++ map index_of sigs2) (seq 0 (List.length (kc_keys kc)))).
    { assert (G : forall msg sigs, Forall (fun s => exists k, nth_error (kc_keys kc) (index_of s) = Some k /\ sig_ok E k msg (asp_sig s)) sigs ->
        forall i, In i (map index_of sigs) -> In i (seq 0 (List.length (kc_keys kc)))).
      { intros msg sigs HF i Hi. apply in_map_iff in Hi as (a & <- & Ha). rewrite Forall_forall in HF. destruct (HF a Ha) as (k & Hk & _).
        apply in_seq. split; [lia|]. apply nth_error_Some. cbn. congruence. }
      intros i Hi. apply in_app_iff in Hi as [Hi|Hi]; eauto. }
    pose proof (NoDup_incl_length ND IN) as L. rewrite app_length, !map_length, seq_length in L. lia.
  - destruct Hm as ((st & c) & Hin & Hlt). cbn [snd] in Hlt. rewrite Forall_forall in T1, T2.
    specialize (T1 _ Hin). specialize (T2 _ Hin). cbn [fst snd] in T1, T2. rewrite total_sum in T1, T2.
    pose proof (sumQ_le _ (key_weight st c) (seq st (List.length c)) (key_weight_nonneg st c) (key_weight_out st c) ND) as L.
    rewrite clause_sum_all, sumQ_app in L. lra.
Qed.
Theorem C136_quorums_meet :
  forall E kc msg1 sigs1 msg2 sigs2,
    majority kc -> satisfies E kc msg1 sigs1 -> satisfies E kc msg2 sigs2 ->
    common_signer E (kc_keys kc) msg1 sigs1 msg2 sigs2.
Proof.
  intros E kc msg1 sigs1 msg2 sigs2 Hm S1 S2. destruct (quorums_meet_index E kc _ _ _ _ Hm S1 S2) as (i & H1 & H2).
  destruct S1 as (_ & _ & F1). destruct S2 as (_ & _ & F2). apply in_map_iff in H1 as (a & Ea & Ha), H2 as (b & Eb & Hb).
  rewrite Forall_forall in F1, F2. destruct (F1 a Ha) as (k & K1 & Q1). destruct (F2 b Hb) as (k' & K2 & Q2).
  rewrite Ea in K1. rewrite Eb, K1 in K2. injection K2 as <-.
  exists k, a, b. split; [eapply nth_error_In; eauto|]. auto.
Qed.
Print Assumptions C136_quorums_meet.
(** With half of the keys or less, separate groups can sign two things: the bound is exact. *)
Theorem C136_minorities_need_not_meet :
  forall E t keys next msg1 msg2,
    (2 * t <= N.of_nat (List.length keys))%N -> Forall (can_sign E) keys ->
    exists sigs1 sigs2, let kc := mkKC (Simple t) keys next in
      satisfies E kc msg1 sigs1 /\ satisfies E kc msg2 sigs2
      /\ forall i, In i (map index_of sigs1) -> ~ In i (map index_of sigs2).
Proof.
  intros E t keys next msg1 msg2 Hl Hk.
  assert (G : forall msg start n, start + n <= List.length keys -> exists sigs, map index_of sigs = seq start n
     /\ Forall (fun s => exists k, nth_error keys (index_of s) = Some k /\ sig_ok E k msg (asp_sig s)) sigs).
  { intros msg start n. revert start. induction n as [|n IH]; intros start H; [exists []; split; constructor|].
    destruct (IH (S start)) as (sigs & E1 & E2); [lia|]. destruct (nth_error keys start) as [k|] eqn:Q; [|apply nth_error_None in Q; lia].
    rewrite Forall_forall in Hk. destruct (Hk k (nth_error_In _ _ Q) msg) as (sg & Hsg).
    assert (I : index_of (mkASP (N.of_nat start) sg) = start) by apply Nat2N.id.
    exists (mkASP (N.of_nat start) sg :: sigs). cbn [map seq]. rewrite I. split; [now f_equal|]. constructor; [|exact E2].
    rewrite I. exists k. auto. }
  destruct (G msg1 0 (N.to_nat t)) as (s1 & A1 & B1); [lia|]. destruct (G msg2 (N.to_nat t) (N.to_nat t)) as (s2 & A2 & B2); [lia|].
  assert (L1 : List.length s1 = N.to_nat t) by (rewrite <- (map_length index_of), A1; apply seq_length).
  assert (L2 : List.length s2 = N.to_nat t) by (rewrite <- (map_length index_of), A2; apply seq_length).
  exists s1, s2. cbv zeta. unfold satisfies. cbn [kc_threshold kc_keys threshold_met]. rewrite A1, A2, L1, L2.
  split; [|split]; [split; [lia|split; [apply seq_NoDup|first [exact B1|exact B2]]]..|].
  intros i H1 H2. apply in_seq in H1, H2. lia.
Qed.
Print Assumptions C136_minorities_need_not_meet.
(** The threshold that the library puts when none is given is of this kind, and all keys
    together meet it. *)
Theorem C136_default_threshold :
  forall E keys next,
    majority (kc_new keys next None)
    /\ (keys <> [] -> Forall (can_sign E) keys -> forall msg, exists sigs, satisfies E (kc_new keys next None) msg sigs).
Proof.
  intros E keys next. split.
  - unfold majority, kc_new. cbn [kc_threshold kc_keys]. pose proof (N.div_mod (N.of_nat (List.length keys)) 2 ltac:(lia)). pose proof (N.mod_bound_pos (N.of_nat (List.length keys)) 2). lia.
  - intros Hne Hk msg. assert (G : forall ks pre, keys = pre ++ ks -> exists sigs, map index_of sigs = seq (List.length pre) (List.length ks)
       /\ Forall (fun s => exists k, nth_error keys (index_of s) = Some k /\ sig_ok E k msg (asp_sig s)) sigs).
    { induction ks as [|k ks IH]; intros pre Hp; [exists []; split; constructor|].
      destruct (IH (pre ++ [k])) as (sigs & E1 & E2); [now rewrite <- app_assoc|]. rewrite Forall_forall in Hk.
      destruct (Hk k) with (msg := msg) as (sg & Hsg); [rewrite Hp; apply in_app_iff; right; now left|].
      assert (I : index_of (mkASP (N.of_nat (List.length pre)) sg) = List.length pre) by apply Nat2N.id.
      exists (mkASP (N.of_nat (List.length pre)) sg :: sigs). cbn [map seq List.length]. rewrite I. rewrite app_length, Nat.add_1_r in E1.
      split; [now f_equal|]. constructor; [|exact E2]. rewrite I. exists k. split; [|exact Hsg]. rewrite Hp, nth_error_app2, Nat.sub_diag by lia. reflexivity. }
    destruct (G keys [] eq_refl) as (sigs & E1 & E2). exists sigs. unfold satisfies, kc_new. cbn [kc_threshold kc_keys threshold_met].
    assert (L : List.length sigs = List.length keys) by (rewrite <- (map_length index_of), E1; apply seq_length).
    rewrite L, E1. split; [|split; [apply seq_NoDup|exact E2]]. destruct keys; [congruence|]. cbn [List.length]. pose proof (N.div_mod (N.of_nat (S (List.length keys))) 2 ltac:(lia)). lia.
Qed.
Print Assumptions C136_default_threshold.

(** ** Two nodes with different stories *)
(** The full statement: where two nodes disagree about an identifier, some key signed both
    stories, if the keys and threshold that the controller chose are such that half of the keys is
    not enough.  What the controller chose is what is in force, and for a rotation what the
    commitment was made from. *)
Definition chosen (E : Env) (p : list EventMessage) (e : EventMessage) (kc : KeyConfig) : Prop :=
  if is_rotation e
  then exists est kc0 n, last_establishment p = Some est /\ est_keys est = Some kc0 /\ kc_next kc0 = Some n
       /\ n = commitment E (sap_code n) (kc_threshold kc) (kc_keys kc)
  else keys_in_force p e = Some kc.
Definition C136_statement : Prop :=
  forall E cs1 cs2 id l1 l2 p e1 e2 r1 r2 kc,
    (forall m x, e_ser_event E m <> Err x) -> quiet E db_empty cs1 = true -> quiet E db_empty cs2 = true ->
    id <> id_default -> get_kel (run E db_empty cs1) id = Some l1 -> get_kel (run E db_empty cs2) id = Some l2 ->
    l1 = p ++ e1 :: r1 -> log_of l2 = log_of p ++ sem_msg e2 :: r2 -> In e2 l2 -> sem_msg e1 <> sem_msg e2 ->
    chosen E (log_of p) (sem_msg e1) kc -> chosen E (log_of p) (sem_msg e2) kc ->
    rational_threshold (kc_threshold kc) -> majority kc ->
    exists ser1 ser2, e_ser_event E (sem_msg e1) = Ok ser1 /\ e_ser_event E (sem_msg e2) = Ok ser2
      /\ common_signer E (kc_keys kc) ser1 (sem_sigs e1) ser2 (sem_sigs e2).
(** It holds when both stories go on with the same keys and threshold in force. *)
Theorem C136_disagreement_names_a_key_partial :
  forall E cs1 cs2 id l1 l2,
    (forall m x, e_ser_event E m <> Err x) -> quiet E db_empty cs1 = true -> quiet E db_empty cs2 = true ->
    id <> id_default -> get_kel (run E db_empty cs1) id = Some l1 -> get_kel (run E db_empty cs2) id = Some l2 ->
    (exists x, log_of l2 = log_of l1 ++ x) \/ (exists x, log_of l1 = log_of l2 ++ x)
    \/ exists p e1 e2 r1 r2,
         log_of l1 = p ++ sem_msg e1 :: r1 /\ log_of l2 = p ++ sem_msg e2 :: r2 /\ In e1 l1 /\ In e2 l2
         /\ sem_msg e1 <> sem_msg e2 /\ em_sn (sem_msg e1) = em_sn (sem_msg e2)
         /\ forall kc, rational_threshold (kc_threshold kc) -> majority kc ->
            (exists kc2, keys_in_force p (sem_msg e1) = Some kc /\ keys_in_force p (sem_msg e2) = Some kc2
                         /\ kc_keys kc2 = kc_keys kc /\ kc_threshold kc2 = kc_threshold kc) ->
            exists ser1 ser2, e_ser_event E (sem_msg e1) = Ok ser1 /\ e_ser_event E (sem_msg e2) = Ok ser2
              /\ common_signer E (kc_keys kc) ser1 (sem_sigs e1) ser2 (sem_sigs e2).
Proof.
  intros E cs1 cs2 id l1 l2 Hser Hq1 Hq2 Hid H1 H2.
  destruct (C82_disagreement_is_duplicity E cs1 cs2 id l1 l2 Hser Hq1 Hq2 Hid H1 H2)
    as [H|[H|(p & e1 & e2 & r1 & r2 & P1 & P2 & I1 & I2 & Hne & Hsn & _ & [C1 _] & [C2 _])]]; [auto|auto|].
  right; right. exists p, e1, e2, r1, r2. do 6 (split; [assumption|]).
  intros kc Hr Hm (kc2 & K1 & K2 & E1 & E2).
  destruct C1 as (m1 & k1 & ser1 & A1 & A2 & A3 & _ & A4). destruct C2 as (m2 & k2 & ser2 & B1 & B2 & B3 & _ & B4).
  unfold keys_in_force in K1, K2. rewrite A1, A2 in K1. rewrite B1, B2 in K2. injection K1 as ->. injection K2 as ->.
  exists ser1, ser2. split; [exact A3|]. split; [exact B3|]. apply C136_quorums_meet; [exact Hm|now apply A4|].
  assert (S2 : satisfies E kc2 ser2 (sem_sigs e2)) by (apply B4; now rewrite E2).
  unfold satisfies in *. now rewrite <- E1, <- E2.
Qed.
Print Assumptions C136_disagreement_names_a_key_partial.
(** In particular when both events are interactions: the keys in force are those of the common part. *)
Theorem C136_interactions :
  forall E cs1 cs2 id l1 l2 p e1 e2 r1 r2 kc,
    (forall m x, e_ser_event E m <> Err x) -> quiet E db_empty cs1 = true -> quiet E db_empty cs2 = true ->
    id <> id_default -> get_kel (run E db_empty cs1) id = Some l1 -> get_kel (run E db_empty cs2) id = Some l2 ->
    log_of l1 = p ++ e1 :: r1 -> log_of l2 = p ++ e2 :: r2 -> e1 <> e2 ->
    is_establishment e1 = false -> is_establishment e2 = false ->
    keys_in_force p e1 = Some kc -> rational_threshold (kc_threshold kc) -> majority kc ->
    exists s1 s2 ser1 ser2, In s1 l1 /\ In s2 l2 /\ sem_msg s1 = e1 /\ sem_msg s2 = e2
      /\ e_ser_event E e1 = Ok ser1 /\ e_ser_event E e2 = Ok ser2
      /\ common_signer E (kc_keys kc) ser1 (sem_sigs s1) ser2 (sem_sigs s2).
Proof.
  intros E cs1 cs2 id l1 l2 p e1 e2 r1 r2 kc Hser Hq1 Hq2 Hid H1 H2 P1 P2 Hne N1 N2 Hk Hr Hm.
  assert (D : forall (q x y : list EventMessage) a b, q ++ a :: x = q ++ b :: y -> a = b).
  { clear. induction q as [|c q IH]; intros x y a b H; cbn [app] in H; [now injection H as -> _|]. injection H as H. eauto. }
  destruct (C136_disagreement_names_a_key_partial E cs1 cs2 id l1 l2 Hser Hq1 Hq2 Hid H1 H2)
    as [(x & H)|[(x & H)|(q & s1 & s2 & t1 & t2 & Q1 & Q2 & I1 & I2 & Hne' & _ & G)]].
  - exfalso. apply Hne. rewrite P1, P2, <- app_assoc in H. cbn [app] in H. symmetry. exact (D p _ _ _ _ H).
  - exfalso. apply Hne. rewrite P1, P2, <- app_assoc in H. cbn [app] in H. exact (D p _ _ _ _ H).
  - assert (S : q = p /\ sem_msg s1 = e1 /\ sem_msg s2 = e2).
    { rewrite P1 in Q1. rewrite P2 in Q2. clear -Q1 Q2 Hne Hne'. revert q Q1 Q2. induction p as [|c p IH]; intros [|c' q] Q1 Q2; cbn [app] in Q1, Q2.
      - injection Q1 as -> _. injection Q2 as -> _. auto.
      - injection Q1 as -> _. injection Q2 as -> _. congruence.
      - injection Q1 as A _. injection Q2 as B _. congruence.
      - injection Q1 as -> Q1. injection Q2 as Q2. destruct (IH q Q1 Q2) as (-> & A & B). auto. }
    destruct S as (-> & <- & <-). exists s1, s2.
    assert (K : keys_in_force p (sem_msg s2) = Some kc).
    { rewrite <- Hk. unfold keys_in_force, last_establishment. rewrite !last_such_app. unfold last_such at 1 3. cbn [filter]. now rewrite N1, N2. }
    destruct (G kc Hr Hm) as (ser1 & ser2 & A & B & C); [now exists kc|]. exists ser1, ser2. auto 10.
Qed.
Print Assumptions C136_interactions.
(** For rotations it fails: alice committed to two signatures by the keys 3 and 4.  One node is
    told of a rotation signed by key 3 alone, another of one signed by key 4 alone; both accept
    (see [C135_downgrade]). *)
Definition solo (first second : BasicPrefix) : SignedEventMessage :=
  signed (mk_event alice 1 (Rot (mkRot (em_digest a_icp) (mkKC (Weighted (WSingle [FRat 2 1])) [first; second] None) (mkWC 0 [] []) []))) [first] None.
Definition solo_3 := solo (key x03) (key x04).
Definition solo_4 := solo (key x04) (key x03).
Lemma toy_signers k msg sg : sig_ok toy k msg sg -> ssp_sig sg = bp_key k ++ msg.
Proof. intros [(_ & _ & H)|(_ & _ & H)]; cbn [e_verify_ed e_verify_ecdsa toy] in H; unfold toy_verify in H; now apply bytes_eqb_eq in H. Qed.
Example C136_solo_example :
  (quiet toy db_empty (submit [s_icp; solo_3]) = true /\ quiet toy db_empty (submit [s_icp; solo_4]) = true)
  /\ get_kel (run toy db_empty (submit [s_icp; solo_3])) alice = Some [stored s_icp; stored solo_3]
  /\ get_kel (run toy db_empty (submit [s_icp; solo_4])) alice = Some [stored s_icp; stored solo_4]
  /\ alice_next = commitment toy (sap_code alice_next) (Simple 2) [key x03; key x04].
Proof. apply conj; [apply conj; vm_compute; reflexivity|]. repeat (apply conj; [vm_compute; reflexivity|]). vm_compute. reflexivity. Qed.
Theorem C136_refuted : ~ C136_statement.
Proof.
  intros H. destruct C136_solo_example as ((Q1 & Q2) & K1 & K2 & Hn).
  assert (Hs : exists kc0, last_establishment (log_of [stored s_icp]) = Some a_icp /\ est_keys a_icp = Some kc0 /\ kc_next kc0 = Some alice_next).
  { eexists. apply conj; [vm_compute; reflexivity|]. apply conj; vm_compute; reflexivity. }
  destruct Hs as (kc0 & S1 & S2 & S3).
  assert (C : forall e, is_rotation e = true -> chosen toy (log_of [stored s_icp]) e (mkKC (Simple 2) [key x03; key x04] None)).
  { intros e He. unfold chosen. rewrite He. exists a_icp, kc0, alice_next. auto. }
  destruct (H toy (submit [s_icp; solo_3]) (submit [s_icp; solo_4]) alice [stored s_icp; stored solo_3] [stored s_icp; stored solo_4] [stored s_icp] (stored solo_3) (stored solo_4) [] []
      (mkKC (Simple 2) [key x03; key x04] None) toy_ser_never_err Q1 Q2) as (ser1 & ser2 & E1 & E2 & k & a & b & Hk & Ha & Hb & Sa & Sb).
  - vm_compute. discriminate.
  - exact K1.
  - exact K2.
  - reflexivity.
  - reflexivity.
  - right. now left.
  - vm_compute. discriminate.
  - apply C. reflexivity.
  - apply C. reflexivity.
  - exact I.
  - vm_compute. reflexivity.
  - apply toy_signers in Sa, Sb. assert (D : forall k1 k2 ser (sg : AttachedSignaturePrefix), In sg (sem_sigs (stored (solo k1 k2))) -> e_ser_event toy (sem_msg (stored (solo k1 k2))) = Ok ser -> ssp_sig (asp_sig sg) = bp_key k1 ++ ser).
    { intros k1 k2 ser sg [<-|[]] He. cbn [e_ser_event toy] in He. injection He as <-. reflexivity. }
    pose proof (D _ _ _ _ Ha E1) as Da. pose proof (D _ _ _ _ Hb E2) as Db. rewrite Sa in Da. rewrite Sb in Db.
    apply app_inv_tail in Da, Db. rewrite Da in Db. vm_compute in Db. discriminate Db.
Qed.
Print Assumptions C136_refuted.
(** a case for the positive theorems: two stories of alice signed by both of her keys *)
Example C136_example :
  let c1 := submit [s_icp; s_rot; s_ixn] in let c2 := submit [s_icp; s_rot; s_fork] in
  (quiet toy db_empty c1 = true /\ quiet toy db_empty c2 = true)
  /\ (exists l, get_kel (run toy db_empty c1) alice = Some l) /\ (exists l, get_kel (run toy db_empty c2) alice = Some l)
  /\ log_of (log (run toy db_empty c1) alice) = [a_icp; a_rot] ++ [a_ixn]
  /\ log_of (log (run toy db_empty c2) alice) = [a_icp; a_rot] ++ [sem_msg s_fork]
  /\ exists kc, keys_in_force [a_icp; a_rot] a_ixn = Some kc /\ rational_threshold (kc_threshold kc) /\ majority kc.
Proof.
  cbv zeta. apply conj; [apply conj; vm_compute; reflexivity|]. apply conj; [eexists; vm_compute; reflexivity|]. apply conj; [eexists; vm_compute; reflexivity|].
  apply conj; [vm_compute; reflexivity|]. apply conj; [vm_compute; reflexivity|]. eexists. apply conj; [vm_compute; reflexivity|]. apply conj; [exact I|vm_compute; reflexivity].
Qed.
