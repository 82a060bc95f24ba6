(** * Prop_Sig: signature thresholds, verification, next-key commitment (C12-C18). *)
From Coq Require Import QArith Permutation.
From Verif Require Import Base Base64 Codes NumFmt Types KeyConf SpecSig State Db Processor Spec SigProofs Demo.
Local Open Scope nat_scope.

(** ** C12: with a numeric threshold, verification is sound and complete *)
Theorem C12_verify_numeric_threshold :
  forall E kc msg sigs t,
    kc_threshold kc = Simple t ->
    (kc_verify E kc msg sigs = Ok true <->
     (t <= N.of_nat (List.length sigs))%N /\ NoDup (map index_of sigs)
     /\ Forall (fun s => exists k, nth_error (kc_keys kc) (index_of s) = Some k /\ sig_ok E k msg (asp_sig s)) sigs).
Proof. exact c12. Qed.
Print Assumptions C12_verify_numeric_threshold.
Definition kc12 : KeyConfig := kc_of [key x01; key x02; key x03] [] 2.
Definition msg12 : bytes := bstr "hello".
Example C12_example :
  kc_verify toy kc12 msg12 [mkASP 2 (sig_over (key x03) msg12); mkASP 0 (sig_over (key x01) msg12)] = Ok true
  /\ kc_verify toy kc12 msg12 [mkASP 0 (sig_over (key x01) msg12)] = Err ENotEnoughSigs
  /\ kc_verify toy kc12 msg12 [mkASP 2 (sig_over (key x03) msg12); mkASP 0 (sig_over (key x02) msg12)] = Ok false.
Proof. ex_vm. Qed.

(** ** C13: weighted thresholds are rational sums *)
Theorem C13_verify_weighted_threshold :
  forall E kc msg sigs w,
    kc_threshold kc = Weighted w -> rational_threshold (Weighted w) -> in_single (Weighted w) sigs ->
    (kc_verify E kc msg sigs = Ok true <->
     Forall (fun sc => (1 <= total_weight (fst sc) (snd sc) sigs)%Q) (clauses_of w)
     /\ NoDup (map index_of sigs)
     /\ Forall (fun s => exists k, nth_error (kc_keys kc) (index_of s) = Some k /\ sig_ok E k msg (asp_sig s)) sigs).
Proof. exact c13. Qed.
Print Assumptions C13_verify_weighted_threshold.
(** soundness needs no assumption on the indices *)
Theorem C13_verify_is_sound :
  forall E kc msg sigs,
    rational_threshold (kc_threshold kc) -> kc_verify E kc msg sigs = Ok true -> satisfies E kc msg sigs.
Proof. exact verify_sound. Qed.
Print Assumptions C13_verify_is_sound.
(** the threshold test alone, whatever the signatures contain *)
Theorem C13_threshold_met :
  forall t sigs, rational_threshold t -> in_single t sigs ->
    exists b, enough_signatures t sigs = Ok b /\ (b = true <-> threshold_met t sigs).
Proof. exact enough_spec. Qed.
Print Assumptions C13_threshold_met.
(** the weights made from numerator and denominator are those rationals *)
Theorem C13_fraction_value :
  forall n d, d <> 0%N ->
    rational (frac_new n d) /\ (weight (frac_new n d) == Z.of_N n # N.succ_pos (N.pred d))%Q.
Proof. exact frac_new_weight. Qed.
Print Assumptions C13_fraction_value.
Definition kc13 : KeyConfig :=
  mkKC (Weighted (WMulti [[frac_new 1 2; frac_new 1 2; frac_new 1 3]; [frac_new 2 2; frac_new 1 4]]))
    (map key [x01; x02; x03; x04; x05]) None.
Definition sg (i : N) (b : byte) : AttachedSignaturePrefix := mkASP i (sig_over (key b) msg12).
Example C13_example :
  rational_threshold (kc_threshold kc13)
  /\ kc_verify toy kc13 msg12 [sg 3 x04; sg 0 x01; sg 1 x02] = Ok true
  /\ kc_verify toy kc13 msg12 [sg 3 x04; sg 0 x01; sg 2 x03] = Err ENotEnoughSigs
  /\ kc_verify toy kc13 msg12 [sg 2 x03; sg 0 x01; sg 1 x02] = Err ENotEnoughSigs.
Proof. split; [repeat constructor; discriminate|ex_vm]. Qed.

(** ** C14: signature verification never panics.  Refuted: an index beyond the keys. *)
Theorem C14_refuted :
  exists E kc msg sigs, kc_threshold kc = Simple 1 /\ kc_keys kc <> [] /\ kc_verify E kc msg sigs = Panic.
Proof.
  exists toy, (kc_of [key x01] [] 1), msg12, [sg 1 x02]. split; [reflexivity|]. split; [discriminate|].
  vm_compute. reflexivity.
Qed.
Print Assumptions C14_refuted.
(** Exactly when it panics (rational weights): an index outside a single weighted clause, or,
    the threshold being met by no more signatures than keys, an index outside the key list. *)
Theorem C14_partial :
  forall E kc msg sigs,
    rational_threshold (kc_threshold kc) ->
    (kc_verify E kc msg sigs = Panic <->
     ~ in_single (kc_threshold kc) sigs
     \/ (threshold_met (kc_threshold kc) sigs /\ List.length sigs <= List.length (kc_keys kc)
         /\ ~ Forall (fun s => index_of s < List.length (kc_keys kc)) sigs)).
Proof. exact verify_panics_iff. Qed.
Print Assumptions C14_partial.
Example C14_example : rational_threshold (kc_threshold kc13) /\ kc_verify toy kc13 msg12 [] <> Panic.
Proof. split; [repeat constructor; discriminate|ex_vm]. Qed.

(** ** C15: order never matters, more valid signatures never hurt *)
Theorem C15_order_is_irrelevant :
  forall E kc msg s1 s2,
    rational_threshold (kc_threshold kc) -> Permutation s1 s2 ->
    (kc_verify E kc msg s1 = Ok true <-> kc_verify E kc msg s2 = Ok true).
Proof. exact c15_perm. Qed.
Print Assumptions C15_order_is_irrelevant.
Theorem C15_more_signatures :
  forall E kc msg s sigs k,
    rational_threshold (kc_threshold kc) -> in_single (kc_threshold kc) [s] ->
    kc_verify E kc msg sigs = Ok true ->
    nth_error (kc_keys kc) (index_of s) = Some k -> sig_ok E k msg (asp_sig s) ->
    ~ In (index_of s) (map index_of sigs) ->
    kc_verify E kc msg (s :: sigs) = Ok true.
Proof. exact c15_more. Qed.
Print Assumptions C15_more_signatures.
Example C15_example :
  kc_verify toy kc13 msg12 [sg 3 x04; sg 0 x01; sg 1 x02] = Ok true
  /\ kc_verify toy kc13 msg12 [sg 1 x02; sg 3 x04; sg 0 x01] = Ok true
  /\ sig_ok toy (key x05) msg12 (asp_sig (sg 4 x05)) /\ ~ In 4 (map index_of [sg 3 x04; sg 0 x01; sg 1 x02])
  /\ kc_verify toy kc13 msg12 [sg 4 x05; sg 3 x04; sg 0 x01; sg 1 x02] = Ok true.
Proof.
  split; [ex_vm|]. split; [ex_vm|]. split; [left; split; [left; ex_vm|ex_vm]|]. split; [|ex_vm].
  vm_compute. intuition discriminate.
Qed.

(** ** C16: next-key commitment *)
Theorem C16_commitment_is_xor :
  forall E t keys d,
    nxt_commitment E t keys d
    = mkSAP d (xor_all (e_digest E d (threshold_str t)) (map (fun k => e_digest E d (bp_str k)) keys)).
Proof. exact LogTheorems.nxt_commitment_xor. Qed.
Print Assumptions C16_commitment_is_xor.
Theorem C16_commitment_order :
  forall E t k1 k2 d, Permutation k1 k2 -> nxt_commitment E t k1 d = nxt_commitment E t k2 d.
Proof. exact c16_order. Qed.
Print Assumptions C16_commitment_order.
Theorem C16_commitment_satisfied :
  forall E kc next d,
    kc_next kc = Some (nxt_commitment E (kc_threshold next) (kc_keys next) d) -> computable d -> verify_next E kc next = Ok true.
Proof. exact c16_self'. Qed.
Print Assumptions C16_commitment_satisfied.
Example C16_example :
  verify_next toy (kc_of [key x01] [key x02; key x03] 2) (kc_of [key x03; key x02] [key x07] 2) = Ok true
  /\ verify_next toy (kc_of [key x01] [key x02; key x03] 2) (kc_of [key x04; key x02] [key x07] 2) = Ok false.
Proof. ex_vm. Qed.

(** ** C17: next-key commitment binds the key list.  Refuted: a key listed twice cancels out,
    with every digest function of constant length (in particular a collision free one). *)
Theorem C17_refuted :
  forall E d t k keys,
    (forall x y, List.length (e_digest E d x) = List.length (e_digest E d y)) ->
    nxt_commitment E t (k :: k :: keys) d = nxt_commitment E t keys d.
Proof. exact c17_cancel'. Qed.
Print Assumptions C17_refuted.
(** What holds: a single key is bound (up to its text form) if the two texts do not collide.  Missing: more than one key. *)
Theorem C17_partial :
  forall E t k1 k2 d,
    (forall x y, List.length (e_digest E d x) = List.length (e_digest E d y)) ->
    (e_digest E d (bp_str k1) = e_digest E d (bp_str k2) -> bp_str k1 = bp_str k2) ->
    nxt_commitment E t [k1] d = nxt_commitment E t [k2] d -> bp_str k1 = bp_str k2.
Proof. exact c17_single. Qed.
Print Assumptions C17_partial.
Example C17_example :
  (forall x y, List.length (e_digest toy Blake3_256 x) = List.length (e_digest toy Blake3_256 y))
  /\ (e_digest toy Blake3_256 (bp_str (key x01)) = e_digest toy Blake3_256 (bp_str (key x02)) ->
      bp_str (key x01) = bp_str (key x02))
  /\ nxt_commitment toy (Simple 1) [key x01; key x02; key x02] Blake3_256
     = nxt_commitment toy (Simple 1) [key x01] Blake3_256.
Proof.
  split; [intros x y; exact (eq_trans (toy_digest_len Blake3_256 x) (eq_sym (toy_digest_len Blake3_256 y)))|].
  split; [vm_compute; discriminate|ex_vm].
Qed.

(** ** C18: every accepted event carries a verified signature.  Refuted: threshold zero. *)
Definition z_icp : EventMessage :=
  mk_incept (Icp (mkIcp (mkKC (Simple 0) [key x41] None) (mkIWC 0 []) [] [])).
Theorem C18_refuted :
  exists E cs se s, sem_sigs se = [] /\ snd (process E (run E db_empty cs) (MEvent se)) = Ok (Some s).
Proof.
  exists toy, [], (mkSEM z_icp [] None). eexists. split; [reflexivity|]. vm_compute. reflexivity.
Qed.
Print Assumptions C18_refuted.
(** What holds: with a threshold that is not zero (and at least one clause if weighted) an
    accepted event has a signature that verifies under a key of the resulting state. *)
Theorem C18_partial :
  forall E d se d' s,
    process E d (MEvent se) = (d', Ok (Some s)) -> nonzero (kc_threshold (st_current s)) ->
    exists ser sg k, e_ser_event E (sem_msg se) = Ok ser /\ In sg (sem_sigs se)
      /\ nth_error (kc_keys (st_current s)) (index_of sg) = Some k /\ sig_ok E k ser (asp_sig sg).
Proof. exact c18_signed. Qed.
Print Assumptions C18_partial.
Example C18_example :
  exists d' s, process toy db_empty (MEvent s_icp) = (d', Ok (Some s)) /\ nonzero (kc_threshold (st_current s)).
Proof. do 2 eexists. split; [vm_compute; reflexivity|]. discriminate. Qed.
