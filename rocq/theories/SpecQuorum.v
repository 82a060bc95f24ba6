(** * SpecQuorum: thresholds that two separate groups of keys cannot both meet. *)
From Coq Require Import QArith.
From Verif Require Import Base Codes Types SpecSig.
Local Open Scope nat_scope.

Definition clause_weight (c : ThresholdClause) : Q := fold_right Qplus 0%Q (map weight c).
(** more than half of the keys, or some clause whose weights sum to less than two *)
Definition majority (kc : KeyConfig) : Prop :=
  match kc_threshold kc with
  | Simple t => (N.of_nat (List.length (kc_keys kc)) < 2 * t)%N
  | Weighted w => exists sc, In sc (clauses_of w) /\ (clause_weight (snd sc) < 2)%Q
  end.
(** one of the keys signed both *)
Definition common_signer (E : Env) (keys : list BasicPrefix) (msg1 : bytes) (sigs1 : list AttachedSignaturePrefix)
    (msg2 : bytes) (sigs2 : list AttachedSignaturePrefix) : Prop :=
  exists k a b, In k keys /\ In a sigs1 /\ In b sigs2 /\ sig_ok E k msg1 (asp_sig a) /\ sig_ok E k msg2 (asp_sig b).
