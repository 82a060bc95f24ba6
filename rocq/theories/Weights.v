(** * Weights: thresholds built from pairs of numbers. *)
From Verif Require Import Base Types.

(** event/sections/threshold.rs:14-18 [ThresholdFraction::new], 144-150
    [ThresholdClause::new_from_tuples], 140-142 [ThresholdClause::new] (a copy) *)
Definition clause_new_from_tuples (tuples : list (N * N)) : ThresholdClause :=
  map (fun nd => frac_new (fst nd) (snd nd)) tuples.
(** threshold.rs:184-190 [MultiClauses::new_from_tuples] *)
Definition multi_new_from_tuples (fracs : list (list (N * N))) : list ThresholdClause :=
  map clause_new_from_tuples fracs.
(** threshold.rs:105-107 [SignatureThreshold::simple] *)
Definition simple (t : N) : SignatureThreshold := Simple t.
(** threshold.rs:109-113 [SignatureThreshold::single_weighted] *)
Definition single_weighted (fracs : list (N * N)) : SignatureThreshold :=
  Weighted (WSingle (clause_new_from_tuples fracs)).
(** threshold.rs:115-119 [SignatureThreshold::multi_weighted] *)
Definition multi_weighted (fracs : list (list (N * N))) : SignatureThreshold :=
  Weighted (WMulti (multi_new_from_tuples fracs)).
(** threshold.rs:130-134 [Default for SignatureThreshold] *)
Definition default_threshold : SignatureThreshold := Simple 1.
