(** * SpecThreshold: when two thresholds ask for the same signatures. *)
From Verif Require Import Base Codes NumFmt Types SpecSig.

(** what a weighted threshold says, whether its only clause was written alone or in a list *)
Definition weights (w : WeightedThreshold) : list ThresholdClause := map snd (clauses_of w).
(** the same weights for the same keys, or the same number of signatures *)
Definition same_threshold (t1 t2 : SignatureThreshold) : Prop :=
  match t1, t2 with
  | Simple n, Simple m => n = m
  | Weighted v, Weighted w => weights v = weights w
  | _, _ => False
  end.
(** every clause has a weight, and there is a clause *)
Definition has_weights (t : SignatureThreshold) : Prop :=
  match t with Simple _ => True | Weighted w => weights w <> [] /\ Forall (fun c => c <> []) (weights w) end.
(** the number [n], written in hexadecimal, is the number [m] written in decimal: all its digits
    are decimal ones (one to nine and themselves, sixteen and ten, ...) *)
Definition same_digits (n m : N) : Prop := fmt_hex n = fmt_dec m.
(** [n] signatures, or: the first key is enough, and has the weight [m] *)
Definition count_as_weight (t1 t2 : SignatureThreshold) : Prop :=
  exists n m w, t1 = Simple n /\ t2 = Weighted w /\ weights w = [[FRat m 1]] /\ same_digits n m.
(** one is a number of signatures and the other has weights *)
Definition different_kinds (t1 t2 : SignatureThreshold) : Prop :=
  match t1, t2 with Simple _, Weighted _ => True | Weighted _, Simple _ => True | _, _ => False end.
