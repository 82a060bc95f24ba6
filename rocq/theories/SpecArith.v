(** * SpecArith: thresholds whose sums of weights fit machine integers.  Only data. *)
From Coq Require Import QArith.
From Verif Require Import Base Base64 Codes NumFmt Types SpecSig.
Local Open Scope nat_scope.

(** [D] is a 64 bit common denominator of the weights of a clause *)
Definition common_denominator (D : N) (c : ThresholdClause) : Prop :=
  (0 < D <= u64_max)%N /\ Forall (fun f => match f with FRat _ d => N.divide d D | _ => False end) c.
(** over it the weight of the signers is a 64 bit number *)
Definition clause_fits (sigs : list AttachedSignaturePrefix) (start : nat) (c : ThresholdClause) : Prop :=
  exists D, common_denominator D c /\ (total_weight start c sigs * inject_Z (Z.of_N D) <= inject_Z (Z.of_N u64_max))%Q.
(** clauses are addressed with 16 bits *)
Definition addressable (w : WeightedThreshold) : Prop :=
  match w with WSingle _ => True | WMulti cs => (N.of_nat (List.length (List.concat cs)) <= u16_max)%N end.
Definition threshold_fits (t : SignatureThreshold) (sigs : list AttachedSignaturePrefix) : Prop :=
  match t with
  | Simple _ => True
  | Weighted w => addressable w /\ Forall (fun sc => clause_fits sigs (fst sc) (snd sc)) (clauses_of w)
  end.
Definition threshold_addressable (t : SignatureThreshold) : Prop := match t with Simple _ => True | Weighted w => addressable w end.
