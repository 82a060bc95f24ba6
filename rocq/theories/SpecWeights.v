(** * SpecWeights: what pairs of numbers ask for. *)
From Coq Require Import QArith.
From Verif Require Import Base Base64 Codes NumFmt Types.
Local Open Scope nat_scope.

(** the number that a pair stands for *)
Definition denominated (p : N * N) : Prop := snd p <> 0%N.
Definition value (p : N * N) : Q := (inject_Z (Z.of_N (fst p)) / inject_Z (Z.of_N (snd p)))%Q.
Definition in_u64 (p : N * N) : Prop := (fst p < 2 ^ 64)%N /\ (snd p < 2 ^ 64)%N.

(** the key number that a signature names *)
Definition key_of (s : AttachedSignaturePrefix) : nat := N.to_nat (asp_index s).
(** the weights that signatures carry, when the first of the pairs is for key number [start];
    keys outside carry none *)
Definition carried (start : nat) (pairs : list (N * N)) (s : AttachedSignaturePrefix) : Q :=
  match Nat.compare (key_of s) start with
  | Lt => 0%Q
  | _ => match nth_error pairs (key_of s - start) with Some p => value p | None => 0%Q end
  end.
Definition sum (l : list Q) : Q := fold_right Qplus 0%Q l.
(** every group of pairs is for the next keys; every group has to reach 1 *)
Fixpoint groups_reach (start : nat) (groups : list (list (N * N))) (sigs : list AttachedSignaturePrefix) : Prop :=
  match groups with
  | [] => True
  | g :: r => (1 <= sum (map (carried start g) sigs))%Q /\ groups_reach (start + List.length g) r sigs
  end.
