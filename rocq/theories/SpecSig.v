(** * SpecSig: what it means for signatures to satisfy a key configuration. *)
From Coq Require Import QArith.
From Verif Require Import Base Base64 Codes NumFmt Types.
Local Open Scope nat_scope.

(** ** One signature by one key: algorithms match and the cryptographic check succeeds *)
Definition is_ed25519 (k : BasicPrefix) : Prop := bp_code k = Ed25519 \/ bp_code k = Ed25519NT.
Definition is_secp256k1 (k : BasicPrefix) : Prop :=
  bp_code k = ECDSAsecp256k1 \/ bp_code k = ECDSAsecp256k1NT.
Definition sig_ok (E : Env) (k : BasicPrefix) (msg : bytes) (s : SelfSigningPrefix) : Prop :=
  (is_ed25519 k /\ ssp_code s = Ed25519Sha512 /\ e_verify_ed E (bp_key k) msg (ssp_sig s) = true)
  \/ (is_secp256k1 k /\ ssp_code s = ECDSAsecp256k1Sha256 /\ e_verify_ecdsa E (bp_key k) msg (ssp_sig s) = true).

(** ** Weights as rational numbers *)
Definition rational (f : frac) : Prop := match f with FRat _ d => d <> 0%N | _ => False end.
Definition weight (f : frac) : Q :=
  match f with FRat n d => Qmake (Z.of_N n) (N.succ_pos (N.pred d)) | _ => 0%Q end.
Definition rational_threshold (t : SignatureThreshold) : Prop :=
  match t with
  | Simple _ => True
  | Weighted (WSingle c) => Forall rational c
  | Weighted (WMulti cs) => Forall (Forall rational) cs
  end.
(** the weight that key number [i] has in a clause whose first key is key number [start] *)
Definition key_weight (start : nat) (c : ThresholdClause) (i : nat) : Q :=
  if start <=? i then match nth_error c (i - start) with Some f => weight f | None => 0%Q end else 0%Q.
Definition index_of (s : AttachedSignaturePrefix) : nat := N.to_nat (asp_index s).
Definition total_weight (start : nat) (c : ThresholdClause) (sigs : list AttachedSignaturePrefix) : Q :=
  fold_right Qplus 0%Q (map (fun s => key_weight start c (index_of s)) sigs).
(** consecutive clauses own consecutive slices of the key list *)
Fixpoint with_starts (start : nat) (cs : list ThresholdClause) : list (nat * ThresholdClause) :=
  match cs with [] => [] | c :: r => (start, c) :: with_starts (start + List.length c) r end.
Definition clauses_of (w : WeightedThreshold) : list (nat * ThresholdClause) :=
  match w with WSingle c => [(0, c)] | WMulti cs => with_starts 0 cs end.

(** ** Thresholds *)
Definition threshold_met (t : SignatureThreshold) (sigs : list AttachedSignaturePrefix) : Prop :=
  match t with
  | Simple n => (n <= N.of_nat (List.length sigs))%N
  | Weighted w => Forall (fun sc => (1 <= total_weight (fst sc) (snd sc) sigs)%Q) (clauses_of w)
  end.

(** ** A signature list satisfies a key configuration over a message *)
Definition satisfies (E : Env) (kc : KeyConfig) (msg : bytes) (sigs : list AttachedSignaturePrefix) : Prop :=
  threshold_met (kc_threshold kc) sigs
  /\ NoDup (map index_of sigs)
  /\ Forall (fun s => exists k, nth_error (kc_keys kc) (index_of s) = Some k /\ sig_ok E k msg (asp_sig s)) sigs.

(** ** Side conditions *)
(** for a single weighted clause: every index belongs to the clause *)
Definition in_single (t : SignatureThreshold) (sigs : list AttachedSignaturePrefix) : Prop :=
  match t with
  | Weighted (WSingle c) => Forall (fun s => index_of s < List.length c) sigs
  | _ => True
  end.
(** a threshold that no empty signature list can meet *)
Definition nonzero (t : SignatureThreshold) : Prop :=
  match t with
  | Simple n => n <> 0%N
  | Weighted (WSingle _) => True
  | Weighted (WMulti cs) => cs <> []
  end.
