(** * KeyConf: signature thresholds, signature verification, next-key commitment. *)
From Verif Require Import Base Base64 Codes NumFmt Types.

(** ** Fractions *)
(** [Fraction + Fraction] on the values of [frac].  Simplification: exact numbers, the
    sum is not reduced (only compared), u64 overflow inside the crate is not modelled. *)
(** crate fraction; event/sections/threshold.rs:157-158 *)
Definition frac_add (a b : frac) : frac :=
  match a, b with
  | FNaN, _ | _, FNaN => FNaN
  | FInf, _ | _, FInf => FInf
  | FRat n1 d1, FRat n2 d2 => FRat (n1 * d2 + n2 * d1) (d1 * d2)
  end.
(** [>= One::one()]; NaN compares false *)
(** crate fraction; event/sections/threshold.rs:159 *)
Definition frac_ge1 (a : frac) : bool :=
  match a with FNaN => false | FInf => true | FRat n d => (d <=? n)%N end.
(** crate fraction; event/sections/threshold.rs:157 *)
Definition frac_zero : frac := FRat 0 1.
(** [Display for Fraction]: reduced, an integer without denominator *)
(** crate fraction; event/sections/threshold.rs:21-25 *)
Definition frac_str (a : frac) : bytes :=
  match a with
  | FNaN => bstr "NaN"
  | FInf => bstr "inf"
  | FRat n d => if (d =? 1)%N then fmt_dec n else fmt_dec n ++ bstr "/" ++ fmt_dec d
  end.

(** ** [enough_signatures] *)
(** threshold.rs:152-160 [ThresholdClause::enough_signatures]: indexing may panic *)
Definition clause_sum (c : ThresholdClause) (start : N) (sigs : list AttachedSignaturePrefix)
  : out frac :=
  fold_left (fun acc sig =>
    let? a := acc in
    if (asp_index sig <? start)%N then Panic (* u16 subtraction underflow *)
    else match nth_error c (N.to_nat (asp_index sig - start)) with
         | Some w => Ok (frac_add a w)
         | None => Panic
         end) sigs (Ok frac_zero).
Definition clause_enough (c : ThresholdClause) (start : N) (sigs : list AttachedSignaturePrefix)
  : out bool :=
  let? s := clause_sum c start sigs in Ok (frac_ge1 s).
(** threshold.rs:192-209 [MultiClauses::enough_signatures] *)
Definition in_range (start len : N) (sig : AttachedSignaturePrefix) : bool :=
  (start <=? asp_index sig)%N && (asp_index sig <? start + len)%N.
Definition multi_step (sigs : list AttachedSignaturePrefix)
    (acc : out (N * bool)) (clause : ThresholdClause) : out (N * bool) :=
  let? se := acc in
  let (start, enough) := (se : N * bool) in
  let len := N.of_nat (List.length clause) in
  let sub := filter (in_range start len) sigs in
  if enough
  then let? e := clause_enough clause start sub in Ok ((start + len)%N, e)
  else Ok ((start + len)%N, false).
Definition multi_enough (cs : list ThresholdClause) (sigs : list AttachedSignaturePrefix) : out bool :=
  let? r := fold_left (multi_step sigs) cs (Ok (0%N, true)) in Ok (snd r).
(** threshold.rs:83-89 *)
Definition weighted_enough (w : WeightedThreshold) (sigs : list AttachedSignaturePrefix) : out bool :=
  match w with
  | WSingle c => clause_enough c 0 sigs
  | WMulti cs => multi_enough cs sigs
  end.
(** threshold.rs:123-128 *)
Definition enough_signatures (t : SignatureThreshold) (sigs : list AttachedSignaturePrefix) : out bool :=
  match t with
  | Simple n => Ok (n <=? N.of_nat (List.length sigs))%N
  | Weighted w => weighted_enough w sigs
  end.

(** threshold.rs:162-168, 211-217, 98-103 [extract_threshold] *)
Fixpoint join (sep : bytes) (l : list bytes) : bytes :=
  match l with [] => [] | [x] => x | x :: r => x ++ sep ++ join sep r end.
Definition clause_str (c : ThresholdClause) : bytes := join (bstr ",") (map frac_str c).
Definition extract_threshold (w : WeightedThreshold) : bytes :=
  match w with
  | WSingle c => clause_str c
  | WMulti cs => join (bstr "&") (map clause_str cs)
  end.
(** key_config.rs:106-109 *)
Definition threshold_str (t : SignatureThreshold) : bytes :=
  match t with Simple n => fmt_hex n | Weighted w => extract_threshold w end.

(** [KeyConfig::new] (key_config.rs:24-37): default threshold is a majority *)
Definition kc_new (keys : list BasicPrefix) (next : option SelfAddressingPrefix)
    (t : option SignatureThreshold) : KeyConfig :=
  mkKC (match t with Some t => t | None => Simple (N.of_nat (List.length keys) / 2 + 1) end) keys next.

Section WithEnv.
  Context (E : Env).

  (** [verify] (src/prefix/mod.rs:106-129): key and signature types must fit *)
  Definition key_verify (key : BasicPrefix) (data : bytes) (sig : SelfSigningPrefix) : out bool :=
    match bp_code key with
    | Ed25519 | Ed25519NT =>
        match ssp_code sig with
        | Ed25519Sha512 => Ok (e_verify_ed E (bp_key key) data (ssp_sig sig))
        | _ => Err (ESemantic "wrong sig type")
        end
    | ECDSAsecp256k1 | ECDSAsecp256k1NT =>
        match ssp_code sig with
        | ECDSAsecp256k1Sha256 => Ok (e_verify_ecdsa E (bp_key key) data (ssp_sig sig))
        | _ => Err (ESemantic "wrong sig type")
        end
    | _ => Err (ESemantic "inelligable key type")
    end.

  (** key_config.rs:51-58: count occurrences of each index; [acc[i] += 1] panics when
      the index is out of range *)
  Fixpoint bump (i : nat) (acc : list N) : option (list N) :=
    match acc, i with
    | [], _ => None
    | n :: r, O => Some ((n + 1)%N :: r)
    | n :: r, S j => match bump j r with Some r' => Some (n :: r') | None => None end
    end.
  Definition count_indices (nkeys : nat) (sigs : list AttachedSignaturePrefix) : out (list N) :=
    fold_left (fun acc sig =>
      let? a := acc in
      match bump (N.to_nat (asp_index sig)) a with Some a' => Ok a' | None => Panic end)
      sigs (Ok (repeat 0%N nkeys)).

  (** key_config.rs:60-71: conjunction of the individual verifications *)
  Definition verify_each (keys : list BasicPrefix) (msg : bytes)
      (sigs : list AttachedSignaturePrefix) : out bool :=
    fold_left (fun acc sig =>
      let? a := acc in
      if (a : bool) then
        match nth_error keys (N.to_nat (asp_index sig)) with
        | None => Err (ESemantic "Key index not present in set")
        | Some key => key_verify key msg (asp_sig sig)
        end
      else Ok false) sigs (Ok true).

  (** key_config.rs:43-75 [KeyConfig::verify] *)
  Definition kc_verify (kc : KeyConfig) (msg : bytes) (sigs : list AttachedSignaturePrefix) : out bool :=
    let? enough := enough_signatures (kc_threshold kc) sigs in
    if negb enough then Err ENotEnoughSigs
    else if List.length sigs <=? List.length (kc_keys kc) then
      let? counts := count_indices (List.length (kc_keys kc)) sigs in
      if forallb (fun n => n <=? 1)%N counts
      then verify_each (kc_keys kc) msg sigs
      else Err (ESemantic "Invalid signatures set")
    else Err (ESemantic "Invalid signatures set").

  (** [SelfAddressing::derive] (derivation/self_addressing.rs:46-48) *)
  Definition derive (d : SelfAddressing) (data : bytes) : SelfAddressingPrefix :=
    mkSAP d (e_digest E d data).
  (** derivation/self_addressing.rs:121-136 [blake2s_256_digest], [blake2b_256_digest]: they ask
      the blake2 crate for 256 bytes of output where it can give at most 32 or 64 and asserts
      so, for every key: the process aborts.  ([e_digest] of these two codes is never looked at.) *)
  Definition digest_aborts (d : SelfAddressing) : bool :=
    match d with Blake2B256 _ | Blake2S256 _ => true | _ => false end.
  (** [verify_binding] (prefix/self_addressing.rs:22-24) *)
  Definition verify_binding (p : SelfAddressingPrefix) (data : bytes) : out bool :=
    if digest_aborts (sap_code p) then Panic
    else Ok (bytes_eqb (e_digest E (sap_code p) data) (sap_digest p)).

  (** event/sections/key_config.rs:118 *)
  Definition xor_byte (a b : byte) : byte := n2b (N.lxor (b2n a) (b2n b)).
  (** [iter().zip(..).map(^)]: truncates to the shorter *)
  (** event/sections/key_config.rs:117-118 *)
  Fixpoint xor_bytes (a b : bytes) : bytes :=
    match a, b with x :: a', y :: b' => xor_byte x y :: xor_bytes a' b' | _, _ => [] end.
  (** key_config.rs:101-123 [nxt_commitment] *)
  Definition nxt_commitment (t : SignatureThreshold) (keys : list BasicPrefix) (d : SelfAddressing)
    : SelfAddressingPrefix :=
    fold_left (fun acc pk => mkSAP d (xor_bytes (sap_digest acc) (sap_digest (derive d (bp_str pk)))))
      keys (derive d (threshold_str t)).
  (** key_config.rs:92-94 [commit] *)
  Definition commit (kc : KeyConfig) (d : SelfAddressing) : SelfAddressingPrefix :=
    nxt_commitment (kc_threshold kc) (kc_keys kc) d.
  (** key_config.rs:81-86 [verify_next] *)
  Definition verify_next (kc next : KeyConfig) : out bool :=
    match kc_next kc with
    | Some n => if digest_aborts (sap_code n) then Panic
                else Ok (if SAP_eq_dec n (commit next (sap_code n)) then true else false)
    | None => Ok false
    end.
End WithEnv.
