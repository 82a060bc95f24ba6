(** * Arith: signature thresholds with the machine arithmetic of the code.

    [KeyConf.v] adds weights as exact fractions.  The code adds [fraction::Fraction], a
    [num_rational::Ratio<u64>], and keeps clause offsets in [u16]; both overflow.  Here the
    same functions with that arithmetic, for a debug build (overflow panics) and a release
    build (overflow wraps). *)
From Verif Require Import Base Base64 Codes NumFmt Types KeyConf.

(** std/num crates; event/sections/threshold.rs:157-159 *)
Inductive build := Debug | Release.
(** an arithmetic result in an unsigned type with largest value [max] *)
(** std/num crates; event/sections/threshold.rs:157-159 *)
Definition machine (m : build) (max n : N) : out N :=
  if (n <=? max)%N then Ok n else match m with Debug => Panic | Release => Ok (n mod (max + 1))%N end.

Section WithBuild.
  Context (m : build).
  (** std/num crates; event/sections/threshold.rs:157-159 *)
  Definition add64 (a b : N) : out N := machine m u64_max (a + b).
  (** std/num crates; event/sections/threshold.rs:157-159 *)
  Definition mul64 (a b : N) : out N := machine m u64_max (a * b).
  (** [num_rational::Ratio::new]: panics on a zero denominator, reduces *)
  (** std/num crates; event/sections/threshold.rs:157-159 *)
  Definition ratio_new (n d : N) : out frac :=
    if (d =? 0)%N then Panic
    else if (n =? 0)%N then Ok (FRat 0 1)
    else let g := N.gcd n d in Ok (FRat (n / g) (d / g)).
  (** [impl Add for Ratio]: over the least common multiple of the denominators
      ([num_integer::lcm]: [a * (b / gcd)]) *)
  (** std/num crates; event/sections/threshold.rs:157-159 *)
  Definition ratio_add (n1 d1 n2 d2 : N) : out frac :=
    if (d1 =? d2)%N then let? n := add64 n1 n2 in ratio_new n d2
    else
      let? l := mul64 d1 (d2 / N.gcd d1 d2) in
      let? a := mul64 n1 (l / d1) in
      let? b := mul64 n2 (l / d2) in
      let? s := add64 a b in
      ratio_new s l.
  (** [impl Add for GenericFraction], non-negative *)
  (** std/num crates; event/sections/threshold.rs:157-159 *)
  Definition frac_add64 (a b : frac) : out frac :=
    match a, b with
    | FNaN, _ | _, FNaN => Ok FNaN
    | FInf, _ | _, FInf => Ok FInf
    | FRat n1 d1, FRat n2 d2 => ratio_add n1 d1 n2 d2
    end.
  (** threshold.rs:152-160; the comparison with one is exact *)
  Definition clause_enough64 (c : ThresholdClause) (start : N) (sigs : list AttachedSignaturePrefix) : out bool :=
    let? s := fold_left (fun acc sig =>
      let? a := acc in
      if (asp_index sig <? start)%N then Panic (* the next index would be wrapped and out of range *)
      else match nth_error c (N.to_nat (asp_index sig - start)) with
           | Some w => frac_add64 a w
           | None => Panic
           end) sigs (Ok frac_zero) in
    Ok (frac_ge1 s).
  (** threshold.rs:192-209: [len() as u16] truncates, [start + len] is added in [u16] *)
  Definition in_range64 (start stop : N) (sig : AttachedSignaturePrefix) : bool :=
    (start <=? asp_index sig)%N && (asp_index sig <? stop)%N.
  Definition multi_step64 (sigs : list AttachedSignaturePrefix) (acc : out (N * bool)) (clause : ThresholdClause) : out (N * bool) :=
    let? se := acc in
    let (start, enough) := (se : N * bool) in
    let? stop := machine m u16_max (start + N.of_nat (List.length clause) mod (u16_max + 1)) in
    let sub := filter (in_range64 start stop) sigs in
    if enough
    then let? e := clause_enough64 clause start sub in Ok (stop, e)
    else Ok (stop, false).
  Definition multi_enough64 (cs : list ThresholdClause) (sigs : list AttachedSignaturePrefix) : out bool :=
    let? r := fold_left (multi_step64 sigs) cs (Ok (0%N, true)) in Ok (snd r).
  (** threshold.rs:83-89, 123-128 *)
  Definition enough_signatures64 (t : SignatureThreshold) (sigs : list AttachedSignaturePrefix) : out bool :=
    match t with
    | Simple n => Ok (n <=? N.of_nat (List.length sigs))%N
    | Weighted (WSingle c) => clause_enough64 c 0 sigs
    | Weighted (WMulti cs) => multi_enough64 cs sigs
    end.
  (** key_config.rs:43-75 [KeyConfig::verify] *)
  Definition kc_verify64 (E : Env) (kc : KeyConfig) (msg : bytes) (sigs : list AttachedSignaturePrefix) : out bool :=
    let? enough := enough_signatures64 (kc_threshold kc) sigs in
    if negb enough then Err ENotEnoughSigs
    else if List.length sigs <=? List.length (kc_keys kc) then
      let? counts := count_indices (List.length (kc_keys kc)) sigs in
      if forallb (fun n => n <=? 1)%N counts
      then verify_each E (kc_keys kc) msg sigs
      else Err (ESemantic "Invalid signatures set")
    else Err (ESemantic "Invalid signatures set").
End WithBuild.
