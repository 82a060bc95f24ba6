(** * Ed25519: signature verification itself.

    keys/mod.rs:26-41 [verify_ed] calls the crate ed25519_dalek 1.0 (not in /repo).  This is the
    published function (RFC 8032: SHA-512, curve edwards25519, verification without the cofactor,
    [s] below the group order, as in that crate), so that the signatures of the real test data can
    be checked in the model; it is used only by [Replay.v] and [Prop_Replay.v].  Nothing is proved
    about the curve. *)
From Verif Require Import Base Base64 Codes NumFmt Types.
Local Open Scope N_scope.

(** ** SHA-512 *)
Definition w64 (x : N) : N := N.land x 18446744073709551615.
Definition rotr64 (n x : N) : N := N.lor (N.shiftr x n) (w64 (N.shiftl x (64 - n))).
Definition K512 : list N :=
  [0x428a2f98d728ae22; 0x7137449123ef65cd; 0xb5c0fbcfec4d3b2f; 0xe9b5dba58189dbbc;
   0x3956c25bf348b538; 0x59f111f1b605d019; 0x923f82a4af194f9b; 0xab1c5ed5da6d8118;
   0xd807aa98a3030242; 0x12835b0145706fbe; 0x243185be4ee4b28c; 0x550c7dc3d5ffb4e2;
   0x72be5d74f27b896f; 0x80deb1fe3b1696b1; 0x9bdc06a725c71235; 0xc19bf174cf692694;
   0xe49b69c19ef14ad2; 0xefbe4786384f25e3; 0x0fc19dc68b8cd5b5; 0x240ca1cc77ac9c65;
   0x2de92c6f592b0275; 0x4a7484aa6ea6e483; 0x5cb0a9dcbd41fbd4; 0x76f988da831153b5;
   0x983e5152ee66dfab; 0xa831c66d2db43210; 0xb00327c898fb213f; 0xbf597fc7beef0ee4;
   0xc6e00bf33da88fc2; 0xd5a79147930aa725; 0x06ca6351e003826f; 0x142929670a0e6e70;
   0x27b70a8546d22ffc; 0x2e1b21385c26c926; 0x4d2c6dfc5ac42aed; 0x53380d139d95b3df;
   0x650a73548baf63de; 0x766a0abb3c77b2a8; 0x81c2c92e47edaee6; 0x92722c851482353b;
   0xa2bfe8a14cf10364; 0xa81a664bbc423001; 0xc24b8b70d0f89791; 0xc76c51a30654be30;
   0xd192e819d6ef5218; 0xd69906245565a910; 0xf40e35855771202a; 0x106aa07032bbd1b8;
   0x19a4c116b8d2d0c8; 0x1e376c085141ab53; 0x2748774cdf8eeb99; 0x34b0bcb5e19b48a8;
   0x391c0cb3c5c95a63; 0x4ed8aa4ae3418acb; 0x5b9cca4f7763e373; 0x682e6ff3d6b2b8a3;
   0x748f82ee5defb2fc; 0x78a5636f43172f60; 0x84c87814a1f0ab72; 0x8cc702081a6439ec;
   0x90befffa23631e28; 0xa4506cebde82bde9; 0xbef9a3f7b2c67915; 0xc67178f2e372532b;
   0xca273eceea26619c; 0xd186b8c721c0c207; 0xeada7dd6cde0eb1e; 0xf57d4f7fee6ed178;
   0x06f067aa72176fba; 0x0a637dc5a2c898a6; 0x113f9804bef90dae; 0x1b710b35131c471b;
   0x28db77f523047d84; 0x32caab7b40c72493; 0x3c9ebe0a15c9bebc; 0x431d67c49c100d4c;
   0x4cc5d4becb3e42b6; 0x597f299cfc657e2a; 0x5fcb6fab3ad6faec; 0x6c44198c4a475817].
Definition H512 : list N :=
  [0x6a09e667f3bcc908; 0xbb67ae8584caa73b; 0x3c6ef372fe94f82b; 0xa54ff53a5f1d36f1;
   0x510e527fade682d1; 0x9b05688c2b3e6c1f; 0x1f83d9abfb41bd6b; 0x5be0cd19137e2179].
Definition bsig0 x := N.lxor (N.lxor (rotr64 28 x) (rotr64 34 x)) (rotr64 39 x).
Definition bsig1 x := N.lxor (N.lxor (rotr64 14 x) (rotr64 18 x)) (rotr64 41 x).
Definition ssig0 x := N.lxor (N.lxor (rotr64 1 x) (rotr64 8 x)) (N.shiftr x 7).
Definition ssig1 x := N.lxor (N.lxor (rotr64 19 x) (rotr64 61 x)) (N.shiftr x 6).
Definition ch x y z := N.lxor (N.land x y) (N.land (N.lxor x 18446744073709551615) z).
Definition maj x y z := N.lxor (N.lxor (N.land x y) (N.land x z)) (N.land y z).
(** the 80 words of the schedule; [w] is a window of the last 16 *)
Definition nth_ (l : list N) (i : nat) : N := nth i l 0.
Definition step512 (st : list N) (k w : N) : list N :=
  match st with
  | [a; b; c; d; e; f; g; h] =>
      let t1 := h + bsig1 e + ch e f g + k + w in
      let t2 := bsig0 a + maj a b c in
      [w64 (t1 + t2); a; b; c; w64 (d + t1); e; f; g]
  | _ => st
  end.
Fixpoint rounds512 (ks : list N) (w : list N) (st : list N) : list N :=
  match ks with
  | [] => st
  | k :: ks =>
      let next := w64 (ssig1 (nth_ w 14) + nth_ w 9 + ssig0 (nth_ w 1) + nth_ w 0) in
      rounds512 ks (tl w ++ [next]) (step512 st k (nth_ w 0))
  end.
Definition be (l : bytes) : N := fold_left (fun a b => a * 256 + b2n b) l 0.
Definition block512 (st : list N) (blk : bytes) : list N :=
  let w := map (fun i => be (firstn 8 (skipn (8 * i) blk))) (seq 0 16) in
  map (fun p => w64 (fst p + snd p)) (combine st (rounds512 K512 w st)).
Fixpoint blocks512 (fuel : nat) (st : list N) (m : bytes) : list N :=
  match fuel, m with
  | S f, _ :: _ => blocks512 f (block512 st (firstn 128 m)) (skipn 128 m)
  | _, _ => st
  end.
Definition nbyte (x : N) : byte := match Byte.of_N (N.land x 255) with Some b => b | None => x00 end.
Definition be_bytes (k : nat) (x : N) : bytes := map (fun i => nbyte (N.shiftr x (8 * N.of_nat (k - 1 - i)))) (seq 0 k).
Definition le_bytes (k : nat) (x : N) : bytes := map (fun i => nbyte (N.shiftr x (8 * N.of_nat i))) (seq 0 k).
Definition sha512 (m : bytes) : bytes :=
  let n := List.length m in
  let z := Nat.modulo (128 * 2 - 17 - Nat.modulo n 128) 128 in
  let p := m ++ x80 :: repeat x00 z ++ be_bytes 16 (8 * N.of_nat n) in
  flat_map (be_bytes 8) (blocks512 (S (List.length p)) H512 p).

(** ** The field of 2^255 - 19; numbers are reduced below 2^255 + 19, and fully by [canon] *)
Definition p25519 : N := 57896044618658097711785492504343953926634992332820282019728792003956564819949.
Definition m255 : N := 57896044618658097711785492504343953926634992332820282019728792003956564819967.
Definition fold19 (x : N) : N := N.land x m255 + 19 * N.shiftr x 255.
Definition red (x : N) : N := fold19 (fold19 x).
Definition canon (x : N) : N := let y := red x in if y <? p25519 then y else y - p25519.
Definition fadd a b := fold19 (a + b).
Definition fsub a b := fold19 (a + (2 * p25519 + 38 - b) - 38).
Definition fmul a b := red (a * b).
Fixpoint fpow_pos (a : N) (e : positive) : N :=
  match e with
  | xH => a
  | xO e => let x := fpow_pos a e in fmul x x
  | xI e => let x := fpow_pos a e in fmul (fmul x x) a
  end.
Definition fpow (a e : N) : N := match e with 0 => 1 | Npos e => fpow_pos a e end.
Definition finv (a : N) : N := fpow a (p25519 - 2).
Definition d25519 : N := 37095705934669439343138083508754565189542113879843219016388785533085940283555.
Definition sqrt_m1 : N := 19681161376707505956807079304988542015446066515923890162744021073123829784752.

(** ** Points (x : y : z : t), x*y = z*t *)
Record point := mkP { px : N; py : N; pz : N; pt : N }.
Definition p_zero : point := mkP 0 1 1 0.
Definition p_add (p q : point) : point :=
  let a := fmul (fsub (py p) (px p)) (fsub (py q) (px q)) in
  let b := fmul (fadd (py p) (px p)) (fadd (py q) (px q)) in
  let c := fmul (fmul (pt p) (pt q)) (fadd d25519 d25519) in
  let d := fmul (pz p) (fadd (pz q) (pz q)) in
  let e := fsub b a in let f := fsub d c in let g := fadd d c in let h := fadd b a in
  mkP (fmul e f) (fmul g h) (fmul f g) (fmul e h).
Definition p_dbl (p : point) : point :=
  let a := fmul (px p) (px p) in
  let b := fmul (py p) (py p) in
  let c := let z := fmul (pz p) (pz p) in fadd z z in
  let h := fadd a b in
  let xy := fadd (px p) (py p) in
  let e := fsub h (fmul xy xy) in
  let g := fsub a b in
  let f := fadd c g in
  mkP (fmul e f) (fmul g h) (fmul f g) (fmul e h).
Definition p_neg (p : point) : point := mkP (fsub 0 (px p)) (py p) (pz p) (fsub 0 (pt p)).
Definition basepoint : point :=
  let x := 15112221349535400772501151409588531511454012693041857206046113283949847762202 in
  let y := 46316835694926478169428394003475163141307993866256225615783033603165251855960 in
  mkP x y 1 (fmul x y).
(** [a] P + [b] Q, bits from the top *)
Fixpoint p_mul2 (n : nat) (a b : N) (p q pq : point) (acc : point) : point :=
  match n with
  | O => acc
  | S i =>
      let acc := p_dbl acc in
      let acc := match N.testbit a (N.of_nat i), N.testbit b (N.of_nat i) with
                 | true, true => p_add acc pq
                 | true, false => p_add acc p
                 | false, true => p_add acc q
                 | false, false => acc
                 end in
      p_mul2 i a b p q pq acc
  end.
Definition le_num (l : bytes) : N := fold_right (fun b a => a * 256 + b2n b) 0 l.
Definition decompress (s : bytes) : option point :=
  if negb (List.length s =? 32)%nat then None
  else
    let y := N.land (le_num s) m255 in
    let sign := N.testbit (le_num s) 255 in
    let yy := fmul y y in
    let u := fsub yy 1 in
    let v := fadd (fmul d25519 yy) 1 in
    let v3 := fmul (fmul v v) v in
    let v7 := fmul (fmul v3 v3) v in
    let x := fmul (fmul u v3) (fpow (fmul u v7) ((p25519 - 5) / 8)) in
    let vxx := fmul v (fmul x x) in
    let fix_x x := let x := canon x in let x := if Bool.eqb (N.testbit x 0) sign then x else canon (fsub 0 x) in
                   mkP x y 1 (fmul x y) in
    if canon vxx =? canon u then Some (fix_x x)
    else if canon vxx =? canon (fsub 0 u) then Some (fix_x (fmul x sqrt_m1))
    else None.
Definition compress (p : point) : bytes :=
  let zi := finv (pz p) in
  let x := canon (fmul (px p) zi) in
  let y := canon (fmul (py p) zi) in
  le_bytes 32 (y + (if N.testbit x 0 then N.shiftl 1 255 else 0)).
Definition order25519 : N := 7237005577332262213973186563042994240857116359379907606001950938285454250989.
(** keys/mod.rs:26-41 [PublicKey::verify_ed] with ed25519_dalek's [PublicKey::from_bytes] and [verify] *)
Definition ed25519_verify (key msg sig : bytes) : bool :=
  match decompress key with
  | None => false
  | Some a =>
      if negb (List.length sig =? 64)%nat then false
      else
        let r := firstn 32 sig in let s := le_num (skipn 32 sig) in
        if negb (s <? order25519) then false
        else
          let k := N.modulo (le_num (sha512 (r ++ key ++ msg))) order25519 in
          let na := p_neg a in
          bytes_eqb (compress (p_mul2 253 s k basepoint na (p_add basepoint na) p_zero)) r
  end.
(** ** Keys and signatures *)
(** [ExpandedSecretKey::from(&SecretKey)] *)
Definition ed25519_scalar (seed : bytes) : N :=
  let h := le_num (firstn 32 (sha512 seed)) in
  N.lor (N.land h (N.lxor (m255 / 2) 7)) (N.shiftl 1 254).
Definition times_base (n : N) : point := p_mul2 255 n 0 basepoint p_zero basepoint p_zero.
(** prefix/seed.rs:21-25: [ed25519_dalek::PublicKey::from(&SecretKey)] *)
Definition ed25519_public (seed : bytes) : bytes := compress (times_base (ed25519_scalar seed)).
(** keys/mod.rs:76-83 [sign_ed] *)
Definition ed25519_sign (seed msg : bytes) : bytes :=
  let a := ed25519_scalar seed in
  let pk := ed25519_public seed in
  let r := N.modulo (le_num (sha512 (skipn 32 (sha512 seed) ++ msg))) order25519 in
  let rb := compress (times_base r) in
  let k := N.modulo (le_num (sha512 (rb ++ pk ++ msg))) order25519 in
  rb ++ le_bytes 32 (N.modulo (r + k * a) order25519).
