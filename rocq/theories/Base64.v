(** * Base64: the URL-safe base64 codec used by every prefix.

    Models [base64 0.13] as configured by the code: [encode_config(_, URL_SAFE_NO_PAD)]
    (src/prefix/mod.rs:32, src/derivation/attached_signature_code.rs:96-102) and
    [decode_config(_, URL_SAFE)] (src/prefix/*.rs, src/event_parsing/*.rs). *)
From Verif Require Import Base.
Local Open Scope N_scope.

(** The URL-safe alphabet. *)
(** crate base64, [URL_SAFE] (prefix/mod.rs:30, prefix/basic.rs:44) *)
Definition alphabet : bytes :=
  bstr "ABCDEFGHIJKLMNOPQRSTUVWXYZabcdefghijklmnopqrstuvwxyz0123456789-_".
(** crate base64 *)
Definition enc6 (n : N) : byte := nth (N.to_nat n) alphabet x41.
(** decode table of the crate: inverse of the alphabet *)
(** crate base64 *)
Definition dec6 (c : byte) : option N :=
  let n := b2n c in
  if (65 <=? n) && (n <=? 90) then Some (n - 65)
  else if (97 <=? n) && (n <=? 122) then Some (n - 71)
  else if (48 <=? n) && (n <=? 57) then Some (n + 4)
  else if n =? 45 then Some 62
  else if n =? 95 then Some 63
  else None.

(** [encode_config(_, URL_SAFE_NO_PAD)] *)
(** used at prefix/mod.rs:30, attached_signature_code.rs:99-102, event_parsing/mod.rs:124 *)
Fixpoint b64_encode (l : bytes) : bytes :=
  match l with
  | [] => []
  | [a] => [enc6 (b2n a / 4); enc6 ((b2n a mod 4) * 16)]
  | [a; b] => [enc6 (b2n a / 4); enc6 ((b2n a mod 4) * 16 + b2n b / 16);
               enc6 ((b2n b mod 16) * 4)]
  | a :: b :: c :: r =>
      enc6 (b2n a / 4) :: enc6 ((b2n a mod 4) * 16 + b2n b / 16)
      :: enc6 ((b2n b mod 16) * 4 + b2n c / 64) :: enc6 (b2n c mod 64) :: b64_encode r
  end.

(** last partial group of two / three symbols: unused trailing bits must be zero
    (decode_allow_trailing_bits = false) *)
(** crate base64 *)
Definition dec_group2 (c1 c2 : byte) : option bytes :=
  match dec6 c1, dec6 c2 with
  | Some v1, Some v2 =>
      if v2 mod 16 =? 0 then Some [n2b (v1 * 4 + v2 / 16)] else None
  | _, _ => None
  end.
(** crate base64 *)
Definition dec_group3 (c1 c2 c3 : byte) : option bytes :=
  match dec6 c1, dec6 c2, dec6 c3 with
  | Some v1, Some v2, Some v3 =>
      if v3 mod 4 =? 0
      then Some [n2b (v1 * 4 + v2 / 16); n2b ((v2 mod 16) * 16 + v3 / 4)] else None
  | _, _, _ => None
  end.
(** crate base64 *)
Definition dec_group4 (c1 c2 c3 c4 : byte) : option bytes :=
  match dec6 c1, dec6 c2, dec6 c3, dec6 c4 with
  | Some v1, Some v2, Some v3, Some v4 =>
      Some [n2b (v1 * 4 + v2 / 16); n2b ((v2 mod 16) * 16 + v3 / 4); n2b ((v3 mod 4) * 64 + v4)]
  | _, _, _, _ => None
  end.

(** crate base64 *)
Definition is_pad (c : byte) : bool := Byte.eqb c x3d.

(** [decode_config(_, URL_SAFE)] of base64 0.13: padding is optional, allowed only in
    the last group after at least two symbols (so ["AA="], ["AA=="] and ["AA"] all
    decode); one left-over symbol is an error; [None] stands for any [DecodeError]. *)
(** used at prefix/basic.rs:44, prefix/self_addressing.rs:37, prefix/self_signing.rs:34, prefix/attached_signature.rs:36, prefix/seed.rs:46-59, event_parsing/prefix.rs:33-160 *)
Fixpoint b64_decode (l : bytes) : option bytes :=
  match l with
  | [] => Some []
  | [_] => None
  | [c1; c2] => dec_group2 c1 c2
  | [c1; c2; c3] => if is_pad c3 then dec_group2 c1 c2 else dec_group3 c1 c2 c3
  | [c1; c2; c3; c4] =>
      if is_pad c4
      then (if is_pad c3 then dec_group2 c1 c2 else dec_group3 c1 c2 c3)
      else dec_group4 c1 c2 c3 c4
  | c1 :: c2 :: c3 :: c4 :: r =>
      match dec_group4 c1 c2 c3 c4, b64_decode r with
      | Some x, Some y => Some (x ++ y)
      | _, _ => None
      end
  end.

(** Length of the unpadded encoding of [n] bytes, and a character predicate
    (used in specifications). *)
(** no counterpart in /repo *)
Definition is_b64_char (c : byte) : bool := match dec6 c with Some _ => true | None => false end.
