(** * SpecVersion: which texts are version strings, and what they say. *)
From Verif Require Import Base NumFmt Types.

(** a hex digit of either case and its value *)
Fixpoint position (c : byte) (l : bytes) : option N :=
  match l with
  | [] => None
  | x :: r => if Byte.byte_eq_dec c x then Some 0%N else option_map N.succ (position c r)
  end.
Definition hex_digit (c : byte) : option N :=
  match position c (bstr "0123456789abcdef") with Some v => Some v | None => position c (bstr "0123456789ABCDEF") end.
(** digits, most significant first, and the number they make *)
Definition hex_number (digits : bytes) (n : N) : Prop :=
  exists ds, map hex_digit digits = map Some ds /\ n = fold_left (fun a d => 16 * a + d)%N ds 0%N.
Definition format_name (k : SerializationFormats) : bytes :=
  match k with JSON => bstr "JSON" | MGPK => bstr "MGPK" | CBOR => bstr "CBOR" end.
(** the six characters of the size: six hex digits, or a plus sign and five *)
Definition size_field (z : bytes) (n : N) : Prop :=
  List.length z = 6 /\ (hex_number z n \/ exists d, z = bstr "+" ++ d /\ hex_number d n).
(** text after which a string may be cut: it does not begin inside a character *)
Definition begins_character (s : bytes) : Prop :=
  match s with [] => True | c :: _ => (b2n c < 128 \/ 192 <= b2n c)%N end.
