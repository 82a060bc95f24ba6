(** * SpecGrammar: JSON texts, after RFC 8259, and UTF-8, after RFC 3629.

    Written without reference to the reader: [denotes v t] says that the text [t] is a JSON
    text of the value [v].  (A number denotes [JNum]: no message reads a number.) *)
From Verif Require Import Base JsonRead.

(** ** UTF-8: [x] is the encoding of the scalar value [n]. *)
Local Open Scope N_scope.
Definition tail_byte (b : N) : Prop := 128 <= b < 192.
Definition surrogate (n : N) : Prop := 55296 <= n < 57344.
Definition encodes (n : N) (x : bytes) : Prop :=
  match map b2n x with
  | [a] => a < 128 /\ n = a
  | [a; b] => 192 <= a < 224 /\ tail_byte b /\ n = (a - 192) * 64 + (b - 128) /\ 128 <= n
  | [a; b; c] =>
      224 <= a < 240 /\ tail_byte b /\ tail_byte c
      /\ n = (a - 224) * 4096 + (b - 128) * 64 + (c - 128) /\ 2048 <= n /\ ~ surrogate n
  | [a; b; c; d] =>
      240 <= a < 248 /\ tail_byte b /\ tail_byte c /\ tail_byte d
      /\ n = (a - 240) * 262144 + (b - 128) * 4096 + (c - 128) * 64 + (d - 128) /\ 65536 <= n < 1114112
  | _ => False
  end.
Inductive utf8_text : bytes -> Prop :=
| utf8_nil : utf8_text []
| utf8_char n x s : encodes n x -> utf8_text s -> utf8_text (x ++ s).

(** ** Characters of strings *)
Definition hex_digit (c : byte) (n : nat) : Prop :=
  nth_error (bstr "0123456789abcdef") n = Some c \/ nth_error (bstr "0123456789ABCDEF") n = Some c.
(** four hexadecimal digits *)
Inductive hex4 : N -> bytes -> Prop :=
| hex4_intro c3 c2 c1 c0 d3 d2 d1 d0 :
    hex_digit c3 d3 -> hex_digit c2 d2 -> hex_digit c1 d1 -> hex_digit c0 d0 ->
    hex4 (N.of_nat (16 * (16 * (16 * d3 + d2) + d1) + d0)) [c3; c2; c1; c0].
(** letters after the backslash and the characters they stand for *)
Definition short_escapes : list (N * N) :=
  [(34, 34); (92, 92); (47, 47); (98, 8); (102, 12); (110, 10); (114, 13); (116, 9)].
(** one character: its bytes and its text *)
Inductive char_text : bytes -> bytes -> Prop :=
| char_plain c : 32 <= b2n c -> b2n c <> 34 -> b2n c <> 92 -> char_text [c] [c]
| char_short a b : In (a, b) short_escapes -> char_text [n2b b] [n2b 92; n2b a]
| char_unicode n t x : hex4 n t -> ~ surrogate n -> encodes n x -> char_text x (bstr "\u" ++ t)
| char_pair n t m t' x :
    hex4 n t -> hex4 m t' -> 55296 <= n < 56320 -> 56320 <= m < 57344 ->
    encodes (65536 + (n - 55296) * 1024 + (m - 56320)) x -> char_text x (bstr "\u" ++ t ++ bstr "\u" ++ t').
Inductive chars_text : bytes -> bytes -> Prop :=
| chars_nil : chars_text [] []
| chars_cons x t y u : char_text x t -> chars_text y u -> chars_text (x ++ y) (t ++ u).
Definition quote : bytes := [n2b 34].
Definition string_text (x t : bytes) : Prop := utf8_text x /\ exists u, chars_text x u /\ t = quote ++ u ++ quote.

(** ** Numbers *)
Definition digit (c : byte) : Prop := 48 <= b2n c <= 57.
Definition digits (t : bytes) : Prop := t <> [] /\ Forall digit t.
Definition optional (P : bytes -> Prop) (t : bytes) : Prop := t = [] \/ P t.
Definition minus_text (t : bytes) : Prop := t = bstr "-".
Definition int_text (t : bytes) : Prop := t = bstr "0" \/ (digits t /\ hd_error t <> Some (n2b 48)).
Definition frac_text (t : bytes) : Prop := exists u, digits u /\ t = bstr "." ++ u.
Definition exp_text (t : bytes) : Prop :=
  exists e sg u, (e = bstr "e" \/ e = bstr "E") /\ optional (fun s => s = bstr "+" \/ s = bstr "-") sg /\ digits u
    /\ t = e ++ sg ++ u.
Definition number_text (t : bytes) : Prop :=
  exists m i f e, optional minus_text m /\ int_text i /\ optional frac_text f /\ optional exp_text e
    /\ t = m ++ i ++ f ++ e.
(** the text after a number does not continue it *)
Definition number_ends (r : bytes) : Prop :=
  match r with [] => True | c :: _ => ~ digit c /\ c <> n2b 46 /\ c <> n2b 101 /\ c <> n2b 69 end.

(** ** Values *)
Definition blank (w : bytes) : Prop := Forall (fun c => In (b2n c) [32; 9; 10; 13]) w.
Inductive denotes : jval -> bytes -> Prop :=
| d_null : denotes JNull (bstr "null")
| d_true : denotes (JBool true) (bstr "true")
| d_false : denotes (JBool false) (bstr "false")
| d_number t : number_text t -> denotes JNum t
| d_string x t : string_text x t -> denotes (JStr x) t
| d_no_items w : blank w -> denotes (JArr []) (bstr "[" ++ w ++ bstr "]")
| d_items l t : items l t -> denotes (JArr l) (bstr "[" ++ t ++ bstr "]")
| d_no_members w : blank w -> denotes (JObj []) (bstr "{" ++ w ++ bstr "}")
| d_members l t : members l t -> denotes (JObj l) (bstr "{" ++ t ++ bstr "}")
with items : list jval -> bytes -> Prop :=
| item_last w v t w' : blank w -> denotes v t -> blank w' -> items [v] (w ++ t ++ w')
| item_more w v t w' l u : blank w -> denotes v t -> blank w' -> items l u -> items (v :: l) (w ++ t ++ w' ++ bstr "," ++ u)
with members : list (bytes * jval) -> bytes -> Prop :=
| member_last k v m : member k v m -> members [(k, v)] m
| member_more k v m l u : member k v m -> members l u -> members ((k, v) :: l) (m ++ bstr "," ++ u)
with member : bytes -> jval -> bytes -> Prop :=
| member_intro w k s w1 w2 v t w3 :
    blank w -> string_text k s -> blank w1 -> blank w2 -> denotes v t -> blank w3 ->
    member k v (w ++ s ++ w1 ++ bstr ":" ++ w2 ++ t ++ w3).
(** how deep arrays and objects are nested *)
Fixpoint nesting (v : jval) : nat :=
  match v with
  | JArr l => S (fold_right (fun v n => Nat.max (nesting v) n) 0%nat l)
  | JObj l => S (fold_right (fun kv n => Nat.max (nesting (snd kv)) n) 0%nat l)
  | _ => 0%nat
  end.
