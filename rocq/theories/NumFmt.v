(** * NumFmt: Rust integer formatting and parsing
    ([format!("{:x}")], [to_string()], [uN::from_str_radix], [str::parse::<uN>]). *)
From Verif Require Import Base.
Local Open Scope N_scope.

(** std [char::from_digit] *)
Definition digit_char (d : N) : byte := nth (N.to_nat d) (bstr "0123456789abcdef") x30.
(** [char::to_digit(radix)] *)
(** std *)
Definition char_digit (r : N) (c : byte) : option N :=
  let n := b2n c in
  let d := if (48 <=? n) && (n <=? 57) then Some (n - 48)
           else if (97 <=? n) && (n <=? 102) then Some (n - 87)
           else if (65 <=? n) && (n <=? 70) then Some (n - 55)
           else None in
  match d with Some v => if v <? r then Some v else None | None => None end.

(** digits, least significant first, of [n] in radix [r] ([fuel] digits at most) *)
(** std integer formatting *)
Fixpoint rev_digits (fuel : nat) (r n : N) : bytes :=
  match fuel with
  | O => []
  | S f => if n <? r then [digit_char n]
           else digit_char (n mod r) :: rev_digits f r (n / r)
  end.
(** [format!("{}", n)] for [r = 10], [format!("{:x}", n)] for [r = 16]; the fuel
    (number of bits + 1) never runs out for [r >= 2] *)
(** std integer formatting *)
Definition fmt_radix (r n : N) : bytes := rev (rev_digits (S (N.size_nat n)) r n).
(** [{:x}]: event/sections/key_config.rs:107; serde_hex: event/mod.rs:20, event/sections/mod.rs:12 *)
Definition fmt_hex := fmt_radix 16.
(** [to_string]: event/sections/threshold.rs:165 *)
Definition fmt_dec := fmt_radix 10.

(** std [from_str_radix] *)
Fixpoint parse_digits (r : N) (acc : N) (s : bytes) : option N :=
  match s with
  | [] => Some acc
  | c :: s' => match char_digit r c with
               | Some d => parse_digits r (acc * r + d) s'
               | None => None end
  end.
(** [uN::from_str_radix(s, r)]: an optional leading ['+'], at least one digit,
    [Err] on overflow of [max] *)
(** std; event_message/serialization_info.rs:77-80 and event/sections/threshold.rs:27-46 *)
Definition parse_radix (r max : N) (s : bytes) : out N :=
  let body := match s with "+"%byte :: s' => s' | _ => s end in
  match body with
  | [] => Err EIntegerParse
  | _ => match parse_digits r 0 body with
         | Some n => if n <=? max then Ok n else Err EIntegerParse
         | None => Err EIntegerParse
         end
  end.
(** std [u8::MAX] *)
Definition u8_max : N := 255.
(** std [u16::MAX] *)
Definition u16_max : N := 65535.
(** std [u64::MAX] *)
Definition u64_max : N := 18446744073709551615.

(** [{:06x}]-style left padding with zeros *)
(** event_message/serialization_info.rs:61 *)
Definition pad0 (w : nat) (s : bytes) : bytes := repeat x30 (w - List.length s) ++ s.
