(** * Version: version strings ([src/event_message/serialization_info.rs]). *)
From Verif Require Import Base Codes NumFmt Types.

(** serialization_info.rs:22-29 [SerializationFormats::to_str] *)
Definition format_str (f : SerializationFormats) : bytes :=
  bstr match f with JSON => "JSON" | MGPK => "MGPK" | CBOR => "CBOR" end.
(** serialization_info.rs:32-42 [SerializationFormats::from_str]
    ([Error::DeserializeError] is EDeserialize) *)
Definition format_from (s : bytes) : out SerializationFormats :=
  if is s "JSON" then Ok JSON else if is s "MGPK" then Ok MGPK else if is s "CBOR" then Ok CBOR
  else Err (EDeserialize "Unknown format").
(** serialization_info.rs:61-69 [to_str]: [{:x}{:x}{}{:06x}_] *)
Definition si_str (v : SerializationInfo) : bytes :=
  bstr "KERI" ++ fmt_hex (si_major v) ++ fmt_hex (si_minor v) ++ format_str (si_kind v)
  ++ pad0 6 (fmt_hex (si_size v)) ++ bstr "_".
(** serialization_info.rs:72-85 [from_str]; the size is read as a [u16] *)
Definition si_from (s : bytes) : out SerializationInfo :=
  let? h := str_slice 0 4 s in
  if is h "KERI" then
    let? a := str_slice 4 5 s in let? major := parse_radix 16 u8_max a in
    let? b := str_slice 5 6 s in let? minor := parse_radix 16 u8_max b in
    let? c := str_slice 6 10 s in let? kind := format_from c in
    let? d := str_slice 10 16 s in let? size := parse_radix 16 u16_max d in
    Ok (mkSI major minor size kind)
  else Err (EDeserialize "Metadata parsing error").
