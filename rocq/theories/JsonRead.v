(** * JsonRead: what [serde_json] and the [Deserialize] implementations read.

    Modelled: [serde_json]'s reader ([StreamDeserializer::next] over a slice, recursion limit
    128), the derived [Deserialize] of [EventMessage<KeyEvent>] and [EventMessage<Receipt>]
    with their flattened parts, the hand written [EventData] (event_data/mod.rs:32-65), and
    [key_event_message], [receipt_message], [signed_message] of a build without the [query]
    feature (message.rs:26-66, 90-117).

    External: [hx], how [serde_hex] reads a compact [u64]; the CBOR and MessagePack readers.
    Not modelled: a JSON number too large for an [f64] (an error in the code, a number here);
    [serde_hex] asking for a borrowed string (an escape inside a hex number). *)
From Verif Require Import Base Base64 Codes NumFmt Types KeyConf Version Cesr Message Json.

(** ** JSON values *)
(** crate serde_json; event_parsing/message.rs:29, event/event_data/mod.rs:12 *)
Inductive jval :=
| JNull | JBool (b : bool) | JNum
| JStr (s : bytes) | JArr (l : list jval) | JObj (l : list (bytes * jval)).

(** crate serde_json; event_parsing/message.rs:29 *)
Definition c_is (c : byte) (n : N) : bool := (b2n c =? n)%N.
(** [parse_whitespace]: space, newline, tab, carriage return *)
(** crate serde_json; event_parsing/message.rs:29 *)
Definition is_ws (c : byte) : bool := c_is c 32 || c_is c 10 || c_is c 9 || c_is c 13.
(** crate serde_json; event_parsing/message.rs:29 *)
Fixpoint skip_ws (s : bytes) : bytes :=
  match s with c :: r => if is_ws c then skip_ws r else s | [] => [] end.
(** crate serde_json; event_parsing/message.rs:29 *)
Definition is_digit (c : byte) : bool := ((48 <=? b2n c) && (b2n c <=? 57))%N.
(** crate serde_json; event_parsing/message.rs:29 *)
Fixpoint skip_digits (s : bytes) : bytes :=
  match s with c :: r => if is_digit c then skip_digits r else s | [] => [] end.
(** [parse_ident]: an expected literal tail *)
(** crate serde_json; event_parsing/message.rs:29 *)
Fixpoint eat (w s : bytes) : option bytes :=
  match w, s with
  | [], _ => Some s
  | a :: w, b :: s => if Byte.byte_eq_dec a b then eat w s else None
  | _ :: _, [] => None
  end.

(** *** Strings *)
(** [decode_hex_escape]: four hex digits of either case *)
(** crate serde_json; event_parsing/message.rs:29 *)
Definition hex_escape (s : bytes) : option (N * bytes) :=
  match s with
  | a :: b :: c :: d :: r =>
      match char_digit 16 a, char_digit 16 b, char_digit 16 c, char_digit 16 d with
      | Some a, Some b, Some c, Some d => Some ((a * 4096 + b * 256 + c * 16 + d)%N, r)
      | _, _, _, _ => None
      end
  | _ => None
  end.
(** [char::encode_utf8] *)
(** crate serde_json; event_parsing/message.rs:29 *)
Definition utf8_of (n : N) : bytes :=
  if (n <? 128)%N then [n2b n]
  else if (n <? 2048)%N then [n2b (192 + n / 64); n2b (128 + n mod 64)]
  else if (n <? 65536)%N then [n2b (224 + n / 4096); n2b (128 + n / 64 mod 64); n2b (128 + n mod 64)]
  else [n2b (240 + n / 262144); n2b (128 + n / 4096 mod 64); n2b (128 + n / 64 mod 64); n2b (128 + n mod 64)].
(** [parse_escape] after the backslash; a surrogate must be the first half of a pair *)
(** crate serde_json; event_parsing/message.rs:29 *)
Definition read_escape (s : bytes) : option (bytes * bytes) :=
  match s with
  | [] => None
  | c :: r =>
      if c_is c 34 then Some ([n2b 34], r) else if c_is c 92 then Some ([n2b 92], r)
      else if c_is c 47 then Some ([n2b 47], r) else if c_is c 98 then Some ([n2b 8], r)
      else if c_is c 102 then Some ([n2b 12], r) else if c_is c 110 then Some ([n2b 10], r)
      else if c_is c 114 then Some ([n2b 13], r) else if c_is c 116 then Some ([n2b 9], r)
      else if c_is c 117 then
        match hex_escape r with
        | None => None
        | Some (n, r) =>
            if ((56320 <=? n) && (n <=? 57343))%N then None
            else if ((55296 <=? n) && (n <=? 56319))%N then
              match eat (bstr "\u") r with
              | None => None
              | Some r =>
                  match hex_escape r with
                  | Some (m, r) =>
                      if ((56320 <=? m) && (m <=? 57343))%N
                      then Some (utf8_of (65536 + (n - 55296) * 1024 + (m - 56320)), r) else None
                  | None => None
                  end
              end
            else Some (utf8_of n, r)
        end
      else None
  end.
(** the characters up to the closing quote ([SliceRead::parse_str_bytes]); a bare control
    character is an error.  One round per character read: [fuel] at least the length. *)
(** crate serde_json; event_parsing/message.rs:29 *)
Fixpoint read_chars (fuel : nat) (s : bytes) : option (bytes * bytes) :=
  match fuel, s with
  | S f, c :: r =>
      if c_is c 34 then Some ([], r)
      else if c_is c 92 then
        match read_escape r with
        | Some (x, r) => match read_chars f r with Some (y, r) => Some (x ++ y, r) | None => None end
        | None => None
        end
      else if (b2n c <? 32)%N then None
      else match read_chars f r with Some (y, r) => Some (c :: y, r) | None => None end
  | _, _ => None
  end.
(** after the opening quote; the result must be UTF-8 *)
(** crate serde_json; event_parsing/message.rs:29 *)
Definition read_string (s : bytes) : option (bytes * bytes) :=
  match read_chars (List.length s) s with
  | Some (x, r) => if valid_utf8 x then Some (x, r) else None
  | None => None
  end.

(** *** Numbers ([parse_integer], [parse_decimal], [parse_exponent]): the syntax only *)
(** crate serde_json; event_parsing/message.rs:29 *)
Definition some_digits (s : bytes) : option bytes :=
  match s with c :: r => if is_digit c then Some (skip_digits r) else None | [] => None end.
(** crate serde_json; event_parsing/message.rs:29 *)
Definition read_number (s : bytes) : option bytes :=
  let s := match s with c :: r => if c_is c 45 then r else s | [] => s end in
  let int := match s with
             | c :: r => if c_is c 48 then
                           match r with d :: _ => if is_digit d then None else Some r | [] => Some r end
                         else some_digits s
             | [] => None end in
  let frac := match int with
              | Some (c :: r) => if c_is c 46 then some_digits r else Some (c :: r)
              | x => x end in
  match frac with
  | Some (c :: r) =>
      if c_is c 101 || c_is c 69 then
        match r with
        | d :: r' => if c_is d 43 || c_is d 45 then some_digits r' else some_digits r
        | [] => None
        end
      else Some (c :: r)
  | x => x
  end.

(** *** Values.  [depth] is [remaining_depth] (128 at the top): opening a container takes
    one and fails at zero.  [fuel] bounds the number of calls. *)
(** crate serde_json; event_parsing/message.rs:29 *)
Fixpoint read_value (fuel depth : nat) (s : bytes) : option (jval * bytes) :=
  match fuel with
  | O => None
  | S f =>
      match skip_ws s with
      | [] => None
      | c :: r =>
          if c_is c 34 then match read_string r with Some (x, r) => Some (JStr x, r) | None => None end
          else if c_is c 91 then
            match depth with
            | S (S d) => match read_elems f (S d) true r with Some (l, r) => Some (JArr l, r) | None => None end
            | _ => None
            end
          else if c_is c 123 then
            match depth with
            | S (S d) => match read_members f (S d) true r with Some (l, r) => Some (JObj l, r) | None => None end
            | _ => None
            end
          else if c_is c 110 then match eat (bstr "ull") r with Some r => Some (JNull, r) | None => None end
          else if c_is c 116 then match eat (bstr "rue") r with Some r => Some (JBool true, r) | None => None end
          else if c_is c 102 then match eat (bstr "alse") r with Some r => Some (JBool false, r) | None => None end
          else if is_digit c || c_is c 45 then
            match read_number (c :: r) with Some r => Some (JNum, r) | None => None end
          else None
      end
  end
(** the elements of an array and the closing bracket *)
with read_elems (fuel depth : nat) (first : bool) (s : bytes) : option (list jval * bytes) :=
  match fuel with
  | O => None
  | S f =>
      match skip_ws s with
      | [] => None
      | c :: r =>
          if c_is c 93 then Some ([], r)
          else
            let next := if first then Some (c :: r) else if c_is c 44 then Some (skip_ws r) else None in
            match next with
            | None => None
            | Some [] => None
            | Some (d :: t) =>
                if negb first && c_is d 93 then None
                else match read_value f depth (d :: t) with
                     | Some (v, r) =>
                         match read_elems f depth false r with Some (l, r) => Some (v :: l, r) | None => None end
                     | None => None
                     end
            end
      end
  end
(** the members of an object and the closing brace *)
with read_members (fuel depth : nat) (first : bool) (s : bytes) : option (list (bytes * jval) * bytes) :=
  match fuel with
  | O => None
  | S f =>
      match skip_ws s with
      | [] => None
      | c :: r =>
          if c_is c 125 then Some ([], r)
          else
            let next := if first then Some (c :: r) else if c_is c 44 then Some (skip_ws r) else None in
            match next with
            | Some (q :: r) =>
                if c_is q 34 then
                  match read_string r with
                  | Some (k, r) =>
                      match skip_ws r with
                      | e :: r =>
                          if c_is e 58 then
                            match read_value f depth r with
                            | Some (v, r) =>
                                match read_members f depth false r with Some (l, r) => Some ((k, v) :: l, r) | None => None end
                            | None => None
                            end
                          else None
                      | [] => None
                      end
                  | None => None
                  end
                else None
            | _ => None
            end
      end
  end.

(** ** Typed reading *)
(** crate serde_json; any error *)
Definition jerr {A} : out A := Err ESerialization.
(** [String::deserialize] *)
(** serde *)
Definition as_str (v : jval) : out bytes := match v with JStr s => Ok s | _ => jerr end.
(** [Vec<T>::deserialize]: elements in order, the first failure ends it *)
(** serde *)
Fixpoint omapm {A B} (f : A -> out B) (l : list A) : out (list B) :=
  match l with [] => Ok [] | a :: l => let? b := f a in let? r := omapm f l in Ok (b :: r) end.
(** serde *)
Definition as_vec {A} (f : jval -> out A) (v : jval) : out (list A) :=
  match v with JArr l => omapm f l | _ => jerr end.
(** [Option] is never used for errors of serde: a foreign error becomes a serde error *)
(** [serde::de::Error::custom] in the [Deserialize] impls of src/prefix *)
Definition custom {A} (x : out A) : out A := match x with Err _ => jerr | y => y end.
(** prefix/basic.rs [Deserialize] *)
Definition as_bp (v : jval) : out BasicPrefix := let? s := as_str v in custom (bp_from s).
(** prefix/self_addressing.rs [Deserialize] *)
Definition as_sap (v : jval) : out SelfAddressingPrefix := let? s := as_str v in custom (sap_from s).
(** prefix/mod.rs [Deserialize for IdentifierPrefix] *)
Definition as_id (v : jval) : out IdentifierPrefix := let? s := as_str v in custom (id_from s).

(** threshold.rs:26-45 [ThresholdFraction::from_str]; [str::split('/')] *)
Fixpoint split_slash (s : bytes) : list bytes :=
  match s with
  | [] => [[]]
  | c :: r => if c_is c 47 then [] :: split_slash r
              else match split_slash r with x :: l => (c :: x) :: l | [] => [[c]] end
  end.
Definition frac_from (s : bytes) : out frac :=
  match split_slash s with
  | [a] => let? n := parse_radix 10 u64_max a in Ok (frac_new n 1)
  | [a; b] => let? n := parse_radix 10 u64_max a in let? d := parse_radix 10 u64_max b in Ok (frac_new n d)
  | _ => Err (ESemantic "Improper threshold fraction")
  end.
Definition as_frac (v : jval) : out frac := let? s := as_str v in custom (frac_from s).

(** An untagged enum: the first variant that reads. *)
(** serde; event/sections/seal.rs, threshold.rs *)
Definition orelse {A} (x : out A) (y : out A) : out A := match x with Err _ => y | z => z end.

(** [serde_json::Value]'s map: sorted by key, a later duplicate wins *)
(** std [Ord for str] *)
Fixpoint bytes_ltb (a b : bytes) : bool :=
  match a, b with
  | _, [] => false
  | [], _ :: _ => true
  | x :: a, y :: b => (b2n x <? b2n y)%N || ((b2n x =? b2n y)%N && bytes_ltb a b)
  end.
(** crate serde_json [Map::insert] *)
Fixpoint ins {A} (k : bytes) (v : A) (l : list (bytes * A)) : list (bytes * A) :=
  match l with
  | [] => [(k, v)]
  | (k', v') :: r => if bytes_eq_dec k k' then (k, v) :: r
                     else if bytes_ltb k k' then (k, v) :: l
                     else (k', v') :: ins k v r
  end.
(** crate serde_json [Map] *)
Definition sort_map {A} (l : list (bytes * A)) : list (bytes * A) :=
  fold_left (fun m kv => ins (fst kv) (snd kv) m) l [].
(** reading into [Value]: inner objects too *)
(** crate serde_json; event/event_data/mod.rs ([Value]) *)
Fixpoint to_value (v : jval) : jval :=
  match v with
  | JArr l => JArr (map to_value l)
  | JObj l => JObj (sort_map (map (fun kv => (fst kv, to_value (snd kv))) l))
  | v => v
  end.

(** crate serde_json [Value::get] *)
Definition jget (l : list (bytes * jval)) (k : string) : option jval := aget bytes_eq_dec l (bstr k).
(** a field of a struct read from a map *)
(** serde *)
Definition field {A} (f : jval -> out A) (o : option jval) : out (option A) :=
  match o with None => Ok None | Some v => let? a := f v in Ok (Some a) end.
(** serde *)
Definition need {A} (o : option A) : out A := ok_or o ESerialization.

Section WithHex.
  Context (hx : bytes -> option N).
  (** serde_hex; event/mod.rs:20, event/sections/mod.rs:12, 24 *)
  Definition as_hex (v : jval) : out N := let? s := as_str v in need (hx s).

  (** threshold.rs:68-81: untagged; a hex number, a clause, a list of clauses *)
  Definition as_clause : jval -> out ThresholdClause := as_vec as_frac.
  Definition as_threshold (v : jval) : out SignatureThreshold :=
    orelse (omap Simple (as_hex v))
      (omap Weighted (orelse (omap WSingle (as_clause v)) (omap WMulti (as_vec as_clause v)))).
  (** key_config.rs:129-141 *)
  Definition as_next (v : jval) : out (option SelfAddressingPrefix) :=
    match v with
    | JNull => Ok None
    | JStr [] => Ok None
    | JStr s => let? d := custom (sap_from s) in Ok (Some d)
    | _ => jerr
    end.
  (** key_config.rs:11-21, from sorted fields: [k], [kt], [n]; absent fields are noticed last *)
  Definition read_kc (l : list (bytes * jval)) : out KeyConfig :=
    let? k := field (as_vec as_bp) (jget l "k") in
    let? kt := field as_threshold (jget l "kt") in
    let? n := field as_next (jget l "n") in
    let? kt := need kt in let? k := need k in let? n := need n in
    Ok (mkKC kt k n).
  (** sections/mod.rs:22-29; sorted: [b], [bt] *)
  Definition read_iwc (l : list (bytes * jval)) : out InceptionWitnessConfig :=
    let? b := field (as_vec as_bp) (jget l "b") in
    let? bt := field as_hex (jget l "bt") in
    let? bt := need bt in let? b := need b in
    Ok (mkIWC bt b).
  (** sections/mod.rs:10-20; sorted: [ba], [br], [bt] *)
  Definition read_wc (l : list (bytes * jval)) : out WitnessConfig :=
    let? ba := field (as_vec as_bp) (jget l "ba") in
    let? br := field (as_vec as_bp) (jget l "br") in
    let? bt := field as_hex (jget l "bt") in
    let? bt := need bt in let? br := need br in let? ba := need ba in
    Ok (mkWC bt br ba).

  (** seal.rs:14-58: from a map (sorted keys) or from an array in declaration order *)
  Definition as_location (v : jval) : out LocationSeal :=
    match v with
    | JArr [i; s; t; p] =>
        let? i := as_id i in let? s := as_hex s in let? t := as_str t in let? p := as_sap p in
        Ok (mkLS i s t p)
    | JArr (i :: r) => (* too short or too long: an error, after the elements were read *)
        let? _ := as_id i in
        match r with
        | s :: t :: p :: _ => let? _ := as_hex s in let? _ := as_str t in let? _ := as_sap p in jerr
        | _ => jerr
        end
    | JObj l =>
        let? i := field as_id (jget l "i") in let? p := field as_sap (jget l "p") in
        let? s := field as_hex (jget l "s") in let? t := field as_str (jget l "t") in
        let? i := need i in let? s := need s in let? t := need t in let? p := need p in
        Ok (mkLS i s t p)
    | _ => jerr
    end.
  Definition as_event_seal (v : jval) : out EventSeal :=
    match v with
    | JArr [i; s; d] =>
        let? i := as_id i in let? s := as_hex s in let? d := as_sap d in Ok (mkES i s d)
    | JArr (i :: r) =>
        let? _ := as_id i in
        match r with
        | s :: d :: _ => let? _ := as_hex s in let? _ := as_sap d in jerr
        | _ => jerr
        end
    | JObj l =>
        let? d := field as_sap (jget l "d") in let? i := field as_id (jget l "i") in
        let? s := field as_hex (jget l "s") in
        let? i := need i in let? s := need s in let? d := need d in
        Ok (mkES i s d)
    | _ => jerr
    end.
  (** [DigestSeal] and [RootSeal]: one field *)
  Definition as_one (k : string) (v : jval) : out SelfAddressingPrefix :=
    match v with
    | JArr [d] => as_sap d
    | JArr (d :: _) => let? _ := as_sap d in jerr
    | JObj l => let? d := field as_sap (jget l k) in need d
    | _ => jerr
    end.
  (** event/sections/seal.rs [Seal] *)
  Definition as_seal (v : jval) : out Seal :=
    orelse (omap SealLocation (as_location v))
      (orelse (omap SealEvent (as_event_seal v))
        (orelse (omap SealDigest (as_one "d" v)) (omap SealRoot (as_one "rd" v)))).

  (** inception.rs:21-34: [a], [c], then the two flattened parts *)
  Definition read_icp (l : list (bytes * jval)) : out InceptionEvent :=
    let? a := field (as_vec as_seal) (jget l "a") in
    let? c := field (as_vec as_str) (jget l "c") in
    let? c := need c in let? a := need a in
    let? kc := read_kc l in let? wc := read_iwc l in
    Ok (mkIcp kc wc c a).
  (** rotation.rs:13-26 *)
  Definition read_rot (l : list (bytes * jval)) : out RotationEvent :=
    let? a := field (as_vec as_seal) (jget l "a") in
    let? p := field as_sap (jget l "p") in
    let? p := need p in let? a := need a in
    let? kc := read_kc l in let? wc := read_wc l in
    Ok (mkRot p kc wc a).
  (** interaction.rs:8-15 *)
  Definition read_ixn (l : list (bytes * jval)) : out InteractionEvent :=
    let? a := field (as_vec as_seal) (jget l "a") in
    let? p := field as_sap (jget l "p") in
    let? p := need p in let? a := need a in
    Ok (mkIxn p a).
  (** delegated/mod.rs:15-22 *)
  Definition read_dip (l : list (bytes * jval)) : out DelegatedInceptionEvent :=
    let? di := field as_id (jget l "di") in
    let? di := need di in
    let? icp := read_icp l in
    Ok (mkDip icp di).
  (** event_message/mod.rs:26-39 [EventTypeTag]: a string, or an object with one null member *)
  Definition tag_from (s : bytes) : out EventTypeTag :=
    if is s "icp" then Ok TIcp else if is s "rot" then Ok TRot else if is s "ixn" then Ok TIxn
    else if is s "dip" then Ok TDip else if is s "drt" then Ok TDrt else if is s "rct" then Ok TRct
    else jerr.
  Definition as_tag (v : jval) : out EventTypeTag :=
    match v with
    | JStr s => tag_from s
    | JObj [(k, JNull)] => tag_from k
    | _ => jerr
    end.
  (** event_data/mod.rs:32-65 [Deserialize for EventData] *)
  Definition read_data (l : list (bytes * jval)) : out EventData :=
    let l := sort_map (map (fun kv => (fst kv, to_value (snd kv))) l) in
    let? t := field as_tag (jget l "t") in
    let? t := need t in
    match t with
    | TIcp => omap Icp (read_icp l)
    | TRot => omap Rot (read_rot l)
    | TIxn => omap Ixn (read_ixn l)
    | TDip => omap Dip (read_dip l)
    | TDrt => omap Drt (read_rot l)
    | _ => jerr
    end.

  (** A struct with flattened parts and two fields of its own read in text order; a repeated
      field is an error.  [ka]/[fa] and [kb]/[fb] are the fields, the rest is passed on. *)
  (** serde; flattened structs of event_message/mod.rs, event/mod.rs *)
  Fixpoint take2 {A B} (ka kb : string) (fa : jval -> out A) (fb : jval -> out B)
      (l : list (bytes * jval)) (oa : option A) (ob : option B)
    : out (option A * option B * list (bytes * jval)) :=
    match l with
    | [] => Ok (oa, ob, [])
    | (k, v) :: l =>
        if is k ka then
          match oa with
          | Some _ => jerr
          | None => let? a := fa v in take2 ka kb fa fb l (Some a) ob
          end
        else if is k kb then
          match ob with
          | Some _ => jerr
          | None => let? b := fb v in take2 ka kb fa fb l oa (Some b)
          end
        else let? x := take2 ka kb fa fb l oa ob in
             let '(a, b, r) := x in Ok (a, b, (k, v) :: r)
    end.
  (** event_message/mod.rs:40-47 [SaidEvent] *)
  Fixpoint take1 {A} (ka : string) (fa : jval -> out A) (l : list (bytes * jval)) (oa : option A)
    : out (option A * list (bytes * jval)) :=
    match l with
    | [] => Ok (oa, [])
    | (k, v) :: l =>
        if is k ka then
          match oa with
          | Some _ => jerr
          | None => let? a := fa v in take1 ka fa l (Some a)
          end
        else let? x := take1 ka fa l oa in
             let (a, r) := (x : option A * list (bytes * jval)) in Ok (a, (k, v) :: r)
    end.
  (** [KeyEvent]: [d], then event/mod.rs:15-25 [i] and [s], then the data *)
  Definition read_key_event (info : SerializationInfo) (l : list (bytes * jval)) : out EventMessage :=
    let? x := take1 "d" as_sap l None in
    let (d, l) := (x : option SelfAddressingPrefix * list (bytes * jval)) in
    let? d := need d in
    let? y := take2 "i" "s" as_id as_hex l None None in
    let '(i, s, l) := y in
    let? i := need i in let? s := need s in
    let? data := read_data l in
    Ok (mkEM info d i s data).
  (** [Receipt] (receipt.rs:13-29): three fields in text order, the rest is ignored *)
  Fixpoint take_rct (l : list (bytes * jval)) (od : option SelfAddressingPrefix) (oi : option IdentifierPrefix)
      (os : option N) : out (option SelfAddressingPrefix * option IdentifierPrefix * option N) :=
    match l with
    | [] => Ok (od, oi, os)
    | (k, v) :: l =>
        if is k "d" then
          match od with Some _ => jerr | None => let? d := as_sap v in take_rct l (Some d) oi os end
        else if is k "i" then
          match oi with Some _ => jerr | None => let? i := as_id v in take_rct l od (Some i) os end
        else if is k "s" then
          match os with Some _ => jerr | None => let? s := as_hex v in take_rct l od oi (Some s) end
        else take_rct l od oi os
    end.
  Definition read_receipt (info : SerializationInfo) (l : list (bytes * jval)) : out ReceiptMessage :=
    let? x := take_rct l None None None in
    let '(d, i, s) := x in
    let? d := need d in let? i := need i in let? s := need s in
    Ok (mkRct info d i s).

  (** event_message/mod.rs:83-93 [EventMessage]: the members in text order; [v] is read where
      it stands (and may panic before the rest of the text is looked at), the others are kept *)
  Fixpoint read_top (fuel depth : nat) (first : bool) (ov : option SerializationInfo) (s : bytes)
    : out (option SerializationInfo * list (bytes * jval) * bytes) :=
    match fuel with
    | O => jerr
    | S f =>
        match skip_ws s with
        | [] => jerr
        | c :: r =>
            if c_is c 125 then Ok (ov, [], r)
            else
              let next := if first then Some (c :: r) else if c_is c 44 then Some (skip_ws r) else None in
              match next with
              | Some (q :: r) =>
                  if c_is q 34 then
                    match read_string r with
                    | Some (k, r) =>
                        if is k "v" && match ov with Some _ => true | None => false end then jerr
                        else
                        match skip_ws r with
                        | e :: r =>
                            if c_is e 58 then
                              if is k "v" then
                                match skip_ws r with
                                | q :: r =>
                                    if c_is q 34 then
                                      match read_string r with
                                      | Some (x, r) =>
                                          let? v := custom (si_from x) in read_top f depth false (Some v) r
                                      | None => jerr
                                      end
                                    else jerr
                                | [] => jerr
                                end
                              else
                                match read_value f depth r with
                                | Some (v, r) =>
                                    let? x := read_top f depth false ov r in
                                    let '(ov, l, r) := x in Ok (ov, (k, v) :: l, r)
                                | None => jerr
                                end
                            else jerr
                        | [] => jerr
                        end
                    | None => jerr
                    end
                  else jerr
              | _ => jerr
              end
        end
    end.
  (** crate serde_json; event_parsing/message.rs:29 *)
  Definition fuel_for (s : bytes) : nat := 2 * List.length s + 2.
  (** message.rs:26-34 [json_message]: [StreamDeserializer::next] *)
  Definition json_message {D} (read : SerializationInfo -> list (bytes * jval) -> out D) (s : bytes) : pres D :=
    match skip_ws s with
    | c :: r =>
        if c_is c 123 then
          match (let? x := read_top (fuel_for r) 127 true None r in
                 let '(ov, l, rest) := x in
                 let? v := need ov in
                 let? e := read v l in
                 Ok (e, rest)) with
          | Ok (e, rest) => POk rest e
          | Err _ => PErr
          | Panic => PPanic
          end
        else PErr
    | [] => PErr
    end.

  (** [nom::branch::alt] *)
  (** nom; event_parsing/message.rs:55 *)
  Definition palt {A} (f g : bytes -> pres A) (s : bytes) : pres A :=
    match f s with PErr => g s | x => x end.
  (** nom; event_parsing/message.rs *)
  Definition pmap {A B} (h : A -> B) (x : pres A) : pres B :=
    match x with POk r a => POk r (h a) | PErr => PErr | PFail => PFail | PInc => PInc | PPanic => PPanic end.
  (** message.rs:52-66, 97-98; [bk] and [br] are the CBOR and MessagePack readers *)
  Context (bk : bytes -> pres EventMessage) (br : bytes -> pres ReceiptMessage).
  Definition key_event_message (s : bytes) : pres EventType :=
    pmap KeyEventT (palt (json_message read_key_event) bk s).
  Definition receipt_message (s : bytes) : pres EventType :=
    pmap ReceiptT (palt (json_message read_receipt) br s).
  Definition read_event_type : bytes -> pres EventType := palt key_event_message receipt_message.
End WithHex.
(** event_parsing/mod.rs:146-158 [EventType::serialize], JSON *)
Definition json_event_type (ser_other : EventType -> out bytes) (e : EventType) : out bytes :=
  match e with
  | KeyEventT m => match si_kind (em_info m) with JSON => Ok (json (event_val m)) | _ => ser_other e end
  | ReceiptT r => match si_kind (rct_info r) with JSON => Ok (json (receipt_val r)) | _ => ser_other e end
  | _ => ser_other e
  end.
