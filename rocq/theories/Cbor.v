(** * Cbor: the bytes of the store's values ([serde_cbor], database/sled/tables.rs).

    Modelled: [serde_cbor::to_vec] of everything the [Serialize] implementations of events,
    receipts and their signatures produce (text, arrays, maps of known and of unknown
    length, null), and [serde_cbor::from_slice] of such bytes (recursion limit 128, no
    trailing bytes), with the [Deserialize] implementations of the stored records.
    External: [hx], how [serde_hex] reads a compact [u64].
    Simplifications: the reader refuses what the writer never produces (integers, byte
    strings, text in chunks, tags, floats, booleans); a record is read from a map only (serde
    also takes an array) and after its whole value was parsed (all failures are errors or
    panics of the same caller); the time of an entry is its text (chrono reads what it
    wrote); a stored [delegator_seal] is refused (it is never written). *)
From Verif Require Import Base Base64 Codes NumFmt Types KeyConf Version Cesr Message Keri Json JsonRead JsonQuery.

(** ** Writing *)
(** [n] as [k] bytes, most significant first *)
(** crate serde_cbor ser.rs: [to_be_bytes] *)
Fixpoint be_bytes (k : nat) (n : N) : bytes :=
  match k with O => [] | S k => be_bytes k (n / 256) ++ [n2b (n mod 256)] end.
(** crate serde_cbor ser.rs [write_u8], [write_u16], [write_u32], [write_u64] *)
Definition cbor_head (major n : N) : bytes :=
  if (n <? 24)%N then [n2b (major * 32 + n)]
  else if (n <=? 255)%N then n2b (major * 32 + 24) :: be_bytes 1 n
  else if (n <=? 65535)%N then n2b (major * 32 + 25) :: be_bytes 2 n
  else if (n <=? 4294967295)%N then n2b (major * 32 + 26) :: be_bytes 4 n
  else n2b (major * 32 + 27) :: be_bytes 8 n.
(** crate serde_cbor ser.rs [serialize_str] *)
Definition cbor_text (s : bytes) : bytes := cbor_head 3 (N.of_nat (List.length s)) ++ s.
(** crate serde_cbor ser.rs: [serialize_seq] with a length, [serialize_map(None)] (what
    [derive] calls for a struct with flattened parts), [serialize_struct], [serialize_none];
    database/sled/tables.rs:45-48 *)
Fixpoint cbor (v : sval) : bytes :=
  match v with
  | VStr s => cbor_text s
  | VSeq l => cbor_head 4 (N.of_nat (List.length l)) ++ flat_map cbor l
  | VMap l => n2b 191 :: flat_map (fun kv => cbor_text (fst kv) ++ cbor (snd kv)) l ++ [n2b 255]
  | VStruct l => cbor_head 5 (N.of_nat (List.length l)) ++ flat_map (fun kv => cbor_text (fst kv) ++ cbor (snd kv)) l
  | VNull => [n2b 246]
  end.

(** ** Reading *)
(** crate serde_cbor de.rs [parse_u8] .. [parse_u64] *)
Definition be_read (k : nat) (s : bytes) : option (N * bytes) :=
  if k <=? List.length s then Some (be_value (firstn k s), skipn k s) else None.
(** crate serde_cbor de.rs [parse_value]: the length in the low five bits [i] of a first
    byte, or in the bytes after it *)
Definition cbor_len (i : N) (s : bytes) : option (N * bytes) :=
  if (i <? 24)%N then Some (i, s)
  else if (i =? 24)%N then be_read 1 s
  else if (i =? 25)%N then be_read 2 s
  else if (i =? 26)%N then be_read 4 s
  else if (i =? 27)%N then be_read 8 s
  else None.
(** crate serde_cbor de.rs [parse_str]: [n] bytes of UTF-8 *)
Definition cbor_str (n : N) (s : bytes) : option (bytes * bytes) :=
  if (n <=? N.of_nat (List.length s))%N then
    let x := firstn (N.to_nat n) s in
    if valid_utf8 x then Some (x, skipn (N.to_nat n) s) else None
  else None.
(** crate serde_cbor de.rs: a key, always text here *)
Definition cbor_key (s : bytes) : option (bytes * bytes) :=
  match s with
  | c :: r => if (b2n c / 32 =? 3)%N then
                match cbor_len (b2n c mod 32) r with Some (n, r) => cbor_str n r | None => None end
              else None
  | [] => None
  end.
(** crate serde_cbor de.rs [parse_value]; [depth] is [remaining_depth], [fuel] bounds the
    number of calls.  In [read_items] and [read_pairs] the count is [None] for a container
    of unknown length, which ends with the break byte. *)
Fixpoint read_cbor (fuel depth : nat) (s : bytes) : option (jval * bytes) :=
  match fuel with
  | O => None
  | S f =>
      match s with
      | [] => None
      | c :: r =>
          let major := (b2n c / 32)%N in
          let i := (b2n c mod 32)%N in
          if (b2n c =? 246)%N then Some (JNull, r)
          else if (major =? 3)%N then
            match cbor_len i r with
            | Some (n, r) => match cbor_str n r with Some (x, r) => Some (JStr x, r) | None => None end
            | None => None
            end
          else if (major =? 4)%N then
            match depth with
            | S (S d) =>
                let go o r := match read_items f (S d) o r with Some (l, r) => Some (JArr l, r) | None => None end in
                if (i =? 31)%N then go None r
                else match cbor_len i r with Some (n, r) => go (Some n) r | None => None end
            | _ => None
            end
          else if (major =? 5)%N then
            match depth with
            | S (S d) =>
                let go o r := match read_pairs f (S d) o r with Some (l, r) => Some (JObj l, r) | None => None end in
                if (i =? 31)%N then go None r
                else match cbor_len i r with Some (n, r) => go (Some n) r | None => None end
            | _ => None
            end
          else None
      end
  end
with read_items (fuel depth : nat) (o : option N) (s : bytes) : option (list jval * bytes) :=
  match fuel with
  | O => None
  | S f =>
      let more o' := match read_cbor f depth s with
                     | Some (v, r) => match read_items f depth o' r with Some (l, r) => Some (v :: l, r) | None => None end
                     | None => None
                     end in
      match o with
      | Some n => if (n =? 0)%N then Some ([], s) else more (Some (n - 1)%N)
      | None => match s with
                | c :: r => if (b2n c =? 255)%N then Some ([], r) else more None
                | [] => None
                end
      end
  end
with read_pairs (fuel depth : nat) (o : option N) (s : bytes) : option (list (bytes * jval) * bytes) :=
  match fuel with
  | O => None
  | S f =>
      let more o' := match cbor_key s with
                     | Some (k, r) =>
                         match read_cbor f depth r with
                         | Some (v, r) => match read_pairs f depth o' r with Some (l, r) => Some ((k, v) :: l, r) | None => None end
                         | None => None
                         end
                     | None => None
                     end in
      match o with
      | Some n => if (n =? 0)%N then Some ([], s) else more (Some (n - 1)%N)
      | None => match s with
                | c :: r => if (b2n c =? 255)%N then Some ([], r) else more None
                | [] => None
                end
      end
  end.
(** [serde_cbor::from_slice] into a generic value: nothing may follow *)
(** crate serde_cbor de.rs [from_slice]; database/sled/tables.rs:37 *)
Definition from_cbor (s : bytes) : option jval :=
  match read_cbor (2 * List.length s + 2) 128 s with Some (v, []) => Some v | _ => None end.

(** ** The stored records *)
(** attached_signature.rs [Serialize], [Deserialize] *)
Definition asps_val (l : list AttachedSignaturePrefix) : sval := VSeq (map (fun s => VStr (asp_str s)) l).
Definition as_asp (v : jval) : out AttachedSignaturePrefix := let? s := as_str v in custom (asp_from s).
(** self_signing.rs [Deserialize] *)
Definition as_ssp (v : jval) : out SelfSigningPrefix := let? s := as_str v in custom (ssp_from s).
(** signed_event_message.rs:57-62 *)
Definition stored_val (e : SignedEventMessage) : sval :=
  VStruct [fld "event_message" (event_val (sem_msg e)); fld "signatures" (asps_val (sem_sigs e))].
(** signed_event_message.rs:72-76; an entry is the time and the event *)
Definition entry_val (x : bytes * SignedEventMessage) : sval :=
  VStruct [sfld "timestamp" (fst x); fld "signed_event_message" (stored_val (snd x))].
(** database/sled/tables.rs:45-48 [put] of a list of entries *)
Definition write_log (l : list (bytes * SignedEventMessage)) : bytes := cbor (VSeq (map entry_val l)).

Section Reading.
  Context (hx : bytes -> option N).
  (** event_message/mod.rs:83-93 [Deserialize for EventMessage], [read] reads the flattened part *)
  Definition as_message {D} (read : SerializationInfo -> list (bytes * jval) -> out D) (v : jval) : out D :=
    match v with
    | JObj l =>
        let? x := scan [own "v" as_si] [] l in
        let (m, r) := (x : list (bytes * jval) * list (bytes * jval)) in
        let? info := got as_si m "v" in
        read info r
    | _ => jerr
    end.
  (** signed_event_message.rs:35-42 *)
  Definition as_signed (v : jval) : out SignedEventMessage :=
    match v with
    | JObj l =>
        let? x := scan [own "event_message" (as_message (read_key_event hx)); own "signatures" (as_vec as_asp);
                        own "delegator_seal" (fun _ : jval => @jerr unit)] [] l in
        let (m, _) := (x : list (bytes * jval) * list (bytes * jval)) in
        let? e := got (as_message (read_key_event hx)) m "event_message" in
        let? s := got (as_vec as_asp) m "signatures" in
        Ok (mkSEM e s None)
    | _ => jerr
    end.
  (** signed_event_message.rs:72-76 *)
  Definition as_entry (v : jval) : out (bytes * SignedEventMessage) :=
    match v with
    | JObj l =>
        let? x := scan [own "timestamp" as_str; own "signed_event_message" as_signed] [] l in
        let (m, _) := (x : list (bytes * jval) * list (bytes * jval)) in
        let? t := got as_str m "timestamp" in
        let? e := got as_signed m "signed_event_message" in
        Ok (t, e)
    | _ => jerr
    end.
  (** database/sled/tables.rs:36-37 [from_slice] of a list of entries *)
  Definition read_log (s : bytes) : out (list (bytes * SignedEventMessage)) :=
    match from_cbor s with Some v => as_vec as_entry v | None => jerr end.
End Reading.
