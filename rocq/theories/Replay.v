(** * Replay: the model with the real hash, signature check, clock and JSON. *)
From Verif Require Import Base Base64 Codes NumFmt Types KeyConf Version State Db Processor Cesr Message Keri Json JsonRead JsonQuery.
From Verif Require Blake3 Ed25519 Clock.

(** Digests with Blake3 (derivation/self_addressing.rs:31-43); the test data use no other
    algorithm, for which the placeholder is zeros of the right length. *)
Definition real_digest (g : SelfAddressing) (m : bytes) : bytes :=
  match g with
  | Blake3_256 => Blake3.blake3_256 m
  | Blake3_512 => Blake3.blake3_512 m
  | Blake2B512 | SHA3_512 | SHA2_512 => repeat x00 64
  | _ => repeat x00 32
  end.
(** What serde_json, blake3, ed25519_dalek and chrono do; no other format than JSON, no ECDSA. *)
Definition real0 : Env :=
  mkEnv real_digest Ed25519.ed25519_verify (fun _ _ _ => false) (fun _ => Err ESerialization) (fun _ => Err ESerialization)
    (fun _ => Err ESerialization) (fun _ => Err ESerialization) (fun _ => Err ESerialization) (fun _ => Err ESerialization).
Definition real : Env := with_json_q Clock.rfc_write real0.
(** [SerHex::<Compact>] on texts of the length it can have *)
Definition real_hex (s : bytes) : option N := match parse_radix 16 u64_max s with Ok n => Some n | _ => None end.
Definition no_reader {A} (_ : bytes) : pres A := PErr.
Definition real_read : bytes -> pres EventType := read_event_type_q real_hex Clock.rfc_read no_reader no_reader no_reader no_reader.
(** [signed_message(raw).unwrap().1], [Message::try_from(_).unwrap()] *)
Definition parsed (raw : bytes) : out Message :=
  match signed_message real_read raw with POk _ d => to_message d | _ => Err ESerialization end.
Definition parsed_stream (raw : bytes) : out (list Message) :=
  match signed_event_stream real_read raw with
  | POk [] l => omapm to_message l
  | _ => Err ESerialization
  end.
(** A node that is given the messages one by one; the outcomes in order. *)
Fixpoint feed (d : Db) (ms : list Message) : Db * list (out (option IdentifierState)) :=
  match ms with
  | [] => (d, [])
  | m :: r => let '(d1, o) := process real d m in let '(d2, os) := feed d1 r in (d2, o :: os)
  end.
