(** * CborWire: messages in CBOR (serialization_info.rs, event_parsing/message.rs).

    A message states its format in its version string; [EventMessage::serialize] writes that
    format, and these are the bytes that are signed and receipted.  This file fixes the CBOR
    format of key events and receipts, as the writer of [Cbor.v]; MessagePack and queries and
    replies in CBOR stay external.
    Simplifications, next to those of [Cbor.v]: a version string or prefix that makes its reader
    panic in a text that breaks off later is refused here (the code reads some members in place
    and panics first). *)
From Verif Require Import Base Base64 Codes NumFmt Types KeyConf Version Cesr Message Keri Json JsonRead JsonQuery Cbor.

(** dummy_event.rs:55-75 [derive_data] *)
Definition dummy_icp_sized_cbor (g : SelfAddressing) (d : EventData) : sval :=
  dummy_icp_val (si_new CBOR (List.length (cbor (dummy_icp_val (si_new CBOR 0) g d)))) g d.
(** key_event_message.rs:63-82 [to_derivation_data] *)
Definition cbor_deriv (m : EventMessage) : bytes :=
  let g := sap_code (em_digest m) in
  match em_data m with
  | Icp _ | Dip _ => cbor (dummy_icp_sized_cbor g (em_data m))
  | d => cbor (dummy_event_val (em_info m) g (em_prefix m) (em_sn m) d)
  end.
(** serialization_info.rs:14-20 [encode] as called by event_message/mod.rs:202-204 *)
Definition with_cbor (E : Env) : Env :=
  mkEnv (e_digest E) (e_verify_ed E) (e_verify_ecdsa E)
    (fun m => match si_kind (em_info m) with CBOR => Ok (cbor (event_val m)) | _ => e_ser_event E m end)
    (e_ser_signed E)
    (fun m => match si_kind (em_info m) with CBOR => Ok (cbor_deriv m) | _ => e_deriv_data E m end)
    (e_ser_reply E) (e_deriv_reply E) (e_ser_query E).
(** dummy_event.rs:77-79, 128-130; receipts: event_message/mod.rs:202-204 *)
Definition with_cbor_k (K : KEnv) : KEnv :=
  mkKEnv
    (fun v g p sn d => match si_kind v with CBOR => Ok (cbor (dummy_event_val v g p sn d)) | _ => k_dummy_event K v g p sn d end)
    (fun v g d => match si_kind v with CBOR => Ok (cbor (dummy_icp_val v g d)) | _ => k_dummy_icp K v g d end)
    (fun r => match si_kind (rct_info r) with CBOR => Ok (cbor (receipt_val r)) | _ => k_ser_rct K r end)
    (k_ser_state K) (k_parse K) (k_sign_ed K).
(** The environment of a node that speaks JSON and CBOR: event_message/mod.rs:195-204. *)
Definition with_formats (E : Env) : Env := with_json (with_cbor E).
Definition with_formats_k (K : KEnv) : KEnv := with_json_k (with_cbor_k K).

(** event_parsing/message.rs:36-42 [cbor_message]: the first value of the input, and what
    follows it *)
Definition cbor_message {D} (read : SerializationInfo -> list (bytes * jval) -> out D) (s : bytes) : pres D :=
  match read_cbor (2 * List.length s + 2) 128 s with
  | Some (v, rest) =>
      match as_message read v with
      | Ok e => POk rest e
      | Err _ => PErr
      | Panic => PPanic
      end
  | None => PErr
  end.
(** event_parsing/message.rs:52-66, 97-98: JSON, then CBOR, then MessagePack ([mk], [mr]) *)
Definition read_formats (hx : bytes -> option N) (mk : bytes -> pres EventMessage) (mr : bytes -> pres ReceiptMessage) : bytes -> pres EventType :=
  read_event_type hx (palt (cbor_message (read_key_event hx)) mk) (palt (cbor_message (read_receipt hx)) mr).
(** event_parsing/mod.rs:146-158 [EventType::serialize] in either format *)
Definition ser_formats (e : EventType) : out bytes :=
  match e with
  | KeyEventT m => match si_kind (em_info m) with JSON => Ok (json (event_val m)) | CBOR => Ok (cbor (event_val m)) | MGPK => Err ESerialization end
  | ReceiptT r => match si_kind (rct_info r) with JSON => Ok (json (receipt_val r)) | CBOR => Ok (cbor (receipt_val r)) | MGPK => Err ESerialization end
  | _ => Err ESerialization
  end.
