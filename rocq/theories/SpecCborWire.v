(** * SpecCborWire: vocabulary of C122 and C123. *)
From Verif Require Import Base Base64 Codes NumFmt Types SpecCodec KeyConf Version Cesr SpecCesr Message Keri Json JsonRead SpecJson.

(** The MessagePack reader refuses what begins with the byte 191: it begins a map in CBOR and a
    text string in MessagePack, and messages are maps. *)
Definition refuses_map {A} (p : bytes -> pres A) : Prop := forall s, p (xbf :: s) = PErr.
(** A stored signed event as in [sendable] (SpecJson.v), of whatever format. *)
Definition travels (e : SignedEventMessage) : Prop :=
  event_readable (sem_msg e) /\ data_seals (em_data (sem_msg e)) = []
  /\ Forall simple_text (data_config (em_data (sem_msg e)))
  /\ att_fits (AttachedSignatures (sem_sigs e)) /\ att_small (AttachedSignatures (sem_sigs e)) /\ sem_seal e = None.
(** An event or receipt in JSON or CBOR whose parts read back, smaller than 2^64. *)
Definition type_readable (e : EventType) : Prop :=
  match e with KeyEventT m => event_readable m | ReceiptT r => receipt_readable r | _ => False end.
Definition type_kind (e : EventType) : option SerializationFormats :=
  match e with KeyEventT m => Some (si_kind (em_info m)) | ReceiptT r => Some (si_kind (rct_info r)) | _ => None end.
Definition addressable (t : bytes) : Prop := (N.of_nat (List.length t) <= u64_max)%N.
