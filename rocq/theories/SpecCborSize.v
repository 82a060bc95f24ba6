(** * SpecCborSize: making events in CBOR with the library's public functions. *)
From Verif Require Import Base Base64 Codes NumFmt Types KeyConf Version Cesr Message Keri Json JsonRead Cbor CborWire.

(** [m] was made in CBOR with the digest algorithm [g]: by [incept_self_addressing] of an
    inception or a delegated inception, or by [Event::to_message] *)
Inductive made_in_cbor (E : Env) (K : KEnv) (g : SelfAddressing) (m : EventMessage) : Prop :=
| by_icp e : incept_self_addressing (with_formats E) (with_formats_k K) (Icp e) g CBOR = Ok m -> made_in_cbor E K g m
| by_dip e : incept_self_addressing (with_formats E) (with_formats_k K) (Dip e) g CBOR = Ok m -> made_in_cbor E K g m
| by_event p sn data : event_to_message (with_formats E) (with_formats_k K) p sn data CBOR g = Ok m -> made_in_cbor E K g m.
