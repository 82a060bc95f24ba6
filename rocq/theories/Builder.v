(** * Builder: the setters of [EventMsgBuilder] ([src/event_message/event_msg_builder.rs:76-146]).

    [build] is in [Keri.v].  A use of the builder is a list of settings, applied in order to
    what [new] returns.  There is no setter for the witness threshold, the serialization
    format or the digest algorithm. *)
From Verif Require Import Base Base64 Codes NumFmt Types KeyConf State Db Processor Cesr Message Keri.

(** event_msg_builder.rs:76-81 *)
Definition with_prefix (p : IdentifierPrefix) (b : Builder) : Builder :=
  mkB (b_type b) p (b_sn b) (b_threshold b) (b_next_threshold b) (b_keys b) (b_next_keys b) (b_prev b) (b_data b)
      (b_delegator b) (b_tally b) (b_witnesses b) (b_add b) (b_remove b) (b_format b) (b_derivation b).
(** event_msg_builder.rs:83-85 *)
Definition with_keys (ks : list BasicPrefix) (b : Builder) : Builder :=
  mkB (b_type b) (b_prefix b) (b_sn b) (b_threshold b) (b_next_threshold b) ks (b_next_keys b) (b_prev b) (b_data b)
      (b_delegator b) (b_tally b) (b_witnesses b) (b_add b) (b_remove b) (b_format b) (b_derivation b).
(** event_msg_builder.rs:87-89 *)
Definition with_next_keys (ks : list BasicPrefix) (b : Builder) : Builder :=
  mkB (b_type b) (b_prefix b) (b_sn b) (b_threshold b) (b_next_threshold b) (b_keys b) ks (b_prev b) (b_data b)
      (b_delegator b) (b_tally b) (b_witnesses b) (b_add b) (b_remove b) (b_format b) (b_derivation b).
(** event_msg_builder.rs:91-93 *)
Definition with_sn (sn : N) (b : Builder) : Builder :=
  mkB (b_type b) (b_prefix b) sn (b_threshold b) (b_next_threshold b) (b_keys b) (b_next_keys b) (b_prev b) (b_data b)
      (b_delegator b) (b_tally b) (b_witnesses b) (b_add b) (b_remove b) (b_format b) (b_derivation b).
(** event_msg_builder.rs:94-99 *)
Definition with_previous_event (g : SelfAddressingPrefix) (b : Builder) : Builder :=
  mkB (b_type b) (b_prefix b) (b_sn b) (b_threshold b) (b_next_threshold b) (b_keys b) (b_next_keys b) g (b_data b)
      (b_delegator b) (b_tally b) (b_witnesses b) (b_add b) (b_remove b) (b_format b) (b_derivation b).
(** event_msg_builder.rs:101-104: the seals are appended *)
Definition with_seal (s : list Seal) (b : Builder) : Builder :=
  mkB (b_type b) (b_prefix b) (b_sn b) (b_threshold b) (b_next_threshold b) (b_keys b) (b_next_keys b) (b_prev b)
      (b_data b ++ s)
      (b_delegator b) (b_tally b) (b_witnesses b) (b_add b) (b_remove b) (b_format b) (b_derivation b).
(** event_msg_builder.rs:106-111 *)
Definition with_delegator (p : IdentifierPrefix) (b : Builder) : Builder :=
  mkB (b_type b) (b_prefix b) (b_sn b) (b_threshold b) (b_next_threshold b) (b_keys b) (b_next_keys b) (b_prev b) (b_data b)
      p (b_tally b) (b_witnesses b) (b_add b) (b_remove b) (b_format b) (b_derivation b).
(** event_msg_builder.rs:113-118 *)
Definition with_threshold (t : SignatureThreshold) (b : Builder) : Builder :=
  mkB (b_type b) (b_prefix b) (b_sn b) t (b_next_threshold b) (b_keys b) (b_next_keys b) (b_prev b) (b_data b)
      (b_delegator b) (b_tally b) (b_witnesses b) (b_add b) (b_remove b) (b_format b) (b_derivation b).
(** event_msg_builder.rs:120-125 *)
Definition with_next_threshold (t : SignatureThreshold) (b : Builder) : Builder :=
  mkB (b_type b) (b_prefix b) (b_sn b) (b_threshold b) t (b_keys b) (b_next_keys b) (b_prev b) (b_data b)
      (b_delegator b) (b_tally b) (b_witnesses b) (b_add b) (b_remove b) (b_format b) (b_derivation b).
(** event_msg_builder.rs:127-132 *)
Definition with_witness_list (ws : list BasicPrefix) (b : Builder) : Builder :=
  mkB (b_type b) (b_prefix b) (b_sn b) (b_threshold b) (b_next_threshold b) (b_keys b) (b_next_keys b) (b_prev b) (b_data b)
      (b_delegator b) (b_tally b) ws (b_add b) (b_remove b) (b_format b) (b_derivation b).
(** event_msg_builder.rs:134-139 *)
Definition with_witness_to_add (ws : list BasicPrefix) (b : Builder) : Builder :=
  mkB (b_type b) (b_prefix b) (b_sn b) (b_threshold b) (b_next_threshold b) (b_keys b) (b_next_keys b) (b_prev b) (b_data b)
      (b_delegator b) (b_tally b) (b_witnesses b) ws (b_remove b) (b_format b) (b_derivation b).
(** event_msg_builder.rs:141-146 *)
Definition with_witness_to_remove (ws : list BasicPrefix) (b : Builder) : Builder :=
  mkB (b_type b) (b_prefix b) (b_sn b) (b_threshold b) (b_next_threshold b) (b_keys b) (b_next_keys b) (b_prev b) (b_data b)
      (b_delegator b) (b_tally b) (b_witnesses b) (b_add b) ws (b_format b) (b_derivation b).

(** One call of a setter. *)
(** event_message/event_msg_builder.rs:76-146 *)
Inductive Setting :=
| SPrefix (p : IdentifierPrefix) | SKeys (ks : list BasicPrefix) | SNextKeys (ks : list BasicPrefix)
| SSn (n : N) | SPrevious (g : SelfAddressingPrefix) | SSeals (s : list Seal) | SDelegator (p : IdentifierPrefix)
| SThreshold (t : SignatureThreshold) | SNextThreshold (t : SignatureThreshold)
| SWitnesses (ws : list BasicPrefix) | SAdd (ws : list BasicPrefix) | SRemove (ws : list BasicPrefix).
(** the call *)
(** event_message/event_msg_builder.rs:76-146 *)
Definition set_one (b : Builder) (s : Setting) : Builder :=
  match s with
  | SPrefix p => with_prefix p b | SKeys ks => with_keys ks b | SNextKeys ks => with_next_keys ks b
  | SSn n => with_sn n b | SPrevious g => with_previous_event g b | SSeals l => with_seal l b
  | SDelegator p => with_delegator p b | SThreshold t => with_threshold t b
  | SNextThreshold t => with_next_threshold t b | SWitnesses ws => with_witness_list ws b
  | SAdd ws => with_witness_to_add ws b | SRemove ws => with_witness_to_remove ws b
  end.
(** [EventMsgBuilder::new(t).with_..(..)....build()]; [pk], [npk] are the keys [new] generates *)
(** event_message/event_msg_builder.rs:49-234 *)
Definition build_with (E : Env) (K : KEnv) (t : EventTypeTag) (pk npk : bytes) (l : list Setting) : out EventMessage :=
  build E K (fold_left set_one l (builder_new E t pk npk)).
