(** * SpecJsonQ: vocabulary for the JSON text of queries and key state replies.  Only data of
    the messages; nothing about writing or reading them. *)
From Verif Require Import Base Base64 Codes NumFmt Types SpecCodec Cesr SpecCesr SpecJson.

Definition route_ids (r : Route) : list IdentifierPrefix := match r with RReplyKsn i => [i] | _ => [] end.
(** [chrono] writes an instant as a text with microseconds that it reads back; the rest of
    the instant does not show in the text *)
Definition micros (t : Z) : Z := (t / 1000 * 1000)%Z.
Definition instant_kept (tw : Z -> bytes) (tr : bytes -> option Z) (t : Z) : Prop :=
  rust_string (tw t) /\ tr (tw t) = Some (micros t) /\ tw (micros t) = tw t.
(** [serde_hex] reads a text of decimal digits as a hex number of 64 bits, or refuses it *)
Definition reads_digits (hx : bytes -> option N) : Prop :=
  forall s, s <> [] -> Forall (fun c => (48 <= b2n c <= 57)%N) s ->
    hx s = match parse_radix 16 u64_max s with Ok n => Some n | _ => None end.

(** ** Queries whose parts read back from their own texts *)
Definition query_stable (tw : Z -> bytes) (tr : bytes -> option Z) (q : QueryMessage) : Prop :=
  version_readable (q_info q) /\ sap_stable (q_digest q) /\ instant_kept tw tr (q_timestamp q)
  /\ Forall id_stable (route_ids (q_route q)) /\ rust_string (q_reply_route q) /\ id_stable (q_i q).
(** the same query with its time cut to microseconds *)
Definition query_at_micros (q : QueryMessage) : QueryMessage :=
  mkQry (q_info q) (q_digest q) (micros (q_timestamp q)) (q_route q) (q_reply_route q) (q_i q).

(** ** Replies whose parts, other than the numbers and the delegator of the notice, read back
    from their own texts *)
Definition state_digests (s : IdentifierState) : list SelfAddressingPrefix :=
  [st_last_digest s; le_digest (st_last_est s)] ++ opt_list (st_last_previous s) ++ opt_list (kc_next (st_current s)).
Definition state_keys (s : IdentifierState) : list BasicPrefix :=
  kc_keys (st_current s) ++ st_witnesses s ++ le_br (st_last_est s) ++ le_ba (st_last_est s).
Definition notice_stable (tw : Z -> bytes) (tr : bytes -> option Z) (k : KeyStateNotice) : Prop :=
  version_readable (ksn_info k) /\ instant_kept tw tr (ksn_timestamp k) /\ Forall rust_string (ksn_config k)
  /\ id_stable (st_prefix (ksn_state k)) /\ Forall sap_stable (state_digests (ksn_state k))
  /\ Forall bp_stable (state_keys (ksn_state k)) /\ threshold_readable (kc_threshold (st_current (ksn_state k)))
  /\ u64 (le_sn (st_last_est (ksn_state k))).
Definition reply_stable (tw : Z -> bytes) (tr : bytes -> option Z) (m : ReplyMessage) : Prop :=
  version_readable (rp_info m) /\ sap_stable (rp_digest m) /\ instant_kept tw tr (rp_timestamp m)
  /\ Forall id_stable (route_ids (rp_route m)) /\ notice_stable tw tr (rp_ksn m).
(** the same reply with its times cut to microseconds *)
Definition reply_at_micros (m : ReplyMessage) : ReplyMessage :=
  let k := rp_ksn m in
  mkReply (rp_info m) (rp_digest m) (micros (rp_timestamp m)) (rp_route m)
    (mkKsn (ksn_info k) (ksn_state k) (ksn_first_seen k) (micros (ksn_timestamp k)) (ksn_config k)).
(** the three numbers of a notice that are written in decimal *)
Definition notice_numbers (k : KeyStateNotice) : list N := [st_sn (ksn_state k); ksn_first_seen k; st_tally (ksn_state k)].
