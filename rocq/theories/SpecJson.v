(** * SpecJson: vocabulary for the properties of the JSON text of events.  Only data of
    events; nothing about writing or reading. *)
From Verif Require Import Base Base64 Codes NumFmt Types SpecCodec Cesr SpecCesr.

(** ** The parts of an event *)
Definition opt_list {A} (o : option A) : list A := match o with Some a => [a] | None => [] end.
Definition data_seals (d : EventData) : list Seal :=
  match d with
  | Icp e => icp_data e | Dip e => icp_data (dip_icp e) | Rot e | Drt e => rot_data e | Ixn e => ixn_data e
  end.
Definition data_kc (d : EventData) : option KeyConfig :=
  match d with
  | Icp e => Some (icp_kc e) | Dip e => Some (icp_kc (dip_icp e)) | Rot e | Drt e => Some (rot_kc e) | Ixn _ => None
  end.
(** every key: signing keys, witnesses *)
Definition data_keys (d : EventData) : list BasicPrefix :=
  flat_map kc_keys (opt_list (data_kc d))
  ++ match d with
     | Icp e => iwc_witnesses (icp_wc e) | Dip e => iwc_witnesses (icp_wc (dip_icp e))
     | Rot e | Drt e => wc_prune (rot_wc e) ++ wc_graft (rot_wc e)
     | Ixn _ => []
     end.
Definition seal_digest (s : Seal) : SelfAddressingPrefix :=
  match s with SealLocation l => ls_prior l | SealEvent e => es_digest e | SealDigest d | SealRoot d => d end.
(** every digest other than the event's own: next keys, previous event, seals *)
Definition data_digests (d : EventData) : list SelfAddressingPrefix :=
  flat_map (fun kc => opt_list (kc_next kc)) (opt_list (data_kc d))
  ++ match d with Rot e | Drt e => [rot_prev e] | Ixn e => [ixn_prev e] | _ => [] end
  ++ map seal_digest (data_seals d).
Definition seal_ids (s : Seal) : list IdentifierPrefix :=
  match s with SealLocation l => [ls_prefix l] | SealEvent e => [es_prefix e] | _ => [] end.
Definition data_ids (d : EventData) : list IdentifierPrefix :=
  match d with Dip e => [dip_delegator e] | _ => [] end ++ flat_map seal_ids (data_seals d).
Definition seal_numbers (s : Seal) : list N :=
  match s with SealLocation l => [ls_sn l] | SealEvent e => [es_sn e] | _ => [] end.
Definition data_numbers (d : EventData) : list N :=
  match d with
  | Icp e => [iwc_tally (icp_wc e)] | Dip e => [iwc_tally (icp_wc (dip_icp e))]
  | Rot e | Drt e => [wc_tally (rot_wc e)] | Ixn _ => []
  end ++ flat_map seal_numbers (data_seals d).
Definition data_thresholds (d : EventData) : list SignatureThreshold := map kc_threshold (opt_list (data_kc d)).
(** free text: configuration traits, types named in location seals *)
Definition data_strings (d : EventData) : list bytes :=
  match d with Icp e => icp_config e | Dip e => icp_config (dip_icp e) | _ => [] end
  ++ flat_map (fun s => match s with SealLocation l => [ls_ilk l] | _ => [] end) (data_seals d).

(** A [String] of Rust: UTF-8. *)
Definition rust_string (s : bytes) : Prop := valid_utf8 s = true.
Definition version_ok (v : SerializationInfo) : Prop := (si_major v < 16)%N /\ (si_minor v < 16)%N.

(** ** Events whose parts all have a text of their own: no empty key or digest, no keyed
    Blake2, and a weighted threshold with several clauses has at least one clause *)
Definition bp_named (p : BasicPrefix) : Prop := bp_key p <> [].
Definition sap_named (p : SelfAddressingPrefix) : Prop := sap_digest p <> [] /\ unkeyed (sap_code p) = sap_code p.
Definition data_named (d : EventData) : Prop :=
  Forall bp_named (data_keys d) /\ Forall sap_named (data_digests d) /\ Forall id_ok (data_ids d)
  /\ Forall rust_string (data_strings d) /\ ~ In (Weighted (WMulti [])) (data_thresholds d).
Definition event_named (m : EventMessage) : Prop :=
  version_ok (em_info m) /\ sap_named (em_digest m) /\ id_ok (em_prefix m) /\ data_named (em_data m).

(** ** Events that a receiver can read: every key, digest and identifier has the size of its
    algorithm, no ECDSA keys, numbers fit 64 bits, fractions are reduced *)
Definition bp_readable (p : BasicPrefix) : Prop := bp_sized p /\ is_ecdsa (bp_code p) = false.
Definition sap_readable (p : SelfAddressingPrefix) : Prop := sap_sized p /\ unkeyed (sap_code p) = sap_code p.
Definition id_readable (p : IdentifierPrefix) : Prop := id_sized p /\ id_not_ecdsa p /\ id_unkeyed p = p.
Definition u64 (n : N) : Prop := (n <= u64_max)%N.
Definition frac_readable (f : frac) : Prop :=
  match f with FRat n d => u64 n /\ u64 d /\ (0 < d)%N /\ N.gcd n d = 1%N | _ => False end.
Definition threshold_readable (t : SignatureThreshold) : Prop :=
  match t with
  | Simple n => u64 n
  | Weighted (WSingle c) => Forall frac_readable c
  | Weighted (WMulti cs) => cs <> [] /\ Forall (Forall frac_readable) cs
  end.
Definition data_readable (d : EventData) : Prop :=
  Forall bp_readable (data_keys d) /\ Forall sap_readable (data_digests d) /\ Forall id_readable (data_ids d)
  /\ Forall u64 (data_numbers d) /\ Forall threshold_readable (data_thresholds d) /\ Forall rust_string (data_strings d).
Definition version_readable (v : SerializationInfo) : Prop := version_ok v /\ (si_size v <= u16_max)%N.
Definition event_readable (m : EventMessage) : Prop :=
  version_readable (em_info m) /\ sap_readable (em_digest m) /\ id_readable (em_prefix m) /\ u64 (em_sn m)
  /\ data_readable (em_data m).
Definition receipt_readable (r : ReceiptMessage) : Prop :=
  version_readable (rct_info r) /\ sap_readable (rct_digest r) /\ id_readable (rct_prefix r) /\ u64 (rct_sn r).

(** ** Text that needs no escaping: printable, no quote, no backslash *)
Definition plain_char (c : byte) : Prop := (32 <= b2n c)%N /\ b2n c <> 34%N /\ b2n c <> 92%N.
Definition plain (s : bytes) : Prop := Forall plain_char s.

(** ** External readers *)
(** [serde_hex] reads the compact hex numbers it writes. *)
Definition reads_hex (hx : bytes -> option N) : Prop := forall n, u64 n -> hx (fmt_hex n) = Some n.
(** The CBOR and MessagePack readers refuse the empty input and a text that begins with a
    brace (123 begins a text string in CBOR and is a number in MessagePack; the messages are
    maps). *)
Definition refuses_text {A} (p : bytes -> pres A) : Prop := p [] = PErr /\ forall s, p (bstr "{" ++ s) = PErr.
(** Text that needs no escaping and does not begin with a dash. *)
Definition simple_text (s : bytes) : Prop := rust_string s /\ plain s /\ forall t, s <> bstr "-" ++ t.
Definition data_config (d : EventData) : list bytes :=
  match d with Icp e => icp_config e | Dip e => icp_config (dip_icp e) | _ => [] end.
(** ** Signed events that can be sent as part of a log: readable, JSON, without seals, simple
    configuration traits, signatures that can be written; as stored (without source seal) *)
Definition sendable (e : SignedEventMessage) : Prop :=
  event_readable (sem_msg e) /\ si_kind (em_info (sem_msg e)) = JSON /\ data_seals (em_data (sem_msg e)) = []
  /\ Forall simple_text (data_config (em_data (sem_msg e)))
  /\ att_fits (AttachedSignatures (sem_sigs e)) /\ att_small (AttachedSignatures (sem_sigs e)) /\ sem_seal e = None.

(** ** Parts that read back from their own text *)
Definition bp_stable (p : BasicPrefix) : Prop := bp_from (bp_str p) = Ok p.
Definition sap_stable (p : SelfAddressingPrefix) : Prop := sap_from (sap_str p) = Ok p.
Definition id_stable (p : IdentifierPrefix) : Prop := id_from (id_str p) = Ok p.
Definition event_stable (m : EventMessage) : Prop :=
  version_readable (em_info m) /\ sap_stable (em_digest m) /\ id_stable (em_prefix m) /\ u64 (em_sn m)
  /\ Forall bp_stable (data_keys (em_data m)) /\ Forall sap_stable (data_digests (em_data m)) /\ Forall id_stable (data_ids (em_data m))
  /\ Forall u64 (data_numbers (em_data m)) /\ Forall threshold_readable (data_thresholds (em_data m)) /\ Forall rust_string (data_strings (em_data m)).
(** thresholds without fractions over zero *)
Definition finite (t : SignatureThreshold) : Prop :=
  match t with
  | Simple _ => True
  | Weighted (WSingle c) => Forall (fun f => exists n d, f = FRat n d) c
  | Weighted (WMulti cs) => Forall (Forall (fun f => exists n d, f = FRat n d)) cs
  end.
(** what [serde_hex] reads are 64-bit numbers *)
Definition hex_u64 (hx : bytes -> option N) : Prop := forall s n, hx s = Some n -> u64 n.
