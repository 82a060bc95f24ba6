(** * Json: what [serde] writes for events, receipts and signed events.

    Modelled: the [Serialize] implementations of [EventMessage] and of everything inside it,
    [serde_json::to_vec] (used by [SerializationFormats::JSON.encode],
    serialization_info.rs:13-20) and the crate's own [KeriJsonSerializer]
    (event_message/serializer.rs).  Not modelled: CBOR and MessagePack. *)
From Verif Require Import Base Base64 Codes NumFmt Types KeyConf Version Cesr Message Keri.

(** The calls a [Serialize] implementation makes on a serializer: a string, a sequence, a
    map ([serialize_map]: what [derive] produces for a struct with flattened parts), a
    struct ([serialize_struct]: a struct without flattened parts) and an absent value. *)
(** serde's data model, as the [Serialize] impls of /repo use it *)
Inductive sval :=
| VStr (s : bytes)
| VSeq (l : list sval)
| VMap (l : list (bytes * sval))
| VStruct (l : list (bytes * sval))
| VNull.

(** ** [serde_json] (compact formatter) *)
(** crate serde_json *)
Definition hex4 (n : N) : bytes := pad0 4 (fmt_hex n).
(** [serde_json::ser::ESCAPE] and [write_char_escape] *)
(** crate serde_json *)
Definition esc (c : byte) : bytes :=
  let n := b2n c in
  if (n =? 34)%N then bstr "\""" else
  if (n =? 92)%N then bstr "\\" else
  if (n =? 8)%N then bstr "\b" else
  if (n =? 9)%N then bstr "\t" else
  if (n =? 10)%N then bstr "\n" else
  if (n =? 12)%N then bstr "\f" else
  if (n =? 13)%N then bstr "\r" else
  if (n <? 32)%N then bstr "\u" ++ hex4 n else [c].
(** crate serde_json *)
Definition quote (s : bytes) : bytes := bstr """" ++ flat_map esc s ++ bstr """".
(** crate serde_json; event_message/serialization_info.rs:16 *)
Fixpoint json (v : sval) : bytes :=
  match v with
  | VStr s => quote s
  | VSeq l => bstr "[" ++ join (bstr ",") (map json l) ++ bstr "]"
  | VMap l | VStruct l =>
      bstr "{" ++ join (bstr ",") (map (fun kv => quote (fst kv) ++ bstr ":" ++ json (snd kv)) l) ++ bstr "}"
  | VNull => bstr "null"
  end.

(** ** [KeriJsonSerializer] (serializer.rs); the argument and the result are its [output] *)
Definition ends_in (o : bytes) (c : byte) : bool :=
  match rev o with x :: _ => if Byte.byte_eq_dec x c then true else false | [] => false end.
(** serializer.rs:82-91 [serialize_str]; nothing is escaped *)
Definition starts_dash (s : bytes) : bool :=
  match s with c :: _ => if Byte.byte_eq_dec c "-"%byte then true else false | [] => false end.
Definition kstr (s : bytes) : bytes := if starts_dash s then s else bstr """" ++ s ++ bstr """".
(** serializer.rs:204-224 (sequences), 294-322 (maps), 325-358 (structs), 102-116 (absent) *)
Fixpoint kser (v : sval) (o : bytes) : bytes :=
  match v with
  | VStr s => o ++ kstr s
  | VSeq l =>
      fold_left (fun o v => kser v (if ends_in o "["%byte then o else o ++ bstr ",")) l (o ++ bstr "[") ++ bstr "]"
  | VMap l =>
      fold_left (fun o kv => kser (snd kv) ((if ends_in o "{"%byte then o else o ++ bstr ",") ++ kstr (fst kv) ++ bstr ":"))
        l (o ++ bstr "{") ++ bstr "}"
  | VStruct l =>
      fold_left (fun o kv =>
        if starts_dash (fst kv) then kser (snd kv) o
        else
          let o1 := if ends_in o "{"%byte || (List.length o =? 0) then o else o ++ bstr ",{" in
          let o2 := match fst kv with [] => o1 | k => o1 ++ kstr k end in
          let o3 := kser (snd kv) o2 in
          if ends_in o3 "}"%byte then o3 else o3 ++ bstr "}") l o
  | VNull => o ++ bstr "null"
  end.
(** serializer.rs:10-19 [to_string] *)
Definition keri_to_string (v : sval) : bytes := kser v [].

(** ** Fields *)
(** one field of a derived [Serialize] *)
Definition fld (k : string) (v : sval) : bytes * sval := (bstr k, v).
(** one field of a derived [Serialize] *)
Definition sfld (k : string) (s : bytes) : bytes * sval := fld k (VStr s).
(** event_message/mod.rs:26-39 [EventTypeTag], lower case *)
Definition tag_str (t : EventTypeTag) : bytes :=
  bstr match t with
       | TIcp => "icp" | TRot => "rot" | TIxn => "ixn" | TDip => "dip" | TDrt => "drt"
       | TRct => "rct" | TRpy => "rpy" | TQry => "qry"
       end.
(** threshold.rs:57-81, 137, 172: untagged; a number is compact lower case hex ([SerHex]) *)
Definition clause_val (c : ThresholdClause) : sval := VSeq (map (fun f => VStr (frac_str f)) c).
Definition threshold_val (t : SignatureThreshold) : sval :=
  match t with
  | Simple n => VStr (fmt_hex n)
  | Weighted (WSingle c) => clause_val c
  | Weighted (WMulti cs) => VSeq (map clause_val cs)
  end.
(** every prefix is written as its text ([Serialize] in src/prefix) *)
Definition keys_val (l : list BasicPrefix) : sval := VSeq (map (fun k => VStr (bp_str k)) l).
(** key_config.rs:11-21, 143-152: no next digest is the empty string *)
Definition kc_fields (kc : KeyConfig) : list (bytes * sval) :=
  [fld "kt" (threshold_val (kc_threshold kc)); fld "k" (keys_val (kc_keys kc));
   sfld "n" (match kc_next kc with Some d => sap_str d | None => [] end)].
(** seal.rs:5-58, untagged *)
Definition seal_val (s : Seal) : sval :=
  match s with
  | SealLocation l =>
      VStruct [sfld "i" (id_str (ls_prefix l)); sfld "s" (fmt_hex (ls_sn l)); sfld "t" (ls_ilk l); sfld "p" (sap_str (ls_prior l))]
  | SealEvent e =>
      VStruct [sfld "i" (id_str (es_prefix e)); sfld "s" (fmt_hex (es_sn e)); sfld "d" (sap_str (es_digest e))]
  | SealDigest d => VStruct [sfld "d" (sap_str d)]
  | SealRoot d => VStruct [sfld "rd" (sap_str d)]
  end.
Definition seals_fld (l : list Seal) : bytes * sval := fld "a" (VSeq (map seal_val l)).
(** inception.rs:21-34 *)
Definition icp_fields (e : InceptionEvent) : list (bytes * sval) :=
  kc_fields (icp_kc e)
  ++ [sfld "bt" (fmt_hex (iwc_tally (icp_wc e))); fld "b" (keys_val (iwc_witnesses (icp_wc e)));
      fld "c" (VSeq (map VStr (icp_config e))); seals_fld (icp_data e)].
(** rotation.rs:13-26 *)
Definition rot_fields (e : RotationEvent) : list (bytes * sval) :=
  sfld "p" (sap_str (rot_prev e)) :: kc_fields (rot_kc e)
  ++ [sfld "bt" (fmt_hex (wc_tally (rot_wc e))); fld "br" (keys_val (wc_prune (rot_wc e)));
      fld "ba" (keys_val (wc_graft (rot_wc e))); seals_fld (rot_data e)].
(** event_data/mod.rs:22-30 (untagged), interaction.rs:8-15, delegated/mod.rs:15-22 *)
Definition data_fields (d : EventData) : list (bytes * sval) :=
  match d with
  | Icp e => icp_fields e
  | Rot e | Drt e => rot_fields e
  | Ixn e => [sfld "p" (sap_str (ixn_prev e)); seals_fld (ixn_data e)]
  | Dip e => icp_fields (dip_icp e) ++ [sfld "di" (id_str (dip_delegator e))]
  end.
(** the common head: version, type, digest *)
Definition head_fields (v : SerializationInfo) (t : EventTypeTag) (d : bytes) : list (bytes * sval) :=
  [sfld "v" (si_str v); sfld "t" (tag_str t); sfld "d" d].
(** event/mod.rs:15-25 *)
Definition event_fields (p : IdentifierPrefix) (sn : N) (d : EventData) : list (bytes * sval) :=
  sfld "i" (id_str p) :: sfld "s" (fmt_hex sn) :: data_fields d.
(** event_message/mod.rs:95-125 [Serialize for EventMessage] *)
Definition event_val (m : EventMessage) : sval :=
  VMap (head_fields (em_info m) (event_type (em_data m)) (sap_str (em_digest m))
        ++ event_fields (em_prefix m) (em_sn m) (em_data m)).
(** the same for [EventMessage<Receipt>] (receipt.rs:13-29, 48-58) *)
Definition receipt_val (r : ReceiptMessage) : sval :=
  VMap (head_fields (rct_info r) TRct (sap_str (rct_digest r))
        ++ [sfld "i" (id_str (rct_prefix r)); sfld "s" (fmt_hex (rct_sn r))]).
(** signed_event_message.rs:44-65: the human readable branch; [sigs] is the text of the
    attached signatures *)
Definition signed_val (m : EventMessage) (sigs : bytes) : sval :=
  VStruct [(bstr "", event_val m); (bstr "-", VStr sigs)].

(** ** Dummy events (dummy_event.rs) *)
(** dummy_event.rs:14-16 *)
Definition dummy_prefix (g : SelfAddressing) : bytes := repeat "#"%byte (sa_code_len g + sa_b64_len g).
(** dummy_event.rs:21-36 *)
Definition dummy_icp_val (v : SerializationInfo) (g : SelfAddressing) (d : EventData) : sval :=
  VMap (head_fields v (event_type d) (dummy_prefix g)
        ++ sfld "i" (dummy_prefix g) :: sfld "s" (fmt_hex 0) :: data_fields d).
(** dummy_event.rs:82-92 with [T = Event] *)
Definition dummy_event_val (v : SerializationInfo) (g : SelfAddressing) (p : IdentifierPrefix) (sn : N)
    (d : EventData) : sval :=
  VMap (head_fields v (event_type d) (dummy_prefix g) ++ event_fields p sn d).
(** dummy_event.rs:55-75 [derive_data]: with its own size *)
Definition dummy_icp_sized (f : SerializationFormats) (g : SelfAddressing) (d : EventData) : sval :=
  dummy_icp_val (si_new f (List.length (json (dummy_icp_val (si_new f 0) g d)))) g d.

(** ** The environment of a node that speaks JSON.  The other two formats stay external. *)
(** key_event_message.rs:63-82 [to_derivation_data] *)
Definition json_deriv (m : EventMessage) : bytes :=
  let g := sap_code (em_digest m) in
  match em_data m with
  | Icp _ | Dip _ => json (dummy_icp_sized JSON g (em_data m))
  | d => json (dummy_event_val (em_info m) g (em_prefix m) (em_sn m) d)
  end.
Definition with_json (E : Env) : Env :=
  mkEnv (e_digest E) (e_verify_ed E) (e_verify_ecdsa E)
    (fun m => match si_kind (em_info m) with JSON => Ok (json (event_val m)) | _ => e_ser_event E m end)
    (fun se => let? sigs := to_cesr (AttachedSignatures (sem_sigs se)) in
               Ok (keri_to_string (signed_val (sem_msg se) sigs)))
    (fun m => match si_kind (em_info m) with JSON => Ok (json_deriv m) | _ => e_deriv_data E m end)
    (e_ser_reply E) (e_deriv_reply E) (e_ser_query E).
(** dummy_event.rs:77-79, 128-130; receipts: event_message/mod.rs:202-204 *)
Definition with_json_k (K : KEnv) : KEnv :=
  mkKEnv
    (fun v g p sn d => match si_kind v with JSON => Ok (json (dummy_event_val v g p sn d)) | _ => k_dummy_event K v g p sn d end)
    (fun v g d => match si_kind v with JSON => Ok (json (dummy_icp_val v g d)) | _ => k_dummy_icp K v g d end)
    (fun r => match si_kind (rct_info r) with JSON => Ok (json (receipt_val r)) | _ => k_ser_rct K r end)
    (k_ser_state K) (k_parse K) (k_sign_ed K).
