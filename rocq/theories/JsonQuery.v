(** * JsonQuery: JSON text of queries and key state replies (feature [query]).

    Modelled: the [Serialize] and [Deserialize] implementations of [EventMessage<QueryEvent>]
    and [EventMessage<ReplyEvent>] with everything inside (src/query, state/mod.rs:10-56),
    and [signed_message]'s reader of a build with the feature (message.rs:68-99).
    External: [tw] and [tr], how [chrono] writes an instant with microseconds
    ([to_rfc3339_opts]) and reads one; [hx], the hex numbers of [serde_hex]; the CBOR and
    MessagePack readers.
    Simplifications: an instant is a number of nanoseconds, its offset is not kept;
    [{"icp":{}}] is not accepted for an event type (some versions of serde do). *)
From Verif Require Import Base Base64 Codes NumFmt Types KeyConf Version Cesr Message Keri Json JsonRead.

(** ** Writing *)
(** query/mod.rs:73-85 *)
Definition route_str (r : Route) : bytes :=
  match r with RLog => bstr "log" | RKsn => bstr "ksn" | RReplyKsn id => bstr "/ksn/" ++ id_str id end.
(** state/mod.rs:10-18 *)
Definition last_est_val (e : LastEst) : sval :=
  VStruct [sfld "s" (fmt_hex (le_sn e)); sfld "d" (sap_str (le_digest e)); fld "br" (keys_val (le_br e)); fld "ba" (keys_val (le_ba e))].
Definition opt_val {A} (f : A -> bytes) (o : option A) : sval := match o with Some a => VStr (f a) | None => VNull end.

Section Writing.
  Context (tw : Z -> bytes).
  (** key_state_notice.rs:28-58; numbers with [to_string], line 52 [unwrap] *)
  Definition notice_val (k : KeyStateNotice) : out sval :=
    let s := ksn_state k in
    match kc_next (st_current s) with
    | None => Panic
    | Some n => Ok (VStruct
        [sfld "v" (si_str (ksn_info k)); sfld "i" (id_str (st_prefix s)); sfld "s" (fmt_dec (st_sn s));
         fld "p" (opt_val sap_str (st_last_previous s)); sfld "d" (sap_str (st_last_digest s));
         sfld "f" (fmt_dec (ksn_first_seen k)); sfld "dt" (tw (ksn_timestamp k));
         fld "et" (opt_val tag_str (st_last_type s)); fld "kt" (threshold_val (kc_threshold (st_current s)));
         fld "k" (keys_val (kc_keys (st_current s))); sfld "n" (sap_str n);
         sfld "bt" (fmt_dec (st_tally s)); fld "b" (keys_val (st_witnesses s));
         fld "c" (VSeq (map VStr (ksn_config k))); fld "ee" (last_est_val (st_last_est s));
         sfld "di" (id_str (match st_delegator s with Some i => i | None => id_default end))])
    end.
  (** query/mod.rs:22-39 [Envelope] *)
  Definition envelope_fields (t : Z) (r : Route) : list (bytes * sval) := [sfld "dt" (tw t); sfld "r" (route_str r)].
  (** query/query.rs:14-26 *)
  Definition query_fields (q : QueryMessage) : list (bytes * sval) :=
    envelope_fields (q_timestamp q) (q_route q)
    ++ [sfld "rr" (q_reply_route q); fld "q" (VStruct [sfld "i" (id_str (q_i q))])].
  (** query/reply.rs:18-22 *)
  Definition reply_fields (m : ReplyMessage) : out (list (bytes * sval)) :=
    let? a := notice_val (rp_ksn m) in
    Ok (envelope_fields (rp_timestamp m) (rp_route m) ++ [fld "a" a]).
  (** event_message/mod.rs:95-125 *)
  Definition query_val (q : QueryMessage) : sval :=
    VMap (head_fields (q_info q) TQry (sap_str (q_digest q)) ++ query_fields q).
  Definition reply_val (m : ReplyMessage) : out sval :=
    let? l := reply_fields m in Ok (VMap (head_fields (rp_info m) TRpy (sap_str (rp_digest m)) ++ l)).
  (** dummy_event.rs:80-130 with [T] an envelope: with its own size *)
  Definition dummy_val (v : SerializationInfo) (t : EventTypeTag) (g : SelfAddressing) (l : list (bytes * sval)) : sval :=
    VMap (head_fields v t (dummy_prefix g) ++ l).
  Definition dummy_sized (f : SerializationFormats) (t : EventTypeTag) (g : SelfAddressing) (l : list (bytes * sval)) : sval :=
    dummy_val (si_new f (List.length (json (dummy_val (si_new f 0) t g l)))) t g l.
  (** the environment of a node that speaks JSON, with queries *)
  Definition with_json_q (E : Env) : Env :=
    let E := with_json E in
    mkEnv (e_digest E) (e_verify_ed E) (e_verify_ecdsa E) (e_ser_event E) (e_ser_signed E) (e_deriv_data E)
      (fun m => match si_kind (rp_info m) with JSON => omap json (reply_val m) | _ => e_ser_reply E m end)
      (fun m => match si_kind (rp_info m) with
                | JSON => let? l := reply_fields m in Ok (json (dummy_sized JSON TRpy (sap_code (rp_digest m)) l))
                | _ => e_deriv_reply E m
                end)
      (fun q => match si_kind (q_info q) with JSON => Ok (json (query_val q)) | _ => e_ser_query E q end).
  (** query/query.rs:30-44 [new_query]; [t] is the clock.  CBOR and MessagePack are not modelled. *)
  Definition new_query (E : Env) (route : Route) (id : IdentifierPrefix) (g : SelfAddressing) (t : Z) : out QueryMessage :=
    let q := mkQry (si_new JSON 0) (mkSAP g []) t route (bstr "route") id in
    let d := dummy_sized JSON TQry g (query_fields q) in
    if digest_aborts g then Panic
    else Ok (mkQry (si_new JSON (List.length (json (dummy_val (si_new JSON 0) TQry g (query_fields q)))))
               (derive E g (json d)) t route (bstr "route") id).
End Writing.

(** ** Reading *)
(** A struct read in text order: the fields [fs] are read where they stand, a repeated one
    is an error, the other members are passed on. *)
(** serde; the derived [Deserialize] of src/query *)
Definition chk {A} (f : jval -> out A) (v : jval) : out unit := omap (fun _ => tt) (f v).
(** serde; the derived [Deserialize] of src/query *)
Definition own {A} (k : string) (f : jval -> out A) : string * (jval -> out unit) := (k, chk f).
(** serde; the derived [Deserialize] of src/query *)
Fixpoint owned (fs : list (string * (jval -> out unit))) (k : bytes) : option (jval -> out unit) :=
  match fs with
  | [] => None
  | (n, f) :: fs => if is k n then Some f else owned fs k
  end.
(** serde; the derived [Deserialize] of src/query *)
Fixpoint scan (fs : list (string * (jval -> out unit))) (seen : list bytes) (l : list (bytes * jval))
  : out (list (bytes * jval) * list (bytes * jval)) :=
  match l with
  | [] => Ok ([], [])
  | (k, v) :: l =>
      match owned fs k with
      | Some f =>
          if existsb (fun k' => if bytes_eq_dec k k' then true else false) seen then jerr
          else let? _ := f v in
               let? x := scan fs (k :: seen) l in
               let (mine, rest) := (x : list (bytes * jval) * list (bytes * jval)) in Ok ((k, v) :: mine, rest)
      | None =>
          let? x := scan fs seen l in
          let (mine, rest) := (x : list (bytes * jval) * list (bytes * jval)) in Ok (mine, (k, v) :: rest)
      end
  end.
(** the value of a field that was read, and of one that may be absent *)
(** serde; the derived [Deserialize] of src/query *)
Definition got {A} (f : jval -> out A) (l : list (bytes * jval)) (k : string) : out A := let? o := field f (jget l k) in need o.
(** serde; the derived [Deserialize] of src/query *)
Definition as_opt {A} (f : jval -> out A) (v : jval) : out (option A) :=
  match v with JNull => Ok None | v => let? a := f v in Ok (Some a) end.
(** serde; the derived [Deserialize] of src/query *)
Definition got_opt {A} (f : jval -> out A) (l : list (bytes * jval)) (k : string) : out (option A) :=
  match jget l k with None => Ok None | Some v => as_opt f v end.
(** serialization_info.rs [Deserialize]: the text is parsed *)
Definition as_si (v : jval) : out SerializationInfo := let? s := as_str v in custom (si_from s).
(** event_message/mod.rs:26-39 with the feature *)
Definition tag_from_q (s : bytes) : out EventTypeTag :=
  if is s "rpy" then Ok TRpy else if is s "qry" then Ok TQry else tag_from s.
Definition as_tag_q (v : jval) : out EventTypeTag :=
  match v with
  | JStr s => tag_from_q s
  | JObj [(k, JNull)] => tag_from_q k
  | _ => jerr
  end.
Definition starts (p s : bytes) : bool := match eat p s with Some _ => true | None => false end.
(** query/mod.rs:87-104: [s[5..].parse().unwrap()] *)
Definition route_from (s : bytes) : out Route :=
  if starts (bstr "/ksn/") s then
    match id_from (skipn 5 s) with Ok i => Ok (RReplyKsn i) | _ => Panic end
  else if is s "ksn" then Ok RKsn else if is s "log" then Ok RLog else jerr.
Definition as_route (v : jval) : out Route := let? s := as_str v in route_from s.

Section Reading.
  Context (hx : bytes -> option N) (tr : bytes -> option Z).
  (** crate chrono; query/mod.rs, query/key_state_notice.rs *)
  Definition as_instant (v : jval) : out Z := let? s := as_str v in need (tr s).
  (** key_config.rs:11-21, the members in text order *)
  Definition read_kc_text (l : list (bytes * jval)) : out KeyConfig :=
    let? x := scan [own "kt" (as_threshold hx); own "k" (as_vec as_bp); own "n" as_next] [] l in
    let (m, _) := (x : list (bytes * jval) * list (bytes * jval)) in
    let? kt := got (as_threshold hx) m "kt" in let? k := got (as_vec as_bp) m "k" in let? n := got as_next m "n" in
    Ok (mkKC kt k n).
  (** state/mod.rs:10-18: from a map or from an array in declaration order *)
  Definition as_last_est (v : jval) : out LastEst :=
    match v with
    | JObj l =>
        let? x := scan [own "s" (as_hex hx); own "d" as_sap; own "br" (as_vec as_bp); own "ba" (as_vec as_bp)] [] l in
        let (m, _) := (x : list (bytes * jval) * list (bytes * jval)) in
        let? s := got (as_hex hx) m "s" in let? d := got as_sap m "d" in
        let? br := got (as_vec as_bp) m "br" in let? ba := got (as_vec as_bp) m "ba" in
        Ok (mkLE s d br ba)
    | JArr [s; d; br; ba] =>
        let? s := as_hex hx s in let? d := as_sap d in let? br := as_vec as_bp br in let? ba := as_vec as_bp ba in
        Ok (mkLE s d br ba)
    | JArr (s :: r) => (* too short or too long *)
        let? _ := as_hex hx s in
        match r with
        | d :: r => let? _ := as_sap d in
            match r with
            | br :: r => let? _ := as_vec as_bp br in
                match r with ba :: _ => let? _ := as_vec as_bp ba in jerr | [] => jerr end
            | [] => jerr
            end
        | [] => jerr
        end
    | _ => jerr
    end.
  (** state/mod.rs:20-56 *)
  Definition read_state (l : list (bytes * jval)) : out IdentifierState :=
    let? x := scan [own "i" as_id; own "s" (as_hex hx); own "d" as_sap; own "p" (as_opt as_sap);
                    own "et" (as_opt as_tag_q); own "bt" (as_hex hx); own "b" (as_vec as_bp);
                    own "di" (as_opt as_id); own "ee" as_last_est] [] l in
    let (m, r) := (x : list (bytes * jval) * list (bytes * jval)) in
    let? i := got as_id m "i" in let? s := got (as_hex hx) m "s" in let? d := got as_sap m "d" in
    let? p := got_opt as_sap m "p" in let? et := got_opt as_tag_q m "et" in
    let? bt := got (as_hex hx) m "bt" in let? b := got (as_vec as_bp) m "b" in
    let? di := got_opt as_id m "di" in let? ee := got as_last_est m "ee" in
    let? kc := read_kc_text r in
    Ok (mkState i s d p et kc bt b di ee).
  (** key_state_notice.rs:10-26 *)
  Definition as_notice (v : jval) : out KeyStateNotice :=
    match v with
    | JObj l =>
        let? x := scan [own "v" as_si; own "f" (as_hex hx); own "dt" as_instant; own "c" (as_vec as_str)] [] l in
        let (m, r) := (x : list (bytes * jval) * list (bytes * jval)) in
        let? v := got as_si m "v" in let? f := got (as_hex hx) m "f" in
        let? dt := got as_instant m "dt" in let? c := got (as_vec as_str) m "c" in
        let? s := read_state r in
        Ok (mkKsn v s f dt c)
    | _ => jerr
    end.
  (** query/query.rs:22-26 *)
  Definition as_args (v : jval) : out IdentifierPrefix :=
    match v with
    | JObj l =>
        let? x := scan [own "i" as_id] [] l in
        let (m, _) := (x : list (bytes * jval) * list (bytes * jval)) in got as_id m "i"
    | JArr [i] => as_id i
    | JArr (i :: _) => let? _ := as_id i in jerr
    | _ => jerr
    end.
  (** event_message/mod.rs:40-47 and query/mod.rs:22-32: the digest, then time and route *)
  Definition read_envelope (l : list (bytes * jval)) : out (SelfAddressingPrefix * Z * Route * list (bytes * jval)) :=
    let? x := scan [own "d" as_sap] [] l in
    let (m, r) := (x : list (bytes * jval) * list (bytes * jval)) in
    let? d := got as_sap m "d" in
    let? y := scan [own "dt" as_instant; own "r" as_route] [] r in
    let (m, r) := (y : list (bytes * jval) * list (bytes * jval)) in
    let? t := got as_instant m "dt" in let? rt := got as_route m "r" in
    Ok (d, t, rt, r).
  (** query/reply.rs:18-24 *)
  Definition read_reply (info : SerializationInfo) (l : list (bytes * jval)) : out ReplyMessage :=
    let? x := read_envelope l in
    let '(d, t, rt, r) := x in
    let? y := scan [own "a" as_notice] [] r in
    let (m, _) := (y : list (bytes * jval) * list (bytes * jval)) in
    let? a := got as_notice m "a" in
    Ok (mkReply info d t rt a).
  (** query/query.rs:14-28 *)
  Definition read_query (info : SerializationInfo) (l : list (bytes * jval)) : out QueryMessage :=
    let? x := read_envelope l in
    let '(d, t, rt, r) := x in
    let? y := scan [own "rr" as_str; own "q" as_args] [] r in
    let (m, _) := (y : list (bytes * jval) * list (bytes * jval)) in
    let? rr := got as_str m "rr" in let? q := got as_args m "q" in
    Ok (mkQry info d t rt rr q).

  Context (bk : bytes -> pres EventMessage) (bp : bytes -> pres ReplyMessage) (bq : bytes -> pres QueryMessage)
    (br : bytes -> pres ReceiptMessage).
  (** message.rs:82-87, 75-80 *)
  Definition reply_message (s : bytes) : pres EventType := pmap RpyT (palt (json_message read_reply) bp s).
  Definition query_message (s : bytes) : pres EventType := pmap QryT (palt (json_message read_query) bq s).
  (** message.rs:90-98: [alt] of the four readers *)
  Definition read_event_type_q : bytes -> pres EventType :=
    palt (key_event_message hx bk) (palt reply_message (palt query_message (receipt_message hx br))).
End Reading.
