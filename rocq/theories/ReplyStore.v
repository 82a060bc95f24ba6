(** * ReplyStore: the reply tables as they are: every access re-reads what was written.

    [Db.v] keeps replies as values.  Here the two reply tables ([accepted_rpy],
    [escrowed_replys], sled/mod.rs:40-45) go through the codec of
    [query/key_state_notice.rs], whose writing and reading sides differ.
    Simplifications: the digests, keys, signatures, threshold, version string and optional
    fields of a reply, which are written and read by symmetric code, are read back
    unchanged (C41-C46, C51 are about them); instants are nanoseconds. *)
From Verif Require Import Base Base64 Codes NumFmt Types KeyConf State Db Processor.

(** key_state_notice.rs:40, 43, 51: [to_string] *)
Definition write_number (n : N) : bytes := fmt_dec n.
(** key_state_notice.rs:18 and state/mod.rs:27, 42: [SerHex::<Compact>] *)
Definition read_number (s : bytes) : out N := parse_radix 16 u64_max s.
(** key_state_notice.rs:55: [unwrap_or_default()] *)
Definition write_delegator (o : option IdentifierPrefix) : bytes :=
  id_str (match o with Some i => i | None => id_default end).
(** state/mod.rs:48-49: a text that is present is parsed (prefix/mod.rs:85-94) *)
Definition read_delegator (s : bytes) : out (option IdentifierPrefix) :=
  let? i := id_from s in Ok (Some i).
(** [to_rfc3339_opts(SecondsFormat::Micros, false)] (query/mod.rs:34-39,
    key_state_notice.rs:44-47) *)
Definition write_instant (t : Z) : Z := (t / 1000 * 1000)%Z.

(** a notice written (key_state_notice.rs:28-58) and read again (derived, 10-26).
    Writing panics when there is no next-keys digest (line 52 [unwrap]). *)
Definition reread_notice (k : KeyStateNotice) : out KeyStateNotice :=
  let s := ksn_state k in
  match kc_next (st_current s) with
  | None => Panic
  | Some _ =>
      let? sn := read_number (write_number (st_sn s)) in
      let? f := read_number (write_number (ksn_first_seen k)) in
      let? bt := read_number (write_number (st_tally s)) in
      let? di := read_delegator (write_delegator (st_delegator s)) in
      Ok (mkKsn (ksn_info k)
            (mkState (st_prefix s) sn (st_last_digest s) (st_last_previous s) (st_last_type s)
               (st_current s) bt (st_witnesses s) di (st_last_est s))
            f (write_instant (ksn_timestamp k)) (ksn_config k))
  end.
(** query/mod.rs:73-102: the route ([s[5..].parse().unwrap()]) *)
Definition reread_route (r : Route) : out Route :=
  match r with
  | RReplyKsn id => match id_from (id_str id) with Ok i => Ok (RReplyKsn i) | _ => Panic end
  | _ => Ok r
  end.
(** a signed reply written and read again (query/reply.rs:82-86, query/mod.rs:22-39) *)
Definition reread (r : SignedReply) : out SignedReply :=
  let m := sr_reply r in
  let? k := reread_notice (rp_ksn m) in
  let? rt := reread_route (rp_route m) in
  Ok (mkSRpy (mkReply (rp_info m) (rp_digest m) (write_instant (rp_timestamp m)) rt k) (sr_sig r)).
(** does writing it succeed? *)
Definition writable (r : SignedReply) : bool :=
  match kc_next (st_current (ksn_state (rp_ksn (sr_reply r)))) with Some _ => true | None => false end.

(** database/sled/tables.rs:36: every entry is read back *)
Fixpoint reread_all (l : list SignedReply) : out (list SignedReply) :=
  match l with
  | [] => Ok []
  | r :: l => let? r' := reread r in let? l' := reread_all l in Ok (r' :: l')
  end.
(** tables.rs:104-116 [iter_values]: [from_slice(..).unwrap()] *)
Definition iter_values (t : table SignedReply) (id : IdentifierPrefix) : out (option (list SignedReply)) :=
  match tget t id with
  | None => Ok None
  | Some l => match reread_all l with Ok l' => Ok (Some l') | _ => Panic end
  end.
(** tables.rs:54-61 [push]: [get] reads without [unwrap]; when it fails the value is replaced *)
Definition push (t : table SignedReply) (id : IdentifierPrefix) (r : SignedReply) : out (table SignedReply) :=
  if writable r then
    match tget t id with
    | None => Ok (tput t id [r])
    | Some l => match reread_all l with
                | Ok l' => Ok (tput t id (l' ++ [r]))
                | Err _ => Ok (tput t id [r])
                | Panic => Panic
                end
    end
  else Panic.
(** tables.rs:65-75 [remove]: does nothing when the value cannot be read *)
Definition remove (t : table SignedReply) (id : IdentifierPrefix) (r : SignedReply) : out (table SignedReply) :=
  match tget t id with
  | None => Ok t
  | Some l => match reread_all l with
              | Ok l' => Ok (tput t id (filter (fun e => negb (srpy_eqb e r)) l'))
              | Err _ => Ok t
              | Panic => Panic
              end
  end.
(** tables.rs:118-129 [get_all]: the entries in table order; an entry that cannot be read
    panics when the iterator reaches it *)
Definition all_entries (t : table SignedReply) : list (list SignedReply) := map snd t.

Section WithEnv.
  Context (E : Env).
  (** processor/mod.rs:648-651 [escrow_reply] *)
  Definition escrow_reply_s (d : Db) (r : SignedReply) : Db * out unit :=
    match push (db_esc_rpy d) (sr_prefix r) r with
    | Ok t => (set_esc_rpy d t, Ok tt)
    | Err e => (d, Err e)
    | Panic => (d, Panic)
    end.
  (** the store as reads of the subject's accepted replies see it *)
  Definition as_read (d : Db) (id : IdentifierPrefix) : out Db :=
    match iter_values (db_rpy d) id with
    | Ok (Some l) => Ok (set_rpy d (tput (db_rpy d) id l))
    | Ok None => Ok d
    | Err e => Err e
    | Panic => Panic
    end.
  (** sled/mod.rs:227-248 [update_accepted_reply] *)
  Definition update_accepted_reply_s (d : Db) (r : SignedReply) (id : IdentifierPrefix) : out Db :=
    if writable r then let? v := as_read d id in Ok (update_accepted_reply v r id) else Panic.
  Definition put_off_s (d : Db) (r : SignedReply) : Db * out (option IdentifierState) :=
    match escrow_reply_s d r with
    | (d1, Ok _) => (d1, Err (EQuery QOutOfOrder))
    | (d1, Err e) => (d1, Err e)
    | (d1, Panic) => (d1, Panic)
    end.
  (** processor/mod.rs:534-574 [process_signed_reply] on these tables *)
  Definition process_signed_reply_s (d : Db) (r : SignedReply) : Db * out (option IdentifierState) :=
    match rp_route (sr_reply r) with
    | RReplyKsn aid =>
        if IdentifierPrefix_eq_dec (get_signer (sr_sig r)) aid then
          match e_ser_reply E (sr_reply r) with
          | Err e => (d, Err e)
          | Panic => (d, Panic)
          | Ok ser =>
              match proc_verify E d ser (sr_sig r) with
              | Err EOutOfOrder => put_off_s d r
              | Err e => (d, Err e)
              | Panic => (d, Panic)
              | Ok _ =>
                  match reply_check_digest E (sr_reply r) with
                  | Err e => (d, Err e)
                  | Panic => (d, Panic)
                  | Ok _ =>
                      match as_read d (sr_prefix r) with
                      | Err e => (d, Err e)
                      | Panic => (d, Panic)
                      | Ok v =>
                          match (match bada_logic v r with
                                 | Err (EQuery QNoSavedReply) => Ok tt
                                 | x => x end) with
                          | Err e => (d, Err e)
                          | Panic => (d, Panic)
                          | Ok _ =>
                              match check_ksn E v (rp_ksn (sr_reply r)) aid with
                              | Err (EQuery QOutOfOrder) => put_off_s d r
                              | Err e => (d, Err e)
                              | Panic => (d, Panic)
                              | Ok _ =>
                                  match update_accepted_reply_s d r (sr_prefix r) with
                                  | Ok d' => (d', Ok (Some (ksn_state (rp_ksn (sr_reply r)))))
                                  | Err e => (d, Err e)
                                  | Panic => (d, Panic)
                                  end
                              end
                          end
                      end
                  end
              end
          end
        else (d, Err (EQuery (QError "Wrong reply message signer")))
    | _ => (d, Err (ESemantic "wrong route type"))
    end.
  (** processor/mod.rs:654-671 [process_escrow]: [remove_escrowed_reply(..).unwrap()] never
      fails; reading an entry panics when it does not parse *)
  Fixpoint escrow_entry_s (l : list SignedReply) (d : Db) : Db * out unit :=
    match l with
    | [] => (d, Ok tt)
    | r :: rest =>
        match process_signed_reply_s d r with
        | (d1, Ok _) | (d1, Err ESignatureVerification) | (d1, Err (EQuery QStaleRpy)) =>
            match remove (db_esc_rpy d1) (sr_prefix r) r with
            | Ok t => escrow_entry_s rest (set_esc_rpy d1 t)
            | _ => (d1, Panic)
            end
        | (d1, Err _) => escrow_entry_s rest d1
        | (d1, Panic) => (d1, Panic)
        end
    end.
  Fixpoint escrow_pass_s (t : list (list SignedReply)) (d : Db) : Db * out unit :=
    match t with
    | [] => (d, Ok tt)
    | l :: t => match reread_all l with
                | Ok l' => match escrow_entry_s l' d with
                           | (d1, Ok _) => escrow_pass_s t d1
                           | x => x
                           end
                | _ => (d, Panic)
                end
    end.
  Definition process_escrow_s (d : Db) : Db * out unit := escrow_pass_s (all_entries (db_esc_rpy d)) d.
End WithEnv.
