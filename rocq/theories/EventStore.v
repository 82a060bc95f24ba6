(** * EventStore: event logs as the bytes that the store holds, and [process_event] on them.

    [Db.v] keeps the events of a log as values.  Here a log is what database/sled/tables.rs
    keeps, the bytes of [serde_cbor::to_vec], written by [Cbor.v] and read back at every use;
    a value that cannot be read back makes [iter_values] panic, [push] start a new log and
    [remove] do nothing.  The other tables stay values ([b_rest], whose own logs are not
    used).  [ts] is the text of the clock. *)
From Verif Require Import Base Base64 Codes NumFmt Types KeyConf State Db Processor Version Cesr Message Keri Json JsonRead JsonQuery Cbor.

(** database/sled/mod.rs:22-46: the "kels" tree, and the other trees *)
Record BDb := mkBDb { b_kel : list (IdentifierPrefix * bytes); b_rest : Db }.
Definition bdb_empty : BDb := mkBDb [] db_empty.
(** database/sled/tables.rs:34-41, [tree.get] *)
Definition b_get (b : BDb) (id : IdentifierPrefix) : option bytes := aget IdentifierPrefix_eq_dec (b_kel b) id.
(** database/sled/tables.rs:45-49 [put] *)
Definition b_put (b : BDb) (id : IdentifierPrefix) (l : list (bytes * SignedEventMessage)) : BDb :=
  mkBDb (aput IdentifierPrefix_eq_dec (b_kel b) id (write_log l)) (b_rest b).

Section WithEnv.
  Context (E : Env) (hx : bytes -> option N).
  (** database/sled/tables.rs:34-41 [get], for callers that treat an error as absence *)
  Definition b_list (b : BDb) (id : IdentifierPrefix) : out (option (list (bytes * SignedEventMessage))) :=
    match b_get b id with
    | None => Ok None
    | Some s => omap (fun l => Some l) (read_log hx s)
    end.
  (** database/sled/tables.rs:54-61 [push] *)
  Definition b_push (b : BDb) (id : IdentifierPrefix) (x : bytes * SignedEventMessage) : out BDb :=
    match b_list b id with
    | Ok (Some l) => Ok (b_put b id (l ++ [x]))
    | Ok None | Err _ => Ok (b_put b id [x])
    | Panic => Panic
    end.
  (** database/sled/tables.rs:65-75 [remove]; [PartialEq] of an entry ignores the time
      (signed_event_message.rs:105-109) *)
  Definition b_remove (b : BDb) (id : IdentifierPrefix) (e : SignedEventMessage) : out BDb :=
    match b_list b id with
    | Ok (Some l) => Ok (b_put b id (filter (fun x => negb (sem_eqb (snd x) e)) l))
    | Ok None | Err _ => Ok b
    | Panic => Panic
    end.
  (** database/sled/tables.rs:108-118 [iter_values], sled/mod.rs:79-85
      [get_kel_finalized_events]: [unwrap] *)
  Definition b_log (b : BDb) (id : IdentifierPrefix) : out (option (list SignedEventMessage)) :=
    match b_list b id with
    | Ok (Some l) => Ok (Some (map snd l))
    | Ok None => Ok None
    | Err _ | Panic => Panic
    end.
  (** what a call sees that reads the log of [id] only (processor/mod.rs reads logs through
      [get_kel_finalized_events]) *)
  Definition b_view (b : BDb) (id : IdentifierPrefix) : out Db :=
    let? o := b_log b id in
    Ok (set_kel (b_rest b) (match o with Some l => [(id, l)] | None => [] end)).

  (** processor/mod.rs:48-72 *)
  Definition compute_state_b (b : BDb) (id : IdentifierPrefix) : out (option IdentifierState) :=
    let? d := b_view b id in compute_state E d id.
  (** processor/mod.rs:139-151 *)
  Definition get_kerl_b (b : BDb) (id : IdentifierPrefix) : out (option bytes) :=
    let? d := b_view b id in get_kerl E d id.
  (** processor/mod.rs:291-326 *)
  Definition check_delegation_b (b : BDb) (se : SignedEventMessage) : out unit :=
    let m := sem_msg se in
    match em_data m with
    | Dip dip =>
        let? src := ok_or (sem_seal se) (ESemantic "Missing source seal") in
        let? d := b_view b (dip_delegator dip) in
        validate_seal E d (mkES (dip_delegator dip) (src_sn src) (src_digest src)) m
    | Drt _ =>
        let? os := compute_state_b b (em_prefix m) in
        let? s := ok_or os (ESemantic "Missing state of delegated identifier") in
        let? delegator := ok_or (st_delegator s) (ESemantic "Missing delegator") in
        let? src := ok_or (sem_seal se) (ESemantic "Missing source seal") in
        let? d := b_view b delegator in
        validate_seal E d (mkES delegator (src_sn src) (src_digest src)) m
    | _ => Ok tt
    end.
  (** processor/mod.rs:437-444 *)
  Definition apply_to_state_b (b : BDb) (m : EventMessage) : out IdentifierState :=
    let? os := compute_state_b b (em_prefix m) in
    apply_msg E m (match os with Some s => s | None => state_default end).
  (** processor/mod.rs:282-357 [process_event]; on [Panic] the store is what had been written *)
  Definition process_event_b (b : BDb) (ts : bytes) (se : SignedEventMessage) : BDb * out (option IdentifierState) :=
    let m := sem_msg se in
    let id := em_prefix m in
    match check_delegation_b b se with
    | Err e => (b, Err e)
    | Panic => (b, Panic)
    | Ok _ =>
        match apply_to_state_b b m with
        | Err e => (b, Err e)
        | Panic => (b, Panic)
        | Ok ns =>
            match b_push b id (ts, se) with
            | Err e => (b, Err e)
            | Panic => (b, Panic)
            | Ok b1 =>
                match e_ser_event E m with
                | Err e => (b1, Err e)
                | Panic => (b1, Panic)
                | Ok ser =>
                    match verify_signatures E ns ser se with
                    | Ok s => (b1, Ok (Some s))
                    | Panic => (b1, Panic)
                    | Err e =>
                        let b2 := match e with EDuplicate => mkBDb (b_kel b1) (add_dup (b_rest b1) se id) | _ => b1 end in
                        match b_remove b2 id se with
                        | Ok b3 => (b3, Err e)
                        | Err e' => (b2, Err e')
                        | Panic => (b2, Panic)
                        end
                    end
                end
            end
        end
    end.
  (** a list of signed events, each with the time at which it was processed *)
  (** processor/mod.rs:282-357, called again and again *)
  Fixpoint run_b (b : BDb) (l : list (bytes * SignedEventMessage)) : BDb * list (out (option IdentifierState)) :=
    match l with
    | [] => (b, [])
    | (ts, se) :: r => let (b1, o) := process_event_b b ts se in let (b2, os) := run_b b1 r in (b2, o :: os)
    end.
End WithEnv.
