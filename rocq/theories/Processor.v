(** * Processor: [EventProcessor] ([src/processor/mod.rs]).

    Mutating calls take the store and return the new store with the outcome; on [Panic]
    the returned store is what had been written before the panic. *)
From Verif Require Import Base Base64 Codes NumFmt Types KeyConf State Db.

(** [sorted_events.sort()] (processor/mod.rs:54, 87): stable sort by sn
    ([Ord for TimestampedSignedEventMessage], signed_event_message.rs:132-146) *)
Fixpoint insert_by_sn (e : SignedEventMessage) (l : list SignedEventMessage) : list SignedEventMessage :=
  match l with
  | [] => [e]
  | x :: r => if (em_sn (sem_msg e) <=? em_sn (sem_msg x))%N then e :: l else x :: insert_by_sn e r
  end.
Fixpoint sort_by_sn (l : list SignedEventMessage) : list SignedEventMessage :=
  match l with [] => [] | e :: r => insert_by_sn e (sort_by_sn r) end.

(** The mutating calls of the public API of [EventProcessor] *)
(** processor/mod.rs: [process], [process_escrow] *)
Inductive Call := CProcess (m : Message) | CEscrow.

Section WithEnv.
  Context (E : Env).

  (** processor/mod.rs:55-66, the loop of [compute_state] *)
  Fixpoint replay (evs : list SignedEventMessage) (s : IdentifierState) : out IdentifierState :=
    match evs with
    | [] => Ok s
    | e :: r =>
        match apply_msg E (sem_msg e) s with
        | Ok s' => replay r s'
        | Err EOutOfOrder | Err ENotEnoughSigs => replay r s   (* continue *)
        | Err _ => Ok s                                        (* break *)
        | Panic => Panic
        end
    end.
  (** processor/mod.rs:48-72 [compute_state] *)
  Definition compute_state (d : Db) (id : IdentifierPrefix) : out (option IdentifierState) :=
    match get_kel d id with
    | None => Ok None
    | Some evs => let? s := replay (sort_by_sn evs) state_default in Ok (Some s)
    end.

  (** processor/mod.rs:78-98 [compute_state_at_sn]: errors are returned *)
  Fixpoint replay_strict (evs : list SignedEventMessage) (s : IdentifierState) : out IdentifierState :=
    match evs with
    | [] => Ok s
    | e :: r => let? s' := apply_msg E (sem_msg e) s in replay_strict r s'
    end.
  Definition compute_state_at_sn (d : Db) (id : IdentifierPrefix) (sn : N) : out (option IdentifierState) :=
    match get_kel d id with
    | None => Ok None
    | Some evs =>
        let? s := replay_strict (filter (fun e => em_sn (sem_msg e) <=? sn)%N (sort_by_sn evs)) state_default in
        Ok (Some s)
    end.

  (** processor/mod.rs:104-134 [get_last_establishment_event_seal]: unsorted, applies the
      inner event (no digest checks), only [Icp] and [Rot] count *)
  Fixpoint last_est_loop (evs : list SignedEventMessage) (s : IdentifierState)
      (last : option SignedEventMessage) : out (option SignedEventMessage) :=
    match evs with
    | [] => Ok last
    | e :: r =>
        let? s' := apply_event E (sem_msg e) s in
        last_est_loop r s' (match em_data (sem_msg e) with Icp _ | Rot _ => Some e | _ => last end)
    end.
  Definition get_last_establishment_event_seal (d : Db) (id : IdentifierPrefix) : out (option EventSeal) :=
    match get_kel d id with
    | None => Ok None
    | Some evs =>
        let? last := last_est_loop evs state_default None in
        Ok (option_map (fun e => mkES (em_prefix (sem_msg e)) (em_sn (sem_msg e)) (em_digest (sem_msg e))) last)
    end.

  (** processor/mod.rs:139-151 [get_kerl]; [serialize().unwrap_or_default()] *)
  Fixpoint kerl_bytes (evs : list SignedEventMessage) : out bytes :=
    match evs with
    | [] => Ok []
    | e :: r =>
        match e_ser_signed E e with
        | Ok b => let? rest := kerl_bytes r in Ok (b ++ rest)
        | Err _ => kerl_bytes r
        | Panic => Panic
        end
    end.
  Definition get_kerl (d : Db) (id : IdentifierPrefix) : out (option bytes) :=
    match get_kel d id with
    | None => Ok None
    | Some evs => let? b := kerl_bytes evs in Ok (Some b)
    end.

  (** processor/mod.rs:425-435 [get_event_at_sn]: first event with that sn *)
  Definition get_event_at_sn (d : Db) (id : IdentifierPrefix) (sn : N) : option SignedEventMessage :=
    match get_kel d id with
    | Some evs => find (fun e => em_sn (sem_msg e) =? sn)%N evs
    | None => None
    end.

  (** processor/mod.rs:158-193 [get_keys_at_event] (the [Option] is always [Some]) *)
  Definition get_keys_at_event (d : Db) (id : IdentifierPrefix) (sn : N) (dig : SelfAddressingPrefix)
    : out KeyConfig :=
    match get_event_at_sn d id sn with
    | Some e =>
        let? b := check_digest E (sem_msg e) dig in
        if (b : bool) then
          match em_data (sem_msg e) with
          | Icp icp => Ok (icp_kc icp)
          | Rot rot => Ok (rot_kc rot)
          | Dip dip => Ok (icp_kc (dip_icp dip))
          | Drt drt => Ok (rot_kc drt)
          | Ixn _ => Err (ESemantic "Receipt binding incorrect")
          end
        else Err (ESemantic "Event digests doesn't match")
    | None => Err EOutOfOrder
    end.

  (** processor/mod.rs:220-223: [data.iter().any(..)], where [check_digest(..).unwrap()]
      turns an error into a panic *)
  Fixpoint any_anchor (delegated : EventMessage) (data : list Seal) : out bool :=
    match data with
    | [] => Ok false
    | SealEvent es :: r =>
        match check_digest E delegated (es_digest es) with
        | Ok true => Ok true
        | Ok false => any_anchor delegated r
        | _ => Panic
        end
    | _ :: r => any_anchor delegated r
    end.
  (** processor/mod.rs:199-232 [validate_seal] *)
  Definition validate_seal (d : Db) (seal : EventSeal) (delegated : EventMessage) : out unit :=
    match get_event_at_sn d (es_prefix seal) (es_sn seal) with
    | Some e =>
        let? data :=
          match em_data (sem_msg e) with
          | Rot rot => Ok (rot_data rot)
          | Ixn ixn => Ok (ixn_data ixn)
          | Drt drt => Ok (rot_data drt)
          | _ => Err (ESemantic "Improper event type")
          end in
        let? b := any_anchor delegated data in
        if (b : bool) then Ok tt
        else Err (ESemantic "Data field doesn't contain delegating event seal.")
    | None => Err EOutOfOrder
    end.

  (** processor/mod.rs:234-247 [has_receipt] *)
  Definition has_receipt (d : Db) (id : IdentifierPrefix) (sn : N) (validator : IdentifierPrefix) : bool :=
    match get_receipts_t d id with
    | Some rs => existsb (fun r => (rct_sn (tr_body r) =? sn)%N
                                   && if IdentifierPrefix_eq_dec (es_prefix (tr_seal r)) validator then true else false) rs
    | None => false
    end.

  (** processor/mod.rs:291-326: delegation check at the start of [process_event] *)
  Definition check_delegation (d : Db) (se : SignedEventMessage) : out unit :=
    let m := sem_msg se in
    match em_data m with
    | Dip dip =>
        let? src := ok_or (sem_seal se) (ESemantic "Missing source seal") in
        validate_seal d (mkES (dip_delegator dip) (src_sn src) (src_digest src)) m
    | Drt _ =>
        let? os := compute_state d (em_prefix m) in
        let? s := ok_or os (ESemantic "Missing state of delegated identifier") in
        let? delegator := ok_or (st_delegator s) (ESemantic "Missing delegator") in
        let? src := ok_or (sem_seal se) (ESemantic "Missing source seal") in
        validate_seal d (mkES delegator (src_sn src) (src_digest src)) m
    | _ => Ok tt
    end.

  (** processor/mod.rs:437-444 [apply_to_state] *)
  Definition apply_to_state (d : Db) (m : EventMessage) : out IdentifierState :=
    let? os := compute_state d (em_prefix m) in
    apply_msg E m (match os with Some s => s | None => state_default end).

  (** processor/mod.rs:332-345: verification of the signatures, [false] becomes an error *)
  Definition verify_signatures (ns : IdentifierState) (ser : bytes) (se : SignedEventMessage)
    : out IdentifierState :=
    let? b := kc_verify E (st_current ns) ser (sem_sigs se) in
    if (b : bool) then Ok ns else Err ESignatureVerification.

  (** processor/mod.rs:282-357 [process_event]: the event is added first and removed
      when verification fails; [serialize()?] (line 335) returns without removing *)
  Definition process_event (d : Db) (se : SignedEventMessage) : Db * out (option IdentifierState) :=
    let m := sem_msg se in
    let id := em_prefix m in
    match check_delegation d se with
    | Err e => (d, Err e)
    | Panic => (d, Panic)
    | Ok _ =>
        match apply_to_state d m with
        | Err e => (d, Err e)
        | Panic => (d, Panic)
        | Ok ns =>
            let d1 := add_kel d se id in
            match e_ser_event E m with
            | Err e => (d1, Err e)
            | Panic => (d1, Panic)
            | Ok ser =>
                match verify_signatures ns ser se with
                | Ok s => (d1, Ok (Some s))
                | Panic => (d1, Panic)
                | Err e =>
                    let d2 := match e with EDuplicate => add_dup d1 se id | _ => d1 end in
                    (remove_kel d2 id se, Err e)
                end
            end
        end
    end.

  (** processor/mod.rs:365-391 [process_validator_receipt] *)
  Definition process_validator_receipt (d : Db) (vrc : SignedTransferableReceipt)
    : Db * out (option IdentifierState) :=
    let id := rct_prefix (tr_body vrc) in
    match get_event_at_sn d id (rct_sn (tr_body vrc)) with
    | Some event =>
        match (let? kc := get_keys_at_event d (es_prefix (tr_seal vrc)) (es_sn (tr_seal vrc)) (es_digest (tr_seal vrc)) in
               let? ser := e_ser_event E (sem_msg event) in
               kc_verify E kc ser (tr_sigs vrc)) with
        | Ok true => let d1 := add_receipt_t d vrc id in (d1, compute_state d1 id)
        | Ok false => (d, Err (ESemantic "Incorrect receipt signatures"))
        | Err e => (d, Err e)
        | Panic => (d, Panic)
        end
    | None => (add_escrow_t d vrc id, Err (ESemantic "Receipt escrowed"))
    end.

  (** processor/mod.rs:407-412: results of the couplet verifications that are errors *)
  Definition couplet_errors (ser : bytes) (cs : list (BasicPrefix * SelfSigningPrefix)) : list error :=
    flat_map (fun c => match key_verify E (fst c) ser (snd c) with Err e => [e] | _ => [] end) cs.
  (** processor/mod.rs:399-423 [process_witness_receipt]: [Ok(false)] is not an error *)
  Definition process_witness_receipt (d : Db) (rct : SignedNontransferableReceipt)
    : Db * out (option IdentifierState) :=
    let id := rct_prefix (nr_body rct) in
    match get_event_at_sn d id (rct_sn (nr_body rct)) with
    | Some event =>
        match e_ser_signed E event with
        | Err e => (d, Err e)
        | Panic => (d, Panic)
        | Ok ser =>
            match rev (couplet_errors ser (nr_couplets rct)) with
            | [] => let d1 := add_receipt_nt d rct id in (d1, compute_state d1 id)
            | e :: _ => (d, Err e)
            end
        end
    | None => let d1 := add_escrow_nt d rct id in (d1, compute_state d1 id)
    end.

  (** processor/mod.rs:446-459 [verify] *)
  Definition proc_verify (d : Db) (data : bytes) (sig : Signature) : out unit :=
    match sig with
    | Transferable seal sigs =>
        let? kc := get_keys_at_event d (es_prefix seal) (es_sn seal) (es_digest seal) in
        let? b := kc_verify E kc data sigs in
        ok_if b ESignatureVerification
    | NonTransferable bp sign =>
        let? b := key_verify E bp data sign in ok_if b ESignatureVerification
    end.

  (** ** Replies *)
  (** [Iterator::find] on the stored replies, processor/mod.rs ([process_signed_reply]) *)
  Definition find_route (r : Route) (l : list SignedReply) : option SignedReply :=
    find (fun s => if Route_eq_dec (rp_route (sr_reply s)) r then true else false) l.
  (** processor/mod.rs:469-477 [check_dts] *)
  Definition check_dts (new old : SignedReply) : out unit :=
    if (rp_timestamp (sr_reply old) <=? rp_timestamp (sr_reply new))%Z then Ok tt
    else Err (EQuery QStaleRpy).
  (** processor/mod.rs:462-531 [bada_logic] *)
  Definition bada_logic (d : Db) (new : SignedReply) : out unit :=
    let accepted := olist (get_accepted_replys d (sr_prefix new)) in
    match sr_sig new with
    | Transferable seal _ =>
        match find_route (RReplyKsn (es_prefix seal)) accepted with
        | Some old =>
            match sr_sig old with
            | Transferable oseal _ =>
                if (es_sn oseal <? es_sn seal)%N then Ok tt
                else if (es_sn oseal =? es_sn seal)%N then check_dts new old
                else Err (EQuery QStaleRpy)
            | NonTransferable _ _ =>
                Err (EQuery (QError "Improper signature type. Should be transferable."))
            end
        | None => Err (EQuery QNoSavedReply)
        end
    | NonTransferable bp _ =>
        match find_route (RReplyKsn (IdBasic bp)) accepted with
        | Some old => check_dts new old
        | None => Err (EQuery QNoSavedReply)
        end
    end.
  (** query/reply.rs:61-74 [EventMessage<ReplyEvent>::check_digest] *)
  Definition reply_check_digest (r : ReplyMessage) : out unit :=
    let? data := e_deriv_reply E r in
    let? b := verify_binding E (rp_digest r) data in
    ok_if b EIncorrectDigest.
  (** processor/mod.rs:577-605 [check_timestamp_with_last_ksn]: compares the reply's
      envelope timestamp of the old one with the notice's timestamp of the new one *)
  Definition check_timestamp_with_last_ksn (d : Db) (new_dt : Z) (pref aid : IdentifierPrefix) : out unit :=
    match get_accepted_replys d pref with
    | None => Err (EQuery QOutOfOrder)
    | Some l =>
        match find_route (RReplyKsn aid) l with
        | Some old =>
            if (new_dt <? rp_timestamp (sr_reply old))%Z then Err (EQuery QStaleKsn) else Ok tt
        | None => Err (EQuery QOutOfOrder)
        end
    end.
  (** processor/mod.rs:608-645 [check_ksn] *)
  Definition check_ksn (d : Db) (ksn : KeyStateNotice) (aid : IdentifierPrefix) : out unit :=
    let sn := st_sn (ksn_state ksn) in
    let pre := st_prefix (ksn_state ksn) in
    let? ev := ok_or (get_event_at_sn d pre sn) (EQuery QOutOfOrder) in
    let? b := check_digest E (sem_msg ev) (st_last_digest (ksn_state ksn)) in
    let? _ := ok_if b EIncorrectDigest in
    let? _ := match check_timestamp_with_last_ksn d (ksn_timestamp ksn) pre aid with
              | Err (EQuery QOutOfOrder) => Ok tt
              | r => r
              end in
    let? os := compute_state d pre in
    let? s := ok_or os (EQuery QOutOfOrder) in
    if (st_sn s <? sn)%N then Err (EQuery QOutOfOrder)
    else if (st_sn s =? sn)%N then Ok tt
    else Err (EQuery QStaleKsn).
  (** processor/mod.rs:648-651 [escrow_reply] *)
  Definition escrow_reply (d : Db) (r : SignedReply) : Db := add_escrowed_reply d r (sr_prefix r).

  (** processor/mod.rs:534-574 [process_signed_reply] *)
  Definition process_signed_reply (d : Db) (r : SignedReply) : Db * out (option IdentifierState) :=
    match rp_route (sr_reply r) with
    | RReplyKsn aid =>
        if IdentifierPrefix_eq_dec (get_signer (sr_sig r)) aid then
          match e_ser_reply E (sr_reply r) with
          | Err e => (d, Err e)
          | Panic => (d, Panic)
          | Ok ser =>
              match proc_verify d ser (sr_sig r) with
              | Err EOutOfOrder => (escrow_reply d r, Err (EQuery QOutOfOrder))
              | Err e => (d, Err e)
              | Panic => (d, Panic)
              | Ok _ =>
                  match (let? _ := reply_check_digest (sr_reply r) in
                         match bada_logic d r with
                         | Err (EQuery QNoSavedReply) => Ok tt
                         | x => x end) with
                  | Err e => (d, Err e)
                  | Panic => (d, Panic)
                  | Ok _ =>
                      match check_ksn d (rp_ksn (sr_reply r)) aid with
                      | Err (EQuery QOutOfOrder) => (escrow_reply d r, Err (EQuery QOutOfOrder))
                      | Err e => (d, Err e)
                      | Panic => (d, Panic)
                      | Ok _ =>
                          (update_accepted_reply d r (sr_prefix r),
                           Ok (Some (ksn_state (rp_ksn (sr_reply r)))))
                      end
                  end
              end
          end
        else (d, Err (EQuery (QError "Wrong reply message signer")))
    | _ => (d, Err (ESemantic "wrong route type"))
    end.

  (** processor/mod.rs:654-671 [process_escrow]; each entry of the snapshot is processed
      in turn; a panic stops the loop *)
  Fixpoint process_escrow_loop (l : list SignedReply) (d : Db) : Db * out unit :=
    match l with
    | [] => (d, Ok tt)
    | r :: rest =>
        match process_signed_reply d r with
        | (d1, Ok _) | (d1, Err ESignatureVerification) | (d1, Err (EQuery QStaleRpy)) =>
            process_escrow_loop rest (remove_escrowed_reply d1 (sr_prefix r) r)
        | (d1, Err _) => process_escrow_loop rest d1
        | (d1, Panic) => (d1, Panic)
        end
    end.
  Definition process_escrow (d : Db) : Db * out unit :=
    process_escrow_loop (get_all_escrowed_replys d) d.

  (** processor/mod.rs:252-262 [process]; [Message::Query] is [todo!()] *)
  Definition process (d : Db) (m : Message) : Db * out (option IdentifierState) :=
    match m with
    | MEvent e => process_event d e
    | MNontransferableRct r => process_witness_receipt d r
    | MTransferableRct r => process_validator_receipt d r
    | MKeyStateNotice r => process_signed_reply d r
    | MQuery _ => (d, Panic)
    end.

  (** processor/mod.rs:264-274 [process_actual_event] with an event message *)
  Definition process_actual_event (d : Db) (id : IdentifierPrefix) (m : EventMessage)
    : out (option IdentifierState) :=
    let? os := compute_state d id in
    match os with
    | Some s => let? s' := apply_msg E m s in Ok (Some s')
    | None => Ok None
    end.

  (** A history: calls made one after the other on one processor ([process],
      processor/mod.rs:252-262, and [process_escrow], 654-671), by a caller that ignores
      errors; a caught panic leaves the store as the panic left it. *)
  Definition call (d : Db) (c : Call) : Db :=
    match c with
    | CProcess m => fst (process d m)
    | CEscrow => fst (process_escrow d)
    end.
  Definition run (d : Db) (cs : list Call) : Db := fold_left call cs d.
End WithEnv.
