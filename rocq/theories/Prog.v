(** * Prog: the processor as a program over store operations.

    [Processor.v] gives each call as a function from store to store.  Here the same code
    is written as the sequence of store operations it performs, in the order of the Rust
    text, so that crashes, interleavings and the numeric-key store can be expressed.
    [interp_process] (ProgProofs.v) proves that running these programs on the abstract
    store gives exactly [Processor.process]. *)
From Verif Require Import Base Base64 Codes NumFmt Types KeyConf State Db Processor.

(** ** Programs *)
(** no counterpart in /repo: the sequence of store accesses of a call *)
Inductive prog (S : Type -> Type) (R : Type) : Type :=
| Ret (r : R)
| Do {A : Type} (o : S A) (k : A -> prog S R).
Arguments Ret {S R} r.
Arguments Do {S R A} o k.

(** no counterpart in /repo: the sequence of store accesses of a call *)
Fixpoint pbind {S A B} (p : prog S A) (k : A -> prog S B) : prog S B :=
  match p with
  | Ret r => k r
  | Do o k' => Do o (fun a => pbind (k' a) k)
  end.
Notation "'let*' x := p 'in' k" := (pbind p (fun x => k))
  (at level 200, x pattern, p at level 100, k at level 200, right associativity).
(** [?] on a program that returns an outcome *)
(** no counterpart in /repo: the sequence of store accesses of a call *)
Definition ptry {S A B} (p : prog S (out A)) (k : A -> prog S (out B)) : prog S (out B) :=
  pbind p (fun r => match r with Ok a => k a | Err e => Ret (Err e) | Panic => Ret Panic end).
Notation "'let*?' x := p 'in' k" := (ptry p (fun x => k))
  (at level 200, x pattern, p at level 100, k at level 200, right associativity).

(** ** Store operations ([src/database/sled/mod.rs:22-46], one tree per name) *)
Inductive tname := TKel | TLdup | TDup | TRctNt | TEscNt | TRctT | TEscT | TRpy | TEscRpy.
Definition tname_eq_dec (a b : tname) : {a = b} + {a <> b}.
Proof. decide equality. Defined.
Definition tty (n : tname) : Type :=
  match n with
  | TKel | TDup => SignedEventMessage
  | TLdup => EventMessage
  | TRctNt | TEscNt => SignedNontransferableReceipt
  | TRctT | TEscT => SignedTransferableReceipt
  | TRpy | TEscRpy => SignedReply
  end.
(** [PartialEq] used by [remove]; the real one for receipts and events is derived equality
    up to fields not stored *)
Definition tr_eqb (a b : SignedTransferableReceipt) : bool := if TR_eq_dec a b then true else false.
Definition em_eqb (a b : EventMessage) : bool := if EM_eq_dec a b then true else false.
Definition teqb (n : tname) : tty n -> tty n -> bool :=
  match n with
  | TKel | TDup => sem_eqb
  | TLdup => em_eqb
  | TRctNt | TEscNt => nr_eqb
  | TRctT | TEscT => tr_eqb
  | TRpy | TEscRpy => srpy_eqb
  end.

(** operations of [SledEventTreeVec] (tables.rs) under [designated_key(id)] *)
Inductive op : Type -> Type :=
| OGet (n : tname) (id : IdentifierPrefix) : op (option (list (tty n)))
| OPush (n : tname) (id : IdentifierPrefix) (x : tty n) : op unit
| ORemove (n : tname) (id : IdentifierPrefix) (x : tty n) : op unit
| OPut (n : tname) (id : IdentifierPrefix) (l : list (tty n)) : op unit
| OAll (n : tname) : op (list (tty n)).

(** their meaning on the abstract store *)
(** database/sled/mod.rs:22-46 *)
Definition dtab (n : tname) (d : Db) : table (tty n) :=
  match n with
  | TKel => db_kel d | TLdup => db_ldup d | TDup => db_dup d
  | TRctNt => db_rct_nt d | TEscNt => db_esc_nt d
  | TRctT => db_rct_t d | TEscT => db_esc_t d
  | TRpy => db_rpy d | TEscRpy => db_esc_rpy d
  end.
(** database/sled/mod.rs:22-46 *)
Definition set_ldup (d : Db) t := mkDb (db_kel d) t (db_dup d) (db_rct_nt d) (db_esc_nt d) (db_rct_t d) (db_esc_t d) (db_rpy d) (db_esc_rpy d).
(** database/sled/mod.rs:22-46 *)
Definition dset (n : tname) (d : Db) : table (tty n) -> Db :=
  match n with
  | TKel => set_kel d | TLdup => set_ldup d | TDup => set_dup d
  | TRctNt => set_rct_nt d | TEscNt => set_esc_nt d
  | TRctT => set_rct_t d | TEscT => set_esc_t d
  | TRpy => set_rpy d | TEscRpy => set_esc_rpy d
  end.
(** database/sled/tables.rs:34-91 *)
Definition op_sem {A} (o : op A) (d : Db) : Db * A :=
  match o in op A return Db * A with
  | OGet n id => (d, tget (dtab n d) id)
  | OPush n id x => (dset n d (tpush (dtab n d) id x), tt)
  | ORemove n id x => (dset n d (tremove (teqb n) (dtab n d) id x), tt)
  | OPut n id l => (dset n d (tput (dtab n d) id l), tt)
  | OAll n => (d, flat_map snd (dtab n d))
  end.
(** no counterpart in /repo: the sequence of store accesses of a call *)
Fixpoint interp {R} (p : prog op R) (d : Db) : Db * R :=
  match p with
  | Ret r => (d, r)
  | Do o k => let (d', a) := op_sem o d in interp (k a) d'
  end.

Section Programs.
  Context (E : Env).

  (** no counterpart in /repo: the sequence of store accesses of a call *)
  Definition p_get (n : tname) (id : IdentifierPrefix) : prog op (option (list (tty n))) := Do (OGet n id) Ret.
  (** no counterpart in /repo: the sequence of store accesses of a call *)
  Definition p_do {A} (o : op A) : prog op A := Do o Ret.

  (** processor/mod.rs:48-72 *)
  Definition p_compute_state (id : IdentifierPrefix) : prog op (out (option IdentifierState)) :=
    let* o := p_get TKel id in
    Ret match o with
        | None => Ok None
        | Some evs => let? s := replay E (sort_by_sn evs) state_default in Ok (Some s)
        end.
  (** processor/mod.rs:425-435 *)
  Definition p_event_at_sn (id : IdentifierPrefix) (sn : N) : prog op (option SignedEventMessage) :=
    let* o := p_get TKel id in
    Ret match o with
        | Some evs => find (fun e => em_sn (sem_msg e) =? sn)%N evs
        | None => None
        end.
  (** processor/mod.rs:158-193 *)
  Definition p_keys_at_event (id : IdentifierPrefix) (sn : N) (dig : SelfAddressingPrefix)
    : prog op (out KeyConfig) :=
    let* oe := p_event_at_sn id sn in
    Ret match oe with
        | Some e =>
            let? b := check_digest E (sem_msg e) dig in
            if (b : bool) then
              match em_data (sem_msg e) with
              | Icp icp => Ok (icp_kc icp)
              | Rot rot => Ok (rot_kc rot)
              | Dip dip => Ok (icp_kc (dip_icp dip))
              | Drt drt => Ok (rot_kc drt)
              | Ixn _ => Err (ESemantic "Receipt binding incorrect")
              end
            else Err (ESemantic "Event digests doesn't match")
        | None => Err EOutOfOrder
        end.
  (** processor/mod.rs:199-232 *)
  Definition p_validate_seal (seal : EventSeal) (delegated : EventMessage) : prog op (out unit) :=
    let* oe := p_event_at_sn (es_prefix seal) (es_sn seal) in
    Ret match oe with
        | Some e =>
            let? data :=
              match em_data (sem_msg e) with
              | Rot rot => Ok (rot_data rot)
              | Ixn ixn => Ok (ixn_data ixn)
              | Drt drt => Ok (rot_data drt)
              | _ => Err (ESemantic "Improper event type")
              end in
            let? b := any_anchor E delegated data in
            if (b : bool) then Ok tt
            else Err (ESemantic "Data field doesn't contain delegating event seal.")
        | None => Err EOutOfOrder
        end.
  (** processor/mod.rs:291-326 *)
  Definition p_check_delegation (se : SignedEventMessage) : prog op (out unit) :=
    let m := sem_msg se in
    match em_data m with
    | Dip dip =>
        let*? src := Ret (ok_or (sem_seal se) (ESemantic "Missing source seal")) in
        p_validate_seal (mkES (dip_delegator dip) (src_sn src) (src_digest src)) m
    | Drt _ =>
        let*? os := p_compute_state (em_prefix m) in
        let*? s := Ret (ok_or os (ESemantic "Missing state of delegated identifier")) in
        let*? delegator := Ret (ok_or (st_delegator s) (ESemantic "Missing delegator")) in
        let*? src := Ret (ok_or (sem_seal se) (ESemantic "Missing source seal")) in
        p_validate_seal (mkES delegator (src_sn src) (src_digest src)) m
    | _ => Ret (Ok tt)
    end.
  (** processor/mod.rs:437-444 *)
  Definition p_apply_to_state (m : EventMessage) : prog op (out IdentifierState) :=
    let*? os := p_compute_state (em_prefix m) in
    Ret (apply_msg E m (match os with Some s => s | None => state_default end)).

  (** processor/mod.rs:282-357 *)
  Definition p_process_event (se : SignedEventMessage) : prog op (out (option IdentifierState)) :=
    let m := sem_msg se in
    let id := em_prefix m in
    let*? _ := p_check_delegation se in
    let*? ns := p_apply_to_state m in
    let* _ := p_do (OPush TKel id (stored se)) in
    let*? ser := Ret (e_ser_event E m) in
    match verify_signatures E ns ser se with
    | Ok s => Ret (Ok (Some s))
    | Panic => Ret Panic
    | Err e =>
        let* _ := match e with EDuplicate => p_do (OPush TDup id (stored se)) | _ => Ret tt end in
        let* _ := p_do (ORemove TKel id se) in
        Ret (Err e)
    end.

  (** processor/mod.rs:365-391 *)
  Definition p_process_validator_receipt (vrc : SignedTransferableReceipt)
    : prog op (out (option IdentifierState)) :=
    let id := rct_prefix (tr_body vrc) in
    let* oe := p_event_at_sn id (rct_sn (tr_body vrc)) in
    match oe with
    | Some event =>
        let*? kc := p_keys_at_event (es_prefix (tr_seal vrc)) (es_sn (tr_seal vrc)) (es_digest (tr_seal vrc)) in
        let*? ser := Ret (e_ser_event E (sem_msg event)) in
        let*? b := Ret (kc_verify E kc ser (tr_sigs vrc)) in
        if (b : bool)
        then let* _ := p_do (OPush TRctT id vrc) in p_compute_state id
        else Ret (Err (ESemantic "Incorrect receipt signatures"))
    | None => let* _ := p_do (OPush TEscT id vrc) in Ret (Err (ESemantic "Receipt escrowed"))
    end.
  (** processor/mod.rs:399-423 *)
  Definition p_process_witness_receipt (rct : SignedNontransferableReceipt)
    : prog op (out (option IdentifierState)) :=
    let id := rct_prefix (nr_body rct) in
    let* oe := p_event_at_sn id (rct_sn (nr_body rct)) in
    match oe with
    | Some event =>
        let*? ser := Ret (e_ser_signed E event) in
        match rev (couplet_errors E ser (nr_couplets rct)) with
        | [] => let* _ := p_do (OPush TRctNt id rct) in p_compute_state id
        | e :: _ => Ret (Err e)
        end
    | None => let* _ := p_do (OPush TEscNt id rct) in p_compute_state id
    end.
  (** processor/mod.rs:446-459 *)
  Definition p_verify (data : bytes) (sig : Signature) : prog op (out unit) :=
    match sig with
    | Transferable seal sigs =>
        let*? kc := p_keys_at_event (es_prefix seal) (es_sn seal) (es_digest seal) in
        Ret (let? b := kc_verify E kc data sigs in ok_if b ESignatureVerification)
    | NonTransferable bp sign =>
        Ret (let? b := key_verify E bp data sign in ok_if b ESignatureVerification)
    end.
  (** processor/mod.rs:462-531 *)
  Definition p_bada_logic (new : SignedReply) : prog op (out unit) :=
    let* o := p_get TRpy (sr_prefix new) in
    let accepted := olist o in
    Ret match sr_sig new with
    | Transferable seal _ =>
        match find_route (RReplyKsn (es_prefix seal)) accepted with
        | Some old =>
            match sr_sig old with
            | Transferable oseal _ =>
                if (es_sn oseal <? es_sn seal)%N then Ok tt
                else if (es_sn oseal =? es_sn seal)%N then check_dts new old
                else Err (EQuery QStaleRpy)
            | NonTransferable _ _ =>
                Err (EQuery (QError "Improper signature type. Should be transferable."))
            end
        | None => Err (EQuery QNoSavedReply)
        end
    | NonTransferable bp _ =>
        match find_route (RReplyKsn (IdBasic bp)) accepted with
        | Some old => check_dts new old
        | None => Err (EQuery QNoSavedReply)
        end
    end.
  (** processor/mod.rs:577-605 *)
  Definition p_check_timestamp (new_dt : Z) (pref aid : IdentifierPrefix) : prog op (out unit) :=
    let* o := p_get TRpy pref in
    Ret match o with
        | None => Err (EQuery QOutOfOrder)
        | Some l =>
            match find_route (RReplyKsn aid) l with
            | Some old =>
                if (new_dt <? rp_timestamp (sr_reply old))%Z then Err (EQuery QStaleKsn) else Ok tt
            | None => Err (EQuery QOutOfOrder)
            end
        end.
  (** processor/mod.rs:608-645 *)
  Definition p_check_ksn (ksn : KeyStateNotice) (aid : IdentifierPrefix) : prog op (out unit) :=
    let sn := st_sn (ksn_state ksn) in
    let pre := st_prefix (ksn_state ksn) in
    let* oe := p_event_at_sn pre sn in
    let*? ev := Ret (ok_or oe (EQuery QOutOfOrder)) in
    let*? b := Ret (check_digest E (sem_msg ev) (st_last_digest (ksn_state ksn))) in
    let*? _ := Ret (ok_if b EIncorrectDigest) in
    let* rt := p_check_timestamp (ksn_timestamp ksn) pre aid in
    let*? _ := Ret (match rt with Err (EQuery QOutOfOrder) => Ok tt | r => r end) in
    let*? os := p_compute_state pre in
    let*? s := Ret (ok_or os (EQuery QOutOfOrder)) in
    Ret (if (st_sn s <? sn)%N then Err (EQuery QOutOfOrder)
         else if (st_sn s =? sn)%N then Ok tt
         else Err (EQuery QStaleKsn)).
  (** processor/mod.rs:648-651 *)
  Definition p_escrow_reply (r : SignedReply) : prog op unit := p_do (OPush TEscRpy (sr_prefix r) r).
  (** sled/mod.rs:227-248 *)
  Definition p_update_accepted_reply (r : SignedReply) (id : IdentifierPrefix) : prog op unit :=
    let* o := p_get TRpy id in
    match o with
    | Some rs =>
        p_do (OPut TRpy id
          (filter (fun s => if Route_eq_dec (rp_route (sr_reply s)) (rp_route (sr_reply r)) then false else true) rs
           ++ [r]))
    | None => p_do (OPush TRpy id r)
    end.
  (** processor/mod.rs:534-574 *)
  Definition p_process_signed_reply (r : SignedReply) : prog op (out (option IdentifierState)) :=
    match rp_route (sr_reply r) with
    | RReplyKsn aid =>
        if IdentifierPrefix_eq_dec (get_signer (sr_sig r)) aid then
          let*? ser := Ret (e_ser_reply E (sr_reply r)) in
          let* vr := p_verify ser (sr_sig r) in
          match vr with
          | Err EOutOfOrder => let* _ := p_escrow_reply r in Ret (Err (EQuery QOutOfOrder))
          | Err e => Ret (Err e)
          | Panic => Ret Panic
          | Ok _ =>
              let*? _ := Ret (reply_check_digest E (sr_reply r)) in
              let* br := p_bada_logic r in
              let*? _ := Ret (match br with Err (EQuery QNoSavedReply) => Ok tt | x => x end) in
              let* kr := p_check_ksn (rp_ksn (sr_reply r)) aid in
              match kr with
              | Err (EQuery QOutOfOrder) => let* _ := p_escrow_reply r in Ret (Err (EQuery QOutOfOrder))
              | Err e => Ret (Err e)
              | Panic => Ret Panic
              | Ok _ =>
                  let* _ := p_update_accepted_reply r (sr_prefix r) in
                  Ret (Ok (Some (ksn_state (rp_ksn (sr_reply r)))))
              end
          end
        else Ret (Err (EQuery (QError "Wrong reply message signer")))
    | _ => Ret (Err (ESemantic "wrong route type"))
    end.
  (** processor/mod.rs:654-671, over the entries read *)
  Fixpoint p_escrow_loop (l : list SignedReply) : prog op (out unit) :=
    match l with
    | [] => Ret (Ok tt)
    | r :: rest =>
        let* res := p_process_signed_reply r in
        match res with
        | Ok _ | Err ESignatureVerification | Err (EQuery QStaleRpy) =>
            let* _ := p_do (ORemove TEscRpy (sr_prefix r) r) in p_escrow_loop rest
        | Err _ => p_escrow_loop rest
        | Panic => Ret Panic
        end
    end.
  Definition p_process_escrow : prog op (out unit) :=
    let* l := p_do (OAll TEscRpy) in p_escrow_loop l.
  (** processor/mod.rs:252-262 *)
  Definition p_process (m : Message) : prog op (out (option IdentifierState)) :=
    match m with
    | MEvent e => p_process_event e
    | MNontransferableRct r => p_process_witness_receipt r
    | MTransferableRct r => p_process_validator_receipt r
    | MKeyStateNotice r => p_process_signed_reply r
    | MQuery _ => Ret Panic
    end.
End Programs.
