(** * Keri: the event builder, the key manager, the controller [Keri] and the [Witness]
    ([src/event_message/event_msg_builder.rs], [src/signer/mod.rs], [src/keri]).

    Randomness is an argument (the key pairs that the generator returns), the clock is an
    argument (the instants it returns).  Mutex poisoning and the plain
    getters of [Keri] are not modelled. *)
From Verif Require Import Base Base64 Codes NumFmt Types KeyConf State Db Processor Cesr Message.

(** Further external functions used at this level (serde, Ed25519 signing). *)
(** serde and ed25519_dalek as used by keri/mod.rs, signer/mod.rs:24-88 and event_message/event_msg_builder.rs *)
Record KEnv := mkKEnv {
  (** [DummyEventMessage<Event>::serialize] (dummy_event.rs:128-130) *)
  k_dummy_event : SerializationInfo -> SelfAddressing -> IdentifierPrefix -> N -> EventData -> out bytes;
  (** [DummyInceptionEvent::serialize] (dummy_event.rs:77-79) *)
  k_dummy_icp : SerializationInfo -> SelfAddressing -> EventData -> out bytes;
  (** [EventMessage<Receipt>::serialize] *)
  k_ser_rct : ReceiptMessage -> out bytes;
  (** [serde_json::to_vec(&IdentifierState)] *)
  k_ser_state : IdentifierState -> out bytes;
  (** [message::<D>] for the kinds of messages (message.rs:28-88) *)
  k_parse : bytes -> pres EventType;
  (** [PrivateKey::sign_ed] (keys/mod.rs:76-83): private key, message *)
  k_sign_ed : bytes -> bytes -> out bytes }.

(** serialization_info.rs:53-60 [SerializationInfo::new] *)
Definition si_new (f : SerializationFormats) (size : nat) : SerializationInfo := mkSI 1 0 (N.of_nat size) f.

(** ** Key manager *)
(** a generated Ed25519 key pair: public and private key (signer/mod.rs:82-88) *)
Record KeyPair := mkKP { kp_pub : bytes; kp_priv : bytes }.
(** signer/mod.rs:17-21, 63-66 [CryptoBox] *)
Record CryptoBox := mkBox { cb_cur : KeyPair; cb_next : KeyPair }.
(** signer/mod.rs:36-48 [rotate]; [fresh] is the generated pair *)
Definition box_rotate (b : CryptoBox) (fresh : KeyPair) : CryptoBox := mkBox (cb_next b) fresh.
(** [Basic::Ed25519.derive(key)] *)
Definition ed_key (pk : bytes) : BasicPrefix := mkBP Ed25519 pk.

(** ** Event builder *)
(** event_msg_builder.rs:29-46 *)
Record Builder := mkB {
  b_type : EventTypeTag; b_prefix : IdentifierPrefix; b_sn : N;
  b_threshold : SignatureThreshold; b_next_threshold : SignatureThreshold;
  b_keys : list BasicPrefix; b_next_keys : list BasicPrefix;
  b_prev : SelfAddressingPrefix; b_data : list Seal; b_delegator : IdentifierPrefix;
  b_tally : N; b_witnesses : list BasicPrefix; b_add : list BasicPrefix; b_remove : list BasicPrefix;
  b_format : SerializationFormats; b_derivation : SelfAddressing }.

(** keri/mod.rs:41-45 [Keri] with [K = CryptoBox]; the key manager and the store are shared
    references in the code, here their current values *)
Record Keri := mkKeri { k_prefix : IdentifierPrefix; k_box : CryptoBox; k_db : Db }.
(** keri/mod.rs:84-90 [new] *)
Definition keri_new (b : CryptoBox) (d : Db) : Keri := mkKeri id_default b d.
(** witness.rs:22-26 *)
Record Witness := mkWit { w_prefix : BasicPrefix; w_box : CryptoBox; w_db : Db }.
(** witness.rs:28-40 [new], for an opened store *)
Definition witness_new (b : CryptoBox) (d : Db) : Witness := mkWit (ed_key (kp_pub (cb_cur b))) b d.
(** query/mod.rs:105-108 *)
Inductive ReplyType := Rep (r : SignedReply) | Kel (b : bytes).

(** the store behind [Arc] in keri/mod.rs [Keri] *)
Definition set_db (k : Keri) (d : Db) : Keri := mkKeri (k_prefix k) (k_box k) d.

Section WithEnv.
  Context (E : Env) (K : KEnv).

  (** signer/mod.rs:24-26, 77-79 *)
  Definition box_sign (b : CryptoBox) (msg : bytes) : out bytes := k_sign_ed K (kp_priv (cb_cur b)) msg.

  (** inception.rs:57-75, delegated/mod.rs:31-49 [incept_self_addressing] with
      dummy_event.rs:42-75 *)
  Definition incept_self_addressing (data : EventData) (g : SelfAddressing) (f : SerializationFormats)
    : out EventMessage :=
    let? b0 := k_dummy_icp K (si_new f 0) g data in
    let info := si_new f (List.length b0) in
    let? b1 := k_dummy_icp K info g data in
    if digest_aborts g then Panic
    else
      let dig := derive E g b1 in
      Ok (mkEM info dig (IdSelfAddressing dig) 0 data).
  (** event_message/mod.rs:53-68 [SaidEvent::to_message] with dummy_event.rs:98-126 *)
  Definition said_to_message (p : IdentifierPrefix) (sn : N) (data : EventData) (f : SerializationFormats)
      (g : SelfAddressing) : out EventMessage :=
    let? b0 := k_dummy_event K (si_new f 0) g p sn data in
    let info := si_new f (List.length b0) in
    let? b1 := k_dummy_event K info g p sn data in
    if digest_aborts g then Panic else Ok (mkEM info (derive E g b1) p sn data).
  (** event/mod.rs:36-50 [Event::to_message] *)
  Definition event_to_message (p : IdentifierPrefix) (sn : N) (data : EventData) (f : SerializationFormats)
      (g : SelfAddressing) : out EventMessage :=
    match p, data with
    | IdSelfAddressing _, Icp _ | IdSelfAddressing _, Dip _ => incept_self_addressing data g f
    | _, _ => said_to_message p sn data f g
    end.

  (** event_msg_builder.rs:49-74 [new]; [pk], [npk] are the generated default keys *)
  Definition builder_new (t : EventTypeTag) (pk npk : bytes) : Builder :=
    mkB t id_default 1 threshold_default threshold_default [ed_key pk] [ed_key npk]
        (derive E Blake3_256 (repeat x00 32)) [] id_default 0 [] [] [] JSON Blake3_256.
  (** event_msg_builder.rs:148-234 [build] *)
  Definition build (b : Builder) : out EventMessage :=
    let g := b_derivation b in
    let f := b_format b in
    let nxt := nxt_commitment E (b_next_threshold b) (b_next_keys b) g in
    let kc := kc_new (b_keys b) (Some nxt) (Some (b_threshold b)) in
    let? prefix :=
      (if IdentifierPrefix_eq_dec (b_prefix b) id_default then
         match kc_keys kc with
         | [k] => Ok (IdBasic k)
         | _ =>
             let? m := incept_self_addressing (Icp (mkIcp kc (mkIWC 0 []) [] [])) g f in
             Ok (em_prefix m)
         end
       else Ok (b_prefix b)) in
    match b_type b with
    | TIcp =>
        let icp := Icp (mkIcp kc (mkIWC (b_tally b) (b_witnesses b)) [] []) in
        match prefix with
        | IdBasic _ => event_to_message prefix 0 icp f g
        | IdSelfAddressing _ => incept_self_addressing icp g f
        | IdSelfSigning _ => Panic
        end
    | TRot =>
        event_to_message prefix (b_sn b)
          (Rot (mkRot (b_prev b) kc (mkWC (b_tally b) (b_remove b) (b_add b)) (b_data b))) f g
    | TIxn => event_to_message prefix (b_sn b) (Ixn (mkIxn (b_prev b) (b_data b))) f g
    | TDip => incept_self_addressing (Dip (mkDip (mkIcp kc (mkIWC 0 []) [] []) (b_delegator b))) g f
    | TDrt =>
        event_to_message prefix (b_sn b) (Drt (mkRot (b_prev b) kc (mkWC 0 [] []) (b_data b))) f g
    | _ => Err (ESemantic "Not key event")
    end.

  (** event_msg_builder.rs:76-146, the [with_*] calls made by the controller; the random
      default keys are always replaced *)
  Definition icp_builder (p : IdentifierPrefix) (keys next ws : list BasicPrefix) : Builder :=
    mkB TIcp p 1 threshold_default threshold_default keys next (derive E Blake3_256 (repeat x00 32))
        [] id_default 0 ws [] [] JSON Blake3_256.
  Definition rot_builder (p : IdentifierPrefix) (sn : N) (prev : SelfAddressingPrefix)
      (keys next : list BasicPrefix) : Builder :=
    mkB TRot p sn threshold_default threshold_default keys next prev [] id_default 0 [] [] [] JSON Blake3_256.
  (** here the random keys [pk], [npk] stay, but an interaction does not carry them (they
      would decide the prefix if the given one were the default) *)
  Definition ixn_builder (p : IdentifierPrefix) (sn : N) (prev : SelfAddressingPrefix) (seals : list Seal)
      (pk npk : bytes) : Builder :=
    mkB TIxn p sn threshold_default threshold_default [ed_key pk] [ed_key npk] prev seals id_default 0
        [] [] [] JSON Blake3_256.

  (** [ev.sign(vec![AttachedSignaturePrefix::new(Ed25519Sha512, km.sign(&ev.serialize()?)?, 0)], None)] *)
  (** keri/mod.rs [incept], [rotate], [make_ixn] *)
  Definition sign_own (b : CryptoBox) (m : EventMessage) : out SignedEventMessage :=
    let? ser := e_ser_event E m in
    let? sig := box_sign b ser in
    Ok (mkSEM m [mkASP 0 (mkSSP Ed25519Sha512 sig)] None).
  (** [self.processor.process(Message::Event(signed.clone()))?; Ok(signed)] *)
  (** keri/mod.rs [incept], [rotate], [make_ixn] *)
  Definition submit (k : Keri) (se : SignedEventMessage) : Keri * out SignedEventMessage :=
    let (d, r) := process E (k_db k) (MEvent se) in (set_db k d, omap (fun _ => se) r).

  (** keri/mod.rs:118-145 [incept] and 157-187 [incept_with_extra_keys]: the own key first *)
  Definition incept_with (k : Keri) (extra ws : list BasicPrefix) : Keri * out SignedEventMessage :=
    let b := k_box k in
    match (let? m := build (icp_builder (k_prefix k) (ed_key (kp_pub (cb_cur b)) :: extra)
                              [ed_key (kp_pub (cb_next b))] ws) in
           sign_own b m) with
    | Err e => (k, Err e)
    | Panic => (k, Panic)
    | Ok se =>
        match submit k se with
        | (k1, Ok se) => (mkKeri (em_prefix (sem_msg se)) (k_box k1) (k_db k1), Ok se)
        | (k1, r) => (k1, r)
        end
    end.
  Definition incept (k : Keri) (ws : list BasicPrefix) := incept_with k [] ws.
  Definition incept_with_extra_keys (k : Keri) (extra : list BasicPrefix) := incept_with k extra [].

  (** keri/mod.rs:192-232 [interact] *)
  Definition interact (k : Keri) (peer : IdentifierPrefix) : Keri * out SignedEventMessage :=
    match
      (let? last := match get_kel (k_db k) (k_prefix k) with
                    | Some evs => ok_or (popped evs) EInvalidIdentifierState
                    | None => Err EInvalidIdentifierState
                    end in
       let? pref := match peer with
                    | IdSelfAddressing p => Ok p
                    | _ => Err (ESemantic "Can interact with SelfAdressing prefixes only")
                    end in
       let? m := event_to_message (k_prefix k) (em_sn (sem_msg last) + 1)
                   (Ixn (mkIxn pref [SealDigest pref])) JSON Blake3_256 in
       let? ser := e_ser_event E m in
       let? sig := box_sign (k_box k) ser in
       Ok (mkSEM m [mkASP 0 (mkSSP ECDSAsecp256k1Sha256 sig)] None)) with
    | Err e => (k, Err e)
    | Panic => (k, Panic)
    | Ok se => (set_db k (add_kel (k_db k) se (k_prefix k)), Ok se)
    end.

  (** keri/mod.rs:258-273 [make_rotation] *)
  Definition make_rotation (k : Keri) : out EventMessage :=
    let? os := compute_state E (k_db k) (k_prefix k) in
    let? s := ok_or os (ESemantic "There is no state") in
    build (rot_builder (k_prefix k) (st_sn s + 1) (st_last_digest s)
             [ed_key (kp_pub (cb_cur (k_box k)))] [ed_key (kp_pub (cb_next (k_box k)))]).
  (** keri/mod.rs:234-256 [rotate]: the key manager rotates first *)
  Definition rotate (k : Keri) (fresh : KeyPair) : Keri * out SignedEventMessage :=
    let k1 := mkKeri (k_prefix k) (box_rotate (k_box k) fresh) (k_db k) in
    match (let? m := make_rotation k1 in sign_own (k_box k1) m) with
    | Err e => (k1, Err e)
    | Panic => (k1, Panic)
    | Ok se => submit k1 se
    end.

  (** keri/mod.rs:275-312 [make_ixn]; [pk], [npk] as in [ixn_builder] *)
  Definition make_ixn (k : Keri) (payload : option bytes) (pk npk : bytes) : Keri * out SignedEventMessage :=
    let seals := match payload with Some p => [SealDigest (derive E Blake3_256 p)] | None => [] end in
    match
      (let? os := compute_state E (k_db k) (k_prefix k) in
       let? s := ok_or os (ESemantic "There is no state") in
       let? m := build (ixn_builder (k_prefix k) (st_sn s + 1) (st_last_digest s) seals pk npk) in
       sign_own (k_box k) m) with
    | Err e => (k, Err e)
    | Panic => (k, Panic)
    | Ok se => submit k se
    end.

  (** event/receipt.rs:31-45 [Receipt::to_message] *)
  Definition receipt_to_message (dig : SelfAddressingPrefix) (p : IdentifierPrefix) (sn : N)
      (f : SerializationFormats) : out ReceiptMessage :=
    let? b := k_ser_rct K (mkRct (si_new f 0) dig p sn) in
    Ok (mkRct (si_new f (List.length b)) dig p sn).

  (** keri/mod.rs:375-408 [make_rct] *)
  Definition make_rct (k : Keri) (m : EventMessage) : Keri * out SignedTransferableReceipt :=
    match
      (let? ser := e_ser_event E m in
       let? sig := box_sign (k_box k) ser in
       let? oseal := get_last_establishment_event_seal E (k_db k) (k_prefix k) in
       let? seal := ok_or oseal (ESemantic "No establishment event seal") in
       let? rcp := receipt_to_message (derive E Blake3_256 ser) (em_prefix m) (em_sn m) JSON in
       Ok (mkTRct rcp seal [mkASP 0 (mkSSP Ed25519Sha512 sig)])) with
    | Err e => (k, Err e)
    | Panic => (k, Panic)
    | Ok r =>
        let (d, res) := process E (k_db k) (MTransferableRct r) in (set_db k d, omap (fun _ => r) res)
    end.

  (** keri/mod.rs:485-512 [generate_ntr] *)
  Definition generate_ntr (k : Keri) (m : EventMessage) : Keri * out SignedNontransferableReceipt :=
    match
      (let? ser := e_ser_event E m in
       let? sig := box_sign (k_box k) ser in
       let? rcp := receipt_to_message (derive E Blake3_256 ser) (em_prefix m) (em_sn m) JSON in
       Ok (mkNRct rcp [(ed_key (kp_pub (cb_cur (k_box k))), mkSSP Ed25519Sha512 sig)])) with
    | Err e => (k, Err e)
    | Panic => (k, Panic)
    | Ok r => (set_db k (add_receipt_nt (k_db k) r (em_prefix m)), Ok r)
    end.
  (** keri/mod.rs:417-464 [make_ntr] *)
  Definition make_ntr (k : Keri) (m : EventMessage) : Keri * out SignedNontransferableReceipt :=
    match k_prefix k with
    | IdBasic our =>
        match em_data m with
        | Icp evt =>
            if bp_mem our (iwc_witnesses (icp_wc evt)) then generate_ntr k m
            else (k, Err (ESemantic "we are not in a witness list."))
        | Rot evt =>
            if bp_mem our (wc_prune (rot_wc evt)) then
              (set_db k (remove_receipts_nt (k_db k) (em_prefix m)),
               Err (ESemantic "we were removed. no receipt to generate"))
            else if bp_mem our (wc_graft (rot_wc evt)) then generate_ntr k m
            else (k, Err (ESemantic "event does not change our status as a witness"))
        | _ => (k, Err (ESemantic "event without witness modifications"))
        end
    | _ => (k, Err (ESemantic "we are not a witness - our prefix is not Basic"))
    end.

  (** a nom result whose error becomes [DeserializeError] *)
  (** keri/mod.rs:317, 329 *)
  Definition of_pres {A} (x : pres A) : out (bytes * A) :=
    match x with
    | POk rest a => Ok (rest, a)
    | PPanic => Panic
    | _ => Err (EDeserialize "parse")
    end.
  (** keri/mod.rs:316-325 [respond_single]; bytes after the first message are ignored *)
  Definition respond_single (k : Keri) (msg : bytes) : Keri * out (IdentifierPrefix * bytes) :=
    match (let? p := of_pres (signed_message (k_parse K) msg) in
           match to_message (snd p) with
           | Err _ => Err (EDeserialize "message")
           | x => x
           end) with
    | Err e => (k, Err e)
    | Panic => (k, Panic)
    | Ok m =>
        let (d, r) := process E (k_db k) m in
        (set_db k d,
         let? os := r in
         let? s := ok_or os EInvalidIdentifierState in
         let? b := k_ser_state K s in Ok (st_prefix s, b))
    end.

  (** keri/mod.rs:332-338: the first pass; messages that convert and are accepted *)
  Fixpoint accept_all (d : Db) (l : list SignedEventData) : Db * out (list Message) :=
    match l with
    | [] => (d, Ok [])
    | x :: l =>
        match to_message x with
        | Panic => (d, Panic)
        | Err _ => accept_all d l
        | Ok m =>
            match process E d m with
            | (d1, Panic) => (d1, Panic)
            | (d1, Err _) => accept_all d1 l
            | (d1, Ok _) =>
                let (d2, r) := accept_all d1 l in (d2, omap (cons m) r)
            end
        end
    end.
  (** event_parsing/mod.rs:146-158 [EventType::serialize] *)
  Definition ser_type (t : EventType) : out bytes :=
    match t with
    | KeyEventT m => e_ser_event E m
    | ReceiptT r => k_ser_rct K r
    | QryT q => e_ser_query E q
    | RpyT r => e_ser_reply E r
    end.
  (** keri/mod.rs:344-367: the answer to one message; [rcp.to_cesr().unwrap()] *)
  Definition answer_one (k : Keri) (m : Message) : Keri * out bytes :=
    match m with
    | MEvent ev =>
        match (match em_data (sem_msg ev) with
               | Icp _ =>
                   if has_receipt (k_db k) (k_prefix k) 0 (em_prefix (sem_msg ev)) then Ok []
                   else let? o := get_kerl E (k_db k) (k_prefix k) in ok_or o (ESemantic "KEL is empty")
               | _ => Ok []
               end) with
        | Err e => (k, Err e)
        | Panic => (k, Panic)
        | Ok buf =>
            match make_rct k (sem_msg ev) with
            | (k1, Ok r) =>
                match sed_cesr ser_type (sed_of_tr r) with
                | Ok b => (k1, Ok (buf ++ b))
                | _ => (k1, Panic)
                end
            | (k1, Err e) => (k1, Err e)
            | (k1, Panic) => (k1, Panic)
            end
        end
    | MTransferableRct _ => (k, Ok [])
    | _ => (k, Panic)
    end.
  (** keri/mod.rs:340-372: the second pass; errors are dropped *)
  Fixpoint answer_all (k : Keri) (l : list Message) : Keri * out bytes :=
    match l with
    | [] => (k, Ok [])
    | m :: l =>
        match answer_one k m with
        | (k1, Panic) => (k1, Panic)
        | (k1, Err _) => answer_all k1 l
        | (k1, Ok b) => let (k2, r) := answer_all k1 l in (k2, omap (app b) r)
        end
    end.
  (** keri/mod.rs:327-373 [respond] *)
  Definition respond (k : Keri) (msg : bytes) : Keri * out bytes :=
    match of_pres (signed_event_stream (k_parse K) msg) with
    | Err e => (k, Err e)
    | Panic => (k, Panic)
    | Ok (_, l) =>
        match accept_all (k_db k) l with
        | (d, Ok ms) => answer_all (set_db k d) ms
        | (d, Err e) => (set_db k d, Err e)
        | (d, Panic) => (set_db k d, Panic)
        end
    end.

  (** ** Witness *)
  (** query/key_state_notice.rs:61-74 [new_ksn]; [t] is the clock *)
  Definition new_ksn (s : IdentifierState) (t : Z) : KeyStateNotice := mkKsn (si_new JSON 0) s 0 t [].
  (** query/reply.rs:29-39 [new_reply] with event_message/mod.rs:53-68.  The dummy
      serialization is [e_deriv_reply] of a reply with any digest of that algorithm; the size
      is the length of the dummy serialization (its version string has fixed width). *)
  Definition new_reply (ksn : KeyStateNotice) (route : Route) (g : SelfAddressing) (f : SerializationFormats)
      (t : Z) : out ReplyMessage :=
    let? b := e_deriv_reply E (mkReply (si_new f 0) (mkSAP g []) t route ksn) in
    if digest_aborts g then Panic
    else Ok (mkReply (si_new f (List.length b)) (derive E g b) t route ksn).
  Definition signed_notice (w : Witness) (s : IdentifierState) (t1 t2 : Z) : out SignedReply :=
    let? rpy := new_reply (new_ksn s t1) (RReplyKsn (IdBasic (w_prefix w))) Blake3_256 JSON t2 in
    let? ser := e_ser_reply E rpy in
    let? sig := box_sign (w_box w) ser in
    Ok (mkSRpy rpy (NonTransferable (w_prefix w) (mkSSP Ed25519Sha512 sig))).
  (** [.unwrap()] *)
  Definition ounwrap {A} (x : out A) : out A := match x with Ok a => Ok a | _ => Panic end.
  (** witness.rs:42-59 [get_ksn_for_prefix]; the two [unwrap]s; a signing error also panics *)
  Definition get_ksn_for_prefix (w : Witness) (id : IdentifierPrefix) (t1 t2 : Z) : out SignedReply :=
    let? os := ounwrap (compute_state E (w_db w) id) in
    match os with
    | None => Panic
    | Some s =>
        let? rpy := new_reply (new_ksn s t1) (RReplyKsn (IdBasic (w_prefix w))) Blake3_256 JSON t2 in
        let? ser := e_ser_reply E rpy in
        let? sig := ounwrap (box_sign (w_box w) ser) in
        Ok (mkSRpy rpy (NonTransferable (w_prefix w) (mkSSP Ed25519Sha512 sig)))
    end.
  (** witness.rs:80-115 [process_query] *)
  Definition process_query (w : Witness) (q : QueryMessage) (t1 t2 : Z) : out ReplyType :=
    match q_route q with
    | RLog =>
        let? o := get_kerl E (w_db w) (q_i q) in
        let? b := ok_or o (ESemantic "No identifier in db") in Ok (Kel b)
    | RKsn =>
        let? os := ounwrap (compute_state E (w_db w) (q_i q)) in
        let? s := ok_or os (ESemantic "No id in database") in
        let? r := signed_notice w s t1 t2 in Ok (Rep r)
    | RReplyKsn _ => Panic
    end.
  (** witness.rs:61-78 [process_signed_query]; [serialize().unwrap()] *)
  Definition process_signed_query (w : Witness) (q : SignedQuery) (t1 t2 : Z) : out ReplyType :=
    let? os := compute_state E (w_db w) (sq_signer q) in
    let? s := ok_or os (ESemantic "No identifier in db") in
    let? ser := ounwrap (e_ser_query E (sq_envelope q)) in
    let? b := kc_verify E (st_current s) ser (sq_sigs q) in
    if (b : bool) then process_query w (sq_envelope q) t1 t2 else Err ESignatureVerification.
End WithEnv.
