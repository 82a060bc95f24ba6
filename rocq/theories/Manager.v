(** * Manager: the controller over any key manager ([src/keri/mod.rs] is generic in
    [K: KeyManager]), and the wallet as key manager ([src/signer/wallet.rs], feature [wallet]).

    [Keri.v] is the instance [K = CryptoBox].  Randomness is an argument, as there: [rotate] is
    given the pair that the generator returns.  The errors [PublicKeyError] and [WalletError] are
    represented by [ESemantic]. *)
From Verif Require Import Base Base64 Codes NumFmt Types KeyConf State Db Processor Cesr Message Keri.

(** signer/mod.rs:10-15 [trait KeyManager]; [mg_rotate] also takes the generated pair and returns
    the manager afterwards ([&mut self]) *)
Record Manager (M : Type) := mkMgr {
  mg_sign : M -> bytes -> out bytes;
  mg_public : M -> out bytes;
  mg_next : M -> out bytes;
  mg_rotate : M -> KeyPair -> M * out unit }.
Arguments mg_sign {M}. Arguments mg_public {M}. Arguments mg_next {M}. Arguments mg_rotate {M}.
(** keri/mod.rs:41-45 [Keri<K>] *)
Record KeriM (M : Type) := mkKM { km_prefix : IdentifierPrefix; km_mgr : M; km_db : Db }.
Arguments mkKM {M}. Arguments km_prefix {M}. Arguments km_mgr {M}. Arguments km_db {M}.
(** signer/mod.rs:23-49 [impl KeyManager for CryptoBox] *)
Definition box_manager (K : KEnv) : Manager CryptoBox :=
  mkMgr CryptoBox (box_sign K) (fun b => Ok (kp_pub (cb_cur b))) (fun b => Ok (kp_pub (cb_next b)))
    (fun b fresh => (box_rotate b fresh, Ok tt)).

Section WithEnv.
  Context (E : Env) (K : KEnv) {M : Type} (G : Manager M).
  (** keri/mod.rs:84-90 [new] *)
  Definition m_new (m : M) (d : Db) : KeriM M := mkKM id_default m d.
  (** the store behind [Arc] in keri/mod.rs [Keri] *)
  Definition m_set_db (k : KeriM M) (d : Db) : KeriM M := mkKM (km_prefix k) (km_mgr k) d.
  (** keri/mod.rs [incept], [rotate], [make_ixn]: [ev.sign(vec![.. km.sign(&ev.serialize()?)? ..], None)] *)
  Definition m_sign_own (g : M) (m : EventMessage) : out SignedEventMessage :=
    let? ser := e_ser_event E m in
    let? sig := mg_sign G g ser in
    Ok (mkSEM m [mkASP 0 (mkSSP Ed25519Sha512 sig)] None).
  (** keri/mod.rs [incept], [rotate], [make_ixn]: [self.processor.process(..)?; Ok(signed)] *)
  Definition m_submit (k : KeriM M) (se : SignedEventMessage) : KeriM M * out SignedEventMessage :=
    let (d, r) := process E (km_db k) (MEvent se) in (m_set_db k d, omap (fun _ => se) r).
  (** keri/mod.rs:118-145 [incept] and 157-187 [incept_with_extra_keys] *)
  Definition m_incept_with (k : KeriM M) (extra ws : list BasicPrefix) : KeriM M * out SignedEventMessage :=
    match (let? pk := mg_public G (km_mgr k) in
           let? npk := mg_next G (km_mgr k) in
           let? m := build E K (icp_builder E (km_prefix k) (ed_key pk :: extra) [ed_key npk] ws) in
           m_sign_own (km_mgr k) m) with
    | Err e => (k, Err e)
    | Panic => (k, Panic)
    | Ok se =>
        match m_submit k se with
        | (k1, Ok se) => (mkKM (em_prefix (sem_msg se)) (km_mgr k1) (km_db k1), Ok se)
        | (k1, r) => (k1, r)
        end
    end.
  (** keri/mod.rs:192-232 [interact] *)
  Definition m_interact (k : KeriM M) (peer : IdentifierPrefix) : KeriM M * out SignedEventMessage :=
    match
      (let? last := match get_kel (km_db k) (km_prefix k) with
                    | Some evs => ok_or (popped evs) EInvalidIdentifierState
                    | None => Err EInvalidIdentifierState
                    end in
       let? pref := match peer with
                    | IdSelfAddressing p => Ok p
                    | _ => Err (ESemantic "Can interact with SelfAdressing prefixes only")
                    end in
       let? m := event_to_message E K (km_prefix k) (em_sn (sem_msg last) + 1)
                   (Ixn (mkIxn pref [SealDigest pref])) JSON Blake3_256 in
       let? ser := e_ser_event E m in
       let? sig := mg_sign G (km_mgr k) ser in
       Ok (mkSEM m [mkASP 0 (mkSSP ECDSAsecp256k1Sha256 sig)] None)) with
    | Err e => (k, Err e)
    | Panic => (k, Panic)
    | Ok se => (m_set_db k (add_kel (km_db k) se (km_prefix k)), Ok se)
    end.
  (** keri/mod.rs:258-273 [make_rotation] *)
  Definition m_make_rotation (k : KeriM M) : out EventMessage :=
    let? os := compute_state E (km_db k) (km_prefix k) in
    let? s := ok_or os (ESemantic "There is no state") in
    let? pk := mg_public G (km_mgr k) in
    let? npk := mg_next G (km_mgr k) in
    build E K (rot_builder (km_prefix k) (st_sn s + 1) (st_last_digest s) [ed_key pk] [ed_key npk]).
  (** keri/mod.rs:234-256 [rotate] *)
  Definition m_rotate (k : KeriM M) (fresh : KeyPair) : KeriM M * out SignedEventMessage :=
    let (g, r) := mg_rotate G (km_mgr k) fresh in
    let k1 := mkKM (km_prefix k) g (km_db k) in
    match (let? _ := r in let? m := m_make_rotation k1 in m_sign_own (km_mgr k1) m) with
    | Err e => (k1, Err e)
    | Panic => (k1, Panic)
    | Ok se => m_submit k1 se
    end.
  (** keri/mod.rs:275-312 [make_ixn] *)
  Definition m_make_ixn (k : KeriM M) (payload : option bytes) (pk npk : bytes) : KeriM M * out SignedEventMessage :=
    let seals := match payload with Some p => [SealDigest (derive E Blake3_256 p)] | None => [] end in
    match
      (let? os := compute_state E (km_db k) (km_prefix k) in
       let? s := ok_or os (ESemantic "There is no state") in
       let? m := build E K (ixn_builder (km_prefix k) (st_sn s + 1) (st_last_digest s) seals pk npk) in
       m_sign_own (km_mgr k) m) with
    | Err e => (k, Err e)
    | Panic => (k, Panic)
    | Ok se => m_submit k se
    end.
  (** keri/mod.rs:375-408 [make_rct] *)
  Definition m_make_rct (k : KeriM M) (m : EventMessage) : KeriM M * out SignedTransferableReceipt :=
    match
      (let? ser := e_ser_event E m in
       let? sig := mg_sign G (km_mgr k) ser in
       let? oseal := get_last_establishment_event_seal E (km_db k) (km_prefix k) in
       let? seal := ok_or oseal (ESemantic "No establishment event seal") in
       let? rcp := receipt_to_message K (derive E Blake3_256 ser) (em_prefix m) (em_sn m) JSON in
       Ok (mkTRct rcp seal [mkASP 0 (mkSSP Ed25519Sha512 sig)])) with
    | Err e => (k, Err e)
    | Panic => (k, Panic)
    | Ok r =>
        let (d, res) := process E (km_db k) (MTransferableRct r) in (m_set_db k d, omap (fun _ => r) res)
    end.
  (** keri/mod.rs:485-512 [generate_ntr] *)
  Definition m_generate_ntr (k : KeriM M) (m : EventMessage) : KeriM M * out SignedNontransferableReceipt :=
    match
      (let? ser := e_ser_event E m in
       let? sig := mg_sign G (km_mgr k) ser in
       let? pk := mg_public G (km_mgr k) in
       let? rcp := receipt_to_message K (derive E Blake3_256 ser) (em_prefix m) (em_sn m) JSON in
       Ok (mkNRct rcp [(ed_key pk, mkSSP Ed25519Sha512 sig)])) with
    | Err e => (k, Err e)
    | Panic => (k, Panic)
    | Ok r => (m_set_db k (add_receipt_nt (km_db k) r (em_prefix m)), Ok r)
    end.
  (** keri/mod.rs:417-464 [make_ntr] *)
  Definition m_make_ntr (k : KeriM M) (m : EventMessage) : KeriM M * out SignedNontransferableReceipt :=
    match km_prefix k with
    | IdBasic our =>
        match em_data m with
        | Icp evt =>
            if bp_mem our (iwc_witnesses (icp_wc evt)) then m_generate_ntr k m
            else (k, Err (ESemantic "we are not in a witness list."))
        | Rot evt =>
            if bp_mem our (wc_prune (rot_wc evt)) then
              (m_set_db k (remove_receipts_nt (km_db k) (em_prefix m)),
               Err (ESemantic "we were removed. no receipt to generate"))
            else if bp_mem our (wc_graft (rot_wc evt)) then m_generate_ntr k m
            else (k, Err (ESemantic "event does not change our status as a witness"))
        | _ => (k, Err (ESemantic "event without witness modifications"))
        end
    | _ => (k, Err (ESemantic "we are not a witness - our prefix is not Basic"))
    end.
  (** keri/mod.rs:316-325 [respond_single] *)
  Definition m_respond_single (k : KeriM M) (msg : bytes) : KeriM M * out (IdentifierPrefix * bytes) :=
    match (let? p := of_pres (signed_message (k_parse K) msg) in
           match to_message (snd p) with
           | Err _ => Err (EDeserialize "message")
           | x => x
           end) with
    | Err e => (k, Err e)
    | Panic => (k, Panic)
    | Ok m =>
        let (d, r) := process E (km_db k) m in
        (m_set_db k d,
         let? os := r in
         let? s := ok_or os EInvalidIdentifierState in
         let? b := k_ser_state K s in Ok (st_prefix s, b))
    end.
  (** keri/mod.rs:344-367: the answer to one message *)
  Definition m_answer_one (k : KeriM M) (m : Message) : KeriM M * out bytes :=
    match m with
    | MEvent ev =>
        match (match em_data (sem_msg ev) with
               | Icp _ =>
                   if has_receipt (km_db k) (km_prefix k) 0 (em_prefix (sem_msg ev)) then Ok []
                   else let? o := get_kerl E (km_db k) (km_prefix k) in ok_or o (ESemantic "KEL is empty")
               | _ => Ok []
               end) with
        | Err e => (k, Err e)
        | Panic => (k, Panic)
        | Ok buf =>
            match m_make_rct k (sem_msg ev) with
            | (k1, Ok r) =>
                match sed_cesr (ser_type E K) (sed_of_tr r) with
                | Ok b => (k1, Ok (buf ++ b))
                | _ => (k1, Panic)
                end
            | (k1, Err e) => (k1, Err e)
            | (k1, Panic) => (k1, Panic)
            end
        end
    | MTransferableRct _ => (k, Ok [])
    | _ => (k, Panic)
    end.
  (** keri/mod.rs:340-372: the second pass *)
  Fixpoint m_answer_all (k : KeriM M) (l : list Message) : KeriM M * out bytes :=
    match l with
    | [] => (k, Ok [])
    | m :: l =>
        match m_answer_one k m with
        | (k1, Panic) => (k1, Panic)
        | (k1, Err _) => m_answer_all k1 l
        | (k1, Ok b) => let (k2, r) := m_answer_all k1 l in (k2, omap (app b) r)
        end
    end.
  (** keri/mod.rs:327-373 [respond] *)
  Definition m_respond (k : KeriM M) (msg : bytes) : KeriM M * out bytes :=
    match of_pres (signed_event_stream (k_parse K) msg) with
    | Err e => (k, Err e)
    | Panic => (k, Panic)
    | Ok (_, l) =>
        match accept_all E (km_db k) l with
        | (d, Ok ms) => m_answer_all (m_set_db k d) ms
        | (d, Err e) => (m_set_db k d, Err e)
        | (d, Panic) => (m_set_db k d, Panic)
        end
    end.
End WithEnv.

(** ** The wallet *)
(** crate universal_wallet 0.5: a wallet maps identifiers to contents.  A public key has
    controllers; key pairs are of one of two types here. *)
Inductive KeyKind := KEd25519 | KX25519.
(** crate universal_wallet [PublicKeyInfo] *)
Record PubInfo := mkPI { pi_controller : list bytes; pi_key : bytes }.
(** crate universal_wallet [Content] *)
Inductive Content :=
| CKeyPair (kind : KeyKind) (info : PubInfo) (priv : bytes)
| CEntropy (e : bytes)
| CPublicKey (info : PubInfo).
(** crate universal_wallet [UnlockedWallet]; its name and type are not modelled *)
Definition Wallet := list (bytes * Content).
(** crate universal_wallet [get_key] *)
Fixpoint uw_get (w : Wallet) (id : bytes) : option Content :=
  match w with
  | [] => None
  | (i, c) :: w => if bytes_eqb i id then Some c else uw_get w id
  end.
(** crate universal_wallet [set_content] *)
Definition uw_set (w : Wallet) (id : bytes) (c : Content) : Wallet :=
  (id, c) :: filter (fun e => negb (bytes_eqb (fst e) id)) w.
(** crate universal_wallet, in [get_content_by_controller] *)
Definition controlled (by_ : bytes) (c : Content) : bool :=
  match c with
  | CKeyPair _ i _ | CPublicKey i => existsb (bytes_eqb by_) (pi_controller i)
  | CEntropy _ => false
  end.
(** wallet.rs:5-7 *)
Definition CURRENT : bytes := bstr "current".
Definition NEXT : bytes := bstr "next".
Definition CRYPTO : bytes := bstr "crypto".
(** wallet.rs:12-24 [incept_keys]; the three generated pairs are arguments *)
Definition incept_keys (w : Wallet) (cur next crypto : KeyPair) : Wallet :=
  uw_set (uw_set (uw_set w CURRENT (CKeyPair KEd25519 (mkPI [CURRENT] (kp_pub cur)) (kp_priv cur)))
            NEXT (CKeyPair KEd25519 (mkPI [NEXT] (kp_pub next)) (kp_priv next)))
    CRYPTO (CKeyPair KX25519 (mkPI [CRYPTO] (kp_pub crypto)) (kp_priv crypto)).
(** wallet.rs:27-48 [get_public_key] *)
Definition get_public_key (w : Wallet) (which : bytes) : out bytes :=
  match uw_get w which with
  | Some (CKeyPair _ i _) | Some (CPublicKey i) =>
      match pi_key i with [] => Err (ESemantic "public key") | k => Ok k end
  | Some (CEntropy _) => Err (ESemantic "public key")
  | None => Err (ESemantic "public key")
  end.
Section Wallet.
  (** [get_content_by_controller] returns the first content of the controller it meets; the
      contents are in a hash map, so which one that is is not determined: [pick] decides *)
  Context (K : KEnv) (pick : list Content -> option Content).
  Definition uw_by_controller (w : Wallet) (by_ : bytes) : option Content :=
    pick (filter (controlled by_) (map snd w)).
  (** crate universal_wallet [sign_raw] *)
  Definition sign_raw (w : Wallet) (id msg : bytes) : out bytes :=
    match uw_get w id with
    | Some (CKeyPair KEd25519 _ priv) => k_sign_ed K priv msg
    | Some _ => Err (ESemantic "wallet")
    | None => Err (ESemantic "wallet")
    end.
  (** wallet.rs:64-86 [rotate] *)
  Definition wallet_rotate (w : Wallet) (fresh : KeyPair) : Wallet * out unit :=
    match get_public_key w NEXT with
    | Err e => (w, Err e)
    | Panic => (w, Panic)
    | Ok [] => (w, Err (ESemantic "wallet"))
    | Ok _ =>
        match uw_by_controller w NEXT with
        | Some (CKeyPair kind i priv) =>
            (uw_set (uw_set w CURRENT (CKeyPair kind (mkPI [CURRENT] (pi_key i)) priv))
               NEXT (CKeyPair KEd25519 (mkPI [NEXT] (kp_pub fresh)) (kp_priv fresh)), Ok tt)
        | Some _ => (w, Err (ESemantic "wallet"))
        | None => (w, Err (ESemantic "wallet"))
        end
    end.
  (** wallet.rs:50-87 [impl KeyManager for UnlockedWallet] *)
  Definition wallet_manager : Manager Wallet :=
    mkMgr Wallet (fun w => sign_raw w CURRENT) (fun w => get_public_key w CURRENT)
      (fun w => get_public_key w NEXT) wallet_rotate.
End Wallet.
(** keri/mod.rs:47-80 [new_with_fresh_wallet]; the generated pairs are arguments *)
Definition new_with_fresh_wallet (d : Db) (cur next crypto : KeyPair) : KeriM Wallet :=
  mkKM (IdBasic (mkBP ECDSAsecp256k1 (kp_pub cur))) (incept_keys [] cur next crypto) d.
