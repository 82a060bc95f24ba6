(** * SpecManager: vocabulary for controllers over key managers. *)
From Verif Require Import Base Base64 Codes NumFmt Types KeyConf State Db Processor Spec Cesr Message Keri SpecKeri Manager.

(** What a program can do with a node: the whole public interface of the controller, and any
    call of the processor over the store that it shares. *)
Inductive NodeOp :=
| NIncept (extra ws : list BasicPrefix)
| NRotate (fresh : KeyPair)
| NIxn (payload : option bytes) (pk npk : bytes)
| NInteract (peer : IdentifierPrefix)
| NReceipt (m : EventMessage)
| NWitness (m : EventMessage)
| NSingle (msg : bytes)
| NRespond (msg : bytes)
| NCall (c : Call).
(** What it is told. *)
Inductive NodeAnswer :=
| AEvent (r : out SignedEventMessage)
| AReceipt (r : out SignedTransferableReceipt)
| AWitness (r : out SignedNontransferableReceipt)
| AState (r : out (IdentifierPrefix * bytes))
| ABytes (r : out bytes)
| ANothing.
(** the two parts of a result *)
Definition ans {A B} (f : B -> NodeAnswer) (x : A * B) : A * NodeAnswer := (fst x, f (snd x)).

(** One call of a node whose keys are in a [CryptoBox] ... *)
Definition box_do (E : Env) (K : KEnv) (k : Keri) (o : NodeOp) : Keri * NodeAnswer :=
  match o with
  | NIncept extra ws => ans AEvent (incept_with E K k extra ws)
  | NRotate fresh => ans AEvent (rotate E K k fresh)
  | NIxn p pk npk => ans AEvent (make_ixn E K k p pk npk)
  | NInteract peer => ans AEvent (interact E K k peer)
  | NReceipt m => ans AReceipt (make_rct E K k m)
  | NWitness m => ans AWitness (make_ntr E K k m)
  | NSingle msg => ans AState (respond_single E K k msg)
  | NRespond msg => ans ABytes (respond E K k msg)
  | NCall c => (set_db k (call E (k_db k) c), ANothing)
  end.
(** ... and of one whose keys are in the manager [G]. *)
Definition mgr_do (E : Env) (K : KEnv) {M} (G : Manager M) (k : KeriM M) (o : NodeOp) : KeriM M * NodeAnswer :=
  match o with
  | NIncept extra ws => ans AEvent (m_incept_with E K G k extra ws)
  | NRotate fresh => ans AEvent (m_rotate E K G k fresh)
  | NIxn p pk npk => ans AEvent (m_make_ixn E K G k p pk npk)
  | NInteract peer => ans AEvent (m_interact E K G k peer)
  | NReceipt m => ans AReceipt (m_make_rct E K G k m)
  | NWitness m => ans AWitness (m_make_ntr E K G k m)
  | NSingle msg => ans AState (m_respond_single E K k msg)
  | NRespond msg => ans ABytes (m_respond E K G k msg)
  | NCall c => (m_set_db k (call E (km_db k) c), ANothing)
  end.
(** A sequence of calls and all the answers. *)
Fixpoint does {A} (step : A -> NodeOp -> A * NodeAnswer) (k : A) (ops : list NodeOp) : A * list NodeAnswer :=
  match ops with
  | [] => (k, [])
  | o :: r => let (k1, x) := step k o in let (k2, xs) := does step k1 r in (k2, x :: xs)
  end.

(** A manager keeps its word, as seen from a relation between its states and pairs of key
    pairs: it answers with the two public keys, signs with the current private key, and a
    rotation makes the announced pair the current one and the generated pair the next one. *)
Definition keeps_word (K : KEnv) {M} (G : Manager M) (R : M -> CryptoBox -> Prop) : Prop :=
  forall g b, R g b ->
    mg_public G g = Ok (kp_pub (cb_cur b)) /\ mg_next G g = Ok (kp_pub (cb_next b))
    /\ (forall msg, mg_sign G g msg = k_sign_ed K (kp_priv (cb_cur b)) msg)
    /\ (forall fresh, kp_pub fresh <> [] -> exists g', mg_rotate G g fresh = (g', Ok tt) /\ R g' (mkBox (cb_next b) fresh)).

(** the key generator returns pairs with a public key *)
Definition generated (o : NodeOp) : Prop :=
  match o with NRotate fresh => kp_pub fresh <> [] | _ => True end.

(** ** Wallets *)
(** Of the contents that a controller has, the wallet returns one, if there is one. *)
Definition finds_one (pick : list Content -> option Content) : Prop :=
  (forall l x, pick l = Some x -> In x l) /\ (forall l, l <> [] -> pick l <> None).
(** A wallet after [incept_keys] and rotations that were given the pairs [fs], and what they returned. *)
Fixpoint turned (pick : list Content -> option Content) (w : Wallet) (fs : list KeyPair) : Wallet * list (out unit) :=
  match fs with
  | [] => (w, [])
  | f :: fs => let (w1, r) := wallet_rotate pick w f in let (w2, rs) := turned pick w1 fs in (w2, r :: rs)
  end.
(** Nothing in the wallet but its entry "next" has the controller "next". *)
Definition no_other_next (w : Wallet) : Prop :=
  forall id c, In (id, c) w -> id <> CURRENT -> id <> NEXT -> id <> CRYPTO -> controlled NEXT c = false.
(** The operations by which a node makes statements in its own name: its key events and receipts. *)
Definition own_name (o : NodeOp) : Prop :=
  match o with NIncept _ _ | NRotate _ | NIxn _ _ _ | NInteract _ | NReceipt _ => True | _ => False end.
(** the answer reports success *)
Definition succeeded (a : NodeAnswer) : Prop :=
  match a with
  | AEvent (Ok _) | AReceipt (Ok _) | AWitness (Ok _) | AState (Ok _) | ABytes (Ok _) => True
  | _ => False
  end.
