(** * SpecKeri: vocabulary for the properties of controllers and witnesses. *)
From Verif Require Import Base Base64 Codes NumFmt Types KeyConf State Db Processor Spec Cesr Message Keri.

(** A key pair works: signing succeeds and the public key verifies the signature. *)
Definition works (E : Env) (K : KEnv) (p : KeyPair) : Prop :=
  forall msg, exists sig, k_sign_ed K (kp_priv p) msg = Ok sig /\ e_verify_ed E (kp_pub p) msg sig = true.
(** serde serializes every key event (and its dummy forms) to JSON. *)
Definition json (i : SerializationInfo) : Prop := si_kind i = JSON.
Definition events_serialize (E : Env) (K : KEnv) : Prop :=
  (forall m, json (em_info m) -> exists b, e_ser_event E m = Ok b)
  /\ (forall i g p sn data, json i -> exists b, k_dummy_event K i g p sn data = Ok b)
  /\ (forall i g data, json i -> exists b, k_dummy_icp K i g data = Ok b).

(** What a program does with a controller after inception: rotations (with the key pair
    that the generator returns), interactions (with an optional payload), interactions with a
    peer, and any call of the processor over the shared store. *)
Inductive Op :=
| ORotate (fresh : KeyPair)
| OIxn (payload : option bytes) (pk npk : bytes)
| OInteract (peer : IdentifierPrefix)
| OCall (c : Call).
(** a call that submits no key event of identifier [id] *)
Definition foreign (id : IdentifierPrefix) (c : Call) : Prop :=
  match c with CProcess (MEvent e) => em_prefix (sem_msg e) <> id | _ => True end.
(** operations of a careful controller: sound key pairs, no [interact] (C58), nobody else
    submits events for its identifier *)
Definition op_ok (E : Env) (K : KEnv) (id : IdentifierPrefix) (o : Op) : Prop :=
  match o with
  | ORotate fresh => works E K fresh
  | OIxn _ _ _ => True
  | OInteract _ => False
  | OCall c => foreign id c
  end.
(** the results of the controller's own operations, and the controller afterwards *)
Fixpoint operate (E : Env) (K : KEnv) (k : Keri) (ops : list Op) : Keri * list (out SignedEventMessage) :=
  match ops with
  | [] => (k, [])
  | ORotate fresh :: r =>
      let (k1, x) := rotate E K k fresh in let (k2, xs) := operate E K k1 r in (k2, x :: xs)
  | OIxn p pk npk :: r =>
      let (k1, x) := make_ixn E K k p pk npk in let (k2, xs) := operate E K k1 r in (k2, x :: xs)
  | OInteract peer :: r =>
      let (k1, x) := interact E K k peer in let (k2, xs) := operate E K k1 r in (k2, x :: xs)
  | OCall c :: r => operate E K (set_db k (call E (k_db k) c)) r
  end.

(** The keys in force for an identifier: first key, and the commitment to the next ones. *)
Definition in_force (E : Env) (d : Db) (id : IdentifierPrefix) (cur next : bytes) : Prop :=
  exists s more, compute_state E d id = Ok (Some s)
    /\ kc_keys (st_current s) = ed_key cur :: more
    /\ kc_threshold (st_current s) = Simple 1
    /\ kc_next (st_current s) = Some (nxt_commitment E (Simple 1) [ed_key next] Blake3_256).

(** A controller with sound keys that was incepted over a store that other calls may have
    filled (its identifier being new there) and then operated carefully. *)
Definition careful (E : Env) (K : KEnv) (k : Keri) : Prop :=
  exists cs b extra ws k0 se0 ops,
    events_serialize E K /\ works E K (cb_cur b) /\ works E K (cb_next b)
    /\ (extra <> [] -> forall msg, e_digest E Blake3_256 msg <> [])
    /\ incept_with E K (keri_new b (run E db_empty cs)) extra ws = (k0, Ok se0)
    /\ olist (get_kel (run E db_empty cs) (em_prefix (sem_msg se0))) = []
    /\ Forall (op_ok E K (k_prefix k0)) ops
    /\ k = fst (operate E K k0 ops).

(** The messages of a stream that convert to something to process. *)
Definition converted (l : list SignedEventData) : list Message :=
  flat_map (fun x => match to_message x with Ok m => [m] | _ => [] end) l.
