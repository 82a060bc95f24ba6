(** * SpecShared: controllers made over one key manager.

    [Keri::new] takes the key manager shared ([Arc<Mutex<K>>], keri/mod.rs:84-90), and
    [key_manager()] hands it out again; stores can be shared in the same way. *)
From Verif Require Import Base Base64 Codes NumFmt Types KeyConf State Db Processor Spec Cesr Message Keri SpecKeri.

(** The key manager that all controllers hold, and the stores (any number). *)
Record Office := mkOffice { of_box : CryptoBox; of_store : nat -> Db }.
(** A controller of the office: its identifier, and which store it is over. *)
Notation Member := (IdentifierPrefix * nat)%type.
Definition controller (o : Office) (c : Member) : Keri := mkKeri (fst c) (of_box o) (of_store o (snd c)).
(** After one of its calls, the manager and its store are as that call leaves them. *)
Definition after_call (o : Office) (c : Member) (k : Keri) : Office :=
  mkOffice (k_box k) (fun n => if n =? snd c then k_db k else of_store o n).
(** The members' operations one after another, each with what it returned (a [OCall] returns no
    event). *)
Fixpoint work (E : Env) (K : KEnv) (o : Office) (ops : list (Member * Op)) : Office * list (list (out SignedEventMessage)) :=
  match ops with
  | [] => (o, [])
  | (c, x) :: r =>
      let (k, answer) := operate E K (controller o c) [x] in
      let (o', l) := work E K (after_call o c k) r in
      (o', answer :: l)
  end.

(** An operation with which a careful controller of [cs] would agree: sound keys, no [interact],
    and no call submits events for a member's identifier to the store that the member is over. *)
Definition agreeable (E : Env) (K : KEnv) (cs : list Member) (x : Member * Op) : Prop :=
  In (fst x) cs /\
  match snd x with
  | ORotate fresh => works E K fresh
  | OIxn _ _ _ => True
  | OInteract _ => False
  | OCall c => forall m, In m cs -> snd m = snd (fst x) -> foreign (fst m) c
  end.
Definition rotates (x : Member * Op) : Prop := exists fresh, snd x = ORotate fresh.
(** no answer is an error or a panic *)
Definition no_failure (l : list (list (out SignedEventMessage))) : Prop :=
  forall a x, In a l -> In x a -> exists se, x = Ok se.

(** The pair [p] cannot take the place of the pair with public key [cur]: what it signs does not
    verify; nor that of the pair with public key [next], which a commitment was made to. *)
Definition cannot_sign_for (E : Env) (K : KEnv) (cur : bytes) (p : KeyPair) : Prop :=
  forall msg sig, k_sign_ed K (kp_priv p) msg = Ok sig -> e_verify_ed E cur msg sig = false.
Definition does_not_open (E : Env) (next : bytes) (p : KeyPair) : Prop :=
  nxt_commitment E (Simple 1) [ed_key (kp_pub p)] Blake3_256 <> nxt_commitment E (Simple 1) [ed_key next] Blake3_256.
