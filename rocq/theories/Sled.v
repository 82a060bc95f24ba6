(** * Sled: the store with numeric keys ([src/database/sled/tables.rs]).

    A sled tree is an ordered map; here a list in ascending key order.  The value of an
    identifier entry is the CBOR of the identifier, which is the CBOR of its text
    ([Serialize for IdentifierPrefix] writes [to_str()], src/prefix/mod.rs:103-110), and
    that is represented by the text.  Table values are the Rust lists (CBOR round trip
    assumed).  I/O errors of sled are not modelled.  Keys are [u64]: 2^64 identifiers
    would be needed to overflow, so they are natural numbers here. *)
From Verif Require Import Base Base64 Codes NumFmt Types KeyConf State Db Processor Prog.

(** ** Trees *)
(** [sled::Tree], database/sled/tables.rs:10-13, 132-135 *)
Definition tree (V : Type) := list (N * V).
(** [tree.get] *)
(** database/sled/tables.rs:35, 157 *)
Fixpoint tr_get {V} (t : tree V) (k : N) : option V :=
  match t with
  | [] => None
  | (k', v) :: t' => if (k =? k')%N then Some v else tr_get t' k
  end.
(** [tree.insert]: replaces or inserts in key order (big-endian keys) *)
(** database/sled/tables.rs:46, 185 *)
Fixpoint tr_put {V} (t : tree V) (k : N) (v : V) : tree V :=
  match t with
  | [] => [(k, v)]
  | (k', v') :: t' =>
      if (k <? k')%N then (k, v) :: t
      else if (k =? k')%N then (k, v) :: t'
      else (k', v') :: tr_put t' k v
  end.
(** key of [tree.last()] *)
(** database/sled/tables.rs:202 *)
Fixpoint tr_last {V} (t : tree V) : option N :=
  match t with
  | [] => None
  | [(k, _)] => Some k
  | _ :: t' => tr_last t'
  end.

(** ** Vector tables (tables.rs:30-125), on one tree *)
Section VecTable.
  Context {T : Type} (eqb : T -> T -> bool).
  (** tables.rs:36-43, 107-117 [get], [iter_values] *)
  Definition vt_get (t : tree (list T)) (k : N) : option (list T) := tr_get t k.
  (** tables.rs:45-51 *)
  Definition vt_put (t : tree (list T)) (k : N) (l : list T) : tree (list T) := tr_put t k l.
  (** tables.rs:53-63 *)
  Definition vt_push (t : tree (list T)) (k : N) (x : T) : tree (list T) :=
    match vt_get t k with Some l => vt_put t k (l ++ [x]) | None => vt_put t k [x] end.
  (** tables.rs:65-77 *)
  Definition vt_remove (t : tree (list T)) (k : N) (x : T) : tree (list T) :=
    match vt_get t k with Some l => vt_put t k (filter (fun e => negb (eqb e x)) l) | None => t end.
  (** tables.rs:79-93 [append]: when the key is present the local copy is extended and
      dropped *)
  Definition vt_append (t : tree (list T)) (k : N) (l : list T) : tree (list T) :=
    match vt_get t k with Some _ => t | None => vt_put t k l end.
  (** tables.rs:95-105 *)
  Definition vt_contains (t : tree (list T)) (x : T) : bool :=
    existsb (fun kv => existsb (fun e => eqb e x) (snd kv)) t.
  (** tables.rs:119-125 *)
  Definition vt_all (t : tree (list T)) : list T := flat_map snd t.
End VecTable.

(** ** The store ([src/database/sled/mod.rs:22-46]) *)
Record Sled := mkSled {
  s_ids : tree bytes;                                   (* "iids" *)
  s_kel : tree (list SignedEventMessage);
  s_ldup : tree (list EventMessage);
  s_dup : tree (list SignedEventMessage);
  s_rct_nt : tree (list SignedNontransferableReceipt);
  s_esc_nt : tree (list SignedNontransferableReceipt);
  s_rct_t : tree (list SignedTransferableReceipt);
  s_esc_t : tree (list SignedTransferableReceipt);
  s_rpy : tree (list SignedReply);
  s_esc_rpy : tree (list SignedReply) }.
Definition sled_empty : Sled := mkSled [] [] [] [] [] [] [] [] [] [].

(** database/sled/mod.rs:22-46 *)
Definition stab (n : tname) (s : Sled) : tree (list (tty n)) :=
  match n with
  | TKel => s_kel s | TLdup => s_ldup s | TDup => s_dup s
  | TRctNt => s_rct_nt s | TEscNt => s_esc_nt s
  | TRctT => s_rct_t s | TEscT => s_esc_t s
  | TRpy => s_rpy s | TEscRpy => s_esc_rpy s
  end.
(** database/sled/mod.rs:22-46 *)
Definition sset (n : tname) (s : Sled) : tree (list (tty n)) -> Sled :=
  let 'mkSled i a b c d e f g h j := s in
  match n with
  | TKel => fun t => mkSled i t b c d e f g h j
  | TLdup => fun t => mkSled i a t c d e f g h j
  | TDup => fun t => mkSled i a b t d e f g h j
  | TRctNt => fun t => mkSled i a b c t e f g h j
  | TEscNt => fun t => mkSled i a b c d t f g h j
  | TRctT => fun t => mkSled i a b c d e t g h j
  | TEscT => fun t => mkSled i a b c d e f t h j
  | TRpy => fun t => mkSled i a b c d e f g t j
  | TEscRpy => fun t => mkSled i a b c d e f g h t
  end.
(** database/sled/mod.rs:22-46 *)
Definition set_ids (s : Sled) (i : tree bytes) : Sled :=
  mkSled i (s_kel s) (s_ldup s) (s_dup s) (s_rct_nt s) (s_esc_nt s) (s_rct_t s) (s_esc_t s) (s_rpy s) (s_esc_rpy s).

(** ** Atomic tree accesses *)
(** the sled calls of database/sled/tables.rs *)
Inductive prim : Type -> Type :=
| PFind (id : IdentifierPrefix) : prim (option N)        (* get_key_by_value, tables.rs:215-226 *)
| PLast : prim (option N)                                (* tree.last() in get_next_key, 201-207 *)
| PInsert (k : N) (id : IdentifierPrefix) : prim unit    (* tree.insert in designated_key, 239-241 *)
| PGet (n : tname) (k : N) : prim (option (list (tty n)))
| PPut (n : tname) (k : N) (l : list (tty n)) : prim unit
| PAll (n : tname) : prim (list (tty n)).

(** database/sled/tables.rs:217 *)
Fixpoint find_text (t : tree bytes) (v : bytes) : option N :=
  match t with
  | [] => None
  | (k, v') :: t' => if bytes_eq_dec v' v then Some k else find_text t' v
  end.
(** the sled calls of database/sled/tables.rs *)
Definition prim_sem {A} (o : prim A) (s : Sled) : Sled * A :=
  match o in prim A return Sled * A with
  | PFind id => (s, find_text (s_ids s) (id_str id))
  | PLast => (s, tr_last (s_ids s))
  | PInsert k id => (set_ids s (tr_put (s_ids s) k (id_str id)), tt)
  | PGet n k => (s, tr_get (stab n s) k)
  | PPut n k l => (sset n s (tr_put (stab n s) k l), tt)
  | PAll n => (s, flat_map snd (stab n s))
  end.
(** no counterpart in /repo: runs a program of tree accesses *)
Fixpoint sinterp {R} (p : prog prim R) (s : Sled) : Sled * R :=
  match p with
  | Ret r => (s, r)
  | Do o k => let (s', a) := prim_sem o s in sinterp (k a) s'
  end.

(** tables.rs:228-246 [designated_key]; an unknown identifier is inserted, even by reads *)
Definition designated (id : IdentifierPrefix) : prog prim N :=
  let* o := Do (PFind id) Ret in
  match o with
  | Some k => Ret k
  | None =>
      let* l := Do PLast Ret in
      let k := match l with Some x => (x + 1)%N | None => 0%N end in
      let* _ := Do (PInsert k id) Ret in
      Ret k
  end.
(** sled/mod.rs: every operation evaluates [designated_key(id)], then reads and writes the
    tree; [push] and [remove] are a [get] followed by a [put] *)
Definition expand_op {A} (o : op A) : prog prim A :=
  match o in op A return prog prim A with
  | OGet n id => let* k := designated id in Do (PGet n k) Ret
  | OPush n id x =>
      let* k := designated id in
      let* o := Do (PGet n k) Ret in
      Do (PPut n k (match o with Some l => l ++ [x] | None => [x] end)) Ret
  | ORemove n id x =>
      let* k := designated id in
      let* o := Do (PGet n k) Ret in
      match o with
      | Some l => Do (PPut n k (filter (fun e => negb (teqb n e x)) l)) Ret
      | None => Ret tt
      end
  | OPut n id l => let* k := designated id in Do (PPut n k l) Ret
  | OAll n => Do (PAll n) Ret
  end.
Fixpoint expand {R} (p : prog op R) : prog prim R :=
  match p with
  | Ret r => Ret r
  | Do o k => pbind (expand_op o) (fun a => expand (k a))
  end.

(** one operation of the store API, and a history of them *)
(** database/sled/mod.rs *)
Definition sop {A} (o : op A) (s : Sled) : Sled * A := sinterp (expand_op o) s.
(** database/sled/mod.rs *)
Inductive anyop : Type := AnyOp (A : Type) (o : op A).
(** no counterpart in /repo: a history of calls *)
Definition sops (s : Sled) (h : list anyop) : Sled :=
  fold_left (fun s a => match a with AnyOp _ o => fst (sop o s) end) h s.

(** sled/mod.rs:130-138 [remove_receipts_nt] *)
Definition p_remove_receipts_nt (id : IdentifierPrefix) : prog op unit :=
  let* o := Do (OGet TRctNt id) Ret in
  match o with
  | None => Ret tt
  | Some rs => fold_right (fun r p => let* _ := Do (ORemove TRctNt id r) Ret in p) (Ret tt) rs
  end.
