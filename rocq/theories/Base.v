(** * Base: outcomes, byte strings and small list helpers.

    Modelling conventions (see DESIGN.md):
    - a Rust [Result<T, Error>] that may also panic is an [out T];
    - a Rust [&[u8]] / [Vec<u8>] / [String] / [&str] is a [bytes] (list of bytes;
      for strings: their UTF-8 bytes). *)
From Coq Require Export List NArith ZArith Bool Lia Arith Strings.Byte.
From Coq Require Export String.
Export ListNotations.
Open Scope list_scope.

(** [src/query/mod.rs:110-122] [QueryError]. *)
Inductive query_error :=
| QOutOfOrder | QStaleKsn | QStaleRpy | QNoSavedReply | QError (msg : string).

(** [src/error/mod.rs:11-114] [Error].  Only the variants that the modelled code
    constructs; foreign error payloads (serde, sled, base64) are not carried. *)
Inductive error :=
| ESerialization                       (* SerializationError / JSON / CBOR / MGPK *)
| EIntegerParse                        (* IntegerParseValue *)
| ESemantic (msg : string)             (* SemanticError *)
| EOutOfOrder                          (* EventOutOfOrderError *)
| EDuplicate                           (* EventDuplicateError *)
| ENotEnoughSigs                       (* NotEnoughSigsError *)
| ESignatureVerification               (* SignatureVerificationError *)
| EDeserialize (msg : string)          (* DeserializeError *)
| EBase64                              (* Base64DecodingError *)
| EImproperPrefixType                  (* ImproperPrefixType *)
| EInvalidIdentifierState              (* InvalidIdentifierStat *)
| EIncorrectDigest                     (* IncorrectDigest *)
| EKey                                 (* Ed25519DalekSignatureError / key manager *)
| EQuery (q : query_error).            (* QueryError *)

(** Result of a call: [Ok], [Err], or a Rust panic. *)
(** std [Result] with a third outcome for a panic; error/mod.rs:13-114 lists the errors *)
Inductive out (A : Type) :=
| Ok (a : A)
| Err (e : error)
| Panic.
Arguments Ok {A} a.
Arguments Err {A} e.
Arguments Panic {A}.

(** The [?] operator / [and_then]; a panic propagates. *)
(** plumbing: [?], used throughout /repo/src, e.g. processor/mod.rs:331-353 *)
Definition obind {A B} (x : out A) (f : A -> out B) : out B :=
  match x with Ok a => f a | Err e => Err e | Panic => Panic end.
Notation "'let?' x := e 'in' k" := (obind e (fun x => k))
  (at level 200, x pattern, e at level 100, k at level 200, right associativity).

(** plumbing: [Result::map], e.g. keri/mod.rs:317-329 *)
Definition omap {A B} (f : A -> B) (x : out A) : out B := obind x (fun a => Ok (f a)).

(** plumbing: [Result::is_ok]; no counterpart in /repo *)
Definition is_ok {A} (x : out A) : bool := match x with Ok _ => true | _ => false end.
(** no counterpart in /repo: tells a panic from a returned value *)
Definition is_panic {A} (x : out A) : bool := match x with Panic => true | _ => false end.

(** [bool.then(|| ()).ok_or(e)] *)
(** plumbing: a test that fails with [e], e.g. event/mod.rs:64-75 *)
Definition ok_if (b : bool) (e : error) : out unit := if b then Ok tt else Err e.
(** [Option::ok_or(e)] *)
(** plumbing: [Option::ok_or], e.g. event_parsing/mod.rs:252-254 *)
Definition ok_or {A} (o : option A) (e : error) : out A :=
  match o with Some a => Ok a | None => Err e end.

(** ** Byte strings *)
(** [&[u8]], [Vec<u8>], [String] of /repo; a [String] is its UTF-8 bytes *)
Definition bytes := list byte.
(** a literal of /repo as bytes *)
Definition bstr (s : string) : bytes := list_byte_of_string s.

(** [==] on [Vec<u8>] (std) *)
Definition bytes_eq_dec : forall a b : bytes, {a = b} + {a <> b} :=
  list_eq_dec Byte.byte_eq_dec.
(** [==] on [Vec<u8>] (std) *)
Definition bytes_eqb (a b : bytes) : bool := if bytes_eq_dec a b then true else false.

(** [u8 as u64] (std) *)
Definition b2n (b : byte) : N := Byte.to_N b.
(** [as u8]: truncating conversion. *)
(** e.g. derivation/attached_signature_code.rs:99 *)
Definition n2b (n : N) : byte :=
  match Byte.of_N (N.modulo n 256) with Some b => b | None => x00 end.

(** ** Rust slicing *)
(** [s[a..b]] on [&[u8]]: panics when [a > b] or [b > len]. *)
(** std; used by event_parsing/prefix.rs and processor/async_processing.rs *)
Definition slice (a b : nat) (s : bytes) : out bytes :=
  if (a <=? b) && (b <=? List.length s) then Ok (firstn (b - a) (skipn a s)) else Panic.

(** UTF-8 character boundary (str::is_char_boundary): position 0, the end, or a
    byte that is not a continuation byte 0x80..0xBF. *)
(** [str::is_char_boundary] (std) *)
Definition is_boundary (s : bytes) (i : nat) : bool :=
  match i with
  | O => true
  | _ => if i =? List.length s then true
         else match nth_error s i with
              | Some b => negb ((128 <=? b2n b)%N && (b2n b <? 192)%N)
              | None => false
              end
  end.

(** [&s[a..b]] on [&str]: also panics when [a] or [b] is not a boundary. *)
(** std; e.g. prefix/basic.rs:44, prefix/self_addressing.rs:37, serialization_info.rs *)
Definition str_slice (a b : nat) (s : bytes) : out bytes :=
  if (a <=? b) && (b <=? List.length s) && is_boundary s a && is_boundary s b
  then Ok (firstn (b - a) (skipn a s)) else Panic.

(** [s.get(..1)] on [&str]. *)
(** std; derivation/basic.rs, derivation/self_addressing.rs ([FromStr]) *)
Definition str_get1 (s : bytes) : option bytes :=
  match s with
  | [] => None
  | c :: _ => if is_boundary s 1 then Some [c] else None
  end.

(** ** Association lists (finite maps keyed by a type with decidable equality). *)
Section Assoc.
  Context {K V : Type} (dec : forall a b : K, {a = b} + {a <> b}).
  (** std/sled map lookup; used for database/sled/tables.rs *)
  Fixpoint aget (m : list (K * V)) (k : K) : option V :=
    match m with
    | [] => None
    | (k', v) :: m' => if dec k k' then Some v else aget m' k
    end.
  (** map insertion; used for database/sled/tables.rs *)
  Fixpoint aput (m : list (K * V)) (k : K) (v : V) : list (K * V) :=
    match m with
    | [] => [(k, v)]
    | (k', v') :: m' => if dec k k' then (k, v) :: m' else (k', v') :: aput m' k v
    end.

  Lemma aget_aput_eq m k v : aget (aput m k v) k = Some v.
  Proof.
    induction m as [|[k' v'] m IH]; cbn.
    - destruct (dec k k); congruence.
    - destruct (dec k k') as [->|Hne]; cbn.
      + destruct (dec k' k'); congruence.
      + destruct (dec k k'); congruence.
  Qed.
  Lemma aget_aput_ne m k k2 v : k2 <> k -> aget (aput m k v) k2 = aget m k2.
  Proof.
    intros Hne; induction m as [|[k' v'] m IH]; cbn.
    - destruct (dec k2 k); congruence.
    - destruct (dec k k') as [->|Hne']; cbn.
      + destruct (dec k2 k'); congruence.
      + destruct (dec k2 k'); congruence.
  Qed.
  Lemma aget_aput m k k2 v :
    aget (aput m k v) k2 = if dec k2 k then Some v else aget m k2.
  Proof.
    destruct (dec k2 k) as [->|H]; [apply aget_aput_eq | now apply aget_aput_ne].
  Qed.
End Assoc.

(** Optional finite map entry read as a list. *)
(** plumbing: [unwrap_or_default]-like reading of database/sled/tables.rs:34-41 *)
Definition olist {A} (o : option (list A)) : list A := match o with Some l => l | None => [] end.

Lemma bytes_eqb_eq a b : bytes_eqb a b = true <-> a = b.
Proof. unfold bytes_eqb; destruct (bytes_eq_dec a b); split; congruence. Qed.
Lemma bytes_eqb_refl a : bytes_eqb a a = true.
Proof. now apply bytes_eqb_eq. Qed.

Lemma b2n_lt b : (b2n b < 256)%N.
Proof. unfold b2n. pose proof (Byte.to_N_bounded b). lia. Qed.
Lemma n2b_b2n b : n2b (b2n b) = b.
Proof. unfold n2b. rewrite N.mod_small by apply b2n_lt. unfold b2n. now rewrite Byte.of_to_N. Qed.
Lemma b2n_n2b n : (n < 256)%N -> b2n (n2b n) = n.
Proof.
  intros H. unfold n2b. rewrite N.mod_small by lia.
  destruct (Byte.of_N n) eqn:E.
  - unfold b2n. now apply Byte.to_of_N.
  - apply Byte.of_N_None_iff in E. lia.
Qed.
Lemma b2n_inj a b : b2n a = b2n b -> a = b.
Proof. intros H. rewrite <- (n2b_b2n a), <- (n2b_b2n b). now rewrite H. Qed.
