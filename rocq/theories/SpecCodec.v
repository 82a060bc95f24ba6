(** * SpecCodec: facts about the cryptographic algorithms (not about the code) used to
    state the text round trips: how many bytes a key, digest or signature has. *)
From Verif Require Import Base Base64 Codes.

(** Public key sizes: Ed25519 / X25519 32 bytes (RFC 8032, RFC 7748), Ed448 57, X448 56,
    compressed secp256k1 point 33 (SEC 1). *)
Definition key_bytes (c : Basic) : nat :=
  match c with
  | Ed25519NT | Ed25519 | X25519 => 32
  | X448 => 56
  | Ed448NT | Ed448 => 57
  | ECDSAsecp256k1NT | ECDSAsecp256k1 => 33
  end.
Definition is_ecdsa (c : Basic) : bool :=
  match c with ECDSAsecp256k1NT | ECDSAsecp256k1 => true | _ => false end.
(** Digest sizes. *)
Definition digest_bytes (c : SelfAddressing) : nat :=
  match c with
  | Blake3_256 | Blake2B256 _ | Blake2S256 _ | SHA3_256 | SHA2_256 => 32
  | Blake3_512 | SHA3_512 | Blake2B512 | SHA2_512 => 64
  end.
(** The same digest code without the key of keyed Blake2. *)
Definition unkeyed (c : SelfAddressing) : SelfAddressing :=
  match c with Blake2B256 _ => Blake2B256 [] | Blake2S256 _ => Blake2S256 [] | c => c end.
(** Signature sizes. *)
Definition sig_bytes (c : SelfSigning) : nat :=
  match c with Ed25519Sha512 | ECDSAsecp256k1Sha256 => 64 | Ed448Sig => 114 end.

Definition bp_sized (p : BasicPrefix) : Prop := List.length (bp_key p) = key_bytes (bp_code p).
Definition sap_sized (p : SelfAddressingPrefix) : Prop :=
  List.length (sap_digest p) = digest_bytes (sap_code p).
Definition ssp_sized (p : SelfSigningPrefix) : Prop :=
  List.length (ssp_sig p) = sig_bytes (ssp_code p).
Definition id_sized (p : IdentifierPrefix) : Prop :=
  match p with
  | IdBasic p => bp_sized p | IdSelfAddressing p => sap_sized p | IdSelfSigning p => ssp_sized p
  end.
(** the identifier without Blake2 key material *)
Definition id_unkeyed (p : IdentifierPrefix) : IdentifierPrefix :=
  match p with
  | IdSelfAddressing p => IdSelfAddressing (mkSAP (unkeyed (sap_code p)) (sap_digest p))
  | p => p
  end.
(** identifiers whose key is not ECDSA *)
Definition id_not_ecdsa (p : IdentifierPrefix) : Prop :=
  match p with IdBasic p => is_ecdsa (bp_code p) = false | _ => True end.

(** A Rust string: valid UTF-8.  Only what matters here: it does not begin with a
    continuation byte. *)
Definition is_continuation (b : byte) : bool := ((128 <=? b2n b) && (b2n b <? 192))%N.
(** Shape of a Rust string: lead bytes followed by the right number of continuation
    bytes.  (Real UTF-8 also forbids overlong forms and surrogates; the theorems hold for
    this larger set.) *)
Fixpoint utf8 (s : bytes) : bool :=
  match s with
  | [] => true
  | a :: r =>
      let n := b2n a in
      if (n <? 128)%N then utf8 r
      else if ((192 <=? n) && (n <? 224))%N then
        match r with b :: r => is_continuation b && utf8 r | _ => false end
      else if ((224 <=? n) && (n <? 240))%N then
        match r with b :: c :: r => is_continuation b && is_continuation c && utf8 r | _ => false end
      else if (240 <=? n)%N then
        match r with
        | b :: c :: d :: r =>
            is_continuation b && is_continuation c && is_continuation d && utf8 r
        | _ => false end
      else false
  end.
(** [s] can be cut after [n] bytes: it is long enough and no character is split. *)
Definition can_cut (s : bytes) (n : nat) : Prop :=
  n <= List.length s /\ (forall b, nth_error s n = Some b -> is_continuation b = false).
Definition starts_with (p s : bytes) : Prop := exists r, s = p ++ r.
Definition asp_sized (p : AttachedSignaturePrefix) : Prop := ssp_sized (asp_sig p).
Definition seed_bytes (p : SeedPrefix) : bytes :=
  match p with RandomSeed128 s | RandomSeed256Ed25519 s | RandomSeed256ECDSA s | RandomSeed448 s => s end.
(** bytes of an identifier without its derivation code *)
Definition id_material (p : IdentifierPrefix) : bytes :=
  match p with IdBasic p => bp_key p | IdSelfAddressing p => sap_digest p | IdSelfSigning p => ssp_sig p end.
(** identifiers that have a text of their own: not empty, no Blake2 key.  Every identifier
    read from text is one ([C38_read_identifiers_are_ok]). *)
Definition id_ok (p : IdentifierPrefix) : Prop := id_material p <> [] /\ id_unkeyed p = p.
