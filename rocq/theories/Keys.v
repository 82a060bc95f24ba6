(** * Keys: public and private keys ([src/keys/mod.rs]), seeds ([src/prefix/seed.rs]) and
    [prefix::derive] ([src/prefix/mod.rs:128-143]).

    The curve arithmetic of the crates [ed25519_dalek] and [k256] is a record of functions. *)
From Verif Require Import Base Base64 Codes NumFmt Types KeyConf State Db Processor Cesr Message Keri.

(** crates ed25519_dalek and k256, as used in keys/mod.rs:26-84 and prefix/seed.rs:20-37 *)
Record Curves := mkCurves {
  (** [ed25519_dalek::PublicKey::from(&SecretKey)], compressed *)
  c_ed_public : bytes -> bytes;
  (** [ed25519_dalek::PublicKey::from_bytes] is [Ok] *)
  c_ed_point : bytes -> bool;
  (** [ExpandedSecretKey::from(&sk).sign(msg, &pk)]: secret, message *)
  c_ed_sign : bytes -> bytes -> bytes;
  (** [key.verify(msg, &sig)] is [Ok], for a point and 64 bytes *)
  c_ed_check : bytes -> bytes -> bytes -> bool;
  (** [SigningKey::from_bytes] is [Ok] *)
  c_ec_scalar : bytes -> bool;
  (** [VerifyingKey::from(&sk).to_bytes()] *)
  c_ec_public : bytes -> bytes;
  (** [VerifyingKey::from_sec1_bytes] is [Ok] *)
  c_ec_point : bytes -> bool;
  c_ec_sign : bytes -> bytes -> bytes;
  (** [Signature::try_from] is [Ok] *)
  c_ec_signature : bytes -> bool;
  c_ec_check : bytes -> bytes -> bytes -> bool }.

Section WithCurves.
  Context (C : Curves).

  (** [SecretKey::from_bytes]: 32 bytes (crate ed25519_dalek) *)
  Definition ed_secret (s : bytes) : out bytes := if List.length s =? 32 then Ok s else Err EKey.
  (** keys/mod.rs:26-41 [verify_ed] *)
  Definition verify_ed (key msg sig : bytes) : bool :=
    if c_ed_point C key then
      if negb (List.length sig =? 64) then false else c_ed_check C key msg sig
    else false.
  (** keys/mod.rs:43-60 [verify_ecdsa] *)
  Definition verify_ecdsa (key msg sig : bytes) : bool :=
    if c_ec_point C key then
      if c_ec_signature C sig then c_ec_check C key msg sig else false
    else false.
  (** keys/mod.rs:71-74 [sign_ecdsa] *)
  Definition sign_ecdsa (key msg : bytes) : out bytes :=
    if c_ec_scalar C key then Ok (c_ec_sign C key msg) else Err EKey.
  (** keys/mod.rs:76-83 [sign_ed] *)
  Definition sign_ed (key msg : bytes) : out bytes :=
    let? sk := ed_secret key in Ok (c_ed_sign C sk msg).

  (** prefix/seed.rs:20-39 [derive_key_pair]: public, private *)
  Definition derive_key_pair (s : SeedPrefix) : out KeyPair :=
    match s with
    | RandomSeed256Ed25519 seed => let? sk := ed_secret seed in Ok (mkKP (c_ed_public C sk) sk)
    | RandomSeed256ECDSA seed =>
        if c_ec_scalar C seed then Ok (mkKP (c_ec_public C seed) seed) else Err EKey
    | _ => Err EImproperPrefixType
    end.
  (** prefix/mod.rs:131-143 [derive] *)
  Definition derive_prefix (s : SeedPrefix) (transferable : bool) : out BasicPrefix :=
    let? kp := derive_key_pair s in
    let? code := match s with
                 | RandomSeed256Ed25519 _ => Ok (if transferable then Ed25519 else Ed25519NT)
                 | RandomSeed256ECDSA _ => Ok (if transferable then ECDSAsecp256k1 else ECDSAsecp256k1NT)
                 | _ => Err EImproperPrefixType
                 end in
    Ok (mkBP code (kp_pub kp)).
End WithCurves.
