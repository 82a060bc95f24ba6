(** * Codes: derivation codes, prefixes and their text form. *)
From Verif Require Import Base Base64.

(** comparison with a string literal (a Rust [match] on [&str] with literal patterns) *)
(** e.g. derivation/basic.rs, derivation/self_addressing.rs ([FromStr]) *)
Definition is (h : bytes) (s : string) : bool := bytes_eqb h (bstr s).

(** ** Derivation codes *)

(** [src/derivation/basic.rs:10-19] *)
Inductive Basic :=
| ECDSAsecp256k1NT | ECDSAsecp256k1 | Ed25519NT | Ed25519 | Ed448NT | Ed448 | X25519 | X448.

(** [src/derivation/self_addressing.rs:18-28]; the Blake2 variants carry a key *)
Inductive SelfAddressing :=
| Blake3_256 | Blake2B256 (key : bytes) | Blake2S256 (key : bytes) | SHA3_256 | SHA2_256
| Blake3_512 | SHA3_512 | Blake2B512 | SHA2_512.

(** [src/derivation/self_signing.rs:9-13] *)
Inductive SelfSigning := Ed25519Sha512 | ECDSAsecp256k1Sha256 | Ed448Sig.

(** [src/derivation/basic.rs:28-40] [Basic::to_str] *)
Definition basic_code (c : Basic) : bytes :=
  bstr match c with
       | Ed25519NT => "B" | X25519 => "C" | Ed25519 => "D" | X448 => "L"
       | ECDSAsecp256k1NT => "1AAA" | ECDSAsecp256k1 => "1AAB"
       | Ed448NT => "1AAC" | Ed448 => "1AAD"
       end.
(** [src/derivation/basic.rs:42-47] [code_len] *)
Definition basic_code_len (c : Basic) : nat :=
  match c with
  | Ed25519NT | Ed25519 | X25519 | X448 => 1
  | ECDSAsecp256k1NT | ECDSAsecp256k1 | Ed448NT | Ed448 => 4
  end.
(** [src/derivation/basic.rs:49-56] [derivative_b64_len] *)
Definition basic_b64_len (c : Basic) : nat :=
  match c with
  | Ed25519NT | Ed25519 | X25519 => 43
  | X448 => 75
  | ECDSAsecp256k1NT | ECDSAsecp256k1 => 47
  | Ed448NT | Ed448 => 76
  end.
(** [src/derivation/basic.rs:59-80] [Basic::from_str]; [&s[1..4]] may panic *)
Definition basic_code_from (s : bytes) : out Basic :=
  match str_get1 s with
  | None => Err (EDeserialize "Empty prefix")
  | Some h =>
      if is h "B" then Ok Ed25519NT
      else if is h "C" then Ok X25519
      else if is h "D" then Ok Ed25519
      else if is h "L" then Ok X448
      else if is h "1" then
          let? t := str_slice 1 4 s in
          if is t "AAA" then Ok ECDSAsecp256k1NT
          else if is t "AAB" then Ok ECDSAsecp256k1
          else if is t "AAC" then Ok Ed448NT
          else if is t "AAD" then Ok Ed448
          else Err (EDeserialize "Unknown signature code")
      else Err (EDeserialize "Unknown prefix code")
  end.

(** [src/derivation/self_addressing.rs:52-65] [to_str] *)
Definition sa_code (c : SelfAddressing) : bytes :=
  bstr match c with
       | Blake3_256 => "E" | Blake2B256 _ => "F" | Blake2S256 _ => "G" | SHA3_256 => "H"
       | SHA2_256 => "I" | Blake3_512 => "0D" | SHA3_512 => "0E" | Blake2B512 => "0F"
       | SHA2_512 => "0G"
       end.
(** [src/derivation/self_addressing.rs:67-76] *)
Definition sa_code_len (c : SelfAddressing) : nat :=
  match c with
  | Blake3_256 | Blake2B256 _ | Blake2S256 _ | SHA3_256 | SHA2_256 => 1
  | Blake3_512 | SHA3_512 | Blake2B512 | SHA2_512 => 2
  end.
(** [src/derivation/self_addressing.rs:78-87] *)
Definition sa_b64_len (c : SelfAddressing) : nat :=
  match c with
  | Blake3_256 | Blake2B256 _ | Blake2S256 _ | SHA3_256 | SHA2_256 => 43
  | Blake3_512 | SHA3_512 | Blake2B512 | SHA2_512 => 86
  end.
(** [src/derivation/self_addressing.rs:90-115] [from_str]; Blake2 keys are not carried by the text *)
Definition sa_code_from (s : bytes) : out SelfAddressing :=
  match str_get1 s with
  | None => Err (EDeserialize "Empty prefix")
  | Some h =>
      if is h "E" then Ok Blake3_256
      else if is h "F" then Ok (Blake2B256 [])
      else if is h "G" then Ok (Blake2S256 [])
      else if is h "H" then Ok SHA3_256
      else if is h "I" then Ok SHA2_256
      else if is h "0" then
          let? t := str_slice 1 2 s in
          if is t "D" then Ok Blake3_512
          else if is t "E" then Ok SHA3_512
          else if is t "F" then Ok Blake2B512
          else if is t "G" then Ok SHA2_512
          else Err (EDeserialize "Unknown hash code")
      else Err (EDeserialize "Unknown hash algorithm code")
  end.

(** [src/derivation/self_signing.rs:22-43] *)
Definition ss_code (c : SelfSigning) : bytes :=
  bstr match c with Ed25519Sha512 => "0B" | ECDSAsecp256k1Sha256 => "0C" | Ed448Sig => "1AAE" end.
Definition ss_code_len (c : SelfSigning) : nat :=
  match c with Ed25519Sha512 | ECDSAsecp256k1Sha256 => 2 | Ed448Sig => 4 end.
Definition ss_b64_len (c : SelfSigning) : nat :=
  match c with Ed25519Sha512 | ECDSAsecp256k1Sha256 => 86 | Ed448Sig => 152 end.
(** [src/derivation/self_signing.rs:46-73] [from_str] *)
Definition ss_code_from (s : bytes) : out SelfSigning :=
  match str_get1 s with
  | None => Err (EDeserialize "Empty prefix")
  | Some h =>
      if is h "0" then
          let? t := str_slice 1 2 s in
          if is t "B" then Ok Ed25519Sha512
          else if is t "C" then Ok ECDSAsecp256k1Sha256
          else Err (EDeserialize "Unknown signature type code")
      else if is h "1" then
          let? t := str_slice 1 4 s in
          if is t "AAE" then Ok Ed448Sig
          else Err (EDeserialize "Unknown signature type code")
      else Err (EDeserialize "Unknown master code")
  end.

(** ** Prefixes *)

(** [src/prefix/basic.rs:11-15], with [PublicKey] (src/keys/mod.rs:8-11) as its bytes *)
Record BasicPrefix := mkBP { bp_code : Basic; bp_key : bytes }.
(** [src/prefix/self_addressing.rs:8-12] *)
Record SelfAddressingPrefix := mkSAP { sap_code : SelfAddressing; sap_digest : bytes }.
(** [src/prefix/self_signing.rs:10-14] *)
Record SelfSigningPrefix := mkSSP { ssp_code : SelfSigning; ssp_sig : bytes }.
(** [src/prefix/mod.rs:38-43] *)
Inductive IdentifierPrefix :=
| IdBasic (p : BasicPrefix)
| IdSelfAddressing (p : SelfAddressingPrefix)
| IdSelfSigning (p : SelfSigningPrefix).
(** [src/prefix/attached_signature.rs:12-16]; the index is a [u16] *)
Record AttachedSignaturePrefix := mkASP { asp_index : N; asp_sig : SelfSigningPrefix }.

(** Derived [PartialEq] of the Rust types. *)
(** [PartialEq] (derived); used by [==] and [Vec::retain], database/sled/tables.rs:65-75 *)
Definition Basic_eq_dec (a b : Basic) : {a = b} + {a <> b}.
Proof. decide equality. Defined.
(** [PartialEq] (derived); used by [==] and [Vec::retain], database/sled/tables.rs:65-75 *)
Definition SelfAddressing_eq_dec (a b : SelfAddressing) : {a = b} + {a <> b}.
Proof. decide equality; apply bytes_eq_dec. Defined.
(** [PartialEq] (derived); used by [==] and [Vec::retain], database/sled/tables.rs:65-75 *)
Definition SelfSigning_eq_dec (a b : SelfSigning) : {a = b} + {a <> b}.
Proof. decide equality. Defined.
(** [PartialEq] (derived); used by [==] and [Vec::retain], database/sled/tables.rs:65-75 *)
Definition BasicPrefix_eq_dec (a b : BasicPrefix) : {a = b} + {a <> b}.
Proof. decide equality; [apply bytes_eq_dec | apply Basic_eq_dec]. Defined.
(** [PartialEq] (derived); used by [==] and [Vec::retain], database/sled/tables.rs:65-75 *)
Definition SAP_eq_dec (a b : SelfAddressingPrefix) : {a = b} + {a <> b}.
Proof. decide equality; [apply bytes_eq_dec | apply SelfAddressing_eq_dec]. Defined.
(** [PartialEq] (derived); used by [==] and [Vec::retain], database/sled/tables.rs:65-75 *)
Definition SSP_eq_dec (a b : SelfSigningPrefix) : {a = b} + {a <> b}.
Proof. decide equality; [apply bytes_eq_dec | apply SelfSigning_eq_dec]. Defined.
(** [PartialEq] (derived); used by [==] and [Vec::retain], database/sled/tables.rs:65-75 *)
Definition IdentifierPrefix_eq_dec (a b : IdentifierPrefix) : {a = b} + {a <> b}.
Proof. decide equality; [apply BasicPrefix_eq_dec | apply SAP_eq_dec | apply SSP_eq_dec]. Defined.
(** [PartialEq] (derived); used by [==] and [Vec::retain], database/sled/tables.rs:65-75 *)
Definition ASP_eq_dec (a b : AttachedSignaturePrefix) : {a = b} + {a <> b}.
Proof. decide equality; [apply SSP_eq_dec | apply N.eq_dec]. Defined.

(** [src/prefix/self_addressing.rs:84-91], [src/prefix/mod.rs:97-101] *)
Definition sap_default : SelfAddressingPrefix := mkSAP Blake3_256 [].
Definition id_default : IdentifierPrefix := IdSelfAddressing sap_default.

(** [src/prefix/mod.rs:21-36] [Prefix::to_str]: empty derivative gives the empty string *)
Definition prefix_str (code derivative : bytes) : bytes :=
  match derivative with [] => [] | _ => code ++ b64_encode derivative end.

(** prefix/mod.rs:24-36 with prefix/basic.rs [Prefix for BasicPrefix] *)
Definition bp_str (p : BasicPrefix) : bytes := prefix_str (basic_code (bp_code p)) (bp_key p).
(** prefix/mod.rs:24-36 with prefix/self_addressing.rs [Prefix for SelfAddressingPrefix] *)
Definition sap_str (p : SelfAddressingPrefix) : bytes :=
  prefix_str (sa_code (sap_code p)) (sap_digest p).
(** prefix/mod.rs:24-36 with prefix/self_signing.rs [Prefix for SelfSigningPrefix] *)
Definition ssp_str (p : SelfSigningPrefix) : bytes := prefix_str (ss_code (ssp_code p)) (ssp_sig p).
(** [src/prefix/mod.rs:58-73] *)
Definition id_str (p : IdentifierPrefix) : bytes :=
  match p with
  | IdBasic p => bp_str p | IdSelfAddressing p => sap_str p | IdSelfSigning p => ssp_str p
  end.

(** [decode_config(.., URL_SAFE)?] *)
(** prefix/basic.rs:44, prefix/self_addressing.rs:37, prefix/self_signing.rs:34 *)
Definition decode (s : bytes) : out bytes := ok_or (b64_decode s) EBase64.

(** [src/prefix/basic.rs:36-53] [BasicPrefix::from_str] *)
Definition bp_from (s : bytes) : out BasicPrefix :=
  let? code := basic_code_from s in
  let plen := basic_code_len code + basic_b64_len code in
  if List.length s =? plen then
    let? sub := str_slice (basic_code_len code) plen s in
    let? k := decode sub in
    Ok (mkBP code k)
  else Err (ESemantic "Incorrect Prefix Length").
(** [src/prefix/self_addressing.rs:27-47] *)
Definition sap_from (s : bytes) : out SelfAddressingPrefix :=
  let? code := sa_code_from s in
  let plen := sa_code_len code + sa_b64_len code in
  if List.length s =? plen then
    let? sub := str_slice (sa_code_len code) plen s in
    let? d := decode sub in
    Ok (mkSAP code d)
  else Err (ESemantic "Incorrect Prefix Length").
(** [src/prefix/self_signing.rs:25-42] *)
Definition ssp_from (s : bytes) : out SelfSigningPrefix :=
  let? code := ss_code_from s in
  let plen := ss_code_len code + ss_b64_len code in
  if List.length s =? plen then
    let? sub := str_slice (ss_code_len code) plen s in
    let? d := decode sub in
    Ok (mkSSP code d)
  else Err (ESemantic "Incorrect Prefix Length").
(** [src/prefix/mod.rs:45-56] [IdentifierPrefix::from_str] *)
Definition id_from (s : bytes) : out IdentifierPrefix :=
  match bp_from s with
  | Ok p => Ok (IdBasic p)
  | Panic => Panic
  | Err _ =>
      match sap_from s with
      | Ok p => Ok (IdSelfAddressing p)
      | Panic => Panic
      | Err _ => let? p := ssp_from s in Ok (IdSelfSigning p)
      end
  end.

(** ** Indexed signatures *)

(** [u16::to_be_bytes] *)
(** std; derivation/attached_signature_code.rs:99-102 *)
Definition u16_be (n : N) : bytes := [n2b (n / 256); n2b n].
(** [src/derivation/attached_signature_code.rs:94-102] [num_to_b64]; the shift of a [u8]
    by two discards the high bits; [[..k]] never panics since the encoding is long enough *)
Definition num_to_b64 (n : N) : bytes :=
  if (n <? 63)%N then firstn 1 (b64_encode [n2b (n mod 256 * 4)])
  else if (n <? 4095)%N then firstn 2 (b64_encode (u16_be n))
  else b64_encode (u16_be n).
(** [src/derivation/attached_signature_code.rs:74-92] [b64_to_num] *)
Definition b64_to_num (b : bytes) : out N :=
  let? s := decode (match List.length b with
                    | 1 => bstr "AAA" ++ b
                    | 2 => bstr "AA" ++ b
                    | _ => b end) in
  match rev s with
  | [] => Ok 0%N
  | [x] => Ok (b2n x)
  | lo :: hi :: _ => Ok (b2n hi * 256 + b2n lo)%N
  end.

(** [src/derivation/attached_signature_code.rs:24-47] *)
Definition as_code (c : SelfSigning) (index : N) : bytes :=
  bstr match c with Ed25519Sha512 => "A" | ECDSAsecp256k1Sha256 => "B" | Ed448Sig => "0AA" end
  ++ num_to_b64 index.
Definition as_code_len (c : SelfSigning) : nat :=
  match c with Ed25519Sha512 | ECDSAsecp256k1Sha256 => 2 | Ed448Sig => 4 end.
Definition as_b64_len (c : SelfSigning) : nat :=
  match c with Ed25519Sha512 | ECDSAsecp256k1Sha256 => 86 | Ed448Sig => 152 end.
(** [src/derivation/attached_signature_code.rs:49-72] [AttachedSignatureCode::from_str]:
    [&s[..1]], [as_bytes()[1..2]], [&s[1..3]] may all panic *)
Definition as_code_from (s : bytes) : out (SelfSigning * N) :=
  let? h := str_slice 0 1 s in
  if is h "A" then let? i := slice 1 2 s in let? n := b64_to_num i in Ok (Ed25519Sha512, n)
  else if is h "B" then let? i := slice 1 2 s in let? n := b64_to_num i in Ok (ECDSAsecp256k1Sha256, n)
  else if is h "0" then
      let? t := str_slice 1 3 s in
      if is t "AA" then let? i := slice 3 4 s in let? n := b64_to_num i in Ok (Ed448Sig, n)
      else Err (EDeserialize "Unknows signature code")
  else Err (EDeserialize "Unknown attachment code").
(** [src/prefix/attached_signature.rs:46-53] through [Prefix::to_str] *)
Definition asp_str (p : AttachedSignaturePrefix) : bytes :=
  prefix_str (as_code (ssp_code (asp_sig p)) (asp_index p)) (ssp_sig (asp_sig p)).
(** [src/prefix/attached_signature.rs:27-44] *)
Definition asp_from (s : bytes) : out AttachedSignaturePrefix :=
  let? ci := as_code_from s in
  let (code, index) := (ci : SelfSigning * N) in
  let plen := as_code_len code + as_b64_len code in
  if List.length s =? plen then
    let? sub := str_slice (as_code_len code) plen s in
    let? d := decode sub in
    Ok (mkASP index (mkSSP code d))
  else Err (ESemantic "Incorrect Prefix Length").

(** ** Seeds ([src/prefix/seed.rs:10-16]) *)
Inductive SeedPrefix :=
| RandomSeed128 (s : bytes) | RandomSeed256Ed25519 (s : bytes)
| RandomSeed256ECDSA (s : bytes) | RandomSeed448 (s : bytes).
(** [src/prefix/seed.rs:77-94] *)
Definition seed_str (p : SeedPrefix) : bytes :=
  match p with
  | RandomSeed256Ed25519 s => prefix_str (bstr "A") s
  | RandomSeed256ECDSA s => prefix_str (bstr "J") s
  | RandomSeed448 s => prefix_str (bstr "K") s
  | RandomSeed128 s => prefix_str (bstr "0A") s
  end.
(** [src/prefix/seed.rs:42-75] [SeedPrefix::from_str]; no length check *)
Definition seed_from (s : bytes) : out SeedPrefix :=
  let? h := str_slice 0 1 s in
  if is h "A" then let? t := str_slice 1 (List.length s) s in let? d := decode t in Ok (RandomSeed256Ed25519 d)
  else if is h "J" then let? t := str_slice 1 (List.length s) s in let? d := decode t in Ok (RandomSeed256ECDSA d)
  else if is h "K" then let? t := str_slice 1 (List.length s) s in let? d := decode t in Ok (RandomSeed448 d)
  else if is h "0" then
      let? t := str_slice 1 2 s in
      if is t "A" then let? t := str_slice 2 (List.length s) s in let? d := decode t in Ok (RandomSeed128 d)
      else Err (EDeserialize "Unknown seed prefix cod")
  else Err (EDeserialize "Unknown seed prefix cod").
