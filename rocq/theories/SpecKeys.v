(** * SpecKeys: what is expected of the curves. *)
From Verif Require Import Base Base64 Codes NumFmt Types KeyConf State Db Processor Cesr Message Keri Keys.

(** Ed25519: 32-byte secrets have 32-byte public keys that verify the 64-byte signatures. *)
Definition ed_sound (C : Curves) : Prop :=
  forall sk, List.length sk = 32 ->
    List.length (c_ed_public C sk) = 32 /\ c_ed_point C (c_ed_public C sk) = true
    /\ forall msg, List.length (c_ed_sign C sk msg) = 64 /\ c_ed_check C (c_ed_public C sk) msg (c_ed_sign C sk msg) = true.
(** secp256k1: 33-byte public keys. *)
Definition ec_sound (C : Curves) : Prop :=
  forall sk, c_ec_scalar C sk = true ->
    List.length (c_ec_public C sk) = 33 /\ c_ec_point C (c_ec_public C sk) = true
    /\ forall msg, List.length (c_ec_sign C sk msg) = 64 /\ c_ec_signature C (c_ec_sign C sk msg) = true
       /\ c_ec_check C (c_ec_public C sk) msg (c_ec_sign C sk msg) = true.
(** An environment whose keys are those of [C]. *)
Definition uses (C : Curves) (E : Env) (K : KEnv) : Prop :=
  (forall key msg sig, e_verify_ed E key msg sig = verify_ed C key msg sig)
  /\ (forall key msg sig, e_verify_ecdsa E key msg sig = verify_ecdsa C key msg sig)
  /\ (forall key msg, k_sign_ed K key msg = sign_ed C key msg).
(** A basic prefix that can be published: its text reads back, as a key and as an identifier. *)
Definition publishable (p : BasicPrefix) : Prop :=
  bp_from (bp_str p) = Ok p /\ id_from (bp_str p) = Ok (IdBasic p).
