(** * SpecOwn: what C118 and C119 say about the events that a controller makes itself. *)
From Verif Require Import Base Base64 Codes NumFmt Types KeyConf State Db Processor Spec SpecProc SpecCodec SpecCesr Cesr Message Keri SpecKeri SpecJson.

(** keys, digests and signatures have the sizes of Ed25519 and of Blake3 *)
Definition pair_sized (p : KeyPair) : Prop := List.length (kp_pub p) = 32.
Definition box_sized (b : CryptoBox) : Prop := pair_sized (cb_cur b) /\ pair_sized (cb_next b).
Definition crypto_sized (E : Env) (K : KEnv) : Prop :=
  (forall x, List.length (e_digest E Blake3_256 x) = 32) /\ (forall priv m s, k_sign_ed K priv m = Ok s -> List.length s = 64).
(** the keys generated along the way are sized as well *)
Definition op_sized (o : Op) : Prop := match o with ORotate fresh => pair_sized fresh | _ => True end.
(** rotations and interactions of the controller itself *)
Definition own_op (o : Op) : Prop := match o with ORotate _ | OIxn _ _ _ => True | _ => False end.
(** no payload is anchored *)
Definition no_payload (o : Op) : Prop := match o with OIxn (Some _) _ _ => False | _ => True end.
(** A signed event that can be told apart from anything else, sent and read: its parts fit
    their algorithms, its text is at most 65535 bytes of JSON, it has no configuration traits, and it carries one
    signature, that of key 0. *)
Definition sound (se : SignedEventMessage) : Prop :=
  event_readable (sem_msg se) /\ si_kind (em_info (sem_msg se)) = JSON /\ data_config (em_data (sem_msg se)) = [] /\ sem_seal se = None
  /\ exists sig, sem_sigs se = [mkASP 0 (mkSSP Ed25519Sha512 sig)] /\ List.length sig = 64.
(** The life of a controller: it has working keys of the right size, up to three hundred
    further keys and witnesses, is incepted as [se0] over a store that the calls [cs] made and
    that knows nothing of its identifier, and is then operated carefully. *)
Definition sized_life (E : Env) (K : KEnv) (cs : list Call) (b : CryptoBox) (extra ws : list BasicPrefix)
    (k0 : Keri) (se0 : SignedEventMessage) (ops : list Op) : Prop :=
  works E K (cb_cur b) /\ works E K (cb_next b) /\ box_sized b
  /\ Forall bp_readable extra /\ Forall bp_readable ws /\ List.length extra + List.length ws <= 300
  /\ incept_with E K (keri_new b (run E db_empty cs)) extra ws = (k0, Ok se0)
  /\ log (run E db_empty cs) (em_prefix (sem_msg se0)) = []
  /\ Forall (op_ok E K (k_prefix k0)) ops /\ Forall op_sized ops /\ (N.of_nat (List.length ops) <= u64_max)%N.
