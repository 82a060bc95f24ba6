(** * Prop_Keys: keys derived from seeds (C132). *)
From Verif Require Import Base Base64 Codes NumFmt Types KeyConf State Db Processor Spec SpecProc SpecCodec CodecProofs CodecProofs2
  Cesr Message Keri SpecKeri Keys SpecKeys LogProofs ProcProofs KeriProofs KeriProofs2 Demo Prop_Codec Prop_Keri.

(** ** C132: keys derived from a seed can be used *)
(** Full claim: for every seed of one of the two key algorithms the derived prefix can be
    published and verifies what the derived private key signs.  Missing: publishing
    secp256k1 keys ([C132_ecdsa_refuted]). *)
Theorem C132_ed25519_partial :
  forall C E K sk transferable,
    ed_sound C -> uses C E K -> List.length sk = 32 ->
    let seed := RandomSeed256Ed25519 sk in
    seed_from (seed_str seed) = Ok seed
    /\ exists kp p, derive_key_pair C seed = Ok kp /\ derive_prefix C seed transferable = Ok p
       /\ bp_code p = (if transferable then Ed25519 else Ed25519NT) /\ bp_key p = kp_pub kp
       /\ publishable p /\ works E K kp
       /\ forall msg, exists sig, sign_ed C (kp_priv kp) msg = Ok sig
            /\ key_verify E p msg (mkSSP Ed25519Sha512 sig) = Ok true
            /\ ssp_from (ssp_str (mkSSP Ed25519Sha512 sig)) = Ok (mkSSP Ed25519Sha512 sig).
Proof.
  cbv zeta. intros C E K sk tr HC (U1 & U2 & U3) Hl. split.
  { apply C64_seed_round_trip. cbn. intros ->. discriminate Hl. }
  destruct (HC sk Hl) as (H1 & H2 & H3).
  assert (Hs : ed_secret sk = Ok sk) by (unfold ed_secret; now rewrite Hl).
  exists (mkKP (c_ed_public C sk) sk), (mkBP (if tr then Ed25519 else Ed25519NT) (c_ed_public C sk)).
  unfold derive_prefix, derive_key_pair. rewrite Hs. cbn [obind kp_pub kp_priv bp_code bp_key].
  split; [reflexivity|]. split; [destruct tr; reflexivity|]. split; [reflexivity|]. split; [reflexivity|].
  assert (Hv : forall msg, verify_ed C (c_ed_public C sk) msg (c_ed_sign C sk msg) = true).
  { intros msg. unfold verify_ed. rewrite H2, (proj1 (H3 msg)). cbn. apply H3. }
  assert (Hsg : forall msg, sign_ed C sk msg = Ok (c_ed_sign C sk msg)) by (intros msg; unfold sign_ed; now rewrite Hs).
  split.
  { split.
    - apply C41_partial; [unfold bp_sized; cbn [bp_key bp_code]; rewrite H1; destruct tr; reflexivity|destruct tr; reflexivity].
    - apply (C44_partial (IdBasic _)); [|destruct tr; exact eq_refl|destruct tr; reflexivity].
      cbn [id_sized]. unfold bp_sized. cbn [bp_key bp_code]. rewrite H1. destruct tr; reflexivity. }
  split.
  { intros msg. exists (c_ed_sign C sk msg). cbn [kp_priv kp_pub]. rewrite U3, U1. auto. }
  intros msg. exists (c_ed_sign C sk msg). split; [apply Hsg|]. split.
  - unfold key_verify. cbn [bp_code ssp_code bp_key ssp_sig]. rewrite U1, Hv. destruct tr; reflexivity.
  - apply C43_signature_round_trip. unfold ssp_sized. cbn. exact (proj1 (H3 msg)).
Qed.
Print Assumptions C132_ed25519_partial.
(** A secp256k1 key derived from a seed signs and verifies, but no text of it is ever read. *)
Theorem C132_ecdsa_refuted :
  forall C E K sk transferable,
    ec_sound C -> uses C E K -> c_ec_scalar C sk = true -> sk <> [] ->
    let seed := RandomSeed256ECDSA sk in
    seed_from (seed_str seed) = Ok seed
    /\ exists p, derive_prefix C seed transferable = Ok p
       /\ (forall msg, exists sig, sign_ecdsa C sk msg = Ok sig /\ key_verify E p msg (mkSSP ECDSAsecp256k1Sha256 sig) = Ok true)
       /\ ~ publishable p /\ exists e, bp_from (bp_str p) = Err e.
Proof.
  cbv zeta. intros C E K sk tr HC (U1 & U2 & U3) Hl Hne. split; [now apply C64_seed_round_trip|].
  destruct (HC sk Hl) as (H1 & H2 & H3).
  exists (mkBP (if tr then ECDSAsecp256k1 else ECDSAsecp256k1NT) (c_ec_public C sk)).
  unfold derive_prefix, derive_key_pair. rewrite Hl. cbn [obind kp_pub].
  split; [destruct tr; reflexivity|]. split.
  { intros msg. exists (c_ec_sign C sk msg). unfold sign_ecdsa. rewrite Hl. split; [reflexivity|].
    unfold key_verify. cbn [bp_code ssp_code bp_key ssp_sig]. rewrite U2. unfold verify_ecdsa.
    destruct (H3 msg) as (_ & H4 & H5). rewrite H2, H4, H5. destruct tr; reflexivity. }
  assert (Hx : exists e, bp_from (bp_str (mkBP (if tr then ECDSAsecp256k1 else ECDSAsecp256k1NT) (c_ec_public C sk))) = Err e).
  { apply C41_ecdsa_refuted; [unfold bp_sized; cbn [bp_key bp_code]; rewrite H1; destruct tr; reflexivity|destruct tr; reflexivity]. }
  split; [|exact Hx]. intros [Hp _]. destruct Hx as [e Hx]. rewrite Hx in Hp. discriminate Hp.
Qed.
Print Assumptions C132_ecdsa_refuted.
(** Exactly which seeds give keys. *)
Theorem C132_which_seeds :
  forall C s transferable,
    (match s with
     | RandomSeed256Ed25519 b => List.length b = 32
     | RandomSeed256ECDSA b => c_ec_scalar C b = true
     | _ => False
     end <-> exists p, derive_prefix C s transferable = Ok p)
    /\ (forall p, derive_prefix C s transferable = Ok p -> exists kp, derive_key_pair C s = Ok kp /\ bp_key p = kp_pub kp)
    /\ derive_prefix C s transferable <> Panic.
Proof.
  intros C s tr. unfold derive_prefix, derive_key_pair, ed_secret. destruct s as [b|b|b|b]; cbn [obind].
  - repeat apply conj; try discriminate. intros []. intros [p H]. discriminate H.
  - destruct (Nat.eqb_spec (List.length b) 32) as [He|He]; cbn [obind kp_pub].
    + split; [split; [eauto|auto]|]. split; [|discriminate]. intros p H. injection H as <-. eexists. split; reflexivity.
    + repeat apply conj; try discriminate. contradiction. intros [p H]. discriminate H.
  - destruct (c_ec_scalar C b); cbn [obind kp_pub].
    + split; [split; [eauto|auto]|]. split; [|discriminate]. intros p H. injection H as <-. eexists. split; reflexivity.
    + repeat apply conj; try discriminate. intros [p H]. discriminate H.
  - repeat apply conj; try discriminate. intros []. intros [p H]. discriminate H.
Qed.
Print Assumptions C132_which_seeds.
(** A controller whose key pairs were derived from seeds read from text: everything that C57
    promises. *)
Theorem C132_controller_from_seeds :
  forall C E K cs a b ops,
    ed_sound C -> uses C E K -> events_serialize E K -> List.length a = 32 -> List.length b = 32 ->
    exists ka kb, (let? s := seed_from (seed_str (RandomSeed256Ed25519 a)) in derive_key_pair C s) = Ok ka
      /\ (let? s := seed_from (seed_str (RandomSeed256Ed25519 b)) in derive_key_pair C s) = Ok kb
      /\ let d := run E db_empty cs in
         (log d (IdBasic (ed_key (kp_pub ka))) = [] ->
          exists k se, incept E K (keri_new (mkBox ka kb) d) [] = (k, Ok se)
            /\ k_prefix k = IdBasic (ed_key (kp_pub ka)) /\ id_from (id_str (k_prefix k)) = Ok (k_prefix k)
            /\ (Forall (op_ok E K (k_prefix k)) ops -> exists evs, snd (operate E K k ops) = map Ok evs)).
Proof.
  intros C E K cs a b ops HC HU HS Ha Hb.
  destruct (C132_ed25519_partial C E K a true HC HU Ha) as (Sa & ka & pa & Ka & _ & Pa1 & Pa2 & Pa & Wa & _).
  destruct (C132_ed25519_partial C E K b true HC HU Hb) as (Sb & kb & pb & Kb & _ & _ & _ & _ & Wb & _).
  exists ka, kb. rewrite Sa, Sb. cbn [obind]. split; [exact Ka|]. split; [exact Kb|]. cbv zeta. intros Hnew.
  set (bx := mkBox ka kb).
  assert (Hse : forall d se, snd (incept_with E K (keri_new bx d) [] []) = Ok se -> em_prefix (sem_msg se) = IdBasic (ed_key (kp_pub ka))).
  { intros d se. destruct (build_icp E K HS (kp_pub ka) [] (kp_pub kb) []) as (info & dig & p & Hbd & _ & ->).
    unfold incept_with, keri_new. cbn [k_box k_prefix k_db bx cb_cur cb_next]. rewrite Hbd. cbn [obind].
    unfold sign_own. destruct (e_ser_event E _) as [ser| |]; [|discriminate..]. cbn [obind].
    destruct (box_sign K _ ser) as [sg| |]; [|discriminate..]. cbn [obind].
    unfold submit. destruct (process E _ _) as [dd [x| |]]; [|discriminate..]. cbn [omap obind snd]. intros H. injection H as <-. reflexivity. }
  destruct (C57_own_events_are_accepted E K cs bx [] [] HS Wa Wb ltac:(congruence)) as (k & se & Hi & Hk & _ & Hops).
  { intros se Hs. rewrite (Hse _ _ Hs). exact Hnew. }
  exists k, se. split; [exact Hi|].
  assert (Hkp : k_prefix k = IdBasic (ed_key (kp_pub ka))).
  { rewrite Hk. apply (Hse (run E db_empty cs)). rewrite Hi. reflexivity. }
  split; [exact Hkp|]. split.
  { rewrite Hkp. cbn [id_str]. destruct pa as [cc kk]. cbn in Pa1, Pa2. subst cc kk. exact (proj2 Pa). }
  intros Ho. destruct (Hops ops Ho) as (evs & H1 & _). eauto.
Qed.
Print Assumptions C132_controller_from_seeds.

(** Signatures of the wrong size and keys that are no points verify nothing, without a panic. *)
Theorem C132_wrong_sizes :
  forall C E K p msg sig,
    uses C E K -> (bp_code p = Ed25519 \/ bp_code p = Ed25519NT) -> ssp_code sig = Ed25519Sha512 ->
    (List.length (ssp_sig sig) <> 64 \/ c_ed_point C (bp_key p) = false) ->
    key_verify E p msg sig = Ok false.
Proof.
  intros C E K p msg sig (U1 & _) Hp Hs Hl. unfold key_verify. rewrite Hs, U1.
  assert (verify_ed C (bp_key p) msg (ssp_sig sig) = false) as ->.
  { unfold verify_ed. destruct (c_ed_point C (bp_key p)) eqn:Hc; [|reflexivity]. destruct Hl as [Hl|Hl]; [|discriminate Hl].
    now rewrite (proj2 (Nat.eqb_neq _ _) Hl). }
  destruct Hp as [-> | ->]; reflexivity.
Qed.
Print Assumptions C132_wrong_sizes.

(** Toy curves: a public key is its secret, a signature the key and the digest of the message. *)
Definition toy_curves : Curves :=
  mkCurves (fun sk => sk) (fun k => List.length k =? 32) (fun sk msg => sk ++ toy_digest Blake3_256 msg) short_verify
    (fun sk => List.length sk =? 32) (fun sk => x02 :: sk) (fun k => List.length k =? 33)
    (fun sk msg => sk ++ toy_digest Blake3_256 msg) (fun s => List.length s =? 64)
    (fun k msg sig => bytes_eqb sig (skipn 1 k ++ toy_digest Blake3_256 msg)).
Definition eseed : Env :=
  mkEnv toy_digest (verify_ed toy_curves) (verify_ecdsa toy_curves) (e_ser_event toy) (e_ser_signed toy) (e_deriv_data toy)
    (e_ser_reply toy) (e_deriv_reply toy) (e_ser_query toy).
Definition kseed : KEnv :=
  mkKEnv (k_dummy_event ktoy) (k_dummy_icp ktoy) (k_ser_rct ktoy) (k_ser_state ktoy) (k_parse ktoy) (sign_ed toy_curves).
Example C132_example :
  ed_sound toy_curves /\ ec_sound toy_curves /\ uses toy_curves eseed kseed /\ events_serialize eseed kseed
  /\ Forall (op_ok eseed kseed (IdBasic (ed_key (repeat x51 32)))) [OIxn None [] []; ORotate (mkKP (repeat x53 32) (repeat x53 32))]
  /\ log (run eseed db_empty []) (IdBasic (ed_key (repeat x51 32))) = [].
Proof.
  split.
  { intros sk H. split; [exact H|]. split; [now apply Nat.eqb_eq|]. intros msg. split; [|apply bytes_eqb_refl].
    cbn [c_ed_sign toy_curves]. now rewrite app_length, H, toy_digest_len. }
  split.
  { intros sk H. cbn in H. apply Nat.eqb_eq in H.
    assert (Hl : forall msg, List.length (sk ++ toy_digest Blake3_256 msg) = 64) by (intros; now rewrite app_length, H, toy_digest_len).
    split; [cbn; now rewrite H|]. split; [cbn; apply Nat.eqb_eq; exact H|].
    intros msg. split; [apply Hl|]. split; [apply Nat.eqb_eq, Hl|]. cbn [c_ec_check c_ec_public c_ec_sign toy_curves skipn]. apply bytes_eqb_refl. }
  split; [split; [reflexivity|split; reflexivity]|]. split; [repeat apply conj; intros; eexists; reflexivity|].
  split; [|vm_compute; reflexivity].
  constructor; [exact I|]. constructor; [|constructor]. intros msg. eexists. split; [reflexivity|].
  cbn [e_verify_ed eseed kp_pub kp_priv]. unfold verify_ed. cbn [c_ed_point c_ed_sign c_ed_check toy_curves].
  rewrite app_length, toy_digest_len, repeat_length. apply bytes_eqb_refl.
Qed.
Example C132_runs :
  is_ok (snd (incept eseed kseed (keri_new (mkBox (mkKP (repeat x51 32) (repeat x51 32)) (mkKP (repeat x52 32) (repeat x52 32))) db_empty) [])) = true
  /\ is_ok (snd (incept eseed kseed (keri_new (mkBox (mkKP (repeat x51 31) (repeat x51 31)) (mkKP (repeat x52 32) (repeat x52 32))) db_empty) [])) = false.
Proof. ex_vm. Qed.
