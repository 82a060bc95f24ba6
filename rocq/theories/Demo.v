(** * Demo: a concrete environment and concrete histories.

    Used only for the [Example]s beside the theorems (their hypotheses are met by a
    non-trivial case) and as witnesses of the [_refuted] theorems.  The cryptography is a
    toy: a signature is the key followed by the message, a digest the last 32 bytes. *)
From Verif Require Import Base Base64 Codes NumFmt Types KeyConf State Db Processor Spec.

Definition toy_digest (c : SelfAddressing) (m : bytes) : bytes :=
  firstn 32 (rev m ++ repeat x55 32).
Lemma toy_digest_len c m : List.length (toy_digest c m) = 32.
Proof.
  unfold toy_digest. rewrite firstn_length, app_length, repeat_length. apply Nat.min_l. lia.
Qed.
Definition toy_verify (key msg sig : bytes) : bool := bytes_eqb sig (key ++ msg).
Definition seal_bytes (s : Seal) : bytes :=
  match s with
  | SealEvent e => bstr "e" ++ id_str (es_prefix e) ++ fmt_hex (es_sn e) ++ sap_str (es_digest e)
  | SealDigest d => bstr "d" ++ sap_str d
  | SealRoot d => bstr "r" ++ sap_str d
  | SealLocation l => bstr "l" ++ id_str (ls_prefix l)
  end.
Definition kc_bytes (kc : KeyConfig) : bytes :=
  threshold_str (kc_threshold kc) ++ flat_map bp_str (kc_keys kc)
  ++ match kc_next kc with Some n => sap_str n | None => [] end.
Definition data_bytes (d : EventData) : bytes :=
  match d with
  | Icp i => bstr "icp" ++ kc_bytes (icp_kc i) ++ flat_map seal_bytes (icp_data i)
  | Dip d => bstr "dip" ++ kc_bytes (icp_kc (dip_icp d)) ++ id_str (dip_delegator d)
  | Rot r => bstr "rot" ++ sap_str (rot_prev r) ++ kc_bytes (rot_kc r) ++ flat_map seal_bytes (rot_data r)
  | Drt r => bstr "drt" ++ sap_str (rot_prev r) ++ kc_bytes (rot_kc r) ++ flat_map seal_bytes (rot_data r)
  | Ixn i => bstr "ixn" ++ sap_str (ixn_prev i) ++ flat_map seal_bytes (ixn_data i)
  end.
(** everything but prefix and digest, hashed for the digest field *)
Definition toy_deriv (m : EventMessage) : bytes := data_bytes (em_data m) ++ fmt_hex (em_sn m).
Definition toy_ser (m : EventMessage) : bytes :=
  sap_str (em_digest m) ++ id_str (em_prefix m) ++ toy_deriv m.
Definition toy_ser_signed (e : SignedEventMessage) : bytes :=
  toy_ser (sem_msg e) ++ flat_map asp_str (sem_sigs e).
Definition toy_ksn (k : KeyStateNotice) : bytes :=
  id_str (st_prefix (ksn_state k)) ++ fmt_hex (st_sn (ksn_state k)) ++ sap_str (st_last_digest (ksn_state k))
  ++ kc_bytes (st_current (ksn_state k)).
Definition toy_deriv_reply (r : ReplyMessage) : bytes := toy_ksn (rp_ksn r) ++ fmt_dec (Z.to_N (rp_timestamp r)).
Definition toy_ser_reply (r : ReplyMessage) : bytes := sap_str (rp_digest r) ++ toy_deriv_reply r.
Definition toy : Env :=
  mkEnv toy_digest toy_verify toy_verify (fun m => Ok (toy_ser m)) (fun e => Ok (toy_ser_signed e))
    (fun m => Ok (toy_deriv m)) (fun r => Ok (toy_ser_reply r)) (fun r => Ok (toy_deriv_reply r))
    (fun q => Ok (id_str (q_i q))).

Definition info0 : SerializationInfo := mkSI 1 0 0 JSON.
Definition key (b : byte) : BasicPrefix := mkBP Ed25519 (repeat b 32).
Definition wit (b : byte) : BasicPrefix := mkBP Ed25519NT (repeat b 32).
Definition sig_over (k : BasicPrefix) (ser : bytes) : SelfSigningPrefix := mkSSP Ed25519Sha512 (bp_key k ++ ser).
Fixpoint sigs_from (i : N) (keys : list BasicPrefix) (ser : bytes) : list AttachedSignaturePrefix :=
  match keys with [] => [] | k :: r => mkASP i (sig_over k ser) :: sigs_from (i + 1) r ser end.
Definition signed (m : EventMessage) (keys : list BasicPrefix) (src : option SourceSeal) : SignedEventMessage :=
  mkSEM m (sigs_from 0 keys (toy_ser m)) src.

(** an inception whose prefix is its digest *)
Definition mk_incept (d : EventData) : EventMessage :=
  let dig := mkSAP Blake3_256 (toy_digest Blake3_256 (data_bytes d ++ fmt_hex 0)) in
  mkEM info0 dig (IdSelfAddressing dig) 0 d.
Definition mk_event (id : IdentifierPrefix) (sn : N) (d : EventData) : EventMessage :=
  let dig := mkSAP Blake3_256 (toy_digest Blake3_256 (data_bytes d ++ fmt_hex sn)) in
  mkEM info0 dig id sn d.
Definition kc_of (keys next : list BasicPrefix) (t : N) : KeyConfig :=
  mkKC (Simple t) keys (Some (nxt_commitment toy (Simple t) next Blake3_256)).

(** Alice: two keys, threshold two, two witnesses *)
Definition a_icp : EventMessage :=
  mk_incept (Icp (mkIcp (kc_of [key x01; key x02] [key x03; key x04] 2) (mkIWC 1 [wit x71; wit x72]) [] [])).
Definition alice : IdentifierPrefix := em_prefix a_icp.
Definition a_rot : EventMessage :=
  mk_event alice 1 (Rot (mkRot (em_digest a_icp) (kc_of [key x03; key x04] [key x05; key x06] 2)
                          (mkWC 1 [wit x71] [wit x73]) [])).
(** Bob, delegated by Alice *)
Definition b_dip : EventMessage :=
  mk_incept (Dip (mkDip (mkIcp (kc_of [key x11] [key x12] 1) (mkIWC 0 []) [] []) alice)).
Definition bob : IdentifierPrefix := em_prefix b_dip.
Definition a_ixn : EventMessage :=
  mk_event alice 2 (Ixn (mkIxn (em_digest a_rot) [SealEvent (mkES bob 0 (em_digest b_dip))])).
Definition b_drt : EventMessage :=
  mk_event bob 1 (Drt (mkRot (em_digest b_dip) (kc_of [key x12] [key x13] 1) (mkWC 0 [] []) [])).
Definition a_ixn2 : EventMessage :=
  mk_event alice 3 (Ixn (mkIxn (em_digest a_ixn) [SealEvent (mkES bob 1 (em_digest b_drt))])).

Definition s_icp := signed a_icp [key x01; key x02] None.
Definition s_rot := signed a_rot [key x03; key x04] None.
Definition s_ixn := signed a_ixn [key x03; key x04] None.
Definition s_dip := signed b_dip [key x11] (Some (mkSrc 2 (em_digest a_ixn))).
Definition s_ixn2 := signed a_ixn2 [key x03; key x04] None.
Definition s_drt := signed b_drt [key x12] (Some (mkSrc 3 (em_digest a_ixn2))).

(** Bob's transferable receipt of Alice's rotation, a witness receipt of it, and early ones *)
Definition rct_of (m : EventMessage) : ReceiptMessage :=
  mkRct info0 (em_digest m) (em_prefix m) (em_sn m).
Definition b_rct : SignedTransferableReceipt :=
  mkTRct (rct_of a_rot) (mkES bob 0 (em_digest b_dip)) (sigs_from 0 [key x11] (toy_ser a_rot)).
Definition w_rct : SignedNontransferableReceipt :=
  mkNRct (rct_of a_rot) [(wit x73, sig_over (wit x73) (toy_ser_signed (stored s_rot)))].
Definition a_ixn3 : EventMessage := mk_event alice 4 (Ixn (mkIxn (em_digest a_ixn2) [])).
Definition w_rct_early : SignedNontransferableReceipt :=
  mkNRct (rct_of a_ixn3) [(wit x73, sig_over (wit x73) (toy_ser a_ixn3))].
Definition b_rct_early : SignedTransferableReceipt :=
  mkTRct (rct_of a_ixn3) (mkES bob 0 (em_digest b_dip)) (sigs_from 0 [key x11] (toy_ser a_ixn3)).

Definition demo_events : list Call :=
  map (fun e => CProcess (MEvent e)) [s_icp; s_rot; s_ixn; s_dip; s_ixn2; s_drt].
Definition demo_calls : list Call :=
  demo_events ++ [CProcess (MTransferableRct b_rct); CProcess (MNontransferableRct w_rct);
                  CProcess (MNontransferableRct w_rct_early); CProcess (MTransferableRct b_rct_early); CEscrow].
Definition demo : Db := run toy db_empty demo_calls.

Definition state_of (E : Env) (d : Db) (id : IdentifierPrefix) : IdentifierState :=
  match compute_state E d id with Ok (Some s) => s | _ => state_default end.

(** Solves concrete conjunctions, witnesses and (dis)equations by computation. *)
Ltac ex_vm :=
  lazymatch goal with
  | |- _ /\ _ => split; [ex_vm|ex_vm]
  | |- exists _, _ => eexists; ex_vm
  | |- _ <> _ => vm_compute; discriminate
  | |- _ => vm_compute; reflexivity
  end.

(** Decision procedures used by the examples *)
Lemma nodup_by (l : list BasicPrefix) : nodup BasicPrefix_eq_dec l = l -> NoDup l.
Proof. intros <-. apply NoDup_nodup. Qed.
Lemma not_nodup_by (l : list BasicPrefix) : nodup BasicPrefix_eq_dec l <> l -> ~ NoDup l.
Proof. intros H Hn. now apply H, nodup_fixed_point. Qed.
Lemma in_by (w : BasicPrefix) l : (if in_dec BasicPrefix_eq_dec w l then true else false) = true -> In w l.
Proof. destruct (in_dec BasicPrefix_eq_dec w l); [auto|discriminate]. Qed.
Lemma not_in_by (w : BasicPrefix) l : (if in_dec BasicPrefix_eq_dec w l then true else false) = false -> ~ In w l.
Proof. destruct (in_dec BasicPrefix_eq_dec w l); [discriminate|auto]. Qed.

Example demo_logs :
  option_map log_of (get_kel demo alice) = Some [a_icp; a_rot; a_ixn; a_ixn2]
  /\ option_map log_of (get_kel demo bob) = Some [b_dip; b_drt]
  /\ get_receipts_t demo alice = Some [b_rct] /\ get_receipts_nt demo alice = Some [w_rct]
  /\ get_escrow_nt demo alice = Some [w_rct_early] /\ get_escrow_t demo alice = Some [b_rct_early].
Proof. ex_vm. Qed.
Example demo_ids : alice <> id_default /\ bob <> id_default /\ alice <> bob.
Proof. ex_vm. Qed.
Example demo_states :
  map (fun id => option_map (fun s => (st_sn s, kc_keys (st_current s), st_witnesses s, st_delegator s))
                   (match compute_state toy demo id with Ok o => o | _ => None end)) [alice; bob]
  = [Some (3%N, [key x03; key x04], [wit x72; wit x73], None); Some (1%N, [key x12], [], Some alice)].
Proof. vm_compute; reflexivity. Qed.
