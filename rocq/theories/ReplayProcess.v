(** * ReplayProcess: the tests of src/processor/tests.rs, run in the model.

    Every [Succeed] is one test of the repository: the same messages (ReplayData.v), the same calls
    and the same assertions, with the real Blake3 digests and the real Ed25519 signatures checked
    by computation.  These are tests of the model, not proofs of a property: the kernel checks each
    one when the file is compiled (the build stops when one fails) and nothing is kept, because
    coqchk, which has no virtual machine, would take hours to run them again. *)
From Verif Require Import Base Base64 Codes NumFmt Types KeyConf Version State Db Processor Cesr Message Keri Json JsonRead JsonQuery Replay ReplayData.
Notation json := Json.json.
Ltac by_vm := lazymatch goal with |- @eq ?T _ ?r => vm_cast_no_check (@eq_refl T r) end.
Ltac all_vm := repeat (apply conj; [by_vm|]); by_vm.

Definition opt_is {A B} (f : A -> B) (o : option A) : option B := match o with Some a => Some (f a) | None => None end.
Definition failed {A} (o : out A) : bool := match o with Err _ => true | _ => false end.
Definition got {A} (x : out (option A)) : bool := match x with Ok (Some _) => true | _ => false end.
Definition one (raw : bytes) : Message :=
  match parsed raw with Ok m => m | _ => MQuery (mkSQry (mkQry (si_new JSON 0) sap_default 0 RLog [] id_default) id_default []) end.
Definition many (raw : bytes) : list Message := match parsed_stream raw with Ok l => l | _ => [] end.
Definition the_id (s : string) : IdentifierPrefix := match id_from (bstr s) with Ok i => i | _ => id_default end.
Definition the_digest (s : string) : SelfAddressingPrefix := match sap_from (bstr s) with Ok i => i | _ => sap_default end.
Definition only_sig (i : nat) (m : Message) : Message :=
  match m with
  | MEvent e => MEvent (mkSEM (sem_msg e) (match nth_error (sem_sigs e) i with Some s => [s] | None => [] end) (sem_seal e))
  | m => m
  end.
Definition event_of (m : Message) : option EventMessage := match m with MEvent e => Some (sem_msg e) | _ => None end.
Definition same_text (o : option (out bytes)) (t : bytes) : bool := match o with Some (Ok b) => bytes_eqb b t | _ => false end.
Definition stored (d : Db) (id : IdentifierPrefix) (sn : N) : option (out bytes) := opt_is (e_ser_signed real) (get_event_at_sn d id sn).
Definition same_event (d : Db) (id : IdentifierPrefix) (sn : N) (m : Message) : bool :=
  match opt_is (fun e => e_ser_event real (sem_msg e)) (get_event_at_sn d id sn), opt_is (e_ser_event real) (event_of m) with
  | Some (Ok a), Some (Ok b) => bytes_eqb a b
  | _, _ => false
  end.

Definition absent (d : Db) (id : IdentifierPrefix) (sn : N) : bool := match get_event_at_sn d id sn with None => true | _ => false end.

(** processor/tests.rs:13-127 *)
Definition p_id := the_id "ELYk-z-SuTIeDncLr6GhwVUKnv3n3F1bF18qkXNd2bpk".
Definition p1 := process real db_empty (one test_process__icp_raw).
Definition p2 := process real (fst p1) (one test_process__rot_raw).
Definition p3 := process real (fst p2) (one test_process__rot_raw).
Definition p4 := process real (fst p3) (one test_process__ixn_raw).
Definition p5 := process real (fst p4) (only_sig 1 (one test_process__ixn_raw_2)).
Definition p6 := process real (fst p5) (one test_process__out_of_order_rot_raw).
Succeed Definition replay_test_process :
  got (snd p1) = true /\ same_text (stored (fst p1) p_id 0) test_process__icp_raw = true
  /\ got (snd p2) = true /\ same_text (stored (fst p2) p_id 1) test_process__rot_raw = true
  /\ snd p3 = Err EDuplicate
  /\ got (snd p4) = true /\ same_event (fst p4) p_id 2 (one test_process__ixn_raw) = true
  /\ snd p5 = Err ENotEnoughSigs /\ absent (fst p5) p_id 3 = true
  /\ snd p6 = Err EOutOfOrder /\ absent (fst p6) p_id 4 = true
  /\ get_kerl real (fst p6) p_id = Ok (Some (test_process__icp_raw ++ test_process__rot_raw ++ test_process__ixn_raw))
  := ltac:(all_vm).

(** processor/tests.rs:129-169; the answer to the receipt is the state of its subject *)
Definition r1 := process real db_empty (one test_process_receipt__icp_raw).
Definition r2 := process real (fst r1) (one test_process_receipt__vrc_raw).
Definition r3 := process real (fst r2) (one test_process_receipt__val_icp_raw).
Definition r4 := process real (fst r3) (one test_process_receipt__vrc_raw).
Succeed Definition replay_test_process_receipt :
  got (snd r1) = true /\ failed (snd r2) = true /\ got (snd r3) = true /\ snd r4 = snd r1
  := ltac:(all_vm).

(** processor/tests.rs:171-277 *)
Definition d_bob := the_id "Et78eYkh8A3H9w6Q87EC5OcijiVEJT8KyNtEGdpPVWV8".
Definition d_child := the_id "Er4bHXd4piEtsQat1mquwsNZXItvuoj_auCUyICmwyXI".
Definition d1 := process real db_empty (one test_process_delegated__bobs_icp).
Definition d2 := process real (fst d1) (one test_process_delegated__dip_raw).
Definition d3 := process real (fst d2) (one test_process_delegated__bobs_ixn).
Definition d4 := process real (fst d3) (one test_process_delegated__dip_raw).
Definition d5 := process real (fst d4) (one test_process_delegated__drt_raw).
Definition d6 := process real (fst d5) (one test_process_delegated__bob_ixn).
Definition d7 := process real (fst d6) (one test_process_delegated__drt_raw).
Succeed Definition replay_test_process_delegated :
  got (snd d1) = true
  /\ snd d2 = Err EOutOfOrder /\ absent (fst d2) d_child 0 = true
  /\ got (snd d3) = true /\ same_event (fst d3) d_bob 1 (one test_process_delegated__bobs_ixn) = true
  /\ got (snd d4) = true /\ same_event (fst d4) d_child 0 (one test_process_delegated__dip_raw) = true
  /\ snd d5 = Err EOutOfOrder /\ absent (fst d5) d_child 1 = true
  /\ got (snd d6) = true /\ same_event (fst d6) d_bob 2 (one test_process_delegated__bob_ixn) = true
  /\ got (snd d7) = true /\ same_event (fst d7) d_child 1 (one test_process_delegated__drt_raw) = true
  := ltac:(all_vm).

(** processor/tests.rs:279-330; the first two messages are those of [d1] and [d3] *)
Definition v_dip : EventMessage := match one test_validate_seal__dip_raw with MEvent e => sem_msg e | _ => mkEM (si_new JSON 0) sap_default id_default 0 (Ixn (mkIxn sap_default [])) end.
Definition v_seal : EventSeal := mkES d_bob 1 (em_digest v_dip).
Succeed Definition replay_test_validate_seal :
  one test_validate_seal__delegator_icp_raw = one test_process_delegated__bobs_icp
  /\ one test_validate_seal__delegating_event_raw = one test_process_delegated__bobs_ixn
  /\ em_prefix v_dip = d_child
  /\ validate_seal real (fst d1) v_seal v_dip = Err EOutOfOrder
  /\ validate_seal real (fst d3) v_seal v_dip = Ok tt
  := ltac:(all_vm).
