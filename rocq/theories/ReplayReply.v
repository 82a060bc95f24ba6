(** * ReplayReply: the other tests of src/processor/tests.rs, run in the model.  See [ReplayProcess.v]. *)
From Verif Require Import Base Base64 Codes NumFmt Types KeyConf Version State Db Processor Cesr Message Keri Json JsonRead JsonQuery Replay ReplayData ReplayProcess.

Definition all_got (l : list (out (option IdentifierState))) : bool := forallb got l.
(** processor/tests.rs:332-368 *)
Definition c1 := feed db_empty (many test_compute_state_at_sn__kerl_str).
Definition c_id := the_id "Ddhxr2UX8Xl55KvOd20cBYjj5QSCVqTiINgA_VJQul30".
Succeed Definition replay_test_compute_state_at_sn :
  List.length (snd c1) = 6 /\ all_got (snd c1) = true
  /\ omap (option_map (fun s => (st_sn s, st_prefix s, st_last_digest s))) (compute_state_at_sn real (fst c1) c_id 2)
     = Ok (Some (2%N, c_id, the_digest "EeAgPgw8ewxtbE0zVRB92K5bLC_nmVQBgA9Ajz7TPTg0"))
  := ltac:(all_vm).

(** processor/tests.rs:371-461 *)
Definition old_rpy := match one test_reply_escrow__old_rpy with MKeyStateNotice r => Some r | _ => None end.
Definition new_rpy := match one test_reply_escrow__new_rpy with MKeyStateNotice r => Some r | _ => None end.
Definition e1 := process real db_empty (one test_reply_escrow__old_rpy).
Definition e2 := feed (fst e1) (many test_reply_escrow__kel).
Definition e3 := process_escrow real (fst e2).
Definition e4 := process real (fst e3) (one test_reply_escrow__new_rpy).
Definition e5 := feed (fst e4) (many test_reply_escrow__rest_of_kel).
Definition e6 := process_escrow real (fst e5).
Definition len {A} (o : option (list A)) : nat := match o with Some l => List.length l | None => 0 end.
Succeed Definition replay_test_reply_escrow :
  snd e1 = Err (EQuery QOutOfOrder) /\ len (get_escrowed_replys (fst e1) d_bob) = 1
  /\ get_accepted_replys (fst e1) d_bob = None
  /\ List.length (snd e2) = 4 /\ all_got (snd e2) = true /\ snd e3 = Ok tt
  /\ len (get_escrowed_replys (fst e3) d_bob) = 0 /\ len (get_accepted_replys (fst e3) d_bob) = 1
  /\ snd e4 = Err (EQuery QOutOfOrder)
  /\ option_map (map Some) (get_escrowed_replys (fst e4) d_bob) = Some [new_rpy]
  /\ option_map (map Some) (get_accepted_replys (fst e4) d_bob) = Some [old_rpy]
  /\ List.length (snd e5) = 5 /\ all_got (snd e5) = true /\ snd e6 = Ok tt
  /\ len (get_escrowed_replys (fst e6) d_bob) = 0
  /\ option_map (map Some) (get_accepted_replys (fst e6) d_bob) = Some [new_rpy]
  := ltac:(all_vm).

(** processor/tests.rs:463-490; the key of the witness and the clock are of no consequence *)
Definition w_keys : CryptoBox := let s := repeat x01 32 in let p := mkKP (Ed25519.ed25519_public s) s in mkBox p p.
Definition real_k : KEnv :=
  with_json_k (mkKEnv (fun _ _ _ _ _ => Err ESerialization) (fun _ _ _ => Err ESerialization) (fun _ => Err ESerialization)
    (fun _ => Err ESerialization) real_read (fun k m => Ok (Ed25519.ed25519_sign k m))).
Definition q1 := process real db_empty (one test_query__icp_str).
Definition q2 : out ReplyType :=
  match one test_query__qry_str with
  | MQuery q => process_signed_query real real_k (mkWit (ed_key (kp_pub (cb_cur w_keys))) w_keys (fst q1)) q 1642089212020709000 1642089212020710000
  | _ => Panic
  end.
Succeed Definition replay_test_query :
  got (snd q1) = true /\ match q2 with Ok (Rep _) => true | _ => false end = true
  := ltac:(all_vm).
