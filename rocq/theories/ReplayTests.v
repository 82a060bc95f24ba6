(** * ReplayTests: the repository's tests of texts, thresholds and commitments, run in the model.
    See [ReplayProcess.v]; these need no signature checks, except test_verify. *)
From Verif Require Import Base Base64 Codes NumFmt Types KeyConf Version State Db Processor Cesr Message Keri Builder Keys Json JsonRead JsonQuery Replay ReplayData ReplayProcess ReplayReply.
Notation json := Json.json.

Definition the_key (s : string) : BasicPrefix := match bp_from (bstr s) with Ok p => p | _ => mkBP X448 [] end.
Definition no_sig : SelfSigningPrefix := mkSSP Ed25519Sha512 [].
Definition the_asp (s : string) : AttachedSignaturePrefix := match asp_from (bstr s) with Ok p => p | _ => mkASP 0 no_sig end.
Definition the_ssp (s : string) : SelfSigningPrefix := match ssp_from (bstr s) with Ok p => p | _ => no_sig end.
Definition ok {A} (o : out A) : bool := match o with Ok _ => true | _ => false end.
Definition pok {A} (o : pres A) : bool := match o with POk _ _ => true | _ => false end.
Definition half : frac := frac_new 1 2.
Definition letters (n : nat) : bytes := repeat x41 n.

(** event/sections/key_config.rs:153-187 *)
Definition kid3 := map the_key ["BrHLayDN-mXKv62DAjFLX1_Y5yEUe0vA9YPe_ihiKYHE"; "BujP_71bmWFVcvFmkE9uS8BTZ54GIstZ20nj_UloF8Rk"; "B8T4xkb8En6o0Uo5ZImco1_08gT5zcYnXzizUPVNzicw"]%string.
Definition weighted_keys := map the_key ["DeonYM2bKnAwp6VZcuCXdX72kNFw56czlZ_Tc7XHHVGI"; "DQghKIy-2do9OkweSgazh3Ql1vCOt5bnc5QF8x50tRoU"; "DNAUn-5dxm6b8Njo01O0jlStMRCjo9FYQA2mfqFW1_JA"]%string.
Succeed Definition replay_test_next_commitment :
  sap_str (nxt_commitment real (Simple 2) kid3 Blake3_256) = bstr "ED8YvDrXvGuaIVZ69XsBVA5YN2pNTfQOFwgeloVHeWKs"
  /\ sap_str (nxt_commitment real (Weighted (WMulti [[half; half; half]])) weighted_keys Blake3_256)
     = bstr "EhJGhyJQTpSlZ9oWfQT-lHNl1woMazLC42O89fRHocTI"
  := ltac:(all_vm).

(** event_message/event_msg_builder.rs:284-321 *)
Definition multi_keys := map the_key ["DSuhyBcPZEZLK-fcw5tzHn2N46wRCG_ZOoeKtWTOunRA"; "DVcuJOOJF1IE8svqEtrSuyQjGTd2HhfAkt9y2QkUtFJI"; "DT1iAhBWCkvChxNWsby2J0pJyxBIxbAtbLA0Ljx-Grh8"]%string.
Definition multi_next := map the_key ["DKPE5eeJRzkRTMOoRGVd2m18o8fLqM2j9kaxLhV3x8AQ"; "D1kcBE7h0ImWW6_Sp7MQxGYSshZZz6XM7OiUE5DXm0dU"; "D4JDgo3WNSUpt-NG14Ni31_GCmrU0r38yo7kgDuyGkQM"]%string.
Succeed Definition replay_test_multisig_prefix_derivation :
  obind (build_with real real_k TIcp [] [] [SKeys multi_keys; SNextKeys multi_next; SThreshold (Simple 2); SNextThreshold (Simple 2)])
    (e_ser_event real) = Ok test_multisig_prefix_derivation__expected_event__287
  := ltac:(all_vm).

(** event/event_data/inception.rs:94-148, delegated/mod.rs:60-104 *)
Definition plain_icp (t : N) (ks nks : list BasicPrefix) : InceptionEvent :=
  mkIcp (mkKC (Simple t) ks (Some (nxt_commitment real (Simple t) nks Blake3_256))) (mkIWC 0 []) [] [].
Definition made (d : EventData) := incept_self_addressing real real_k d Blake3_256 JSON.
Definition named (o : out EventMessage) := omap (fun m => (id_str (em_prefix m), sap_str (em_digest m), si_str (em_info m))) o.
Succeed Definition replay_test_inception_data_derivation :
  named (made (Icp (plain_icp 2 multi_keys multi_next)))
    = Ok (bstr "ELYk-z-SuTIeDncLr6GhwVUKnv3n3F1bF18qkXNd2bpk", bstr "ELYk-z-SuTIeDncLr6GhwVUKnv3n3F1bF18qkXNd2bpk", bstr "KERI10JSON00017e_")
  /\ named (made (Dip (mkDip (plain_icp 1 [the_key "DuK1x8ydpucu3480Jpd1XBfjnCwb3dZ3x5b1CJmuUphA"] [the_key "DTf6QZWoet154o9wvzeMuNhLQRr8JaAUeiC6wjB_4_08"])
                         (the_id "Et78eYkh8A3H9w6Q87EC5OcijiVEJT8KyNtEGdpPVWV8"))))
    = Ok (bstr "Er4bHXd4piEtsQat1mquwsNZXItvuoj_auCUyICmwyXI", bstr "Er4bHXd4piEtsQat1mquwsNZXItvuoj_auCUyICmwyXI", bstr "KERI10JSON000154_")
  := ltac:(all_vm).

(** event/sections/threshold.rs:221-260; seal.rs:74-95; the texts inside events *)
Definition dump (l : list N) : list AttachedSignaturePrefix := map (fun i => mkASP i no_sig) l.
Definition two_clauses : SignatureThreshold := Weighted (WMulti [[frac_new 1 1]; [half; half; half]]).
Definition reads (v : out sval) : out bytes := omap json v.
Definition value_of (s : bytes) : out jval := match read_value (S (List.length s)) 128 s with Some (v, []) => Ok v | _ => Err ESerialization end.
Succeed Definition replay_test_thresholds_and_seals :
  enough_signatures two_clauses (dump [0; 1; 2; 3]%N) = Ok true
  /\ enough_signatures two_clauses (dump [0; 1; 3]%N) = Ok true
  /\ enough_signatures two_clauses (dump [0]%N) = Ok false
  /\ obind (value_of (bstr "[[""1""],[""1/2"",""1/2"",""1/2""]]")) (as_threshold real_hex) = Ok two_clauses
  /\ json (threshold_val two_clauses) = bstr "[[""1""],[""1/2"",""1/2"",""1/2""]]"
  /\ obind (value_of (bstr "[""1/2"",""1/2"",""1/2""]")) (as_threshold real_hex) = Ok (Weighted (WSingle [half; half; half]))
  /\ json (threshold_val (Weighted (WSingle [half; half; half]))) = bstr "[""1/2"",""1/2"",""1/2""]"
  /\ omap (fun s => json (seal_val s)) (obind (value_of test_seal_deserialization__seal_str__77) (as_seal real_hex)) = Ok test_seal_deserialization__seal_str__77
  /\ omap (fun s => json (seal_val s)) (obind (value_of test_seal_deserialization__seal_str__83) (as_seal real_hex)) = Ok test_seal_deserialization__seal_str__83
  /\ omap (fun s => json (seal_val s)) (obind (value_of test_seal_deserialization__seal_str__89) (as_seal real_hex)) = Ok test_seal_deserialization__seal_str__89
  := ltac:(all_vm).

(** event_parsing/message.rs:150-262 *)
Definition again (s : bytes) : bool :=
  match real_read s with
  | POk [] (KeyEventT m) => match e_ser_event real m with Ok b => bytes_eqb b s | _ => false end
  | POk [] (ReceiptT r) => match k_ser_rct real_k r with Ok b => bytes_eqb b s | _ => false end
  | _ => false
  end.
Definition more : bytes := bstr "something more".
Succeed Definition replay_test_message_parsing :
  pok (signed_message real_read test_signed_event__stream__159) = true
  /\ map again [test_key_event_parsing__stream__167; test_key_event_parsing__stream__173; test_key_event_parsing__stream__180;
                test_key_event_parsing__stream__186; test_key_event_parsing__stream__192; test_key_event_parsing__stream__197;
                test_receipt_parsing__stream__206] = repeat true 7
  /\ match real_read (test_qry__qry_event__216 ++ more) with
     | POk r (QryT q) => Some (r, json (query_val Clock.rfc_write q))
     | _ => None
     end = Some (more, test_qry__qry_event__216)
  /\ match real_read (test_reply__rpy__228 ++ more) with POk r (RpyT _) => Some r | _ => None end = Some more
  /\ match signed_message real_read (removelast test_signed_qry__stream__242) with PInc => true | _ => false end = true
  /\ pok (signed_message real_read test_signed_qry__stream__242) = true
  /\ match signed_event_stream real_read test_signed_events_stream__kerl_str__252 with POk r l => Some (r, List.length l) | _ => None end = Some ([], 7)
  := ltac:(all_vm).

(** event_parsing/mod.rs:402-478 *)
Definition size_right (m : Message) : bool :=
  match m with
  | MEvent e => match e_ser_event real (sem_msg e) with Ok b => (N.of_nat (List.length b) =? si_size (em_info (sem_msg e)))%N | _ => false end
  | _ => false
  end.
Definition written (m : Message) : out bytes := match m with MEvent e => e_ser_signed real e | _ => Panic end.
Succeed Definition replay_test_streams :
  size_right (one test_stream1__stream__405) = true /\ written (one test_stream1__stream__405) = Ok test_stream1__stream__405
  /\ size_right (one test_stream2__stream__431) = true /\ written (one test_stream2__stream__431) = Ok test_stream2__stream__431
  /\ match one test_deserialize_signed_receipt__trans_receipt_event__458 with MTransferableRct _ => true | _ => false end = true
  /\ match one test_deserialize_signed_receipt__nontrans_rcp__465 with MNontransferableRct _ => true | _ => false end = true
  := ltac:(all_vm).

(** event_parsing/attachment.rs:161-238, prefix.rs:186-250, payload_size.rs:311-314 *)
Definition zero_ed : AttachedSignaturePrefix := mkASP 0 (mkSSP Ed25519Sha512 (repeat x00 64)).
Definition zero_448 : AttachedSignaturePrefix := mkASP 2 (mkSSP Ed448Sig (repeat x00 114)).
Definition couplet := mkSrc 1 (the_digest "E3fUycq1G-P1K1pL2OhvY6ZU-9otSa3hXiCcrxuhjyII").
Succeed Definition replay_test_attachments :
  b64_count (bstr "AA") = POk [] 0%N /\ b64_count (bstr "BA") = POk [] 64%N
  /\ b64_count (bstr "ABextra data and stuff") = POk (bstr "extra data and stuff") 1%N
  /\ attachment (bstr "-AABAA" ++ letters 86) = POk [] (AttachedSignatures [zero_ed])
  /\ pok (attachment (bstr "-AABAA0Q7bqPvenjWXo_YIikMBKOg-pghLKwBi1Plm0PEqdv67L1_c6dq9bll7OFnoLp0a74Nw1cBGdjIPcu-yAllHAw")) = true
  /\ attachment (bstr "-AACAAAAAAAAAAAAAAAAAAAAAAAAAAAAAAAAAAAAAAAAAAAAAAAAAAAAAAAAAAAAAAAAAAAAAAAAAAAAAAAAAAAAAAAA0AACAAAAAAAAAAAAAAAAAAAAAAAAAAAAAAAAAAAAAAAAAAAAAAAAAAAAAAAAAAAAAAAAAAAAAAAAAAAAAAAAAAAAAAAAAAAAAAAAAAAAAAAAAAAAAAAAAAAAAAAAAAAAAAAAAAAAAAAAAAAAAAAAAAAAAAAAextra data") = POk (bstr "extra data") (AttachedSignatures [zero_ed; zero_448])
  /\ attachment (bstr "-AACAAAAAAAAAAAAAAAAAAAAAAAAAAAAAAAAAAAAAAAAAAAAAAAAAAAAAAAAAAAAAAAAAAAAAAAAAAAAAAAAAAAAAAAA0AACAAAAAAAAAAAAAAAAAAAAAAAAAAAAAAAAAAAAAAAAAAAAAAAAAAAAAAAAAAAAAAAAAAAAAAAAAAAAAAAAAAAAAAAAAAAAAAAAAAAAAAAAAAAAAAAAAAAAAAAAAAAAAAAAAAAAAAAAAAAAAAAAAAAAAAAA") = POk (bstr "") (AttachedSignatures [zero_ed; zero_448])
  /\ attachment (bstr "-GAC0AAAAAAAAAAAAAAAAAAAAAAQE3fUycq1G-P1K1pL2OhvY6ZU-9otSa3hXiCcrxuhjyII0AAAAAAAAAAAAAAAAAAAAAAQE3fUycq1G-P1K1pL2OhvY6ZU-9otSa3hXiCcrxuhjyII")
     = POk [] (SealSourceCouplets [couplet; couplet])
  /\ attachment (bstr "-FABED9EB3sA5u2vCPOEmX3d7bEyHiSh7Xi8fjew2KMl3FQM0AAAAAAAAAAAAAAAAAAAAAAAEeGqW24EnxUgO_wfuFo6GR_vii-RNv5iGo8ibUrhe6Z0-AABAAAAAAAAAAAAAAAAAAAAAAAAAAAAAAAAAAAAAAAAAAAAAAAAAAAAAAAAAAAAAAAAAAAAAAAAAAAAAAAAAAAAAAAA")
     = POk [] (SealSignaturesGroups [(mkES (the_id "ED9EB3sA5u2vCPOEmX3d7bEyHiSh7Xi8fjew2KMl3FQM") 0 (the_digest "EeGqW24EnxUgO_wfuFo6GR_vii-RNv5iGo8ibUrhe6Z0"), [zero_ed])])
  /\ attachment (bstr "-CABBed2Tpxc8KeCEWoq3_RKKRjU_3P-chSser9J4eAtAK6I0B8npsG58rX1ex73gaGe-jvRnw58RQGsDLzoSXaGn-kHRRNu6Kb44zXDtMnx-_8CjnHqskvDbz6pbEbed3JTOnCQ")
     = POk [] (ReceiptCouplets [(the_key "Bed2Tpxc8KeCEWoq3_RKKRjU_3P-chSser9J4eAtAK6I",
         the_ssp "0B8npsG58rX1ex73gaGe-jvRnw58RQGsDLzoSXaGn-kHRRNu6Kb44zXDtMnx-_8CjnHqskvDbz6pbEbed3JTOnCQ")])
  /\ match attachment (bstr "-VAj-HABE4YPqsEOaPNaZxVIbY-Gx2bJgP-c7AH_K7pEE-YfcI9E-AABAAMX88afPpEfF_HF-E-1uZKyv8b_TdILi2x8vC3Yi7Q7yzHn2fR6Bkl2yn-ZxPqmsTfV3f-H_VQwMgk7jYEukVCA") with POk r (Frame _) => Some r | _ => None end = Some []
  /\ attached_signature (letters 88) = POk [] zero_ed
  /\ attached_signature (bstr "BC" ++ letters 88) = POk (letters 2) (mkASP 2 (mkSSP ECDSAsecp256k1Sha256 (repeat x00 64)))
  /\ self_addressing_prefix (bstr "EJJR2nmwyYAfSVPzhzS6b5CMZAoTNZH3ULvaU6Z-i0d8more") = POk (bstr "more") (the_digest "EJJR2nmwyYAfSVPzhzS6b5CMZAoTNZH3ULvaU6Z-i0d8")
  /\ self_signing_prefix (bstr "0Bq1UBr1QD5TokdcnO_FmnoYsd8rB4_-oaQtk0dfFSSXPcxAu7pSaQIVfkhzckCVmTIgrdxyXS21uZgs7NxoyZAQmore")
     = POk (bstr "more") (the_ssp "0Bq1UBr1QD5TokdcnO_FmnoYsd8rB4_-oaQtk0dfFSSXPcxAu7pSaQIVfkhzckCVmTIgrdxyXS21uZgs7NxoyZAQ")
  /\ attached_sn (bstr "0AAAAAAAAAAAAAAAAAAAAAAw") = POk [] 3%N
  /\ adjust_with_num MA 2 = Ok (bstr "-AAC") /\ adjust_with_num MA 27 = Ok (bstr "-AAb")
  := ltac:(all_vm).

(** prefix/attached_signature.rs:84-123, prefix/mod.rs:155-350, derivation/attached_signature_code.rs:106-114,
    event_message/serialization_info.rs:120-139 *)
Definition is_basic (p : IdentifierPrefix) := match p with IdBasic _ => true | _ => false end.
Definition is_digest (p : IdentifierPrefix) := match p with IdSelfAddressing _ => true | _ => false end.
Definition is_signature (p : IdentifierPrefix) := match p with IdSelfSigning _ => true | _ => false end.
(** [pred] holds of the prefix read from [code] and zeros, which is written back as it was *)
Definition code_is (pred : IdentifierPrefix -> bool) (x : string * nat) : bool :=
  let s := bstr (fst x) ++ letters (snd x) in
  match id_from s with Ok p => pred p && bytes_eqb (firstn (List.length (bstr (fst x))) (id_str p)) (bstr (fst x)) | _ => false end.
Definition sig_text (c : SelfSigning) (n : nat) (i : N) : bytes := asp_str (mkASP i (mkSSP c (repeat x00 n))).
Definition key_text (c : Basic) (n : nat) : bytes := bp_str (mkBP c (repeat x00 n)).
Succeed Definition replay_test_prefixes :
  the_asp (String.append "AB" "AAAAAAAAAAAAAAAAAAAAAAAAAAAAAAAAAAAAAAAAAAAAAAAAAAAAAAAAAAAAAAAAAAAAAAAAAAAAAAAAAAAAAA") = mkASP 1 (mkSSP Ed25519Sha512 (repeat x00 64))
  /\ the_asp (String.append "BC" "AAAAAAAAAAAAAAAAAAAAAAAAAAAAAAAAAAAAAAAAAAAAAAAAAAAAAAAAAAAAAAAAAAAAAAAAAAAAAAAAAAAAAA") = mkASP 2 (mkSSP ECDSAsecp256k1Sha256 (repeat x00 64))
  /\ the_asp (String.append "0AAD" "AAAAAAAAAAAAAAAAAAAAAAAAAAAAAAAAAAAAAAAAAAAAAAAAAAAAAAAAAAAAAAAAAAAAAAAAAAAAAAAAAAAAAAAAAAAAAAAAAAAAAAAAAAAAAAAAAAAAAAAAAAAAAAAAAAAAAAAAAAAAAAAAAAAAAAAA") = mkASP 3 (mkSSP Ed448Sig (repeat x00 114))
  /\ sig_text Ed25519Sha512 64 2 = bstr "AC" ++ letters 86
  /\ sig_text ECDSAsecp256k1Sha256 64 6 = bstr "BG" ++ letters 86
  /\ sig_text Ed448Sig 114 4 = bstr "0AAE" ++ letters 152
  /\ the_id (String.append "B" "AAAAAAAAAAAAAAAAAAAAAAAAAAAAAAAAAAAAAAAAAAA") = IdBasic (mkBP Ed25519NT (repeat x00 32))
  /\ map (fun s => ok (id_from (bstr s)))
       ["BAAAAAAAAAAAAAAAAAAAAAAAAAAAAAAAAAAAAAAAAAAA"; "CBBBBBAAAAAAAAAAAAAAAAAAAAAAAAAAAAAAAAAAAAAA";
        "BAAAAAAAAAAAAAAAAAAAAAAAAAAAAAAAAAAAAAAAAAA"; "BAAAAAAAAAAAAAAAAAAAAAAAAAAAAAAAAAAAAAAAAAAAA";
        "ZAAAAAAAAAAAAAAAAAAAAAAAAAAAAAAAAAAAAAAAAAAA"; "BAAAAAAAAAAAAAAAAAAA/AAAAAAAAAAAAAAAAAAAAAAAA"]%string
     = [true; true; false; false; false; false]
  /\ map (code_is is_basic) [("B", 43); ("C", 43); ("D", 43); ("L", 75); ("1AAA", 47); ("1AAB", 47); ("1AAC", 76); ("1AAD", 76)]%string = repeat true 8
  /\ map (code_is is_digest) [("E", 43); ("F", 43); ("G", 43); ("H", 43); ("I", 43); ("0D", 86); ("0E", 86); ("0F", 86); ("0G", 86)]%string = repeat true 9
  /\ map (code_is is_signature) [("0B", 86); ("0C", 86); ("1AAE", 152)]%string = repeat true 3
  /\ key_text Ed25519NT 32 = bstr "B" ++ letters 43 /\ key_text X25519 32 = bstr "C" ++ letters 43
  /\ key_text Ed25519 32 = bstr "D" ++ letters 43 /\ key_text X448 56 = bstr "L" ++ letters 75
  /\ key_text ECDSAsecp256k1NT 33 = bstr "1AAA" ++ letters 44 /\ key_text ECDSAsecp256k1 33 = bstr "1AAB" ++ letters 44
  /\ key_text Ed448NT 57 = bstr "1AAC" ++ letters 76 /\ key_text Ed448 57 = bstr "1AAD" ++ letters 76
  /\ map num_to_b64 [0; 1; 2; 3; 27; 64]%N = map bstr ["A"; "B"; "C"; "D"; "b"; "AE"]%string
  /\ si_str (si_new JSON 100) = bstr "KERI10JSON000064_"
  /\ omap (fun v => (si_kind v, si_major v, si_minor v, si_size v)) (si_from (bstr "KERIa4CBOR000123_")) = Ok (CBOR, 10, 4, 291)%N
  := ltac:(all_vm).

(** prefix/seed.rs:95-130: the curve by [Ed25519.v]; no ECDSA *)
Definition real_curves : Curves :=
  mkCurves Ed25519.ed25519_public (fun k => List.length k =? 32) Ed25519.ed25519_sign Ed25519.ed25519_verify
    (fun _ => false) (fun s => s) (fun _ => false) (fun _ _ => []) (fun _ => false) (fun _ _ _ => false).
Definition pair_of (s : string) : out bytes := omap kp_pub (obind (seed_from (bstr s)) (derive_key_pair real_curves)).
Succeed Definition replay_test_derive_keypair :
  map (fun s => omap b64_encode (pair_of s))
    ["ArwXoACJgOleVZ2PY7kXn7rA0II0mHYDhc6WrBH8fDAc"; "A6zz7M08-HQSFq92sJ8KJOT2cZ47x7pXFQLPB0pckB3Q";
     "AcwFTk-wgk3ZT2buPRIbK-zxgPx-TKbaegQvPEivN90Y"; "Alntkt3u6dDgiQxTATr01dy8M72uuaZEf9eTdM-70Gk8";
     "A1-QxDkso9-MR1A8rZz_Naw6fgaAtayda8hrbkRVVu1E"; "AKuYMe09COczwf2nIoD5AE119n7GLFOVFlNLxZcKuswc";
     "AxFfJTcSuEE11FINfXMqWttkZGnUZ8KaREhrnyAXTsjw"; "ALq-w1UKkdrppwZzGTtz4PWYEeWm0-sDHzOv5sq96xJY"]%string
  = map (fun s => Ok (bstr s))
    ["SuhyBcPZEZLK-fcw5tzHn2N46wRCG_ZOoeKtWTOunRA"; "VcuJOOJF1IE8svqEtrSuyQjGTd2HhfAkt9y2QkUtFJI";
     "T1iAhBWCkvChxNWsby2J0pJyxBIxbAtbLA0Ljx-Grh8"; "KPE5eeJRzkRTMOoRGVd2m18o8fLqM2j9kaxLhV3x8AQ";
     "1kcBE7h0ImWW6_Sp7MQxGYSshZZz6XM7OiUE5DXm0dU"; "4JDgo3WNSUpt-NG14Ni31_GCmrU0r38yo7kgDuyGkQM";
     "VjWcaNX2gCkHOjk6rkmqPBCxkRCqwIJ-3OjdYmMwxf4"; "T1nEDepd6CSAMCE7NY_jlLdG6_mKUlKS_mW-2HJY1hg"]%string
  := ltac:(all_vm).

(** event/sections/key_config.rs:266-302 *)
Definition verified (m : Message) : out bool :=
  match m with
  | MEvent e =>
      match em_data (sem_msg e) with
      | Icp i => let? b := e_ser_event real (sem_msg e) in kc_verify real (icp_kc i) b (sem_sigs e)
      | Rot r => let? b := e_ser_event real (sem_msg e) in kc_verify real (rot_kc r) b (sem_sigs e)
      | _ => Panic
      end
  | _ => Panic
  end.
Succeed Definition replay_test_verify : verified (one test_verify__ev__275) = Ok true
  := ltac:(all_vm).
(** The same test goes on with a rotation, but its body only looks at inceptions, so nothing is
    asserted.  The signatures of that rotation are good for the text that was received and bad for
    the text the library writes again ("1/1" becomes "1"), which is what it verifies. *)
Succeed Definition published_rotation_fails :
  verified (one test_verify__ev__286) = Ok false
  /\ match one test_verify__ev__286 with
     | MEvent e => match em_data (sem_msg e) with
                   | Rot r => kc_verify real (rot_kc r) (firstn 561 test_verify__ev__286) (sem_sigs e)
                   | _ => Panic
                   end
     | _ => Panic
     end = Ok true
  := ltac:(all_vm).
