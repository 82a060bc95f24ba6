(** * Nodes that exchange JSON: C57 without an assumption on serialization, C80. *)
From Coq Require Import ZifyBool ZifyN ZifyNat.
From Verif Require Import Base Base64 Codes NumFmt Types SpecCodec KeyConf Version Cesr SpecCesr Message Keri Json JsonRead JsonProofs SpecJson Prop_Message Prop_Json Prop_Json2
  State Db Processor Spec SpecProc StateProofs LogProofs LogTheorems ProcProofs ProcProofs2 Prop_Proc SpecKeri KeriProofs KeriProofs2 Prop_Keri Demo.

(** ** C57 over JSON *)
Lemma json_events_serialize E K : events_serialize (with_json E) (with_json_k K).
Proof.
  unfold events_serialize, SpecKeri.json. split; [|split].
  - intros m H. exists (Json.json (event_val m)). cbn [e_ser_event with_json]. now rewrite H.
  - intros i g p sn data H. exists (Json.json (dummy_event_val i g p sn data)). cbn [k_dummy_event with_json_k]. now rewrite H.
  - intros i g data H. exists (Json.json (dummy_icp_val i g data)). cbn [k_dummy_icp with_json_k]. now rewrite H.
Qed.
Theorem C57_json_events_are_accepted :
  forall (E0 : Env) (K0 : KEnv), let E := with_json E0 in let K := with_json_k K0 in
  forall (cs : list Call) (b : CryptoBox) (extra ws : list BasicPrefix),
    works E K (cb_cur b) -> works E K (cb_next b) ->
    (extra <> [] -> forall msg, e_digest E Blake3_256 msg <> []) ->
    let d := run E db_empty cs in
    (forall se, snd (incept_with E K (keri_new b db_empty) extra ws) = Ok se -> log d (em_prefix (sem_msg se)) = []) ->
    exists k se, incept_with E K (keri_new b d) extra ws = (k, Ok se)
      /\ k_prefix k = em_prefix (sem_msg se) /\ k_box k = b
      /\ forall ops, Forall (op_ok E K (k_prefix k)) ops ->
           let k' := fst (operate E K k ops) in
           exists evs, snd (operate E K k ops) = map Ok evs
             /\ k_prefix k' = k_prefix k
             /\ log (k_db k') (k_prefix k) = map stored (se :: evs)
             /\ in_force E (k_db k') (k_prefix k) (kp_pub (cb_cur (k_box k'))) (kp_pub (cb_next (k_box k')))
             /\ works E K (cb_cur (k_box k')) /\ works E K (cb_next (k_box k')).
Proof.
  intros E0 K0 E K cs b extra ws Hc Hn Hd d Hno.
  exact (C57_own_events_are_accepted E K cs b extra ws (json_events_serialize E0 K0) Hc Hn Hd Hno).
Qed.
Print Assumptions C57_json_events_are_accepted.

(** ** C80: a log that one node hands out makes another node agree with it *)
Lemma plain_sealed_right e : SpecProc.is_delegated (sem_msg e) = false -> sem_seal e = None -> sealed_right e.
Proof.
  unfold sealed_right, SpecProc.is_delegated, Prop_Message.is_delegated. intros H ->. destruct (em_data (sem_msg e)); auto; discriminate.
Qed.
Lemma converted_log l : (forall e, In e l -> SpecProc.is_delegated (sem_msg e) = false) -> Forall (fun e => sem_seal e = None) l ->
  converted (map sed_of_event l) = map MEvent l /\ Forall (fun x => to_message x <> Panic) (map sed_of_event l).
Proof.
  induction l as [|e l IH]; intros Hd Hs; [split; [reflexivity|constructor]|]. inversion_clear Hs as [|? ? Hse Hs'].
  pose proof (C66_event_round_trip_partial e (plain_sealed_right e (Hd e (or_introl eq_refl)) Hse)) as He.
  destruct (IH (fun x H => Hd x (or_intror H)) Hs') as [I1 I2]. split.
  - unfold converted in *. cbn [map flat_map]. rewrite He. cbn [app]. now rewrite I1.
  - cbn [map]. constructor; [rewrite He; discriminate|exact I2].
Qed.
Lemma accepts_quiet E l : forall d, accepts_each E d l -> quiet E d (ProcProofs2.submit l) = true.
Proof.
  induction l as [|e l IH]; intros d H; [reflexivity|]. unfold ProcProofs2.submit. cbn [map quiet].
  destruct (H [] e l eq_refl) as (d' & s & Hp). cbn [ProcProofs2.submit map run fold_left] in Hp. cbn [panics]. unfold panics. rewrite Hp. cbn [snd is_panic negb andb].
  apply IH. intros pre se post E1. destruct (H (e :: pre) se post) as (d'' & s' & Hp'); [now rewrite E1|]. exists d'', s'. exact Hp'.
Qed.
Lemma submit_process l : ProcProofs2.submit l = map CProcess (map MEvent l).
Proof. unfold ProcProofs2.submit. now rewrite map_map. Qed.
Lemma run_submit_other E l : forall d id id', (forall e, In e l -> em_prefix (sem_msg e) = id) -> id' <> id ->
  get_kel (run E d (ProcProofs2.submit l)) id' = get_kel d id'.
Proof.
  induction l as [|e l IH]; intros d id id' H Hne; [reflexivity|]. unfold ProcProofs2.submit. cbn [map run fold_left].
  change (fold_left (call E) (map (fun m => CProcess (MEvent m)) l) ?x) with (run E x (ProcProofs2.submit l)).
  rewrite (IH _ id id'); [|intros x Hx; apply H; now right|exact Hne]. cbn [call].
  apply C23_other_identifiers_untouched. cbn [subject]. rewrite (H e (or_introl eq_refl)). congruence.
Qed.
Theorem C80_log_transfers_partial :
  forall (hx : bytes -> option N) (bk : bytes -> pres EventMessage) (br : bytes -> pres ReceiptMessage),
    reads_hex hx -> refuses_text bk -> refuses_text br ->
  forall (E0 : Env) (K : KEnv) (cs : list Call) (id : IdentifierPrefix) (l : list SignedEventMessage) (k : Keri),
    let E := with_json E0 in let d := run E db_empty cs in
    k_parse K = read_event_type hx bk br ->
    (forall m x, e_ser_event E0 m <> Err x) -> quiet E db_empty cs = true -> id <> id_default ->
    get_kel d id = Some l -> l <> [] -> Forall sendable l ->
    (forall e, In e l -> SpecProc.is_delegated (sem_msg e) = false) ->
    log (k_db k) id = [] ->
    exists t, get_kerl E d id = Ok (Some t)
      /\ let k' := fst (respond E K k t) in
         log (k_db k') id = l
         /\ compute_state E (k_db k') id = compute_state E d id
         /\ forall id', id' <> id -> get_kel (k_db k') id' = get_kel (k_db k) id'.
Proof.
  intros hx bk br Hhx Hbk Hbr E0 K cs id l k E d HK Hser Hq Hid Hl Hne Hs Hnd Hk.
  destruct (C75_log_text_partial hx bk br Hhx Hbk Hbr E0 d id l Hl Hs) as (t & Ht & Hp).
  exists t. split; [exact Ht|]. cbv zeta.
  assert (HserE : forall m x, e_ser_event E m <> Err x).
  { intros m x. unfold E. cbn [e_ser_event with_json]. destruct (si_kind (em_info m)); [discriminate|apply Hser|apply Hser]. }
  destruct (C25_partial E cs id l (k_db k) HserE Hq Hid Hl Hne Hnd Hk) as (Ha & Hlog & Hst).
  assert (Hseal : Forall (fun e => sem_seal e = None) l).
  { eapply Forall_impl; [|exact Hs]. intros e He. apply He. }
  destruct (converted_log l Hnd Hseal) as [Hcv Hpn].
  rewrite <- HK in Hp.
  assert (G : forall i, get_kel (k_db (fst (respond E K k t))) i = get_kel (run E (k_db k) (ProcProofs2.submit l)) i).
  { intros i. rewrite (C61_logs_partial E K k t [] (map sed_of_event l) Hp Hpn); rewrite Hcv, <- submit_process; [reflexivity|].
    now apply accepts_quiet. }
  split; [|split].
  - unfold log in *. rewrite G. exact Hlog.
  - rewrite (compute_state_ext E (run E (k_db k) (ProcProofs2.submit l)) _ id (G id)). exact Hst.
  - intros id' Hd'. rewrite G. apply (run_submit_other E l (k_db k) id id'); [|exact Hd'].
    intros e He. destruct (reach_good E cs id l Hid Hl) as (s & Hg & _). destruct Hg as [Hf _].
    rewrite Forall_forall in Hf. exact (Hf e He).
Qed.
Print Assumptions C80_log_transfers_partial.

(** The full statement: every readable event, also with seals. *)
Definition C80_statement : Prop :=
  forall (hx : bytes -> option N) (bk : bytes -> pres EventMessage) (br : bytes -> pres ReceiptMessage),
    reads_hex hx -> refuses_text bk -> refuses_text br ->
  forall (E0 : Env) (K : KEnv) (cs : list Call) (id : IdentifierPrefix) (l : list SignedEventMessage) (k : Keri),
    let E := with_json E0 in let d := run E db_empty cs in
    k_parse K = read_event_type hx bk br ->
    (forall m x, e_ser_event E0 m <> Err x) -> quiet E db_empty cs = true -> id <> id_default ->
    get_kel d id = Some l -> l <> [] ->
    Forall (fun e => event_readable (sem_msg e) /\ si_kind (em_info (sem_msg e)) = JSON
      /\ att_fits (AttachedSignatures (sem_sigs e)) /\ att_small (AttachedSignatures (sem_sigs e)) /\ sem_seal e = None) l ->
    (forall e, In e l -> SpecProc.is_delegated (sem_msg e) = false) ->
    log (k_db k) id = [] ->
    exists t, get_kerl E d id = Ok (Some t) /\ log (k_db (fst (respond E K k t))) id = l.
(** It is false: a log that begins with an event with a seal does not reach anyone. *)
Theorem C80_sealed_inception_lost :
  forall (hx : bytes -> option N) (bk : bytes -> pres EventMessage) (br : bytes -> pres ReceiptMessage),
    reads_hex hx -> refuses_text bk -> refuses_text br ->
  forall (E : Env) (K : KEnv) (d : Db) (id : IdentifierPrefix) (e : SignedEventMessage) (l : list SignedEventMessage) (k : Keri) (t : bytes),
    k_parse K = read_event_type hx bk br -> get_kel d id = Some (e :: l) ->
    data_seals (em_data (sem_msg e)) <> [] -> Forall simple_text (data_config (em_data (sem_msg e))) ->
    att_fits (AttachedSignatures (sem_sigs e)) -> att_small (AttachedSignatures (sem_sigs e)) ->
    get_kerl (with_json E) d id = Ok (Some t) ->
    k_db (fst (respond (with_json E) K k t)) = k_db k.
Proof.
  intros hx bk br Hhx Hbk Hbr E K d id e l k t HK Hl Hseal Hc Hf Hsm Ht.
  destruct (C75_sealed_log_lost hx bk br Hhx Hbk Hbr E d id [] l e t Hl (Forall_nil _) Hseal Hc Hf Hsm Ht) as (rest & Hr & _).
  unfold respond. rewrite HK, Hr. cbn [of_pres map accept_all answer_all fst k_db set_db]. now destruct k.
Qed.
Definition n_ev (seals : list Seal) : EventMessage :=
  mkEM (mkSI 1 0 500 JSON) (jd x01) (IdBasic (jk x11)) 0
    (Icp (mkIcp (mkKC (Simple 1) [jk x11] (Some (jd x21))) (mkIWC 0 []) [bstr "EO"] seals)).
Definition n_signed (seals : list Seal) : SignedEventMessage :=
  mkSEM (n_ev seals) [mkASP 0 (mkSSP Ed25519Sha512 (repeat x11 32 ++ toy_digest Blake3_256 (Json.json (event_val (n_ev seals)))))] None.
Definition n_keri : Keri := keri_new c_box db_empty.
Definition n_kenv : KEnv := ktoy_with (read_event_type hx0 no_key no_rct).
Lemma n_sig_fits seals : let a := AttachedSignatures (sem_sigs (n_signed seals)) in att_fits a /\ att_small a.
Proof.
  cbv zeta. unfold att_fits, att_small, counted, small, n_signed. cbn [sem_sigs]. set (x := repeat x11 32 ++ _).
  assert (L : List.length x = 64) by (unfold x; rewrite app_length, toy_digest_len; reflexivity).
  split; (split; [cbn; lia|]); (apply Forall_cons; [|apply Forall_nil]); [|vm_compute; reflexivity].
  unfold sig_fits, asp_sized. cbn [asp_sig asp_index ssp_sig ssp_code]. split; [exact L|].
  vm_compute; reflexivity.
Qed.
Lemma n_readable seals : seals = [] \/ seals = [SealDigest (jd x23)] -> event_readable (n_ev seals).
Proof.
  intros [-> | ->]; (split; [exact j_head|]; split; [apply jd_readable|]; split; [apply jkid_readable|]; split; [unfold u64; vm_compute; discriminate|];
  split; [|split; [|split; [|split; [|split]]]]);
  cbn [data_keys data_digests data_ids data_numbers data_thresholds data_strings data_kc data_seals opt_list flat_map app map em_data n_ev icp_kc kc_keys kc_next kc_threshold icp_wc iwc_witnesses iwc_tally icp_data icp_config seal_digest seal_ids seal_numbers];
  all_of; first [apply jk_readable|apply jd_readable|reflexivity|unfold threshold_readable, u64; vm_compute; discriminate].
Qed.
Lemma n_processed seals : seals = [] \/ seals = [SealDigest (jd x23)] ->
  let cs := [CProcess (MEvent (n_signed seals))] in
  quiet (with_json etoy) db_empty cs = true /\ get_kel (run (with_json etoy) db_empty cs) (IdBasic (jk x11)) = Some [n_signed seals].
Proof. intros [-> | ->]; cbv zeta; apply conj; vm_compute; reflexivity. Qed.
Theorem C80_refuted : ~ C80_statement.
Proof.
  intros H. set (seals := [SealDigest (jd x23)]). destruct (n_processed seals (or_intror eq_refl)) as [Hq Hl].
  destruct (H hx0 no_key no_rct hx0_reads no_key_refuses no_rct_refuses etoy n_kenv [CProcess (MEvent (n_signed seals))] (IdBasic (jk x11)) [n_signed seals] n_keri)
    as (t & Ht & Hlog).
  - reflexivity.
  - intros m x Hx. discriminate Hx.
  - exact Hq.
  - discriminate.
  - exact Hl.
  - discriminate.
  - apply Forall_cons; [|apply Forall_nil]. split; [apply (n_readable seals); right; reflexivity|]. split; [reflexivity|].
    split; [apply n_sig_fits|]. split; [apply n_sig_fits|reflexivity].
  - intros e [<- | []]. reflexivity.
  - reflexivity.
  - pose proof (C80_sealed_inception_lost hx0 no_key no_rct hx0_reads no_key_refuses no_rct_refuses etoy n_kenv _ (IdBasic (jk x11)) (n_signed seals) [] n_keri t eq_refl Hl) as Q.
    rewrite Q in Hlog; [discriminate Hlog|discriminate|apply Forall_cons; [exact j_eo_simple|apply Forall_nil]|apply n_sig_fits|apply n_sig_fits|exact Ht].
Qed.
Example C80_example : Forall sendable [n_signed []] /\ SpecProc.is_delegated (sem_msg (n_signed [])) = false
  /\ quiet (with_json etoy) db_empty [CProcess (MEvent (n_signed []))] = true
  /\ get_kel (run (with_json etoy) db_empty [CProcess (MEvent (n_signed []))]) (IdBasic (jk x11)) = Some [n_signed []].
Proof.
  destruct (n_processed [] (or_introl eq_refl)) as [Hq Hl]. split; [|split; [reflexivity|split; [exact Hq|exact Hl]]].
  apply Forall_cons; [|apply Forall_nil]. split; [apply (n_readable []); left; reflexivity|]. split; [reflexivity|]. split; [reflexivity|].
  split; [apply Forall_cons; [exact j_eo_simple|apply Forall_nil]|]. split; [apply n_sig_fits|]. split; [apply n_sig_fits|reflexivity].
Qed.
Print Assumptions C80_sealed_inception_lost.
Print Assumptions C80_refuted.
