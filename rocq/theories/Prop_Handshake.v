(** * Prop_Handshake: two strangers introduce themselves (C113). *)
From Coq Require Import ZifyBool ZifyN ZifyNat.
From Verif Require Import Base Base64 Codes NumFmt Types KeyConf SpecCodec Version Cesr SpecCesr Message
  Keri Json JsonRead SpecJson Prop_Message Prop_Json Prop_Json2 Prop_Json3
  State Db Processor Spec SpecProc SpecHistory LogProofs ProcProofs ProcProofs2 Prop_State Prop_Proc SpecKeri KeriProofs KeriProofs2 Prop_Keri SpecRespond RespondProofs Prop_Respond HandshakeProofs Demo.

Lemma in_about id r rs : In r rs -> rct_prefix (tr_body r) = id -> In r (about id rs).
Proof. intros H1 H2. unfold about. apply filter_In. split; [exact H1|]. destruct (IdentifierPrefix_eq_dec _ _); [reflexivity|congruence]. Qed.
Lemma forall2_in {A B} (R : A -> B -> Prop) l m a : Forall2 R l m -> In a l -> exists b, In b m /\ R a b.
Proof. induction 1 as [|x y l m Hxy _ IH]; intros []; [subst; eauto using in_eq|]. destruct (IH H) as (b & Hb & Hr). eauto using in_cons. Qed.
Lemma forall2_in_r {A B} (R : A -> B -> Prop) l m b : Forall2 R l m -> In b m -> exists a, In a l /\ R a b.
Proof. induction 1 as [|x y l m Hxy _ IH]; intros []; [subst; eauto using in_eq|]. destruct (IH H) as (a & Ha & Hr). eauto using in_cons. Qed.
Lemma receipted_of E K k who e rs : careful E K k -> who <> id_default -> em_prefix (sem_msg e) <> id_default ->
  (exists r, In r rs /\ rct_prefix (tr_body r) = em_prefix (sem_msg e) /\ rct_sn (tr_body r) = em_sn (sem_msg e) /\ es_prefix (tr_seal r) = who) ->
  incl (about (em_prefix (sem_msg e)) rs) (olist (get_receipts_t (k_db k) (em_prefix (sem_msg e)))) ->
  receipted_by E (k_db k) who e.
Proof.
  intros Hk Hw Hid (r & Hr & R1 & R2 & R3) Hi. assert (Hin : In r (olist (get_receipts_t (k_db k) (em_prefix (sem_msg e))))) by (apply Hi; now apply in_about).
  exists r. split; [exact Hin|]. split; [exact R2|]. split; [exact R3|].
  destruct (careful_working E K k Hk) as (_ & _ & cs & Hcs). rewrite Hcs in *. destruct (get_receipts_t (run E db_empty cs) _) as [l|] eqn:Hl; [|destruct Hin].
  eapply C29_stored_receipts_are_valid; [exact Hid|exact Hl|exact Hin|congruence].
Qed.

(** ** C113: three messages *)
(** Alice's node sends its log to Bob's, and each passes what the other's [respond] returns back to it.  If
    neither knew the other before and both logs can be sent at all (C75), then after three messages each has
    the other's log as the other has it, both have valid receipts by either for every event of the other, and
    nothing is left to say. *)
Theorem C113_introduction :
  forall (hx : bytes -> option N) (bk : bytes -> pres EventMessage) (br : bytes -> pres ReceiptMessage),
    reads_hex hx -> refuses_text bk -> refuses_text br ->
  forall (E0 : Env) (K0 : KEnv), let E := with_json E0 in let K := with_json_k K0 in
    k_parse K = read_event_type hx bk br -> (forall m x, e_ser_event E0 m <> Err x) ->
    (forall x, List.length (e_digest E Blake3_256 x) = 32) ->
    (forall priv m s, k_sign_ed K priv m = Ok s -> List.length s = 64) ->
  forall (a b : Keri), let alice := k_prefix a in let bob := k_prefix b in
    let la := log (k_db a) alice in let lb := log (k_db b) bob in
    careful E K a -> careful E K b -> undisturbed E a -> undisturbed E b -> alice <> bob ->
    Forall sendable la -> Forall sendable lb ->
    log (k_db a) bob = [] -> log (k_db b) alice = [] ->
    exists t1 t2 t3 b1 a1 b2,
      get_kerl E (k_db a) alice = Ok (Some t1)
      /\ respond E K b t1 = (b1, Ok t2) /\ respond E K a t2 = (a1, Ok t3) /\ respond E K b1 t3 = (b2, Ok [])
      /\ log (k_db a1) alice = la /\ log (k_db a1) bob = lb
      /\ log (k_db b2) alice = la /\ log (k_db b2) bob = lb
      /\ (forall id, id <> alice -> id <> bob -> get_kel (k_db a1) id = get_kel (k_db a) id /\ get_kel (k_db b2) id = get_kel (k_db b) id)
      /\ (forall e, In e la -> receipted_by E (k_db a1) bob e /\ receipted_by E (k_db b2) bob e)
      /\ (forall e, In e lb -> receipted_by E (k_db a1) alice e /\ receipted_by E (k_db b2) alice e).
Proof.
  intros hx bk br Hhx Hbk Hbr E0 K0 E K Hparse Hser Hdig Hsig a b alice bob la lb Ca Cb (csa & Qa & Da) (csb & Qb & Db') Hne Sa Sb Nab Nba.
  change (k_parse K) with (k_parse K0) in Hparse. change (forall x, List.length (e_digest E0 Blake3_256 x) = 32) in Hdig.
  change (forall priv m s, k_sign_ed K0 priv m = Ok s -> List.length s = 64) in Hsig.
  assert (HserE : forall m x, e_ser_event E m <> Err x).
  { intros m x. unfold E. cbn [e_ser_event with_json]. destruct (si_kind (em_info m)); [discriminate|apply Hser|apply Hser]. }
  destruct (careful_log E K a Ca) as (_ & la' & _ & _ & La & Lane & Aid & _ & _ & Nda). assert (Ela : la' = la) by (unfold la, log, alice; rewrite La; reflexivity). subst la'.
  destruct (careful_log E K b Cb) as (_ & lb' & _ & _ & Lb & Lbne & Bid & _ & _ & Ndb). assert (Elb : lb' = lb) by (unfold lb, log, bob; rewrite Lb; reflexivity). subst lb'.
  fold alice in La, Aid. fold bob in Lb, Bid.
  destruct la as [|ea la0] eqn:Hla; [congruence|]. destruct lb as [|eb lb0] eqn:Hlb; [congruence|].
  destruct (careful_first E K a _ ea la0 Ca La eq_refl) as (Ia & Sna & Noa & Pa).
  destruct (careful_first E K b _ eb lb0 Cb Lb eq_refl) as (Ib & Snb & Nob & Pb). fold alice in Pa. fold bob in Pb.
  destruct (own_text hx bk br Hhx Hbk Hbr E0 (k_db a) alice _ La Sa) as (t1 & T1 & T1').
  destruct (own_text hx bk br Hhx Hbk Hbr E0 (k_db b) bob _ Lb Sb) as (ob & OB & OB').
  (* Bob gets Alice's log *)
  destruct (C25_partial E csa alice (ea :: la0) (k_db b) HserE Qa Aid ltac:(rewrite <- Da; exact La) ltac:(discriminate) Nda Nba) as (Acca & Loga & _).
  destruct (step hx bk br Hhx Hbk Hbr E0 K0 Hparse b alice (ea :: la0) [] t1 Cb Hne Aid Pa Sa Nda Acca ltac:(apply Forall_nil) ltac:(cbn [map]; rewrite app_nil_r; exact T1') ltac:(apply Forall_nil) ltac:(exists ob; exact OB))
    as (b1 & rs1 & t2 & d1 & R1 & A1 & TE1 & P1 & B1 & C1 & KD1 & KK1 & RD1 & RK1).
  fold E in R1, A1, TE1, C1, KD1, KK1. fold K in R1, A1, C1.
  assert (G1 : forall id, get_kel (k_db b1) id = if IdentifierPrefix_eq_dec id alice then Some (ea :: la0) else get_kel (k_db b) id).
  { intros id. rewrite KK1. destruct (IdentifierPrefix_eq_dec id alice) as [-> |Hn]; [|now apply (run_submit_other E _ _ alice id)].
    unfold log in Loga. destruct (get_kel (run E (k_db b) (ProcProofs2.submit (ea :: la0))) alice) as [x|]; cbn [olist] in Loga; [now rewrite Loga|discriminate Loga]. }
  assert (GD1 : forall id, get_kel d1 id = get_kel (k_db b1) id) by (intros id; now rewrite KD1, KK1).
  destruct (answers_log E K d1 bob (cb_cur (k_box b)) ea la0 [] rs1 t2 Noa A1) as (intro & ts1 & I1 & F1 & X1 & ->).
  assert (Ld1 : log d1 bob = eb :: lb0).
  { unfold log. rewrite GD1, G1. destruct (IdentifierPrefix_eq_dec bob alice) as [Hx|_]; [congruence|]. now rewrite Lb. }
  assert (La1 : log d1 alice = ea :: la0).
  { unfold log. rewrite GD1, G1. destruct (IdentifierPrefix_eq_dec alice alice) as [_|Hx]; [reflexivity|congruence]. }
  assert (Ho : intro = ob).
  { destruct I1 as [(_ & _ & I1)|[I1 _]].
    - rewrite (kerl_same E (k_db b) d1 bob) in I1; [fold E in OB; congruence|]. rewrite GD1, G1. destruct (IdentifierPrefix_eq_dec bob alice); [congruence|reflexivity].
    - exfalso. apply I1. split; [exact Ia|]. intros (r & Hr & _ & Hrp). rewrite (Pa ea (or_introl eq_refl)) in Hrp.
      rewrite RD1 in Hr. cbn [about filter] in Hr. rewrite app_nil_r in Hr.
      destruct (get_receipts_t (k_db b) bob) as [l|] eqn:Hgl; [|destruct Hr]. rewrite Db' in Hgl.
      destruct (C29_stored_receipts_are_valid E csb bob l r Bid Hgl Hr) as (_ & ev & ser & _ & _ & _ & e & kc & He & _); [congruence|].
      rewrite <- Db', Hrp, Nba in He. destruct He. }
  subst intro.
  (* what is known of Bob's receipts *)
  assert (Ff1 : Forall (fun r => data_fits (read_event_type hx bk br) ser_json_type (sed_of_tr r) /\ SpecKeri.json (rct_info (tr_body r))) rs1).
  { apply Forall_forall. intros r Hr. destruct (forall2_in_r _ _ _ _ F1 Hr) as (e & He & Hm).
    eapply (receipt_fits hx bk br Hhx Hbk E0 K0 Hdig Hsig d1 bob _ e r Hm).
    - rewrite Forall_forall in Sa. now apply Sa.
    - rewrite Ld1. exact Sb.
    - intros y Hy. rewrite Ld1 in Hy. now apply Pb.
    - exact (careful_prefix_kind E K b Cb). }
  assert (P1r : forall r, In r rs1 -> rct_prefix (tr_body r) = alice /\ es_prefix (tr_seal r) = bob).
  { intros r Hr. destruct (forall2_in_r _ _ _ _ F1 Hr) as (e & He & Hm). destruct Hm as (M1 & _ & _ & _ & M5 & _). rewrite M1. split; [now apply Pa|exact M5]. }
  assert (T2 : oconcat (sed_cesr ser_json_type) (map sed_of_event (eb :: lb0) ++ map sed_of_tr rs1) = Ok (ob ++ List.concat ts1)).
  { apply oconcat_app; [exact OB'|]. apply (receipts_text K0); [exact X1|]. eapply Forall_impl; [|exact Ff1]. intros r Hr; apply Hr. }
  (* Alice gets Bob's log and receipts *)
  destruct (C25_partial E csb bob (eb :: lb0) (k_db a) HserE Qb Bid ltac:(rewrite <- Db'; exact Lb) ltac:(discriminate) Ndb Nab) as (Accb & Logb & _).
  assert (G2' : forall id, get_kel (run E (k_db a) (ProcProofs2.submit (eb :: lb0))) id = if IdentifierPrefix_eq_dec id bob then Some (eb :: lb0) else get_kel (k_db a) id).
  { intros id. destruct (IdentifierPrefix_eq_dec id bob) as [-> |Hn]; [|now apply (run_submit_other E _ _ bob id)].
    unfold log in Logb. destruct (get_kel (run E (k_db a) (ProcProofs2.submit (eb :: lb0))) bob) as [x|]; cbn [olist] in Logb; [now rewrite Logb|discriminate Logb]. }
  assert (Lb2 : log (run E (k_db a) (ProcProofs2.submit (eb :: lb0))) bob = eb :: lb0) by exact Logb.
  assert (La2 : log (run E (k_db a) (ProcProofs2.submit (eb :: lb0))) alice = ea :: la0).
  { unfold log. rewrite G2'. destruct (IdentifierPrefix_eq_dec alice bob) as [Hx|_]; [congruence|]. now rewrite La. }
  destruct (step hx bk br Hhx Hbk Hbr E0 K0 Hparse a bob (eb :: lb0) rs1 (ob ++ List.concat ts1) Ca ltac:(intros Hq; apply Hne; symmetry; exact Hq) Bid Pb Sb Ndb Accb
      ltac:(eapply Forall_impl; [|exact Ff1]; intros r Hr; apply Hr) T2) as (a1 & rs2 & t3 & d2 & R2 & A2 & TE2 & P2 & B2 & C2 & KD2 & KK2 & RD2 & RK2).
  { apply Forall_forall. intros r Hr cs' Hcs'. rewrite Forall_forall in TE1. destruct (P1r r Hr) as [Q1 Q2]. apply (TE1 r Hr cs').
    - fold E in Hcs'. fold bob. rewrite Hcs', Lb2, Ld1. apply incl_refl.
    - rewrite Q1. fold E in Hcs'. rewrite Hcs', La2, La1. apply incl_refl. }
  { exists t1. exact T1. }
  fold E in R2, A2, TE2, C2, KD2, KK2. fold K in R2, A2, C2. fold alice in A2, TE2.
  assert (GD2 : forall id, get_kel d2 id = get_kel (k_db a1) id) by (intros id; now rewrite KD2, KK2).
  assert (G2 : forall id, get_kel (k_db a1) id = if IdentifierPrefix_eq_dec id bob then Some (eb :: lb0) else get_kel (k_db a) id) by (intros id; rewrite KK2; apply G2').
  destruct (answers_log E K d2 alice (cb_cur (k_box a)) eb lb0 rs1 rs2 t3 Nob A2) as (intro & ts2 & I2 & F2 & X2 & ->).
  assert (Ld2 : log d2 alice = ea :: la0) by (unfold log; rewrite KD2; exact La2).
  assert (Lb2' : log d2 bob = eb :: lb0) by (unfold log; rewrite KD2; exact Lb2).
  assert (Ho : intro = []).
  { destruct I2 as [(_ & I2 & _)|[_ I2]]; [|exact I2]. exfalso. apply I2.
    destruct (forall2_in _ _ _ ea F1 (or_introl eq_refl)) as (r & Hr & Hm). destruct (P1r r Hr) as [Q1 Q2]. destruct Hm as (_ & M2 & _).
    exists r. split; [|split; [congruence|rewrite (Pb eb (or_introl eq_refl)); exact Q2]]. rewrite RD2. apply in_app_iff. right. now apply in_about. }
  subst intro. cbn [app].
  assert (Ff2 : Forall (fun r => data_fits (read_event_type hx bk br) ser_json_type (sed_of_tr r) /\ SpecKeri.json (rct_info (tr_body r))) rs2).
  { apply Forall_forall. intros r Hr. destruct (forall2_in_r _ _ _ _ F2 Hr) as (e & He & Hm).
    eapply (receipt_fits hx bk br Hhx Hbk E0 K0 Hdig Hsig d2 alice _ e r Hm).
    - rewrite Forall_forall in Sb. now apply Sb.
    - rewrite Ld2. exact Sa.
    - intros y Hy. rewrite Ld2 in Hy. now apply Pa.
    - exact (careful_prefix_kind E K a Ca). }
  assert (P2r : forall r, In r rs2 -> rct_prefix (tr_body r) = bob /\ es_prefix (tr_seal r) = alice).
  { intros r Hr. destruct (forall2_in_r _ _ _ _ F2 Hr) as (e & He & Hm). destruct Hm as (M1 & _ & _ & _ & M5 & _). rewrite M1. split; [now apply Pb|exact M5]. }
  assert (T3 : oconcat (sed_cesr ser_json_type) (map sed_of_event [] ++ map sed_of_tr rs2) = Ok (List.concat ts2)).
  { cbn [map app]. apply (receipts_text K0); [exact X2|]. eapply Forall_impl; [|exact Ff2]. intros r Hr; apply Hr. }
  (* Bob gets Alice's receipts *)
  destruct (step hx bk br Hhx Hbk Hbr E0 K0 Hparse b1 alice [] rs2 (List.concat ts2) C1 ltac:(rewrite P1; exact Hne) Aid ltac:(intros e []) ltac:(apply Forall_nil) ltac:(intros e [])
      ltac:(intros [|? ?] ? ? Hx; discriminate Hx)
      ltac:(eapply Forall_impl; [|exact Ff2]; intros r Hr; apply Hr) T3) as (b2 & rs3 & t4 & d3 & R3 & A3 & TE3 & P3 & B3 & C3 & KD3 & KK3 & RD3 & RK3).
  { cbn [ProcProofs2.submit map run fold_left]. apply Forall_forall. intros r Hr cs' Hcs'. rewrite Forall_forall in TE2. destruct (P2r r Hr) as [Q1 Q2]. apply (TE2 r Hr cs').
    - fold E in Hcs'. rewrite Hcs', Ld2. unfold log. rewrite G1. destruct (IdentifierPrefix_eq_dec alice alice) as [_|Hx]; [apply incl_refl|congruence].
    - rewrite Q1. fold E in Hcs'. rewrite Hcs', Lb2'. unfold log. rewrite G1. destruct (IdentifierPrefix_eq_dec bob alice) as [Hx|_]; [congruence|]. rewrite Lb. apply incl_refl. }
  { exists ob. rewrite P1. fold E in OB |- *. fold bob. rewrite (kerl_same E (k_db b) (k_db b1) bob); [exact OB|]. rewrite G1. destruct (IdentifierPrefix_eq_dec bob alice); [congruence|reflexivity]. }
  fold E in R3, A3, C3, KK3. fold K in R3, A3, C3. cbn [map app] in A3. apply answers_receipts in A3 as [-> ->].
  cbn [ProcProofs2.submit map run fold_left] in KK3.
  exists t1, (ob ++ List.concat ts1), (List.concat ts2), b1, a1, b2. split; [exact T1|]. split; [exact R1|]. split; [exact R2|]. split; [exact R3|].
  split; [unfold log; rewrite G2; destruct (IdentifierPrefix_eq_dec alice bob); [congruence|now rewrite La]|].
  split; [unfold log; rewrite G2; destruct (IdentifierPrefix_eq_dec bob bob); [reflexivity|congruence]|].
  split; [unfold log; rewrite KK3, G1; destruct (IdentifierPrefix_eq_dec alice alice); [reflexivity|congruence]|].
  split; [unfold log; rewrite KK3, G1; destruct (IdentifierPrefix_eq_dec bob alice); [congruence|now rewrite Lb]|].
  split.
  { intros id H1 H2. rewrite G2, KK3, G1. destruct (IdentifierPrefix_eq_dec id bob); [congruence|]. destruct (IdentifierPrefix_eq_dec id alice); [congruence|]. auto. }
  split.
  - intros e He. destruct (forall2_in _ _ _ e F1 He) as (r & Hr & Hm). destruct (P1r r Hr) as [Q1 Q2]. destruct Hm as (M1 & M2 & _).
    split; apply (receipted_of E K _ bob e rs1).
    + exact C2.
    + exact Bid.
    + rewrite (Pa e He). exact Aid.
    + eauto.
    + rewrite RK2. intros x Hx. apply in_app_iff. right. apply in_app_iff. now left.
    + exact C3.
    + exact Bid.
    + rewrite (Pa e He). exact Aid.
    + eauto.
    + rewrite RK3, RK1. intros x Hx. apply in_app_iff. left. apply in_app_iff. right. apply in_app_iff. now right.
  - intros e He. destruct (forall2_in _ _ _ e F2 He) as (r & Hr & Hm). destruct (P2r r Hr) as [Q1 Q2]. destruct Hm as (M1 & M2 & _).
    split; apply (receipted_of E K _ alice e rs2).
    + exact C2.
    + exact Aid.
    + rewrite (Pb e He). exact Bid.
    + eauto.
    + rewrite RK2. intros x Hx. apply in_app_iff. right. apply in_app_iff. now right.
    + exact C3.
    + exact Aid.
    + rewrite (Pb e He). exact Bid.
    + eauto.
    + rewrite RK3. intros x Hx. apply in_app_iff. right. apply in_app_iff. now left.
Qed.
Print Assumptions C113_introduction.

(** ** Two concrete nodes that meet the hypotheses *)
Definition bp_rb (p : BasicPrefix) : bool := (List.length (bp_key p) =? key_bytes (bp_code p)) && negb (is_ecdsa (bp_code p)).
Definition sap_rb (p : SelfAddressingPrefix) : bool := match sap_code p with Blake3_256 => List.length (sap_digest p) =? 32 | _ => false end.
Definition id_rb (p : IdentifierPrefix) : bool := match p with IdBasic p => bp_rb p | IdSelfAddressing p => sap_rb p | _ => false end.
Definition th_rb (t : SignatureThreshold) : bool := match t with Simple n => (n <=? u64_max)%N | _ => false end.
Definition no_text {A} (l : list A) : bool := match l with [] => true | _ => false end.
Definition ev_rb (m : EventMessage) : bool :=
  (si_major (em_info m) <? 16)%N && (si_minor (em_info m) <? 16)%N && (si_size (em_info m) <=? u16_max)%N
  && match si_kind (em_info m) with JSON => true | _ => false end
  && sap_rb (em_digest m) && id_rb (em_prefix m) && (em_sn m <=? u64_max)%N
  && forallb bp_rb (data_keys (em_data m)) && forallb sap_rb (data_digests (em_data m)) && forallb id_rb (data_ids (em_data m))
  && forallb (fun n => n <=? u64_max)%N (data_numbers (em_data m)) && forallb th_rb (data_thresholds (em_data m))
  && no_text (data_strings (em_data m)) && no_text (data_seals (em_data m)) && no_text (data_config (em_data m)).
Definition sig_rb (s : AttachedSignaturePrefix) : bool :=
  (asp_index s <? 63)%N && match ssp_code (asp_sig s) with Ed25519Sha512 => List.length (ssp_sig (asp_sig s)) =? 64 | _ => false end.
Definition send_rb (e : SignedEventMessage) : bool :=
  ev_rb (sem_msg e) && (List.length (sem_sigs e) <? 63) && forallb sig_rb (sem_sigs e) && match sem_seal e with None => true | _ => false end.
Lemma forallb_Forall {A} (f : A -> bool) (P : A -> Prop) l : (forall x, f x = true -> P x) -> forallb f l = true -> Forall P l.
Proof. intros H Hl. apply Forall_forall. intros x Hx. apply H. rewrite forallb_forall in Hl. now apply Hl. Qed.
Lemma no_text_nil {A} (l : list A) : no_text l = true -> l = []. Proof. now destruct l. Qed.
Lemma bp_rb_ok p : bp_rb p = true -> bp_readable p.
Proof. unfold bp_rb. intros H. apply andb_true_iff in H as [H1 H2]. apply Nat.eqb_eq in H1. split; [exact H1|]. now destruct (is_ecdsa _). Qed.
Lemma sap_rb_ok p : sap_rb p = true -> sap_readable p.
Proof.
  unfold sap_rb, sap_readable, sap_sized. destruct p as [c d]. cbn [sap_code sap_digest]. destruct c; try discriminate. intros H. apply Nat.eqb_eq in H. split; [exact H|reflexivity].
Qed.
Lemma id_rb_ok p : id_rb p = true -> id_readable p.
Proof.
  destruct p as [p|p|p]; cbn [id_rb]; [| |discriminate].
  - intros H. destruct (bp_rb_ok p H) as [H1 H2]. split; [exact H1|]. split; [exact H2|reflexivity].
  - intros H. destruct (sap_rb_ok p H) as [H1 H2]. split; [exact H1|]. split; [exact I|]. cbn [id_unkeyed]. destruct p as [c d]. cbn [sap_code] in *. now rewrite ?H2.
Qed.
Lemma send_rb_ok e : send_rb e = true -> sendable e.
Proof.
  unfold send_rb, ev_rb. intros H. repeat (apply andb_true_iff in H as [H ?Hx]).
  repeat match goal with Hq : no_text _ = true |- _ => apply no_text_nil in Hq end.
  split; [|split; [|split; [|split; [|split; [|split]]]]].
  - split; [split; [split; apply N.ltb_lt; assumption|now apply N.leb_le]|]. split; [now apply sap_rb_ok|]. split; [now apply id_rb_ok|]. split; [now apply N.leb_le|].
    split; [eapply forallb_Forall; [exact bp_rb_ok|assumption]|]. split; [eapply forallb_Forall; [exact sap_rb_ok|assumption]|]. split; [eapply forallb_Forall; [exact id_rb_ok|assumption]|].
    split; [eapply forallb_Forall; [|eassumption]; intros n Hn; now apply N.leb_le|]. split.
    + eapply forallb_Forall; [|eassumption]. intros [n|w] Hn; [now apply N.leb_le|discriminate].
    + match goal with Hq : data_strings _ = [] |- _ => rewrite Hq end. apply Forall_nil.
  - destruct (si_kind _); [reflexivity|discriminate|discriminate].
  - assumption.
  - match goal with Hq : data_config _ = [] |- _ => rewrite Hq end. apply Forall_nil.
  - assert (Hl : List.length (sem_sigs e) < 63) by (apply Nat.ltb_lt; assumption). cbn [att_fits]. split; [lia|].
    eapply forallb_Forall; [|eassumption]. intros s Hs. unfold sig_rb in Hs. apply andb_true_iff in Hs as [Hs1 Hs2]. apply N.ltb_lt in Hs1. unfold sig_fits, asp_sized.
    destruct s as [i [c x]]. cbn [asp_sig ssp_code ssp_sig asp_index] in *. destruct c; try discriminate. apply Nat.eqb_eq in Hs2. split; [exact Hs2|lia].
  - assert (Hl : List.length (sem_sigs e) < 63) by (apply Nat.ltb_lt; assumption). cbn [att_small]. split; [exact Hl|].
    eapply forallb_Forall; [|eassumption]. intros s Hs. unfold sig_rb in Hs. apply andb_true_iff in Hs as [Hs1 Hs2]. now apply N.ltb_lt.
  - destruct (sem_seal e); [discriminate|reflexivity].
Qed.
Definition h_env : Env := with_json etoy.
(** the toy signer, for keys of 32 bytes *)
Definition h_kenv0 : KEnv :=
  mkKEnv (k_dummy_event n_kenv) (k_dummy_icp n_kenv) (k_ser_rct n_kenv) (k_ser_state n_kenv) (k_parse n_kenv)
    (fun p m => if List.length p =? 32 then k_sign_ed n_kenv p m else Err ESerialization).
Definition h_kenv : KEnv := with_json_k h_kenv0.
Definition h_start (b : byte) (c : byte) := incept h_env h_kenv (keri_new (mkBox (pair_of b) (pair_of c)) db_empty) [].
Definition h_ops : list Op := [ORotate (pair_of x53); OIxn None [] []].
Definition h_alice : Keri := fst (operate h_env h_kenv (fst (h_start x51 x52)) h_ops).
Definition h_bob : Keri := fst (operate h_env h_kenv (fst (h_start x61 x62)) []).
Lemma h_works b : works h_env h_kenv (pair_of b).
Proof. intros msg. eexists. split; [reflexivity|]. apply bytes_eqb_refl. Qed.
Lemma h_careful b c ops : is_ok (snd (h_start b c)) = true -> Forall (op_ok h_env h_kenv (k_prefix (fst (h_start b c)))) ops ->
  careful h_env h_kenv (fst (operate h_env h_kenv (fst (h_start b c)) ops)).
Proof.
  intros H Ho. exists [], (mkBox (pair_of b) (pair_of c)), [], [], (fst (h_start b c)), (of_ok s_icp (snd (h_start b c))), ops.
  split; [apply json_events_serialize|]. split; [apply h_works|]. split; [apply h_works|]. split; [intros Hn; now destruct Hn|].
  split; [|split; [reflexivity|split; [exact Ho|reflexivity]]].
  change (incept_with h_env h_kenv (keri_new (mkBox (pair_of b) (pair_of c)) (run h_env db_empty [])) [] []) with (h_start b c).
  destruct (h_start b c) as [k [se|e|]]; [reflexivity|discriminate H..].
Qed.
Example C113_careful : careful h_env h_kenv h_alice /\ careful h_env h_kenv h_bob.
Proof.
  split.
  - apply h_careful; [vm_compute; reflexivity|]. apply Forall_cons; [apply h_works|]. apply Forall_cons; [exact I|apply Forall_nil].
  - apply h_careful; [vm_compute; reflexivity|apply Forall_nil].
Qed.
Example C113_undisturbed : undisturbed h_env h_alice /\ undisturbed h_env h_bob.
Proof.
  split.
  - exists (map (fun e => CProcess (MEvent e)) (log (k_db h_alice) (k_prefix h_alice))). apply conj; vm_compute; reflexivity.
  - exists (map (fun e => CProcess (MEvent e)) (log (k_db h_bob) (k_prefix h_bob))). apply conj; vm_compute; reflexivity.
Qed.
Example C113_sendable : Forall sendable (log (k_db h_alice) (k_prefix h_alice)) /\ Forall sendable (log (k_db h_bob) (k_prefix h_bob)).
Proof.
  split; (eapply forallb_Forall; [exact send_rb_ok|]); vm_compute; reflexivity.
Qed.
Example C113_others : k_prefix h_alice <> k_prefix h_bob /\ log (k_db h_alice) (k_prefix h_bob) = [] /\ log (k_db h_bob) (k_prefix h_alice) = []
  /\ List.length (log (k_db h_alice) (k_prefix h_alice)) = 3.
Proof. apply conj; [vm_compute; discriminate|]. apply conj; [vm_compute; reflexivity|]. apply conj; vm_compute; reflexivity. Qed.
Example C113_environment : k_parse h_kenv = read_event_type hx0 no_key no_rct
  /\ (forall m x, e_ser_event etoy m <> Err x) /\ (forall x, List.length (e_digest h_env Blake3_256 x) = 32)
  /\ (forall priv m s, k_sign_ed h_kenv priv m = Ok s -> List.length s = 64).
Proof.
  split; [reflexivity|]. split; [discriminate|]. split; [intros x; apply toy_digest_len|].
  intros priv m s. unfold h_kenv. cbn [with_json_k k_sign_ed h_kenv0]. destruct (List.length priv =? 32) eqn:Hl; [|discriminate].
  cbn [n_kenv ktoy_with k_sign_ed]. intros H. injection H as <-. apply Nat.eqb_eq in Hl. rewrite app_length, toy_digest_len. lia.
Qed.
(** So they meet. *)
Example C113_example : exists t1 t2 t3 b1 a1 b2,
  get_kerl h_env (k_db h_alice) (k_prefix h_alice) = Ok (Some t1)
  /\ respond h_env h_kenv h_bob t1 = (b1, Ok t2) /\ respond h_env h_kenv h_alice t2 = (a1, Ok t3) /\ respond h_env h_kenv b1 t3 = (b2, Ok [])
  /\ List.length (log (k_db b2) (k_prefix h_alice)) = 3.
Proof.
  destruct C113_careful as [Ca Cb], C113_undisturbed as [Ua Ub], C113_sendable as [Sa Sb], C113_others as (Hn & Nab & Nba & L3), C113_environment as (Hp & Hser & Hd & Hs).
  destruct (C113_introduction hx0 no_key no_rct hx0_reads no_key_refuses no_rct_refuses etoy h_kenv0 Hp Hser Hd Hs h_alice h_bob Ca Cb Ua Ub Hn Sa Sb Nab Nba)
    as (t1 & t2 & t3 & b1 & a1 & b2 & H1 & H2 & H3 & H4 & _ & _ & H5 & _).
  exists t1, t2, t3, b1, a1, b2. split; [exact H1|]. split; [exact H2|]. split; [exact H3|]. split; [exact H4|]. rewrite H5. exact L3.
Qed.
