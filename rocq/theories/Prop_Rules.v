(** * Prop_Rules: which receipts (C90) and which key-state replies (C91) are accepted.

    See [Prop_State.v] for [run E db_empty cs] and [id_default]; [SpecRules2.v] for the rules. *)
From Verif Require Import Base Base64 Codes NumFmt Types KeyConf SpecSig State Db Processor Spec SpecProc SpecQuery SpecRules2
  StateProofs LogProofs LogTheorems SigProofs ProcProofs QueryProofs AcceptProofs RulesProofs Demo Prop_Query.

(** ** C90: a validator's receipt is accepted exactly when the rules allow it *)
(** For validators whose logged events can be written out again and whose weights are fractions. *)
Theorem C90_receipt_accepted_exactly_when_allowed :
  forall E cs r,
    let d := run E db_empty cs in let logs := fun id => log_of (log d id) in
    let validator := es_prefix (tr_seal r) in
    rct_prefix (tr_body r) <> id_default -> validator <> id_default ->
    (forall m, In m (logs validator) -> exists x, e_deriv_data E m = Ok x) ->
    (forall m kc, In m (logs validator) -> est_keys m = Some kc -> rational_threshold (kc_threshold kc)) ->
    ((exists d' s, process E d (MTransferableRct r) = (d', Ok s)) <-> receiptable E logs r).
Proof. cbv zeta. intros E cs r H1 H2 H3 H4. apply receipt_iff; auto. intros m Hm. split; eauto. Qed.
Print Assumptions C90_receipt_accepted_exactly_when_allowed.

(** Accepted receipts are added to the receipts of the receipted identifier, and nothing else
    changes. *)
Theorem C90_accepted_receipt_is_added :
  forall E d r d' s,
    process E d (MTransferableRct r) = (d', Ok s) ->
    get_receipts_t d' (rct_prefix (tr_body r)) = Some (olist (get_receipts_t d (rct_prefix (tr_body r))) ++ [r])
    /\ (forall id, get_kel d' id = get_kel d id)
    /\ (forall id, id <> rct_prefix (tr_body r) -> get_receipts_t d' id = get_receipts_t d id)
    /\ (forall id, get_receipts_nt d' id = get_receipts_nt d id /\ get_escrow_t d' id = get_escrow_t d id
                   /\ get_escrow_nt d' id = get_escrow_nt d id /\ get_accepted_replys d' id = get_accepted_replys d id).
Proof.
  intros E d r d' s H. cbn [process] in H. unfold process_validator_receipt in H.
  destruct (get_event_at_sn d _ _) as [ev|]; [|discriminate H].
  destruct (get_keys_at_event E d _ _ _) as [kc| |]; cbn [obind] in H; [|discriminate H..].
  destruct (e_ser_event E (sem_msg ev)) as [ser| |]; cbn [obind] in H; [|discriminate H..].
  destruct (kc_verify E kc ser (tr_sigs r)) as [[|]| |]; try discriminate H.
  injection H as <- _. split; [|split; [|split]].
  - unfold get_receipts_t, add_receipt_t, set_rct_t. cbn [db_rct_t]. rewrite LogProofs.tget_tpush. destruct (IdentifierPrefix_eq_dec _ _) as [_|Hn]; [reflexivity|now destruct Hn].
  - reflexivity.
  - intros id Hid. unfold get_receipts_t, add_receipt_t, set_rct_t. cbn [db_rct_t]. rewrite LogProofs.tget_tpush.
    destruct (IdentifierPrefix_eq_dec _ _) as [He|_]; [now destruct Hid|reflexivity].
  - repeat split.
Qed.
Print Assumptions C90_accepted_receipt_is_added.

(** Hypotheses met, on both sides: Bob's receipt of Alice's rotation; the same receipt of an event
    that is not there yet; and the same signatures under the seal of Bob's rotated keys. *)
Definition receipt_taken (E : Env) (cs : list Call) (r : SignedTransferableReceipt) : bool :=
  match process E (run E db_empty cs) (MTransferableRct r) with (_, Ok _) => true | _ => false end.
Definition b_rct_wrong_keys : SignedTransferableReceipt :=
  mkTRct (rct_of a_rot) (mkES bob 1 (em_digest b_drt)) (sigs_from 0 [key x11] (toy_ser a_rot)).
Example C90_example :
  receipt_taken toy demo_events b_rct = true /\ receipt_taken toy demo_events b_rct_early = false
  /\ receipt_taken toy demo_events b_rct_wrong_keys = false.
Proof. apply conj; [|apply conj]; vm_compute; reflexivity. Qed.
Lemma toy_deriv_total m : exists x, e_deriv_data toy m = Ok x.
Proof. eexists. reflexivity. Qed.
Lemma bob_log : log_of (log (run toy db_empty demo_events) bob) = [b_dip; b_drt].
Proof. vm_compute. reflexivity. Qed.
Lemma bob_rational m kc : In m [b_dip; b_drt] -> est_keys m = Some kc -> rational_threshold (kc_threshold kc).
Proof. intros [<- | [<- | []]] H; injection H as <-; exact I. Qed.
Example C90_example_allowed :
  receiptable toy (fun id => log_of (log (run toy db_empty demo_events) id)) b_rct
  /\ ~ receiptable toy (fun id => log_of (log (run toy db_empty demo_events) id)) b_rct_wrong_keys.
Proof.
  assert (Hv : forall r, es_prefix (tr_seal r) = bob -> rct_prefix (tr_body r) = alice ->
    ((exists d' s, process toy (run toy db_empty demo_events) (MTransferableRct r) = (d', Ok s))
     <-> receiptable toy (fun id => log_of (log (run toy db_empty demo_events) id)) r)).
  { intros r Hb Ha. apply C90_receipt_accepted_exactly_when_allowed.
    - rewrite Ha. vm_compute. discriminate.
    - rewrite Hb. vm_compute. discriminate.
    - intros m _. apply toy_deriv_total.
    - intros m kc. rewrite Hb, bob_log. apply bob_rational. }
  destruct C90_example as (H1 & _ & H3). unfold receipt_taken in H1, H3. split.
  - apply Hv; [reflexivity|reflexivity|].
    destruct (process _ _ (MTransferableRct b_rct)) as [d' [s| |]]; try discriminate H1. eauto.
  - rewrite <- Hv by reflexivity. intros (d' & s & H). rewrite H in H3. discriminate H3.
Qed.

(** ** C91: a key-state reply is accepted exactly when the rules allow it *)
Theorem C91_reply_accepted_exactly_when_allowed :
  forall E cs r,
    let d := run E db_empty cs in let logs := fun id => log_of (log d id) in
    sr_prefix r <> id_default -> replier r <> id_default ->
    (forall m, In m (logs (sr_prefix r)) \/ In m (logs (replier r)) -> exists x, e_deriv_data E m = Ok x) ->
    (forall m kc, In m (logs (replier r)) -> est_keys m = Some kc -> rational_threshold (kc_threshold kc)) ->
    ((exists d' s, process E d (MKeyStateNotice r) = (d', Ok s)) <->
     reply_allowed E logs (accepted d (sr_prefix r)) r).
Proof. cbv zeta. intros E cs r H1 H2 H3 H4. apply reply_iff; auto. intros seal sigs _. split; [exact H2|]. intros m Hm. split; eauto. Qed.
Print Assumptions C91_reply_accepted_exactly_when_allowed.

(** Hypotheses met, on both sides: Bob's reply under his rotated keys is taken after his reply under
    the first keys, and not the other way round. *)
Definition reply_taken (E : Env) (cs : list Call) (r : SignedReply) : bool :=
  match process E (run E db_empty cs) (MKeyStateNotice r) with (_, Ok _) => true | _ => false end.
Definition bob_then := then_reply with_dave [bob_0].
Definition bob_after := then_reply with_dave [bob_1].
Example C91_example :
  reply_taken toy with_dave bob_0 = true /\ reply_taken toy bob_then bob_1 = true /\ reply_taken toy bob_after bob_0 = false.
Proof. apply conj; [|apply conj]; vm_compute; reflexivity. Qed.
Example C91_example_allowed :
  (let d := run toy db_empty bob_then in reply_allowed toy (fun id => log_of (log d id)) (accepted d alice) bob_1)
  /\ (let d := run toy db_empty bob_after in ~ reply_allowed toy (fun id => log_of (log d id)) (accepted d alice) bob_0).
Proof.
  assert (Hb : log_of (log (run toy db_empty bob_then) bob) = [b_dip; b_drt]
               /\ log_of (log (run toy db_empty bob_after) bob) = [b_dip; b_drt]) by (apply conj; vm_compute; reflexivity).
  destruct Hb as (Hb1 & Hb2).
  assert (Hv : forall cs r, log_of (log (run toy db_empty cs) bob) = [b_dip; b_drt] -> sr_prefix r = alice -> replier r = bob ->
    ((exists d' s, process toy (run toy db_empty cs) (MKeyStateNotice r) = (d', Ok s))
     <-> (let d := run toy db_empty cs in reply_allowed toy (fun id => log_of (log d id)) (accepted d alice) r))).
  { intros cs r Hb Ha Hr. cbv zeta. rewrite <- Ha. apply C91_reply_accepted_exactly_when_allowed.
    - rewrite Ha. vm_compute. discriminate.
    - rewrite Hr. vm_compute. discriminate.
    - intros m _. apply toy_deriv_total.
    - intros m kc. rewrite Hr, Hb. apply bob_rational. }
  destruct C91_example as (_ & H1 & H3). unfold reply_taken in H1, H3. split.
  - apply (Hv bob_then bob_1 Hb1); [vm_compute; reflexivity|vm_compute; reflexivity|].
    destruct (process _ _ (MKeyStateNotice bob_1)) as [d' [s| |]]; try discriminate H1. eauto.
  - pose proof (Hv bob_after bob_0 Hb2) as Hx. cbv zeta in Hx |- *. rewrite <- Hx; [|vm_compute; reflexivity|vm_compute; reflexivity].
    intros (d' & s & H). rewrite H in H3. discriminate H3.
Qed.
