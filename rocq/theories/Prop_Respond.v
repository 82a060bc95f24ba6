(** * Prop_Respond: what a node sends back (C112). *)
From Verif Require Import Base Base64 Codes NumFmt Types KeyConf SpecCodec Cesr Message
  State Db Processor Spec SpecProc SpecHistory Prop_Proc Keri SpecKeri KeriProofs KeriProofs2 Prop_Keri SpecRespond RespondProofs Demo.

(** ** C112: the answer to a stream, exactly *)
(** A controller that was set up and used with care is given a text in which every message is an event of
    another controller or a receipt, and none makes the processor panic.  The answer is: for each event
    accepted, in order, the own log if it is an inception of someone who has not acknowledged ours, and then
    the controller's receipt for it; nothing for anything else.  The store afterwards is that of processing the
    messages one by one, with exactly those receipts added. *)
Theorem C112_answer :
  forall (E : Env) (K : KEnv) (k : Keri) (stream rest : bytes) (l : list SignedEventData),
    careful E K k -> (forall r, json (rct_info r) -> exists b, k_ser_rct K r = Ok b) ->
    signed_event_stream (k_parse K) stream = POk rest l ->
    Forall (fun x => to_message x <> Panic) l ->
    let cs := map CProcess (converted l) in
    let d1 := run E (k_db k) cs in
    quiet E (k_db k) cs = true -> Forall (foreign (k_prefix k)) cs ->
    (exists own, get_kerl E (k_db k) (k_prefix k) = Ok (Some own)) ->
    Forall (answerable E (k_prefix k)) (successes E (k_db k) cs) ->
    exists k' rs out,
      respond E K k stream = (k', Ok out)
      /\ answers E K d1 (k_prefix k) (cb_cur (k_box k)) (successes E (k_db k) cs) rs out
      /\ Forall (taken_elsewhere E d1 (k_prefix k)) rs
      /\ k_prefix k' = k_prefix k /\ k_box k' = k_box k
      /\ (forall id, get_kel (k_db k') id = get_kel d1 id)
      /\ (forall id, olist (get_receipts_t (k_db k') id) = olist (get_receipts_t d1 id) ++ about id rs)
      /\ careful E K k'.
Proof.
  intros E K k stream rest l Hk HR Hs Hc cs d1 Hq Hf Hown Ha.
  unfold respond. rewrite Hs. cbn [of_pres]. rewrite (accept_all_successes E l (k_db k) Hc Hq). fold cs. fold d1.
  destruct (careful_working E K k Hk) as (_ & _ & cs0 & Hcs).
  assert (Hme : get_kel d1 (k_prefix k) = get_kel (k_db k) (k_prefix k)).
  { subst d1. clear - Hf. revert Hf. generalize cs as l0. generalize (k_db k) as d. clear. intros d l0. revert d. induction l0 as [|c l0 IH]; intros d H; [reflexivity|].
    inversion H; subst. cbn [run fold_left]. fold (run E (call E d c) l0). rewrite IH by assumption. now apply foreign_call. }
  destruct (answer_all_spec E K HR d1 (k_prefix k) (cb_cur (k_box k)) (successes E (k_db k) cs) (set_db k d1)) as (k' & rs & out & H1 & H2 & H2t & H3 & H4 & H5 & H6 & H7).
  - now apply careful_calls.
  - reflexivity.
  - reflexivity.
  - split; reflexivity.
  - rewrite (kerl_same E (k_db k) d1 (k_prefix k) Hme). exact Hown.
  - exact Ha.
  - intros ev Hev. rewrite Forall_forall in Ha. pose proof (Ha _ Hev) as (_ & Hid & _).
    subst d1. rewrite Hcs in Hev |- *. pose proof (successes_in E cs0 cs ev Hev Hid) as Hin. cbv zeta in Hin.
    eexists. split; [|exact Hin]. reflexivity.
  - exists k', rs, out. split; [exact H1|]. split; [exact H2|]. split; [exact H2t|]. split; [exact H3|]. split; [exact H4|]. split; [apply H6|]. split; [exact H7|exact H5].
Qed.

(** Carol, alone in her store, is sent Wendy's inception twice. *)
Lemma carol0_is_careful : careful etoy ktoy carol0.
Proof.
  exists [], c_box, [], [], carol0, (of_ok s_icp (snd (incept etoy ktoy (keri_new c_box db_empty) []))), [].
  split; [exact toy_serializes|]. split; [apply toy_works|]. split; [apply toy_works|]. split; [intros Hn; now destruct Hn|].
  split; [vm_compute; reflexivity|]. split; [vm_compute; reflexivity|]. split; [apply Forall_nil|reflexivity].
Qed.
Definition c112_l : list SignedEventData := [sed_of_event w_icp; sed_of_event w_icp].
Definition c112_cs : list Call := map CProcess (converted c112_l).
Lemma toy_rct_ser : forall r, json (rct_info r) -> exists b, k_ser_rct ktoy r = Ok b.
Proof. intros r _. eexists. reflexivity. Qed.
Example C112_example :
  signed_event_stream (k_parse ktoy) (w_text ++ w_text) = POk [] c112_l
  /\ quiet etoy (k_db carol0) c112_cs = true
  /\ successes etoy (k_db carol0) c112_cs = [MEvent w_icp].
Proof. ex_vm. Qed.
Example C112_foreign : Forall (foreign (k_prefix carol0)) c112_cs.
Proof. apply Forall_cons; [|apply Forall_cons; [|apply Forall_nil]]; vm_compute; discriminate. Qed.
Example C112_own : exists own, get_kerl etoy (k_db carol0) (k_prefix carol0) = Ok (Some own).
Proof. eexists. vm_compute. reflexivity. Qed.
Example C112_answerable : Forall (answerable etoy (k_prefix carol0)) (successes etoy (k_db carol0) c112_cs).
Proof.
  assert (H : successes etoy (k_db carol0) c112_cs = [MEvent w_icp]) by (vm_compute; reflexivity). rewrite H.
  apply Forall_cons; [|apply Forall_nil]. split; [vm_compute; discriminate|]. split; [vm_compute; discriminate|]. eexists. vm_compute. reflexivity.
Qed.
(** the answer introduces Carol and then receipts the inception *)
Example C112_answer_example : exists k' rs t out own,
  respond etoy ktoy carol0 (w_text ++ w_text) = (k', Ok out)
  /\ get_kerl etoy (k_db carol0) (k_prefix carol0) = Ok (Some own) /\ out = own ++ t
  /\ about (em_prefix (sem_msg w_icp)) rs = rs /\ List.length rs = 1
  /\ olist (get_receipts_t (k_db k') (em_prefix (sem_msg w_icp))) = rs.
Proof.
  destruct (C112_answer etoy ktoy carol0 (w_text ++ w_text) [] c112_l carol0_is_careful toy_rct_ser (proj1 C112_example) C61_logs_example_converts
    (proj1 (proj2 C112_example)) C112_foreign C112_own C112_answerable) as (k' & rs & out & H1 & H2 & _ & _ & _ & _ & H6 & _).
  change (map CProcess (converted c112_l)) with c112_cs in *. rewrite (proj2 (proj2 C112_example)) in H2.
  inversion H2 as [| |ev ms r rs' intro t out' Hr Ht Hi Hrest]; subst. inversion Hrest; subst.
  destruct C112_own as [own Hown].
  assert (Hd : get_kerl etoy (run etoy (k_db carol0) c112_cs) (k_prefix carol0) = get_kerl etoy (k_db carol0) (k_prefix carol0)) by (vm_compute; reflexivity).
  assert (Hn : ~ acknowledged (run etoy (k_db carol0) c112_cs) (k_prefix carol0) (em_prefix (sem_msg w_icp))).
  { intros Ha. apply has_receipt_spec in Ha. vm_compute in Ha. discriminate. }
  assert (Hic : exists i, em_data (sem_msg w_icp) = Icp i) by (eexists; vm_compute; reflexivity).
  destruct Hi as [(_ & _ & Hi)|[Hi _]]; [|destruct Hi; auto].
  rewrite Hd, Hown in Hi. injection Hi as <-.
  exists k', [r], t, (own ++ t), own. rewrite app_nil_r in H1. split; [exact H1|]. split; [exact Hown|]. split; [reflexivity|].
  assert (Hab : about (em_prefix (sem_msg w_icp)) [r] = [r]).
  { rewrite about_cons_same; [reflexivity|apply Hr]. }
  split; [exact Hab|]. split; [reflexivity|]. rewrite H6, Hab.
  assert (He : olist (get_receipts_t (run etoy (k_db carol0) c112_cs) (em_prefix (sem_msg w_icp))) = []) by (vm_compute; reflexivity).
  now rewrite He.
Qed.
