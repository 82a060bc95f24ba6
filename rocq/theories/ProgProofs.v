(** Running the programs of [Prog] on the abstract store is [Processor]. *)
From Verif Require Import Base Base64 Codes NumFmt Types KeyConf State Db Processor Prog.

Lemma interp_pbind {A B} (p : prog op A) (k : A -> prog op B) d :
  interp (pbind p k) d = let (d', a) := interp p d in interp (k a) d'.
Proof.
  revert d. induction p as [r|X o k' IH]; intros d; cbn [pbind interp]; [reflexivity|].
  destruct (op_sem o d) as [d' a]. apply IH.
Qed.
Lemma interp_ptry {A B} (p : prog op (out A)) (k : A -> prog op (out B)) d :
  interp (ptry p k) d =
  match interp p d with
  | (d', Ok a) => interp (k a) d'
  | (d', Err e) => (d', Err e)
  | (d', Panic) => (d', Panic)
  end.
Proof.
  unfold ptry. rewrite interp_pbind. destruct (interp p d) as [d' [a|e|]]; reflexivity.
Qed.
Lemma interp_ret {A} (r : A) d : interp (Ret r) d = (d, r).
Proof. reflexivity. Qed.

Section WithEnv.
  Context (E : Env).

  Lemma interp_compute_state d id :
    interp (p_compute_state E id) d = (d, compute_state E d id).
  Proof. reflexivity. Qed.
  Lemma interp_event_at_sn d id sn :
    interp (p_event_at_sn id sn) d = (d, get_event_at_sn d id sn).
  Proof. reflexivity. Qed.
  Lemma interp_keys_at_event d id sn dig :
    interp (p_keys_at_event E id sn dig) d = (d, get_keys_at_event E d id sn dig).
  Proof. reflexivity. Qed.
  Lemma interp_validate_seal d seal m :
    interp (p_validate_seal E seal m) d = (d, validate_seal E d seal m).
  Proof. reflexivity. Qed.
  Lemma interp_check_delegation d se :
    interp (p_check_delegation E se) d = (d, check_delegation E d se).
  Proof.
    unfold p_check_delegation, check_delegation. destruct (em_data (sem_msg se)); try reflexivity.
    - destruct (sem_seal se); reflexivity.
    - rewrite interp_ptry, interp_compute_state. destruct (compute_state E d (em_prefix (sem_msg se))) as [os|e0|]; try reflexivity.
      cbn [obind]. rewrite interp_ptry, interp_ret. destruct os as [s|]; [|reflexivity]. cbn [ok_or obind].
      rewrite interp_ptry, interp_ret. destruct (st_delegator s); [|reflexivity]. cbn [ok_or obind].
      destruct (sem_seal se); reflexivity.
  Qed.
  Lemma interp_apply_to_state d m :
    interp (p_apply_to_state E m) d = (d, apply_to_state E d m).
  Proof.
    unfold p_apply_to_state, apply_to_state. rewrite interp_ptry, interp_compute_state.
    destruct (compute_state E d (em_prefix m)); reflexivity.
  Qed.
  Lemma interp_process_event d se :
    interp (p_process_event E se) d = process_event E d se.
  Proof.
    unfold p_process_event, process_event. cbv zeta. rewrite interp_ptry, interp_check_delegation.
    destruct (check_delegation E d se) as [u|e|]; try reflexivity.
    rewrite interp_ptry, interp_apply_to_state.
    destruct (apply_to_state E d (sem_msg se)) as [ns|e|]; try reflexivity.
    rewrite interp_pbind. cbn [p_do interp op_sem dset dtab]. fold (add_kel d se (em_prefix (sem_msg se))).
    rewrite interp_ptry, interp_ret.
    destruct (e_ser_event E (sem_msg se)) as [ser|e|]; try reflexivity.
    destruct (verify_signatures E ns ser se) as [s|e|]; try reflexivity.
    rewrite interp_pbind. destruct e; reflexivity.
  Qed.
  Lemma interp_process_validator_receipt d r :
    interp (p_process_validator_receipt E r) d = process_validator_receipt E d r.
  Proof.
    unfold p_process_validator_receipt, process_validator_receipt. cbv zeta.
    rewrite interp_pbind, interp_event_at_sn.
    destruct (get_event_at_sn d (rct_prefix (tr_body r)) (rct_sn (tr_body r))) as [ev|]; [|reflexivity].
    rewrite interp_ptry, interp_keys_at_event.
    destruct (get_keys_at_event E d (es_prefix (tr_seal r)) (es_sn (tr_seal r)) (es_digest (tr_seal r))) as [kc|e|]; try reflexivity.
    cbn [obind]. rewrite interp_ptry, interp_ret. destruct (e_ser_event E (sem_msg ev)) as [ser|e|]; try reflexivity.
    cbn [obind]. rewrite interp_ptry, interp_ret. destruct (kc_verify E kc ser (tr_sigs r)) as [[|]|e|]; reflexivity.
  Qed.
  Lemma interp_process_witness_receipt d r :
    interp (p_process_witness_receipt E r) d = process_witness_receipt E d r.
  Proof.
    unfold p_process_witness_receipt, process_witness_receipt. cbv zeta.
    rewrite interp_pbind, interp_event_at_sn.
    destruct (get_event_at_sn d (rct_prefix (nr_body r)) (rct_sn (nr_body r))) as [ev|]; [|reflexivity].
    rewrite interp_ptry, interp_ret. destruct (e_ser_signed E ev) as [ser|e|]; try reflexivity.
    destruct (rev (couplet_errors E ser (nr_couplets r))); reflexivity.
  Qed.
  Lemma interp_verify d data sig :
    interp (p_verify E data sig) d = (d, proc_verify E d data sig).
  Proof.
    destruct sig as [seal sigs|bp sign]; unfold p_verify, proc_verify; [|reflexivity].
    rewrite interp_ptry, interp_keys_at_event.
    destruct (get_keys_at_event E d (es_prefix seal) (es_sn seal) (es_digest seal)); reflexivity.
  Qed.
  Lemma interp_bada d r : interp (p_bada_logic r) d = (d, bada_logic d r).
  Proof. reflexivity. Qed.
  Lemma interp_check_timestamp d t a b :
    interp (p_check_timestamp t a b) d = (d, check_timestamp_with_last_ksn d t a b).
  Proof. reflexivity. Qed.
  Lemma interp_check_ksn d k a : interp (p_check_ksn E k a) d = (d, check_ksn E d k a).
  Proof.
    unfold p_check_ksn, check_ksn. cbv zeta. rewrite interp_pbind, interp_event_at_sn.
    rewrite interp_ptry, interp_ret.
    destruct (get_event_at_sn d (st_prefix (ksn_state k)) (st_sn (ksn_state k))) as [ev|]; [|reflexivity].
    cbn [ok_or obind]. rewrite interp_ptry, interp_ret.
    destruct (check_digest E (sem_msg ev) (st_last_digest (ksn_state k))) as [b|e|]; try reflexivity.
    cbn [obind]. rewrite interp_ptry, interp_ret. destruct (ok_if b EIncorrectDigest); try reflexivity.
    cbn [obind]. rewrite interp_pbind, interp_check_timestamp. rewrite interp_ptry, interp_ret.
    assert (T : interp (ptry (p_compute_state E (st_prefix (ksn_state k))) (fun os =>
        ptry (Ret (ok_or os (EQuery QOutOfOrder))) (fun s =>
        Ret (if (st_sn s <? st_sn (ksn_state k))%N then Err (EQuery QOutOfOrder)
         else if (st_sn s =? st_sn (ksn_state k))%N then Ok tt
         else Err (EQuery QStaleKsn))))) d =
      (d, let? os := compute_state E d (st_prefix (ksn_state k)) in
          let? s := ok_or os (EQuery QOutOfOrder) in
          if (st_sn s <? st_sn (ksn_state k))%N then Err (EQuery QOutOfOrder)
          else if (st_sn s =? st_sn (ksn_state k))%N then Ok tt else Err (EQuery QStaleKsn))).
    { rewrite interp_ptry, interp_compute_state.
      destruct (compute_state E d (st_prefix (ksn_state k))) as [os|e|]; try reflexivity.
      cbn [obind]. rewrite interp_ptry, interp_ret. destruct os; reflexivity. }
    destruct (check_timestamp_with_last_ksn d (ksn_timestamp k) (st_prefix (ksn_state k)) a) as [u|e|];
      [apply T| |reflexivity].
    destruct e as [| | | | | | | | | | | | |[]]; try reflexivity. apply T.
  Qed.
  Lemma interp_update d r id : interp (p_update_accepted_reply r id) d = (update_accepted_reply d r id, tt).
  Proof.
    unfold p_update_accepted_reply, update_accepted_reply. rewrite interp_pbind.
    cbn [p_get interp op_sem dtab]. change (tty TRpy) with SignedReply. destruct (tget (db_rpy d) id); reflexivity.
  Qed.
  Lemma interp_process_signed_reply d r :
    interp (p_process_signed_reply E r) d = process_signed_reply E d r.
  Proof.
    unfold p_process_signed_reply, process_signed_reply.
    destruct (rp_route (sr_reply r)); try reflexivity.
    match goal with |- context [IdentifierPrefix_eq_dec ?a ?b] => destruct (IdentifierPrefix_eq_dec a b) end; [|reflexivity].
    rewrite interp_ptry, interp_ret. destruct (e_ser_reply E (sr_reply r)) as [ser|e'|]; try reflexivity.
    rewrite interp_pbind, interp_verify.
    destruct (proc_verify E d ser (sr_sig r)) as [u|e'|]; [|destruct e'; reflexivity|reflexivity].
    rewrite interp_ptry, interp_ret. destruct (reply_check_digest E (sr_reply r)) as [u'|e'|]; try reflexivity.
    cbn [obind]. rewrite interp_pbind, interp_bada. rewrite interp_ptry, interp_ret.
    rewrite interp_pbind, interp_check_ksn.
    match goal with |- context [check_ksn E d ?k ?a] =>
      destruct (bada_logic d r) as [u1|e1|]; [|destruct e1 as [| | | | | | | | | | | | |[]]|]; try reflexivity;
      (destruct (check_ksn E d k a) as [u2|e2|];
      [rewrite interp_pbind, interp_update; reflexivity
      |destruct e2 as [| | | | | | | | | | | | |[]]; reflexivity|reflexivity]) end.
  Qed.
  Lemma interp_escrow_loop l d : interp (p_escrow_loop E l) d = process_escrow_loop E l d.
  Proof.
    revert d. induction l as [|r l IH]; intros d; cbn [p_escrow_loop process_escrow_loop]; [reflexivity|].
    rewrite interp_pbind, interp_process_signed_reply.
    destruct (process_signed_reply E d r) as [d1 [s|e|]].
    - rewrite interp_pbind. cbn [p_do interp op_sem dset dtab teqb]. apply IH.
    - destruct e as [| | | | | | | | | | | | |[]]; try apply IH; rewrite interp_pbind; apply IH.
    - reflexivity.
  Qed.
  Theorem interp_process_escrow d : interp (p_process_escrow E) d = process_escrow E d.
  Proof.
    unfold p_process_escrow, process_escrow. rewrite interp_pbind. cbn [p_do interp op_sem dtab].
    apply interp_escrow_loop.
  Qed.
  Theorem interp_process d m : interp (p_process E m) d = process E d m.
  Proof.
    destruct m; cbn [p_process process]; [apply interp_process_event | apply interp_process_witness_receipt
      | apply interp_process_validator_receipt | apply interp_process_signed_reply | reflexivity].
  Qed.
End WithEnv.
