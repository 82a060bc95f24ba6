(** * Prop_Honest: an honest controller has one history everywhere (C89).

    See [SpecHonest.v] for the hypotheses; [quiet] (no call panics) as in C21. *)
From Verif Require Import Base Base64 Codes NumFmt Types KeyConf SpecSig State Db Processor Spec SpecProc SpecRules SpecHonest
  StateProofs LogProofs LogTheorems LogTheorems2 SigProofs ProcProofs ConvergeProofs HonestProofs Demo Prop_Proc Prop_Accept.
Local Open Scope nat_scope.

(** ** C89: whatever anybody submits, a node's log is an initial part of the honest controller's *)
(** Missing: histories with panics, a commitment opened by other keys ([C88_refuted_*]), thresholds
    of zero and, for self-addressing identifiers, a foreign inception ([C09_refuted]). *)
Theorem C89_logs_follow_the_controller_partial :
  forall E id L K cs,
    id <> id_default -> (forall m x, e_ser_event E m <> Err x) -> quiet E db_empty cs = true ->
    own_log id L -> owned id K cs -> no_forgery E id L K cs -> no_other_opening E id L K cs -> thresholds_ask id cs ->
    exists k, log_of (log (run E db_empty cs) id) = firstn k L.
Proof.
  intros E id L K cs Hid Hser Hq HL Hown Hnf Hno Ht.
  destruct (get_kel (run E db_empty cs) id) as [l|] eqn:Hl.
  - unfold log. rewrite Hl. cbn [olist]. exists (List.length l).
    destruct (honest_prefix E id L K cs l Hid Hser Hq HL Hown Hnf Hno Ht Hl (List.length l) (le_n _)) as (H & _).
    rewrite <- H. symmetry. unfold log_of. rewrite <- (map_length sem_msg). apply firstn_all.
  - exists 0. unfold log. rewrite Hl. reflexivity.
Qed.
Print Assumptions C89_logs_follow_the_controller_partial.
(** Two nodes fed by anybody in any order: one's log continues the other's, and with logs of
    the same length they hold the same key state. *)
Theorem C89_no_two_histories_partial :
  forall E id L K cs1 cs2,
    id <> id_default -> (forall m x, e_ser_event E m <> Err x) ->
    quiet E db_empty cs1 = true -> quiet E db_empty cs2 = true ->
    own_log id L ->
    (forall cs, cs = cs1 \/ cs = cs2 ->
       owned id K cs /\ no_forgery E id L K cs /\ no_other_opening E id L K cs /\ thresholds_ask id cs) ->
    let d1 := run E db_empty cs1 in let d2 := run E db_empty cs2 in
    let l1 := log_of (log d1 id) in let l2 := log_of (log d2 id) in
    ((exists x, l2 = l1 ++ x) \/ (exists x, l1 = l2 ++ x))
    /\ (List.length l1 = List.length l2 -> l1 <> [] -> l1 = l2 /\ compute_state E d1 id = compute_state E d2 id).
Proof.
  cbv zeta. intros E id L K cs1 cs2 Hid Hser Hq1 Hq2 HL H.
  destruct (H cs1 (or_introl eq_refl)) as (A1 & A2 & A3 & A4). destruct (H cs2 (or_intror eq_refl)) as (B1 & B2 & B3 & B4).
  destruct (C89_logs_follow_the_controller_partial E id L K cs1) as (k1 & H1); auto.
  destruct (C89_logs_follow_the_controller_partial E id L K cs2) as (k2 & H2); auto.
  assert (Hc : (exists x, log_of (log (run E db_empty cs2) id) = log_of (log (run E db_empty cs1) id) ++ x)
            \/ (exists x, log_of (log (run E db_empty cs1) id) = log_of (log (run E db_empty cs2) id) ++ x)).
  { rewrite H1, H2. destruct (Nat.le_ge_cases k1 k2) as [Hle|Hle]; [left|right].
  - exists (skipn k1 (firstn k2 L)). rewrite <- (firstn_skipn k1 (firstn k2 L)) at 1. f_equal. rewrite firstn_firstn. f_equal. lia.
  - exists (skipn k2 (firstn k1 L)). rewrite <- (firstn_skipn k2 (firstn k1 L)) at 1. f_equal. rewrite firstn_firstn. f_equal. lia. }
  split; [exact Hc|]. clear H1 H2. intros Hlen Hne.
  assert (He : log_of (log (run E db_empty cs1) id) = log_of (log (run E db_empty cs2) id)).
  { destruct Hc as [(x & Hx)|(x & Hx)]; rewrite Hx in Hlen; rewrite app_length in Hlen; destruct x; cbn in Hlen; try lia;
      now rewrite Hx, app_nil_r. }
  split; [exact He|].
  assert (Hg : exists s, good_log E id (log (run E db_empty cs1) id) s).
  { unfold log in Hne |- *. destruct (get_kel (run E db_empty cs1) id) as [l|] eqn:Hl; [|contradiction Hne; reflexivity].
    destruct (reach_good E _ _ _ Hid Hl) as (s & Hg & _). eauto. }
  destruct Hg as (s & Hg). rewrite (good_state E _ id s Hid Hg), (good_state E (run E db_empty cs2) id s Hid).
  - reflexivity.
  - eapply good_events; eauto.
  - intros Hz. rewrite Hz in He. rewrite He in Hne. now apply Hne.
  - intros Hz. rewrite Hz in Hne. now apply Hne.
Qed.
Print Assumptions C89_no_two_histories_partial.
(** Everything in a log was submitted, with the signatures it is stored with. *)
Theorem C89_nothing_from_nowhere :
  forall E cs id e,
    id <> id_default -> In e (log (run E db_empty cs) id) ->
    exists se, submitted cs id se /\ sem_msg se = sem_msg e /\ sem_sigs se = sem_sigs e.
Proof. intros E cs id e. apply from_calls_run. Qed.
Print Assumptions C89_nothing_from_nowhere.

(** Alice's four events, out of order, with repetitions, and Mallory's attempts at her identifier:
    an interaction and a rotation signed by his own key. *)
Definition alice_log : list EventMessage := [a_icp; a_rot; a_ixn; a_ixn2].
Definition alice_keys : list BasicPrefix := map key [x01; x02; x03; x04; x05; x06].
Definition mallory_ixn : SignedEventMessage :=
  signed (mk_event alice 1 (Ixn (mkIxn (em_digest a_icp) [SealDigest (em_digest a_rot)]))) [key x66; key x66] None.
Definition mallory_rot : SignedEventMessage :=
  signed (mk_event alice 1 (Rot (mkRot (em_digest a_icp) (kc_of [key x66] [key x67] 1) (mkWC 0 [] []) []))) [key x66] None.
Definition attack : list SignedEventMessage :=
  [s_ixn; s_icp; mallory_ixn; mallory_rot; s_icp; s_rot; mallory_rot; s_ixn; s_dip; s_ixn2].
Definition attack_calls : list Call := map (fun e => CProcess (MEvent e)) attack.
Definition genuine (se : SignedEventMessage) : bool :=
  if in_dec EM_eq_dec (sem_msg se) alice_log then true
  else forallb (fun k => forallb (fun sg => negb (toy_verify (bp_key k) (toy_ser (sem_msg se)) (ssp_sig (asp_sig sg)))) (sem_sigs se)) alice_keys.
Lemma submitted_attack id se : submitted attack_calls id se -> In se attack.
Proof. intros (H & _). apply in_map_iff in H as (x & Hx & Hin). now injection Hx as <-. Qed.
Lemma rot_keys m : In m (map sem_msg attack) -> is_rotation m = true -> m = a_rot \/ m = sem_msg mallory_rot.
Proof.
  intros H Hr. cbn [attack map In] in H.
  repeat (destruct H as [<-|H]; [try (left; reflexivity); try (right; reflexivity); vm_compute in Hr; discriminate Hr|]).
  destruct H.
Qed.
Definition opens (e m : EventMessage) : bool :=
  match est_keys e, est_keys m with
  | Some kc, Some kc' =>
      match kc_next kc with
      | Some n => bytes_eqb (sap_digest n) (xor_all (e_digest toy (sap_code n) (threshold_str (kc_threshold kc')))
                              (map (fun k => e_digest toy (sap_code n) (bp_str k)) (kc_keys kc')))
      | None => false
      end
  | _, _ => false
  end.
Lemma opens_complete e m : commits_to toy e m -> opens e m = true.
Proof. intros (kc & n & kc' & H1 & H2 & H3 & H4). unfold opens. rewrite H1, H3, H2. now apply bytes_eqb_eq. Qed.
Example C89_example_hypotheses :
  quiet toy db_empty attack_calls = true /\ own_log alice alice_log
  /\ owned alice (fun k => In k alice_keys) attack_calls
  /\ no_forgery toy alice alice_log (fun k => In k alice_keys) attack_calls
  /\ no_other_opening toy alice alice_log (fun k => In k alice_keys) attack_calls
  /\ thresholds_ask alice attack_calls.
Proof.
  apply conj; [vm_compute; reflexivity|]. apply conj; [|apply conj; [|apply conj; [|apply conj]]].
  - intros j m Hj. do 4 (destruct j as [|j]; [injection Hj as <-; apply conj; vm_compute; reflexivity|]). destruct j; discriminate Hj.
  - right. intros se kc Hs Hi Hk.
    assert (Ha : forallb (fun se => negb (is_inception (sem_msg se)) || negb (if IdentifierPrefix_eq_dec (em_prefix (sem_msg se)) alice then true else false)
                       || match est_keys (sem_msg se) with Some kc => forallb (fun k => if in_dec BasicPrefix_eq_dec k alice_keys then true else false) (kc_keys kc) | None => true end) attack = true)
      by (vm_compute; reflexivity).
    rewrite forallb_forall in Ha. specialize (Ha se (submitted_attack _ _ Hs)). destruct Hs as (_ & Hp). rewrite Hi, Hk, Hp in Ha.
    destruct (IdentifierPrefix_eq_dec alice alice) as [_|]; [|congruence]. cbn [negb orb] in Ha. rewrite forallb_forall in Ha.
    apply Forall_forall. intros k Hin. specialize (Ha k Hin). destruct (in_dec BasicPrefix_eq_dec k alice_keys); [assumption|discriminate].
  - intros se sg k ser Hs Hsg Hk Hser Hok.
    assert (Ha : forallb genuine (filter (fun se => if IdentifierPrefix_eq_dec (em_prefix (sem_msg se)) alice then true else false) attack) = true)
      by (vm_compute; reflexivity).
    rewrite forallb_forall in Ha. specialize (Ha se).
    rewrite filter_In in Ha. pose proof (submitted_attack _ _ Hs) as Hin. destruct Hs as (_ & Hp). rewrite Hp in Ha.
    destruct (IdentifierPrefix_eq_dec alice alice) as [_|]; [|congruence]. specialize (Ha (conj Hin eq_refl)). unfold genuine in Ha.
    destruct (in_dec EM_eq_dec (sem_msg se) alice_log) as [Hl|_]; [exact Hl|]. exfalso.
    rewrite forallb_forall in Ha. specialize (Ha k Hk). rewrite forallb_forall in Ha. specialize (Ha sg Hsg).
    injection Hser as <-. destruct Hok as [(_ & _ & Hok)|(_ & _ & Hok)]; cbn in Hok; rewrite Hok in Ha; discriminate Ha.
  - intros se e0 kc Hs Hr He Hc Hk. apply opens_complete in Hc.
    destruct (rot_keys (sem_msg se)) as [Hm|Hm]; [apply in_map, (submitted_attack _ _ Hs)|exact Hr| |].
    + rewrite Hm in Hk. injection Hk as <-. apply Forall_forall. intros k Hin. cbn in Hin.
      destruct Hin as [<-|[<-|[]]]; apply in_by; vm_compute; reflexivity.
    + exfalso. rewrite Hm in Hc.
      assert (Ha : forallb (fun e => negb (opens e (sem_msg mallory_rot))) alice_log = true) by (vm_compute; reflexivity).
      rewrite forallb_forall in Ha. specialize (Ha e0 He). rewrite Hc in Ha. discriminate Ha.
  - intros se kc Hs Hk.
    assert (Ha : forallb (fun se => match est_keys (sem_msg se) with Some kc => match kc_threshold kc with Simple n => negb (n =? 0)%N | _ => false end | None => true end) attack = true)
      by (vm_compute; reflexivity).
    rewrite forallb_forall in Ha. specialize (Ha se (submitted_attack _ _ Hs)). rewrite Hk in Ha.
    destruct (kc_threshold kc) as [n|w]; [|discriminate]. cbn. intros ->. discriminate Ha.
Qed.
Example C89_example :
  log_of (log (run toy db_empty attack_calls) alice) = alice_log
  /\ log_of (log (run toy db_empty (firstn 4 attack_calls)) alice) = [a_icp].
Proof. apply conj; vm_compute; reflexivity. Qed.
