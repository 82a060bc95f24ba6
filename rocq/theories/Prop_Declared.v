(** * C141: what an identifier declares about its own future. *)
From Verif Require Import Base Base64 Codes NumFmt Types KeyConf SpecSig State Db Processor Spec SpecProc SpecRules SpecDeclared
  StateProofs LogProofs LogTheorems LogTheorems2 SigProofs ProcProofs ProcProofs2 AcceptProofs Demo Prop_State Prop_Proc Prop_Accept.

Definition state_at (E : Env) (d : Db) (id : IdentifierPrefix) : option IdentifierState :=
  match compute_state E d id with Ok s => s | _ => None end.
Definition C141_statement : Prop :=
  forall E cs, limits_kept (fun id => log_of (log (run E db_empty cs) id)) (state_at E (run E db_empty cs)).

(** ** What holds: an identifier without next keys keeps its keys for ever. *)
Lemma last_such_app p l1 l2 : Forall (fun e => p e = false) l2 -> last_such p (l1 ++ l2) = last_such p l1.
Proof.
  intros H. induction l1 as [|a l1 IH]; cbn [app last_such].
  - induction H as [|b l2 Hb _ IH]; [reflexivity|]. cbn [last_such]. now rewrite IH, Hb.
  - now rewrite IH.
Qed.
Lemma last_such_nth p l : forall e, last_such p l = Some e -> exists j, nth_error l j = Some e.
Proof.
  induction l as [|a l IH]; intros e H; [discriminate H|]. cbn [last_such] in H. destruct (last_such p l) as [x|] eqn:E.
  - assert (x = e) by congruence. subst. destruct (IH e eq_refl) as (j & Hj). exists (S j). exact Hj.
  - destruct (p a); [|discriminate H]. exists 0. cbn. congruence.
Qed.
Theorem C141_no_next_keys_partial :
  forall E cs cs' id s,
    id <> id_default -> log (run E db_empty cs) id <> [] ->
    compute_state E (run E db_empty cs) id = Ok (Some s) -> kc_next (st_current s) = None ->
    exists s' ext, compute_state E (run E db_empty (cs ++ cs')) id = Ok (Some s') /\ st_current s' = st_current s
      /\ log_of (log (run E db_empty (cs ++ cs')) id) = log_of (log (run E db_empty cs) id) ++ ext
      /\ Forall (fun e => is_establishment e = false) ext.
Proof.
  intros E cs cs' id s Hid Hne Hs Hn.
  destruct (get_kel (run E db_empty cs) id) as [l|] eqn:El; [|exfalso; apply Hne; unfold log; now rewrite El].
  assert (Ll : log (run E db_empty cs) id = l) by (unfold log; now rewrite El). rewrite Ll in *.
  destruct (C22_logs_are_append_only E cs cs' id Hid) as (ext & Hext). rewrite Ll in Hext.
  destruct (get_kel (run E db_empty (cs ++ cs')) id) as [l'|] eqn:El';
    [|exfalso; unfold log in Hext; rewrite El' in Hext; destruct l; [now apply Hne|discriminate Hext]].
  assert (Ll' : log (run E db_empty (cs ++ cs')) id = l') by (unfold log; now rewrite El'). rewrite Ll' in *. subst l'.
  destruct (C04_keys_of_last_establishment E cs id l s Hid El Hne Hs) as (e & He & Hk).
  destruct (last_such_nth _ _ _ He) as (j & Hj).
  assert (Hj' : exists se, nth_error l j = Some se /\ sem_msg se = e).
  { unfold log_of in Hj. rewrite nth_error_map in Hj. destruct (nth_error l j) as [se|]; [|discriminate Hj]. exists se. cbn in Hj. split; congruence. }
  destruct Hj' as (se & Hse & <-).
  assert (Fr : Forall (fun e => is_establishment e = false) (log_of ext)).
  { unfold log_of. apply Forall_map. apply Forall_forall. intros x Hx. apply In_nth_error in Hx as (k & Hx).
    assert (Jl : j < List.length l) by (apply nth_error_Some; congruence).
    eapply (C04_empty_commitment_is_final E (cs ++ cs') id (l ++ ext) j (List.length l + k) se x (st_current s) Hid El').
    - rewrite nth_error_app1; assumption.
    - exact Hk.
    - exact Hn.
    - lia.
    - rewrite nth_error_app2 by lia. replace (List.length l + k - List.length l) with k by lia. exact Hx. }
  destruct (C21_logs_replay E (cs ++ cs') id (l ++ ext) Hid El') as (s' & _ & Hs').
  exists s', (log_of ext). apply conj; [exact Hs'|]. apply conj; [|apply conj; [unfold log_of; apply map_app|exact Fr]].
  assert (Hne' : l ++ ext <> []) by (destruct l; [now contradiction Hne|discriminate]).
  destruct (C04_keys_of_last_establishment E (cs ++ cs') id (l ++ ext) s' Hid El' Hne' Hs') as (e' & He' & Hk').
  unfold log_of in He'. rewrite map_app in He'. unfold last_establishment in He', He. rewrite last_such_app in He' by exact Fr.
  unfold log_of in He. assert (sem_msg se = e') by congruence. subst e'. congruence.
Qed.
Print Assumptions C141_no_next_keys_partial.

(** ** What does not: nothing that is declared stands in the way of an interaction.  Whatever the
    first event of the log declares, and whatever keys come next: an interaction at the end of
    the log with enough signatures is accepted. *)
Theorem C141_interactions_are_accepted :
  forall E cs se i first last,
    let d := run E db_empty cs in let m := sem_msg se in let l := log_of (log d (em_prefix m)) in
    em_prefix m <> id_default -> em_data m = Ixn i -> (exists x, e_deriv_data E m = Ok x) ->
    (forall p, named_delegator first = Some p -> p <> id_default) ->
    hd_error l = Some first -> last_event l = Some last ->
    em_sn m = N.of_nat (List.length l) -> ixn_prev i = em_digest last ->
    (forall kc, keys_in_force l m = Some kc -> rational_threshold (kc_threshold kc)) -> signed_enough E l se ->
    exists d' s, process E d (MEvent se) = (d', Ok (Some s)).
Proof.
  cbv zeta. intros E cs se i first last Hid Hi Hx Hp Hf Hl Hsn Hprev Hr Hs.
  apply C85_accepted_exactly_when_allowed; try assumption.
  - intros p. unfold delegator_of. destruct (log_of _) as [|f r]; [discriminate Hf|]. assert (f = first) by (cbn in Hf; congruence). subst. apply Hp.
  - unfold acceptable. cbv zeta. unfold is_inception, is_delegated. rewrite Hi.
    apply conj; [|apply conj; [intros Q; discriminate Q|exact Hs]].
    exists first, last. apply conj; [exact Hf|]. apply conj; [exact Hl|]. apply conj; [exact Hsn|]. unfold prev_digest, is_rotation. rewrite Hi.
    apply conj; [now rewrite Hprev|]. apply conj; [intros Q; discriminate Q|exact I].
Qed.
Print Assumptions C141_interactions_are_accepted.

(** Dora declares that only establishment events follow, that she delegates nothing, that she has
    no next keys, and that receipts of five of her no witnesses are needed. *)
Definition dora_icp : EventMessage :=
  mk_incept (Icp (mkIcp (mkKC (Simple 1) [key x21] None) (mkIWC 5 []) [bstr "EO"; bstr "DND"] [])).
Definition dora : IdentifierPrefix := em_prefix dora_icp.
Definition child_dip : EventMessage :=
  mk_incept (Dip (mkDip (mkIcp (kc_of [key x22] [key x23] 1) (mkIWC 0 []) [] []) dora)).
Definition child : IdentifierPrefix := em_prefix child_dip.
Definition dora_ixn : EventMessage := mk_event dora 1 (Ixn (mkIxn (em_digest dora_icp) [SealEvent (mkES child 0 (em_digest child_dip))])).
Definition dora_calls : list Call :=
  [CProcess (MEvent (signed dora_icp [key x21] None)); CProcess (MEvent (signed dora_ixn [key x21] None));
   CProcess (MEvent (signed child_dip [key x22] (Some (mkSrc 1 (em_digest dora_ixn)))))].
Definition dora_logs (id : IdentifierPrefix) : list EventMessage := log_of (log (run toy db_empty dora_calls) id).
Example C141_history :
  dora_logs dora = [dora_icp; dora_ixn] /\ dora_logs child = [child_dip]
  /\ option_map st_tally (state_at toy (run toy db_empty dora_calls) dora) = Some 5%N
  /\ option_map st_witnesses (state_at toy (run toy db_empty dora_calls) dora) = Some []
  /\ option_map (fun s => kc_next (st_current s)) (state_at toy (run toy db_empty dora_calls) dora) = Some None
  /\ dora <> child.
Proof.
  apply conj; [vm_compute; reflexivity|]. apply conj; [vm_compute; reflexivity|]. apply conj; [vm_compute; reflexivity|].
  apply conj; [vm_compute; reflexivity|]. apply conj; [vm_compute; reflexivity|]. vm_compute. discriminate.
Qed.
(** Each of the four limits is passed. *)
Theorem C141_refuted_limits :
  (declares (dora_logs dora) "EO" /\ Exists (fun e => is_establishment e = false) (dora_logs dora))
  /\ (declares (dora_logs dora) "DND" /\ exists first, hd_error (dora_logs child) = Some first /\ named_delegator first = Some dora)
  /\ (exists e e', nth_error (dora_logs dora) 0 = Some e /\ abandons e /\ nth_error (dora_logs dora) 1 = Some e')
  /\ (exists s, state_at toy (run toy db_empty dora_calls) dora = Some s /\ (N.of_nat (List.length (st_witnesses s)) < st_tally s)%N).
Proof.
  destruct C141_history as (Hl & Hc & Ht & Hw & _ & _). rewrite Hl, Hc.
  assert (D : forall t, In (bstr t) (traits dora_icp) -> declares [dora_icp; dora_ixn] t).
  { intros t Ht'. exists dora_icp. apply conj; [exact eq_refl|exact Ht']. }
  apply conj; [apply conj; [apply D; apply in_eq|apply Exists_cons_tl, Exists_cons_hd; exact eq_refl]|].
  apply conj; [apply conj; [apply D; apply in_cons, in_eq|exists child_dip; apply conj; exact eq_refl]|].
  apply conj.
  - exists dora_icp, dora_ixn. apply conj; [exact eq_refl|]. apply conj; [|exact eq_refl].
    eexists. apply conj; exact eq_refl.
  - destruct (state_at toy _ dora) as [s|]; [|discriminate Ht]. exists s. apply conj; [exact eq_refl|].
    cbn [option_map] in Ht, Hw. assert (Et : st_tally s = 5%N) by congruence. assert (Ew : st_witnesses s = []) by congruence.
    rewrite Et, Ew. exact eq_refl.
Qed.
Print Assumptions C141_refuted_limits.
Theorem C141_refuted : ~ C141_statement.
Proof.
  intros H. specialize (H toy dora_calls dora). destruct H as (_ & _ & H & _); [vm_compute; discriminate|].
  destruct C141_refuted_limits as (_ & _ & (e & e' & H0 & Ha & H1) & _).
  specialize (H 0 1 e H0 Ha (le_n 1)). change (nth_error (dora_logs dora) 1 = None) in H. congruence.
Qed.
Print Assumptions C141_refuted.
