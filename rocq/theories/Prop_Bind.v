(** * Prop_Bind: how far the next-key commitment binds the next keys (C17, C88).

    The commitment is the XOR of the digests of the threshold text and of the key texts.
    [SpecBind.v] says when texts are [independent]; [SpecBuild.v] has [commitment]. *)
From Coq Require Import Permutation.
From Verif Require Import Base Base64 Codes NumFmt Types KeyConf SpecSig State Db Processor Spec SpecProc SpecRules SpecBuild SpecBind
  StateProofs LogProofs LogTheorems LogTheorems2 SigProofs ProcProofs ProcProofs2 CodecProofs BindProofs TakeoverProofs Demo.
Local Open Scope nat_scope.

(** ** C17: the commitment binds the key list *)
(** Holds for two duplicate-free lists of keys whose texts are independent.  Missing: lists
    with duplicates ([C17_refuted]), and lists of many keys, whose texts cannot be independent
    ([C17_refuted_many_keys]). *)
Theorem C17_distinct_keys_partial :
  forall E d n t ks1 ks2,
    digest_size E d n ->
    independent E d n (map bp_str ks1 ++ map bp_str ks2) ->
    Forall (fun k => bp_key k <> []) (ks1 ++ ks2) -> NoDup ks1 -> NoDup ks2 ->
    nxt_commitment E t ks1 d = nxt_commitment E t ks2 d -> Permutation ks1 ks2.
Proof.
  intros E d n t ks1 ks2 Hn Hi Hk N1 N2 H. rewrite !(commitment_eq E d n Hn) in H. injection H as H.
  rewrite Forall_forall in Hk.
  assert (Inj : forall x y, In x (ks1 ++ ks2) -> In y (ks1 ++ ks2) -> bp_str x = bp_str y -> x = y)
    by (intros x y Hx Hy; apply bp_str_inj; auto).
  change (combined E d n ([threshold_str t] ++ map bp_str ks1) = combined E d n ([threshold_str t] ++ map bp_str ks2)) in H.
  apply (X_app_inv_l E d n Hn) in H.
  assert (P : Permutation (map bp_str ks1) (map bp_str ks2)).
  { apply (combined_inj E d n Hn (map bp_str ks1 ++ map bp_str ks2)); auto; try apply nodup_map_inj; auto;
      try (intros x y Hx Hy; apply Inj; apply in_app_iff; auto); [apply incl_appl|apply incl_appr]; apply incl_refl. }
  apply NoDup_Permutation; auto. intros x. split; intros Hx.
  - assert (Hin : In (bp_str x) (map bp_str ks2)) by (eapply Permutation_in; [exact P|now apply in_map]).
    apply in_map_iff in Hin as (y & He & Hy). rewrite <- (Inj y x); auto; apply in_app_iff; auto.
  - assert (Hin : In (bp_str x) (map bp_str ks1)) by (eapply Permutation_in; [symmetry; exact P|now apply in_map]).
    apply in_map_iff in Hin as (y & He & Hy). rewrite <- (Inj y x); auto; apply in_app_iff; auto.
Qed.
Print Assumptions C17_distinct_keys_partial.
(** The threshold is bound too, if no threshold text is a key text. *)
Theorem C17_threshold_partial :
  forall E d n t1 t2 ks1 ks2,
    digest_size E d n ->
    independent E d n ((threshold_str t1 :: map bp_str ks1) ++ threshold_str t2 :: map bp_str ks2) ->
    NoDup (map bp_str ks1) -> NoDup (map bp_str ks2) ->
    ~ In (threshold_str t1) (map bp_str (ks1 ++ ks2)) -> ~ In (threshold_str t2) (map bp_str (ks1 ++ ks2)) ->
    nxt_commitment E t1 ks1 d = nxt_commitment E t2 ks2 d -> threshold_str t1 = threshold_str t2.
Proof.
  intros E d n t1 t2 ks1 ks2 Hn Hi N1 N2 T1 T2 H. rewrite !(commitment_eq E d n Hn) in H. injection H as H.
  rewrite map_app, in_app_iff in T1, T2.
  assert (P : Permutation (threshold_str t1 :: map bp_str ks1) (threshold_str t2 :: map bp_str ks2)).
  { apply (combined_inj E d n Hn ((threshold_str t1 :: map bp_str ks1) ++ threshold_str t2 :: map bp_str ks2)); auto;
      try (constructor; tauto); [apply incl_appl|apply incl_appr]; apply incl_refl. }
  assert (Hin : In (threshold_str t1) (threshold_str t2 :: map bp_str ks2)) by (eapply Permutation_in; [exact P|now left]).
  destruct Hin as [Hin|Hin]; [now symmetry|]. tauto.
Qed.
Print Assumptions C17_threshold_partial.
(** With more keys than the digest has bits, two different selections of them always share a
    commitment, for every digest function: no assumption on the digest can make it binding. *)
Theorem C17_refuted_many_keys :
  forall E d n t ks,
    digest_size E d n -> NoDup ks -> Forall (fun k => bp_key k <> []) ks -> 8 * n < List.length ks ->
    exists ks1 ks2,
      NoDup ks1 /\ NoDup ks2 /\ incl ks1 ks /\ incl ks2 ks /\ ~ Permutation ks1 ks2
      /\ nxt_commitment E t ks1 d = nxt_commitment E t ks2 d.
Proof.
  intros E d n t ks Hn Hd Hk Hl.
  assert (Hd' : NoDup (map bp_str ks)).
  { apply nodup_map_inj; [|exact Hd]. rewrite Forall_forall in Hk. intros x y Hx Hy. apply bp_str_inj; auto. }
  destruct (pigeon E d n Hn (map bp_str ks) Hd') as (a & b & La & Lb & Hab & He); [now rewrite map_length|].
  rewrite map_length in La, Lb.
  exists (sel a ks), (sel b ks). split; [now apply sel_nodup|]. split; [now apply sel_nodup|].
  split; [apply sel_incl|]. split; [apply sel_incl|]. split.
  - intros P. apply Hab. apply (sel_same a b ks); auto. intros x. split; intros Hx; (eapply Permutation_in; [|exact Hx]); [exact P|symmetry; exact P].
  - rewrite !(commitment_eq E d n Hn). f_equal. rewrite !sel_map in He. rewrite !X_cons, He. reflexivity.
Qed.
Print Assumptions C17_refuted_many_keys.

(** ** C88: only the committed keys can take over an identifier *)
(** An accepted rotation carries the keys that were committed to.  Holds for a rotation
    without repeated keys, when the texts involved are independent.  Missing: everything else
    ([C88_refuted_revealed], [C88_refuted_unrevealed]). *)
Theorem C88_committed_keys_partial :
  forall E cs id s n se d' s' t ks sz,
    let d := run E db_empty cs in
    id <> id_default -> log d id <> [] -> compute_state E d id = Ok (Some s) ->
    kc_next (st_current s) = Some n -> n = commitment E (sap_code n) t ks ->
    em_prefix (sem_msg se) = id -> is_rotation (sem_msg se) = true ->
    process E d (MEvent se) = (d', Ok (Some s')) ->
    let ks' := kc_keys (st_current s') in let t' := kc_threshold (st_current s') in
    digest_size E (sap_code n) sz ->
    independent E (sap_code n) sz ((threshold_str t :: map bp_str ks) ++ threshold_str t' :: map bp_str ks') ->
    Forall (fun k => bp_key k <> []) (ks ++ ks') -> NoDup ks -> NoDup ks' ->
    ~ In (threshold_str t) (map bp_str (ks ++ ks')) -> ~ In (threshold_str t') (map bp_str (ks ++ ks')) ->
    Permutation ks' ks /\ threshold_str t' = threshold_str t.
Proof.
  cbv zeta. intros E cs id s n se d' s' t ks sz Hid Hne Hs Hn Hc Hp Hrot Hpr Hsz Hi Hk N1 N2 T1 T2.
  pose proof (c19 E cs se d' (Some s')) as H19. cbv zeta in H19. rewrite Hp in H19.
  destruct (H19 Hid Hpr) as (s2 & E1 & Hkel & _ & Hcs & _). injection E1 as <-.
  pose proof (run_process E cs _ _ _ Hpr) as Hrun. rewrite <- Hrun in Hkel, Hcs.
  set (l := log (run E db_empty cs) id) in *.
  destruct (c04_commit E (cs ++ [CProcess (MEvent se)]) id _ (List.length l) (mkSEM (sem_msg se) (sem_sigs se) None) Hid Hkel)
    as (e0 & kc0 & n0 & kc & Q1 & Q2 & Q3 & Q4 & Q5 & _).
  { rewrite nth_error_app2, Nat.sub_diag by apply le_n. reflexivity. }
  { exact Hrot. }
  destruct (c04_keys E (cs ++ [CProcess (MEvent se)]) id _ s' Hid Hkel) as (e & Hle & Hek); [apply not_eq_sym, app_cons_not_nil|exact Hcs|].
  unfold last_establishment, log_of in Hle. rewrite map_app, last_such_app in Hle.
  change (last_such is_establishment (map sem_msg [mkSEM (sem_msg se) (sem_sigs se) None]))
    with (if is_inception (sem_msg se) || is_rotation (sem_msg se) then Some (sem_msg se) else None) in Hle.
  rewrite Hrot, Bool.orb_true_r in Hle. injection Hle as <-. cbn [sem_msg] in Q4. rewrite Q4 in Hek. injection Hek as ->.
  rewrite firstn_app, Nat.sub_diag, firstn_all in Q1. cbn [firstn] in Q1. rewrite app_nil_r in Q1.
  destruct (get_kel (run E db_empty cs) id) as [kl|] eqn:Hkl.
  2:{ unfold l, log in Hne. rewrite Hkl in Hne. contradiction Hne. reflexivity. }
  assert (Hl : l = kl) by (unfold l, log; now rewrite Hkl).
  destruct (c04_keys E cs id kl s Hid Hkl) as (e1 & Hl1 & Hk1); [now rewrite <- Hl|exact Hs|].
  rewrite Hl in Q1. rewrite Hl1 in Q1. injection Q1 as <-. rewrite Hk1 in Q2. injection Q2 as <-. rewrite Hn in Q3. injection Q3 as <-.
  set (kc := st_current s') in *.
  assert (Heq : nxt_commitment E t ks (sap_code n) = nxt_commitment E (kc_threshold kc) (kc_keys kc) (sap_code n)).
  { assert (Hd : sap_digest n = sap_digest (commitment E (sap_code n) t ks)) by now rewrite <- Hc.
    cbn [sap_digest commitment] in Hd. rewrite !nxt_commitment_xor, <- Q5, <- Hd. reflexivity. }
  assert (Ht : threshold_str t = threshold_str (kc_threshold kc)).
  { apply (C17_threshold_partial E (sap_code n) sz _ _ ks (kc_keys kc)); auto; apply nodup_map_inj; auto;
      rewrite Forall_forall in Hk; intros x y Hx Hy; apply bp_str_inj; apply Hk, in_app_iff; auto. }
  split; [|now symmetry]. symmetry.
  apply (C17_distinct_keys_partial E (sap_code n) sz t ks (kc_keys kc)); auto.
  - intros l0 Hd Hin. apply Hi; [exact Hd|]. intros x Hx. specialize (Hin x Hx). apply in_app_iff in Hin.
    apply in_app_iff. destruct Hin; [left|right]; now right.
  - rewrite Heq. rewrite !nxt_commitment_xor. now rewrite Ht.
Qed.
Print Assumptions C88_committed_keys_partial.
(** What someone needs to extend a log by a rotation: the event can be written out. *)
Definition rotations_written (E : Env) : Prop :=
  forall m r, em_data m = Rot r -> (exists x, e_deriv_data E m = Ok x) /\ (exists ser, e_ser_event E m = Ok ser).
Definition can_sign (E : Env) (k : BasicPrefix) : Prop := forall msg, exists sg, sig_ok E k msg sg.
(** Refuted, first way.  Once the committed keys [ks] with a numeric threshold are known to
    somebody (the controller publishes them in its rotation), anyone can make a competing
    rotation, accepted wherever the controller's has not arrived yet, that also contains his
    key [k], [2 h] times; his signatures alone meet the threshold. *)
Theorem C88_refuted_revealed :
  forall E cs id s n h ks k sz,
    let d := run E db_empty cs in
    id <> id_default -> log d id <> [] -> compute_state E d id = Ok (Some s) -> st_delegator s = None ->
    kc_next (st_current s) = Some n -> computable (sap_code n) -> n = commitment E (sap_code n) (Simple h) ks ->
    digest_size E (sap_code n) sz -> rotations_written E -> can_sign E k ->
    exists m sigs ser d' s',
      process E d (MEvent (mkSEM m sigs None)) = (d', Ok (Some s'))
      /\ em_prefix m = id
      /\ kc_keys (st_current s') = repeat k (2 * N.to_nat h) ++ ks /\ kc_threshold (st_current s') = Simple h
      /\ e_ser_event E m = Ok ser /\ Forall (fun sg => sig_ok E k ser (asp_sig sg)) sigs.
Proof.
  cbv zeta. intros E cs id s n h ks k sz Hid Hne Hs Hdel Hn Hcm Hc Hsz Hw Hk.
  set (kc := mkKC (Simple h) (repeat k (2 * N.to_nat h) ++ ks) None).
  set (r := mkRot (st_last_digest s) kc (mkWC 0 [] []) []).
  set (m := mkEM info0 sap_default id (st_sn s + 1)%N (Rot r)).
  destruct (Hw m r eq_refl) as (Hx & ser & Hser). destruct (Hk ser) as (sg & Hsg).
  set (sigs := map (fun i => mkASP (N.of_nat i) sg) (seq 0 (N.to_nat h))).
  destruct (rotation_accepted E cs id s n m r sigs ser) as (d' & s' & Hp & Hcur); auto.
  - assert (Hd : sap_digest n = sap_digest (commitment E (sap_code n) (Simple h) ks)) by now rewrite <- Hc.
    assert (Hj : forall j, nxt_commitment E (Simple h) (repeat k (2 * j) ++ ks) (sap_code n) = nxt_commitment E (Simple h) ks (sap_code n)).
    { induction j as [|j IH]; [reflexivity|]. replace (2 * S j) with (S (S (2 * j))) by lia. cbn [repeat app].
      rewrite <- IH. apply c17_cancel. intros x y. now rewrite !Hsz. }
    specialize (Hj (N.to_nat h)). rewrite !nxt_commitment_xor in Hj. apply (f_equal sap_digest) in Hj. cbn [sap_digest] in Hj.
    unfold r, kc. cbn [rot_kc kc_threshold kc_keys]. rewrite Hj. exact Hd.
  - exact I.
  - exact I.
  - unfold satisfies. split; [|split].
    + cbn. unfold sigs. rewrite map_length, seq_length. lia.
    + unfold sigs. rewrite map_map. erewrite map_ext; [rewrite map_id; apply seq_NoDup|]. intros i. unfold index_of. cbn. apply Nat2N.id.
    + apply Forall_forall. intros a Ha. apply in_map_iff in Ha as (i & <- & Hi). apply in_seq in Hi. exists k. split; [|exact Hsg].
      unfold index_of. cbn [asp_index kc_keys rot_kc r kc]. rewrite Nat2N.id, nth_error_app1 by (rewrite repeat_length; lia).
      rewrite (nth_error_nth' _ k) by (rewrite repeat_length; lia). now rewrite nth_repeat.
  - exists m, sigs, ser, d', s'. rewrite Hcur. repeat split; auto.
    apply Forall_forall. intros a Ha. apply in_map_iff in Ha as (i & <- & Hi). exact Hsg.
Qed.
Print Assumptions C88_refuted_revealed.
(** Refuted, second way.  Somebody with [8 sz] keys of his own whose texts have independent
    digests ([sz] is the digest size: 256 keys for 32 bytes) knows nothing of the committed
    keys, and rotates the identifier to keys that are all his own. The last hypothesis says
    the commitment is not the digest of the text "1" alone, that is a commitment to no key. *)
Theorem C88_refuted_unrevealed :
  forall E cs id s n pool sz,
    let d := run E db_empty cs in
    id <> id_default -> log d id <> [] -> compute_state E d id = Ok (Some s) -> st_delegator s = None ->
    kc_next (st_current s) = Some n -> computable (sap_code n) -> List.length (sap_digest n) = sz ->
    digest_size E (sap_code n) sz -> rotations_written E -> Forall (can_sign E) pool ->
    NoDup (map bp_str pool) -> List.length pool = 8 * sz -> independent E (sap_code n) sz (map bp_str pool) ->
    sap_digest n <> e_digest E (sap_code n) (bstr "1") ->
    exists m sigs d' s',
      process E d (MEvent (mkSEM m sigs None)) = (d', Ok (Some s'))
      /\ em_prefix m = id
      /\ incl (kc_keys (st_current s')) pool /\ kc_threshold (st_current s') = Simple 1.
Proof.
  cbv zeta. intros E cs id s n pool sz Hid Hne Hs Hdel Hn Hcm Hlen Hsz Hw Hk Hnd Hl Hi Hone.
  destruct (span E (sap_code n) sz Hsz (map bp_str pool) (xor_bytes (sap_digest n) (e_digest E (sap_code n) (bstr "1"))))
    as (mk & Lm & Hv); auto; [now rewrite map_length|rewrite xor_bytes_len; [exact Hlen|now rewrite Hsz]|].
  rewrite sel_map in Hv. set (ks := sel mk pool) in *.
  assert (Hcom : sap_digest n = xor_all (e_digest E (sap_code n) (threshold_str (Simple 1)))
                           (map (fun k => e_digest E (sap_code n) (bp_str k)) ks)).
  { rewrite <- (map_map bp_str (e_digest E (sap_code n))), (X_start E _ sz Hsz), X_cons, Hv.
    change (threshold_str (Simple 1)) with (bstr "1"). symmetry. apply xor_bytes_self_cancel. now rewrite Hsz. }
  assert (Hks : exists k ks', ks = k :: ks').
  { destruct ks as [|k ks']; [|eauto]. exfalso. apply Hone. exact Hcom. }
  destruct Hks as (k & ks' & Hks).
  assert (Hink : In k pool) by (apply (sel_incl mk pool); fold ks; rewrite Hks; now left).
  set (kc := mkKC (Simple 1) ks None).
  set (r := mkRot (st_last_digest s) kc (mkWC 0 [] []) []).
  set (m := mkEM info0 sap_default id (st_sn s + 1)%N (Rot r)).
  destruct (Hw m r eq_refl) as (Hx & ser & Hser). rewrite Forall_forall in Hk. destruct (Hk k Hink ser) as (sg & Hsg).
  destruct (rotation_accepted E cs id s n m r [mkASP 0 sg] ser) as (d' & s' & Hp & Hcur); auto.
  - exact I.
  - exact I.
  - unfold satisfies. split; [cbn; lia|]. split; [repeat constructor; auto|]. constructor; [|constructor].
    exists k. split; [|exact Hsg]. unfold r, kc. cbn [rot_kc kc_keys]. now rewrite Hks.
  - exists m, [mkASP 0 sg], d', s'. rewrite Hcur. split; [exact Hp|]. split; [reflexivity|]. split; [apply sel_incl|reflexivity].
Qed.
Print Assumptions C88_refuted_unrevealed.

(** ** Hypotheses met *)
Example C17_distinct_keys_example :
  digest_size toy Blake3_256 32
  /\ independent toy Blake3_256 32 ((threshold_str (Simple 2) :: map bp_str [key x03; key x04; key x05])
                                    ++ threshold_str (Simple 2) :: map bp_str [key x04; key x05; key x03])
  /\ nxt_commitment toy (Simple 2) [key x03; key x04; key x05] Blake3_256
     = nxt_commitment toy (Simple 2) [key x04; key x05; key x03] Blake3_256.
Proof.
  apply conj; [intros x; apply toy_digest_len|].
  apply conj; [apply independent_by; vm_compute; reflexivity|vm_compute; reflexivity].
Qed.
Definition after_icp : list Call := [CProcess (MEvent s_icp)].
Definition alice_state : IdentifierState := state_of toy (run toy db_empty after_icp) alice.
Definition alice_next : SelfAddressingPrefix := match kc_next (st_current alice_state) with Some n => n | None => sap_default end.
Lemma toy_rotations : rotations_written toy.
Proof. intros m r _. cbn. eauto. Qed.
Lemma toy_can_sign b : can_sign toy (key b).
Proof. intros msg. exists (sig_over (key b) msg). left. cbn. split; [now left|]. split; [reflexivity|]. unfold toy_verify. apply bytes_eqb_refl. Qed.
Example C88_example :
  alice <> id_default /\ log (run toy db_empty after_icp) alice <> []
  /\ compute_state toy (run toy db_empty after_icp) alice = Ok (Some alice_state)
  /\ st_delegator alice_state = None
  /\ kc_next (st_current alice_state) = Some alice_next
  /\ computable (sap_code alice_next)
  /\ alice_next = commitment toy (sap_code alice_next) (Simple 2) [key x03; key x04].
Proof.
  apply conj; [vm_compute; discriminate|]. apply conj; [vm_compute; discriminate|].
  repeat (apply conj; [vm_compute; first [reflexivity|exact I]|]). vm_compute. reflexivity.
Qed.
(** the honest rotation: [C88_committed_keys_partial] applies to it *)
Example C88_committed_keys_example :
  (match process toy (run toy db_empty after_icp) (MEvent s_rot) with
   | (_, Ok (Some s')) =>
       independent_b toy (sap_code alice_next) 32
         ((threshold_str (Simple 2) :: map bp_str [key x03; key x04])
          ++ threshold_str (kc_threshold (st_current s')) :: map bp_str (kc_keys (st_current s')))
       && (if list_eq_dec BasicPrefix_eq_dec (kc_keys (st_current s')) [key x03; key x04] then true else false)
   | _ => false end) = true.
Proof. vm_compute. reflexivity. Qed.
(** Mallory, holding only key 66, takes Alice's identifier over *)
Example C88_revealed_example :
  exists m sigs ser d' s',
    process toy (run toy db_empty after_icp) (MEvent (mkSEM m sigs None)) = (d', Ok (Some s'))
    /\ em_prefix m = alice
    /\ kc_keys (st_current s') = repeat (key x66) 4 ++ [key x03; key x04] /\ kc_threshold (st_current s') = Simple 2
    /\ e_ser_event toy m = Ok ser /\ Forall (fun sg => sig_ok toy (key x66) ser (asp_sig sg)) sigs.
Proof.
  destruct C88_example as (H1 & H2 & H3 & H4 & H5 & Hcm & H6).
  exact (C88_refuted_revealed toy after_icp alice alice_state alice_next 2 [key x03; key x04] (key x66) 32
           H1 H2 H3 H4 H5 Hcm H6 (toy_digest_len _) toy_rotations (toy_can_sign x66)).
Qed.
(** Digests of one byte: the first byte of a key.  Eight keys of Mallory's reach every value. *)
Definition tiny_digest (c : SelfAddressing) (s : bytes) : bytes :=
  match bp_from s with Ok p => [hd x00 (bp_key p)] | _ => [xff] end.
Definition tiny : Env :=
  mkEnv tiny_digest toy_verify toy_verify (fun m => Ok (toy_ser m)) (fun e => Ok (toy_ser_signed e))
    (fun m => Ok (toy_deriv m)) (fun r => Ok (toy_ser_reply r)) (fun r => Ok (toy_deriv_reply r))
    (fun q => Ok (id_str (q_i q))).
Definition t_kc : KeyConfig := mkKC (Simple 1) [key x21] (Some (commitment tiny Blake3_256 (Simple 1) [key x37; key x59])).
Definition t_icp : EventMessage := mkEM info0 sap_default (IdBasic (key x21)) 0 (Icp (mkIcp t_kc (mkIWC 0 []) [] [])).
Definition t_calls : list Call := [CProcess (MEvent (signed t_icp [key x21] None))].
Definition t_id : IdentifierPrefix := IdBasic (key x21).
Definition t_state : IdentifierState := state_of tiny (run tiny db_empty t_calls) t_id.
Definition t_next : SelfAddressingPrefix := match kc_next (st_current t_state) with Some n => n | None => sap_default end.
Definition t_pool : list BasicPrefix := map key [x01; x02; x04; x08; x10; x20; x40; x80].
Example C88_unrevealed_example :
  exists m sigs d' s',
    process tiny (run tiny db_empty t_calls) (MEvent (mkSEM m sigs None)) = (d', Ok (Some s'))
    /\ em_prefix m = t_id
    /\ incl (kc_keys (st_current s')) t_pool /\ kc_threshold (st_current s') = Simple 1.
Proof.
  apply (C88_refuted_unrevealed tiny t_calls t_id t_state t_next t_pool 1).
  - vm_compute; discriminate.
  - vm_compute; discriminate.
  - vm_compute; reflexivity.
  - vm_compute; reflexivity.
  - vm_compute; reflexivity.
  - vm_compute; exact I.
  - vm_compute; reflexivity.
  - intros x. unfold tiny. cbn [e_digest]. unfold tiny_digest. destruct (bp_from x); reflexivity.
  - intros m r _. cbn. eauto.
  - apply Forall_forall. intros k Hk. apply in_map_iff in Hk as (b & <- & _). intros msg. exists (sig_over (key b) msg).
    left. cbn. split; [now left|]. split; [reflexivity|]. unfold toy_verify. apply bytes_eqb_refl.
  - assert (H : nodup bytes_eq_dec (map bp_str t_pool) = map bp_str t_pool) by (vm_compute; reflexivity).
    rewrite <- H. apply NoDup_nodup.
  - vm_compute; reflexivity.
  - apply independent_by. vm_compute. reflexivity.
  - vm_compute. discriminate.
Qed.
(** ... though the controller committed to two keys, neither of them Mallory's *)
Example C88_unrevealed_example_keys :
  t_next = commitment tiny Blake3_256 (Simple 1) [key x37; key x59] /\ ~ In (key x37) t_pool /\ ~ In (key x59) t_pool.
Proof. apply conj; [vm_compute; reflexivity|]. apply conj; apply not_in_by; vm_compute; reflexivity. Qed.
