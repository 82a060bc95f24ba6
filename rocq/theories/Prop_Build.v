(** * Prop_Build: the event builder (C86, C87).

    [build_with E K t pk npk l]: [EventMsgBuilder::new(t)], the setters [l] in order, [build()];
    [pk], [npk] are the key pairs [new] generates.  [SpecBuild.v] says what the user asked for. *)
From Verif Require Import Base Base64 Codes NumFmt Types KeyConf SpecSig State Db Processor Cesr Message Keri Builder
  Spec SpecProc SpecRules SpecBuild StateProofs LogProofs LogTheorems LogTheorems2 SigProofs ProcProofs ProcProofs2
  AcceptProofs BuildProofs Prop_Accept Demo Prop_Keri.

(** ** C86: a built event says what the builder was told *)
(** Full claim: kind, sequence number, previous digest, keys, thresholds, commitment, delegator,
    prefix, seals and witnesses.  Missing: the seals of inceptions, the witnesses of delegated
    events (they are dropped: [C86_refuted_*]). *)
Theorem C86_built_event_says_what_was_asked_partial :
  forall E K t pk npk l m,
    build_with E K t pk npk l = Ok m ->
    kind_of m = t
    /\ (is_inception m = true -> em_sn m = 0%N)
    /\ (is_inception m = false ->
          (forall n, asked_sn l = Some n -> em_sn m = n)
          /\ (forall g, asked_previous l = Some g -> prev_digest m = Some g)
          /\ (forall p, asked_prefix l = Some p -> p <> id_default -> em_prefix m = p)
          /\ seals_of m = asked_seals l)
    /\ (forall kc, est_keys m = Some kc ->
          (forall ks, asked_keys l = Some ks -> kc_keys kc = ks)
          /\ (forall h, asked_threshold l = Some h -> kc_threshold kc = h)
          /\ (forall ks h, asked_next_keys l = Some ks -> asked_next_threshold l = Some h ->
                kc_next kc = Some (commitment E Blake3_256 h ks)))
    /\ (t = TDip -> forall p, asked_delegator l = Some p -> named_delegator m = Some p)
    /\ (t = TIcp -> forall ws, asked_witnesses l = Some ws -> initial_witnesses m = ws)
    /\ (t = TIcp -> forall k, asked_prefix l = Some (IdBasic k) -> em_prefix m = IdBasic k)
    /\ (t = TRot -> (forall ws, asked_add l = Some ws -> added_witnesses m = ws)
                    /\ (forall ws, asked_remove l = Some ws -> removed_witnesses m = ws)).
Proof.
  intros E K t pk npk l m H. destruct (build_with_inv E K t pk npk l m H) as (Hk & Hm). split; [exact Hk|].
  unfold is_inception, prev_digest, seals_of, est_keys, named_delegator, initial_witnesses, added_witnesses, removed_witnesses.
  assert (Hnx : forall kc, asked_kc E pk npk l = kc ->
          (forall ks, asked_keys l = Some ks -> kc_keys kc = ks)
          /\ (forall h, asked_threshold l = Some h -> kc_threshold kc = h)
          /\ (forall ks h, asked_next_keys l = Some ks -> asked_next_threshold l = Some h ->
                kc_next kc = Some (commitment E Blake3_256 h ks))).
  { intros kc <-. unfold asked_kc. cbn [kc_keys kc_threshold kc_next].
    split; [intros ks ->; reflexivity|]. split; [intros h ->; reflexivity|]. intros ks h -> ->. reflexivity. }
  destruct t; try contradiction.
  - destruct Hm as (H1 & H2 & H3 & _). rewrite H2. split; [auto|]. split; [discriminate|].
    split; [intros kc Hc; injection Hc as Hc; now apply Hnx|]. split; [discriminate|].
    split; [intros _ ws ->; reflexivity|]. split; [|discriminate]. intros _ k Hp. rewrite H3, Hp. reflexivity.
  - destruct Hm as (H1 & H2 & H3). rewrite H2. split; [discriminate|]. split.
    { intros _. split; [intros n Hn; now rewrite H1, Hn|]. split; [intros g Hg; cbn; now rewrite Hg|]. split; [|reflexivity].
      intros p Hp Hne. rewrite Hp in H3. now apply H3. }
    split; [intros kc Hc; injection Hc as Hc; now apply Hnx|]. split; [discriminate|].
    split; [discriminate|]. split; [discriminate|]. intros _. split; intros ws Hw; cbn; now rewrite Hw.
  - destruct Hm as (H1 & H2 & H3). rewrite H2. split; [discriminate|]. split.
    { intros _. split; [intros n Hn; now rewrite H1, Hn|]. split; [intros g Hg; cbn; now rewrite Hg|]. split; [|reflexivity].
      intros p Hp Hne. rewrite Hp in H3. now apply H3. }
    split; [discriminate|]. split; [discriminate|]. split; [discriminate|]. split; discriminate.
  - destruct Hm as (H1 & H2 & H3). rewrite H2. split; [auto|]. split; [discriminate|].
    split; [intros kc Hc; injection Hc as Hc; now apply Hnx|]. split; [intros _ p Hp; cbn; now rewrite Hp|].
    split; [discriminate|]. split; discriminate.
  - destruct Hm as (H1 & H2 & H3). rewrite H2. split; [discriminate|]. split.
    { intros _. split; [intros n Hn; now rewrite H1, Hn|]. split; [intros g Hg; cbn; now rewrite Hg|]. split; [|reflexivity].
      intros p Hp Hne. rewrite Hp in H3. now apply H3. }
    split; [intros kc Hc; injection Hc as Hc; now apply Hnx|]. split; [discriminate|]. split; [discriminate|]. split; discriminate.
Qed.
Print Assumptions C86_built_event_says_what_was_asked_partial.
(** The seals given for an inception are dropped, always. *)
Theorem C86_refuted_inception_seals :
  forall E K t pk npk l m,
    t = TIcp \/ t = TDip -> build_with E K t pk npk l = Ok m -> seals_of m = [].
Proof.
  intros E K t pk npk l m Ht H. destruct (build_with_inv E K t pk npk l m H) as (_ & Hm). unfold seals_of.
  destruct Ht as [-> | ->]; destruct Hm as (_ & -> & _); reflexivity.
Qed.
Print Assumptions C86_refuted_inception_seals.
(** The witnesses given for a delegated event are dropped, always. *)
Theorem C86_refuted_delegated_witnesses :
  forall E K t pk npk l m,
    t = TDip \/ t = TDrt -> build_with E K t pk npk l = Ok m ->
    initial_witnesses m = [] /\ added_witnesses m = [] /\ removed_witnesses m = [].
Proof.
  intros E K t pk npk l m Ht H. destruct (build_with_inv E K t pk npk l m H) as (_ & Hm).
  unfold initial_witnesses, added_witnesses, removed_witnesses.
  destruct Ht as [-> | ->]; destruct Hm as (_ & -> & _); auto.
Qed.
Print Assumptions C86_refuted_delegated_witnesses.
(** No built event requires a single witness receipt: its witness threshold is 0. *)
Theorem C86_refuted_witness_threshold :
  forall E K t pk npk l m, build_with E K t pk npk l = Ok m -> spec_tally 0 m = 0%N.
Proof.
  intros E K t pk npk l m H. destruct (build_with_inv E K t pk npk l m H) as (_ & Hm).
  unfold spec_tally. destruct t; try contradiction; destruct Hm as (_ & -> & _); reflexivity.
Qed.
Print Assumptions C86_refuted_witness_threshold.
(** Without a prefix, a single key makes a basic identifier, several keys the event's digest. *)
Theorem C86_inception_prefix :
  forall E K pk npk l ks m,
    build_with E K TIcp pk npk l = Ok m -> asked_prefix l = None -> asked_keys l = Some ks ->
    em_prefix m = match ks with [k] => IdBasic k | _ => IdSelfAddressing (em_digest m) end.
Proof.
  intros E K pk npk l ks m H Hp Hk. destruct (build_with_inv E K TIcp pk npk l m H) as (_ & _ & _ & Hx & _).
  rewrite Hp, Hk in Hx. cbn in Hx. exact Hx.
Qed.
Print Assumptions C86_inception_prefix.

(** ** C87: events built from the key state and signed by enough of its keys are accepted *)
(** The keys in force once an event of this kind is accepted. *)
Definition keys_after (s : IdentifierState) (m : EventMessage) : KeyConfig :=
  match est_keys m with Some kc => kc | None => st_current s end.
Theorem C87_next_event_is_accepted :
  forall E K cs id s t pk npk l m sigs src ser,
    let d := run E db_empty cs in
    let logs := fun i => log_of (log d i) in
    id <> id_default -> log d id <> [] -> compute_state E d id = Ok (Some s) ->
    (forall p, st_delegator s = Some p -> p <> id_default) ->
    t = TRot \/ t = TIxn \/ t = TDrt ->
    build_with E K t pk npk l = Ok m ->
    (exists x, e_deriv_data E m = Ok x) -> e_ser_event E m = Ok ser ->
    asked_prefix l = Some id -> asked_sn l = Some (st_sn s + 1)%N -> asked_previous l = Some (st_last_digest s) ->
    (t <> TIxn -> exists n ks h, kc_next (st_current s) = Some n /\ asked_keys l = Some ks /\ asked_threshold l = Some h
                   /\ n = commitment E (sap_code n) h ks /\ computable (sap_code n)) ->
    (t = TRot -> st_delegator s = None) ->
    (t = TDrt -> st_delegator s <> None /\ anchored E logs (logs id) (mkSEM m sigs src)) ->
    rational_threshold (kc_threshold (keys_after s m)) -> in_single (kc_threshold (keys_after s m)) sigs ->
    satisfies E (keys_after s m) ser sigs ->
    exists d' s', process E d (MEvent (mkSEM m sigs src)) = (d', Ok (Some s')).
Proof.
  cbv zeta. intros E K cs id s t pk npk l m sigs src ser Hid Hne Hs Hdn Ht Hb Hx Hser Hp Hsn Hpr Hcom Hrot Hdrt Hrat Hin Hsat.
  set (d := run E db_empty cs) in *.
  assert (Hk : exists kl, get_kel d id = Some kl).
  { unfold log in Hne. destruct (get_kel d id); [eauto|]. contradiction Hne. reflexivity. }
  destruct Hk as (kl & Hkl). destruct (reach_good E cs _ _ Hid Hkl) as (s' & Hg & Hc). fold d in Hc. rewrite Hs in Hc. injection Hc as <-.
  assert (Hl : log d id = kl) by (unfold log; now rewrite Hkl). rewrite Hl in *.
  destruct (build_with_inv E K t pk npk l m Hb) as (Hkind & Hm).
  assert (Hm' : em_sn m = (st_sn s + 1)%N /\ prev_digest m = Some (st_last_digest s) /\ em_prefix m = id /\ is_inception m = false
                /\ (is_rotation m = true <-> t <> TIxn) /\ (is_delegated m = true <-> t = TDrt)
                /\ (t <> TIxn -> est_keys m = Some (asked_kc E pk npk l)) /\ (t = TIxn -> est_keys m = None)
                /\ match em_data m with Rot _ => t = TRot | Drt _ => t = TDrt | _ => t = TIxn end).
  { rewrite Hp, Hsn, Hpr in Hm. cbn [or_else] in Hm. unfold prev_digest, is_inception, is_rotation, is_delegated, est_keys.
    destruct Ht as [-> |[-> | ->]]; destruct Hm as (M1 & M2 & M3); rewrite M2;
      (split; [exact M1|]); (split; [reflexivity|]); (split; [now apply M3|]); (split; [reflexivity|]);
      repeat apply conj; try reflexivity; intros Hz; try discriminate; try reflexivity; try congruence; exfalso; apply Hz; reflexivity. }
  destruct Hm' as (M1 & M2 & M3 & M4 & M5 & M6 & M7 & M8 & M9).
  destruct (good_log_shape _ _ _ _ Hid Hg) as (_ & Hsh & _).
  destruct kl as [|f kl]; [contradiction|].
  destruct (rev (f :: kl)) as [|y r] eqn:Hr; [now apply rev_nil_inv in Hr|]. destruct Hsh as (Q1 & Q2 & Q3).
  destruct (good_deleg E id _ _ f Hid Hg eq_refl) as (Hdel & _).
  destruct (good_keys E id _ _ Hid Hg ltac:(discriminate)) as (e0 & He0 & Hk0).
  assert (Hkif : keys_in_force (log_of (f :: kl)) m = Some (keys_after s m)).
  { unfold keys_in_force, keys_after, last_establishment. rewrite last_such_app.
    change (last_such is_establishment [m]) with (if is_inception m || is_rotation m then Some m else None).
    rewrite M4. cbn [orb]. destruct (is_rotation m) eqn:Hir.
    - rewrite (M7 (proj1 M5 eq_refl)). reflexivity.
    - unfold last_establishment in He0. rewrite He0. rewrite M8; [exact Hk0|].
      destruct Ht as [-> |[-> | ->]]; try reflexivity; discriminate (proj2 M5 ltac:(discriminate)). }
  pose proof (accept_iff E cs (mkSEM m sigs src)) as Ha. cbv zeta in Ha. cbn [sem_msg] in Ha. fold d in Ha. rewrite M3, Hl in Ha.
  apply Ha; clear Ha; [exact Hid| |exact Hx| |].
  - cbn. rewrite <- Hdel. exact Hdn.
  - intros kc Hkc. rewrite Hkif in Hkc. injection Hkc as <-. exact Hrat.
  - unfold acceptable. cbn [sem_msg]. rewrite M3, Hl, M4. split; [|split].
    + exists (sem_msg f), (sem_msg y). split; [reflexivity|]. split; [rewrite last_event_rev, rev_log_of, Hr; reflexivity|].
      split; [unfold log_of; rewrite map_length; lia|]. split; [congruence|]. split.
      * intros Hir. exists e0. split; [exact He0|]. apply M5 in Hir.
        destruct (Hcom Hir) as (n & ks & h & C1 & C2 & C3 & C4 & C5).
        exists (st_current s), n, (asked_kc E pk npk l). split; [exact Hk0|]. split; [exact C1|]. split; [now apply M7|]. split; [exact C5|].
        unfold asked_kc. rewrite C2, C3. cbn [kc_threshold kc_keys or_else]. rewrite C4 at 1. reflexivity.
      * rewrite <- Hdel. destruct (em_data m); auto. exact (proj1 (Hdrt M9)).
    + intros Hd. apply M6 in Hd. pose proof (proj2 (Hdrt Hd)) as Hd'. cbv beta in Hd'. rewrite Hl in Hd'. exact Hd'.
    + exists (keys_after s m), ser. cbn [sem_msg sem_sigs]. auto.
Qed.
Print Assumptions C87_next_event_is_accepted.
(** The first event: any keys and thresholds, as long as the identifier is new. *)
Theorem C87_inception_is_accepted :
  forall E K cs pk npk l m sigs src ser ks h,
    let d := run E db_empty cs in
    build_with E K TIcp pk npk l = Ok m ->
    asked_prefix l = None -> asked_keys l = Some ks -> asked_threshold l = Some h ->
    em_prefix m <> id_default -> log d (em_prefix m) = [] ->
    (exists x, e_deriv_data E m = Ok x) -> e_ser_event E m = Ok ser ->
    rational_threshold h -> in_single h sigs -> satisfies E (keys_after state_default m) ser sigs ->
    exists d' s', process E d (MEvent (mkSEM m sigs src)) = (d', Ok (Some s')).
Proof.
  cbv zeta. intros E K cs pk npk l m sigs src ser ks h Hb Hp Hk Hh Hid Hl Hx Hser Hrat Hin Hsat.
  pose proof (C86_inception_prefix E K pk npk l ks m Hb Hp Hk) as Hpre.
  destruct (build_with_inv E K TIcp pk npk l m Hb) as (_ & M1 & M2 & _).
  assert (Hkc : est_keys m = Some (asked_kc E pk npk l)) by (unfold est_keys; now rewrite M2).
  assert (Hi : is_inception m = true) by (unfold is_inception; now rewrite M2).
  assert (Ht : kc_threshold (asked_kc E pk npk l) = h) by (unfold asked_kc; now rewrite Hh).
  assert (Hkif : keys_in_force [] m = Some (asked_kc E pk npk l)).
  { unfold keys_in_force, last_establishment. cbn. unfold is_establishment. rewrite Hi. cbn. exact Hkc. }
  unfold keys_after in Hsat. rewrite Hkc in Hsat.
  pose proof (accept_iff E cs (mkSEM m sigs src)) as Ha. cbv zeta in Ha. cbn [sem_msg] in Ha. rewrite Hl in Ha.
  apply Ha; clear Ha; [exact Hid| |exact Hx| |].
  - intros p. cbn. unfold named_delegator. rewrite M2. discriminate.
  - intros kc Hc. cbn [log_of map] in Hc. rewrite Hkif in Hc. injection Hc as <-. rewrite Ht. exact Hrat.
  - unfold acceptable. cbn [sem_msg]. rewrite Hl, Hi. split; [|split].
    + split; [reflexivity|]. split; [exact M1|]. unfold names_itself. rewrite M2, Hpre.
      cbn [icp_kc]. unfold asked_kc. rewrite Hk. cbn [kc_keys or_else].
      destruct ks as [|k [|k2 r]]; reflexivity.
    + unfold is_delegated. rewrite M2. discriminate.
    + exists (asked_kc E pk npk l), ser. cbn [sem_msg sem_sigs log_of map]. rewrite Ht. auto.
Qed.
Print Assumptions C87_inception_is_accepted.
(** The commitment needed for a rotation is there when the last establishment event was built
    with those next keys and that next threshold. *)
Theorem C87_commitment_made_by_builder :
  forall E K cs id s e0 t0 pk0 npk0 l0 ks h,
    let d := run E db_empty cs in
    id <> id_default -> log d id <> [] -> compute_state E d id = Ok (Some s) ->
    last_establishment (log_of (log d id)) = Some e0 -> build_with E K t0 pk0 npk0 l0 = Ok e0 ->
    asked_next_keys l0 = Some ks -> asked_next_threshold l0 = Some h ->
    kc_next (st_current s) = Some (commitment E Blake3_256 h ks).
Proof.
  cbv zeta. intros E K cs id s e0 t0 pk0 npk0 l0 ks h Hid Hne Hs He Hb Hk Hh.
  assert (Hkl : exists kl, get_kel (run E db_empty cs) id = Some kl).
  { unfold log in Hne. destruct (get_kel (run E db_empty cs) id); [eauto|]. contradiction Hne. reflexivity. }
  destruct Hkl as (kl & Hkl). destruct (reach_good E cs _ _ Hid Hkl) as (s' & Hg & Hc). rewrite Hs in Hc. injection Hc as <-.
  unfold log in Hne, He. rewrite Hkl in Hne, He. cbn [olist] in Hne, He.
  destruct (good_keys E id _ _ Hid Hg Hne) as (e & He' & Hke). rewrite He in He'. injection He' as <-.
  destruct (C86_built_event_says_what_was_asked_partial _ _ _ _ _ _ _ Hb) as (_ & _ & _ & H & _).
  destruct (H _ Hke) as (_ & _ & H'). now apply H'.
Qed.
Print Assumptions C87_commitment_made_by_builder.

(** Two keys with weights 1/2 and 1/2 incept; three keys, one of them enough, take over and
    anchor a seal. Every step is built, signed and accepted. *)
Definition half : SignatureThreshold := Weighted (WSingle [frac_new 1 2; frac_new 1 2]).
Definition g_sig (i : N) (b : byte) (m : EventMessage) : AttachedSignaturePrefix :=
  mkASP i (mkSSP Ed25519Sha512 (repeat b 32 ++ toy_digest Blake3_256 (of_ok [] (e_ser_event etoy m)))).
Definition g_dummy : EventMessage := a_icp.
Definition g_set1 : list Setting :=
  [SKeys [key x31; key x32]; SThreshold half; SNextKeys [key x33; key x34; key x35]; SNextThreshold (Simple 1); SWitnesses [wit x36]].
Definition g_icp : EventMessage := of_ok g_dummy (build_with etoy ktoy TIcp (repeat x01 32) (repeat x02 32) g_set1).
Definition s_g_icp : SignedEventMessage := mkSEM g_icp [g_sig 0 x31 g_icp; g_sig 1 x32 g_icp] None.
Definition group : IdentifierPrefix := em_prefix g_icp.
Definition g_set2 : list Setting :=
  [SPrefix group; SSn 1; SPrevious (em_digest g_icp); SKeys [key x33; key x34; key x35]; SThreshold (Simple 1);
   SNextKeys [key x37]; SNextThreshold (Simple 1); SSeals [SealDigest (em_digest g_icp)]; SRemove [wit x36]; SAdd [wit x38]].
Definition g_rot : EventMessage := of_ok g_dummy (build_with etoy ktoy TRot (repeat x01 32) (repeat x02 32) g_set2).
Definition s_g_rot : SignedEventMessage := mkSEM g_rot [g_sig 2 x35 g_rot] None.
Example C86_example :
  build_with etoy ktoy TIcp (repeat x01 32) (repeat x02 32) g_set1 = Ok g_icp
  /\ build_with etoy ktoy TRot (repeat x01 32) (repeat x02 32) g_set2 = Ok g_rot
  /\ asked_sn g_set2 = Some 1%N /\ seals_of g_rot = [SealDigest (em_digest g_icp)].
Proof. repeat (apply conj; [vm_compute; reflexivity|]). vm_compute. reflexivity. Qed.
Example C87_example :
  accepted etoy [] s_g_icp = true /\ accepted etoy [CProcess (MEvent s_g_icp)] s_g_rot = true
  /\ accepted etoy [] (mkSEM g_icp [g_sig 0 x31 g_icp] None) = false
  /\ (match compute_state etoy (run etoy db_empty [CProcess (MEvent s_g_icp)]) group with
      | Ok (Some s) => (st_sn s =? 0)%N && (if SAP_eq_dec (st_last_digest s) (em_digest g_icp) then true else false)
      | _ => false end) = true.
Proof. repeat (apply conj; [vm_compute; reflexivity|]). vm_compute. reflexivity. Qed.
