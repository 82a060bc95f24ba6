(** * The events that a controller makes itself: C118, C119. *)
From Coq Require Import ZifyBool ZifyN ZifyNat.
From Verif Require Import Base Base64 Codes NumFmt Types KeyConf SpecCodec CodecProofs Version Cesr SpecCesr Message
  Keri Json JsonRead SpecJson JsonProofs5 Prop_Codec Prop_Message Prop_Json Prop_Json2 Prop_Json3 Prop_JsonQ
  State Db Processor Spec SpecProc SpecHistory LogProofs ProcProofs ProcProofs2 Prop_State Prop_Proc SpecKeri KeriProofs KeriProofs2 Prop_Keri SpecRespond RespondProofs Prop_Respond HandshakeProofs
  Prop_Handshake Cbor EventStore SpecEventStore EventStoreProofs Prop_EventStore SpecOwn OwnProofs Demo.

Lemma life_start E0 K0 cs b extra ws k0 se0 ops : let E := with_json E0 in let K := with_json_k K0 in
  crypto_sized E K -> sized_life E K cs b extra ws k0 se0 ops ->
  sound se0 /\ data_seals (em_data (sem_msg se0)) = [] /\ Own E0 K0 k0 [stored se0] /\ em_prefix (sem_msg se0) = k_prefix k0
  /\ (exists s, process_event E (run E db_empty cs) se0 = (k_db k0, Ok s))
  /\ exists evs, snd (operate E K k0 ops) = map Ok evs /\ Forall sound evs
      /\ (Forall no_payload ops -> Forall (fun e => data_seals (em_data (sem_msg e)) = []) evs)
      /\ Own E0 K0 (fst (operate E K k0 ops)) ([stored se0] ++ map stored evs) /\ k_prefix (fst (operate E K k0 ops)) = k_prefix k0
      /\ Forall (fun e => em_prefix (sem_msg e) = k_prefix k0) evs
      /\ (Forall own_op ops -> exists oks, run_v E (k_db k0) evs = (k_db (fst (operate E K k0 ops)), map Ok oks)).
Proof.
  intros E K [Hd Hs] (W1 & W2 & Bx & He & Hw & Hl & Hi & Hno & Ho & Hz & Hn).
  destruct (incept_own E0 K0 Hd Hs cs b extra ws k0 se0 W1 W2 Bx He Hw Hl Hi Hno) as (A1 & A2 & A3 & A4).
  assert (Hd' : extra <> [] -> forall msg, e_digest E Blake3_256 msg <> []) by (intros _ msg H; specialize (Hd msg); rewrite H in Hd; discriminate).
  destruct (careful_start E K cs b extra ws k0 se0 (json_events_serialize E0 K0) W1 W2 Hd' Hi Hno) as (_ & Hp & _).
  split; [exact A1|]. split; [exact A2|]. split; [exact A3|]. split; [now symmetry|]. split; [exact A4|].
  apply (operate_own E0 K0 Hd Hs ops k0 [stored se0] A3 Ho Hz). unfold u64. cbn [List.length]. lia.
Qed.

(** ** C118: everything a controller makes can be sent, read and stored *)
(** Whatever a controller with keys of the right size does, for whatever payloads, and whatever
    others do to its database meanwhile: no call fails, and each event it makes is sound. *)
Theorem C118_own_events_are_sound :
  forall (E0 : Env) (K0 : KEnv), let E := with_json E0 in let K := with_json_k K0 in
  forall (cs : list Call) (b : CryptoBox) (extra ws : list BasicPrefix) (k0 : Keri) (se0 : SignedEventMessage) (ops : list Op),
    crypto_sized E K -> sized_life E K cs b extra ws k0 se0 ops ->
    exists evs, snd (operate E K k0 ops) = map Ok evs /\ Forall sound (se0 :: evs)
      /\ (Forall no_payload ops -> Forall (fun e => data_seals (em_data (sem_msg e)) = []) (se0 :: evs))
      /\ log (k_db (fst (operate E K k0 ops))) (k_prefix (fst (operate E K k0 ops))) = se0 :: evs.
Proof.
  intros E0 K0 E K cs b extra ws k0 se0 ops Hc Hl. destruct (life_start E0 K0 cs b extra ws k0 se0 ops Hc Hl) as (A1 & A2 & _ & _ & _ & evs & B1 & B2 & B3 & B4 & _).
  exists evs. split; [exact B1|]. split; [constructor; assumption|]. split; [intros HF; constructor; [exact A2|now apply B3]|].
  destruct B4 as [[_ Hlog _ _ _ _] _ _ _]. unfold log. fold E in Hlog. fold K in Hlog. rewrite Hlog. cbn [olist app].
  assert (St : forall e, sound e -> stored e = e) by (intros [m s o] (_ & _ & _ & Q & _); cbn [sem_seal] in Q; now subst o).
  change (stored se0 :: map stored evs) with (map stored (se0 :: evs)). clear - A1 B2 St. assert (F : Forall sound (se0 :: evs)) by (constructor; assumption).
  induction F as [|e l He _ IH]; [reflexivity|]. cbn [map]. now rewrite IH, (St e He).
Qed.
Print Assumptions C118_own_events_are_sound.

Lemma sound_storable se : sound se -> storable se.
Proof.
  intros ((V & D & I & N & Dk & Dd & Di & Dn & Dt & Ds) & _ & _ & _ & sig & Sg & Ls). split.
  - split; [exact V|]. split; [now apply as_sap_stable|]. split; [now apply as_id_stable|]. split; [exact N|].
    split; [eapply Forall_impl; [|exact Dk]; intros p [P1 P2]; now apply c41|]. split; [eapply Forall_impl; [|exact Dd]; intros p; apply as_sap_stable|].
    split; [eapply Forall_impl; [|exact Di]; intros p; apply as_id_stable|]. auto.
  - rewrite Sg. constructor; [|constructor]. apply c45; [exact Ls|reflexivity].
Qed.
Lemma sound_sendable se : sound se -> data_seals (em_data (sem_msg se)) = [] -> sendable se.
Proof.
  intros (R & J & C & Q & sig & Sg & Ls) Hd. split; [exact R|]. split; [exact J|]. split; [exact Hd|]. split; [rewrite C; constructor|]. rewrite Sg.
  split; [|split; [|exact Q]].
  - cbn [att_fits List.length]. unfold counted. split; [apply Nat.ltb_lt; reflexivity|]. constructor; [|constructor]. unfold sig_fits, asp_sized. cbn [asp_sig ssp_code ssp_sig asp_index]. split; [exact Ls|reflexivity].
  - cbn [att_small List.length]. unfold small. split; [apply Nat.ltb_lt; reflexivity|]. constructor; [reflexivity|constructor].
Qed.
(** A sound event can be stored, its text reads back to it whatever follows, and if it anchors
    nothing the whole signed message reads back. *)
Theorem C118_sound_events_travel :
  forall (hx : bytes -> option N) (bk : bytes -> pres EventMessage) (br : bytes -> pres ReceiptMessage),
    reads_hex hx -> refuses_text bk -> refuses_text br ->
  forall (E0 : Env) (se : SignedEventMessage), sound se ->
    storable se
    /\ (exists t, e_ser_event (with_json E0) (sem_msg se) = Ok t /\ forall rest, read_event_type hx bk br (t ++ rest) = POk rest (KeyEventT (sem_msg se)))
    /\ (data_seals (em_data (sem_msg se)) = [] -> sendable se).
Proof.
  intros hx bk br H1 H2 H3 E0 se S. split; [exact (sound_storable se S)|]. split; [|exact (sound_sendable se S)].
  destruct S as (R & J & _). assert (T : exists t, e_ser_event (with_json E0) (sem_msg se) = Ok t) by (cbn [e_ser_event with_json]; rewrite J; eexists; reflexivity).
  destruct T as [t Ht]. exists t. split; [exact Ht|]. intros rest. exact (C76_event_round_trip_partial hx bk br H1 H2 H3 E0 (sem_msg se) t rest R J Ht).
Qed.
Print Assumptions C118_sound_events_travel.

Lemma run_v_quiet E l : forall d oks d', run_v E d l = (d', map Ok oks) -> quiet E d (ProcProofs2.submit l) = true /\ run E d (ProcProofs2.submit l) = d'.
Proof.
  induction l as [|e l IH]; intros d oks d' H; [cbn [run_v] in H; split; [reflexivity|]; cbn; congruence|].
  cbn [run_v] in H. unfold ProcProofs2.submit. cbn [map quiet run fold_left]. destruct (process_event E d e) as [d1 o] eqn:P. destruct (run_v E d1 l) as [d2 os] eqn:R.
  destruct oks as [|x oks]; [cbn [map] in H; congruence|]. cbn [map] in H. assert (Eo : o = Ok x /\ os = map Ok oks /\ d2 = d') by (split; [congruence|split; congruence]). destruct Eo as (-> & -> & ->).
  destruct (IH d1 oks d' R) as [Q1 Q2]. unfold panics. cbn [process call]. rewrite P. cbn [omap obind snd fst is_panic negb andb]. split; [exact Q1|exact Q2].
Qed.
(** two controllers that know only themselves *)
Definition alone (E : Env) (K : KEnv) (k : Keri) (l : list SignedEventMessage) : Prop :=
  exists b extra ws k0 se0 ops evs,
    sized_life E K [] b extra ws k0 se0 ops /\ Forall own_op ops /\ Forall no_payload ops
    /\ operate E K k0 ops = (k, map Ok evs) /\ l = se0 :: evs.
Lemma alone_meets E0 K0 k l : let E := with_json E0 in let K := with_json_k K0 in
  crypto_sized E K -> alone E K k l ->
  careful E K k /\ undisturbed E k /\ log (k_db k) (k_prefix k) = l /\ Forall sendable l /\ forall id, id <> k_prefix k -> log (k_db k) id = [].
Proof.
  intros E K Hc (b & extra & ws & k0 & se0 & ops & evs & Hl & Ho & Hn & Hop & ->).
  destruct (C118_own_events_are_sound E0 K0 [] b extra ws k0 se0 ops Hc Hl) as (evs' & A1 & A2 & A3 & A4). fold E in A1, A4. fold K in A1, A4.
  destruct (life_start E0 K0 [] b extra ws k0 se0 ops Hc Hl) as (_ & _ & _ & Hp0 & (s0 & P0) & evs2 & B1 & _ & _ & _ & B5 & B6 & B7). fold E in P0, B1, B5, B7. fold K in B1, B5, B7.
  assert (Inj : forall x y : list SignedEventMessage, map (@Ok SignedEventMessage) x = map Ok y -> x = y).
  { induction x as [|a x IH]; intros [|c y] H; try reflexivity; try discriminate H. cbn [map] in H. f_equal; [congruence|apply IH; congruence]. }
  rewrite Hop in *. cbn [fst snd] in *. apply Inj in A1, B1. subst evs' evs2. destruct (B7 Ho) as (oks & Rv). clear B7.
  assert (V : run_v E db_empty (se0 :: evs) = (k_db k, map Ok (s0 :: oks))).
  { cbn [run_v]. change (run E db_empty []) with db_empty in P0. rewrite P0, Rv. reflexivity. }
  destruct (run_v_quiet E (se0 :: evs) db_empty _ _ V) as [Q R].
  split; [|split; [|split; [|split]]].
  - destruct Hl as (W1 & W2 & _ & _ & _ & _ & Hi & Hno & Hok & _). exists [], b, extra, ws, k0, se0, ops.
    split; [apply json_events_serialize|]. split; [exact W1|]. split; [exact W2|]. split; [intros _ msg H; destruct Hc as [Hd _]; specialize (Hd msg); rewrite H in Hd; discriminate|].
    split; [exact Hi|]. split; [exact Hno|]. split; [exact Hok|]. fold E. fold K. now rewrite Hop.
  - exists (ProcProofs2.submit (se0 :: evs)). split; [exact Q|]. now rewrite R.
  - exact A4.
  - specialize (A3 Hn). clear - A2 A3. induction A2 as [|e l He _ IH]; [constructor|]. apply Forall_cons_iff in A3 as [S1 S2]. constructor; [now apply sound_sendable|now apply IH].
  - intros id Hid. rewrite <- R. unfold log. rewrite (run_submit_other E (se0 :: evs) db_empty (k_prefix k) id); [reflexivity| |exact Hid].
    intros e [<-|He]; [congruence|]. rewrite Forall_forall in B6. rewrite (B6 e He). congruence.
Qed.
(** C113 without conditions on what they have: any two controllers that were incepted and then
    rotated and interacted any number of times, each on its own, meet with three messages. *)
Theorem C118_strangers_meet :
  forall (hx : bytes -> option N) (bk : bytes -> pres EventMessage) (br : bytes -> pres ReceiptMessage),
    reads_hex hx -> refuses_text bk -> refuses_text br ->
  forall (E0 : Env) (K0 : KEnv), let E := with_json E0 in let K := with_json_k K0 in
    k_parse K = read_event_type hx bk br -> (forall m x, e_ser_event E0 m <> Err x) -> crypto_sized E K ->
  forall (a b : Keri) (la lb : list SignedEventMessage), let alice := k_prefix a in let bob := k_prefix b in
    alone E K a la -> alone E K b lb -> alice <> bob ->
    exists t1 t2 t3 b1 a1 b2,
      get_kerl E (k_db a) alice = Ok (Some t1)
      /\ respond E K b t1 = (b1, Ok t2) /\ respond E K a t2 = (a1, Ok t3) /\ respond E K b1 t3 = (b2, Ok [])
      /\ log (k_db a1) alice = la /\ log (k_db a1) bob = lb
      /\ log (k_db b2) alice = la /\ log (k_db b2) bob = lb
      /\ (forall e, In e la -> receipted_by E (k_db a1) bob e /\ receipted_by E (k_db b2) bob e)
      /\ (forall e, In e lb -> receipted_by E (k_db a1) alice e /\ receipted_by E (k_db b2) alice e).
Proof.
  intros hx bk br H1 H2 H3 E0 K0 E K Hp Hs Hc a b la lb alice bob Ha Hb Hne.
  destruct (alone_meets E0 K0 a la Hc Ha) as (Ca & Ua & La & Sa & Na). destruct (alone_meets E0 K0 b lb Hc Hb) as (Cb & Ub & Lb & Sb & Nb).
  destruct Hc as [Hd Hg]. rewrite <- La in Sa. rewrite <- Lb in Sb.
  destruct (C113_introduction hx bk br H1 H2 H3 E0 K0 Hp Hs Hd Hg a b Ca Cb Ua Ub Hne Sa Sb (Na bob (not_eq_sym Hne)) (Nb alice Hne))
    as (t1 & t2 & t3 & b1 & a1 & b2 & R1 & R2 & R3 & R4 & L1 & L2 & L3 & L4 & _ & R5 & R6).
  rewrite La in *. rewrite Lb in *.
  exists t1, t2, t3, b1, a1, b2. do 8 (split; [assumption|]). split; assumption.
Qed.
Print Assumptions C118_strangers_meet.

Lemma map_snd_combine {A B} (l : list B) : forall ts : list A, List.length ts = List.length l -> map snd (combine ts l) = l.
Proof. induction l as [|x l IH]; intros [|t ts] H; try reflexivity; try discriminate H. cbn [combine map snd]. f_equal. apply IH. now injection H. Qed.
(** ** C119: what it leaves on disk is what it had *)
(** The bytes that a controller's own events leave in the database, at whatever times, are read
    after a restart as exactly the logs and the key states that it had before. *)
Theorem C119_restart :
  forall (hx : bytes -> option N), reads_hex hx ->
  forall (E0 : Env) (K0 : KEnv), let E := with_json E0 in let K := with_json_k K0 in
  forall (b : CryptoBox) (extra ws : list BasicPrefix) (k0 k : Keri) (se0 : SignedEventMessage) (ops : list Op) (evs : list SignedEventMessage) (times : list bytes),
    crypto_sized E K -> sized_life E K [] b extra ws k0 se0 ops -> Forall own_op ops -> operate E K k0 ops = (k, map Ok evs) ->
    List.length times = S (List.length evs) -> Forall rust_string times -> fits_64 (combine times (se0 :: evs)) ->
    let disk := fst (run_b E hx bdb_empty (combine times (se0 :: evs))) in
    Forall (fun o => is_ok o = true) (snd (run_b E hx bdb_empty (combine times (se0 :: evs))))
    /\ b_log hx disk (k_prefix k) = Ok (Some (se0 :: evs))
    /\ (forall id, id <> k_prefix k -> b_log hx disk id = Ok None)
    /\ (forall id, compute_state_b E hx disk id = compute_state E (k_db k) id)
    /\ exists s, compute_state_b E hx disk (k_prefix k) = Ok (Some s) /\ st_sn s = N.of_nat (List.length evs)
         /\ exists more, kc_keys (st_current s) = ed_key (kp_pub (cb_cur (k_box k))) :: more
              /\ kc_threshold (st_current s) = Simple 1
              /\ kc_next (st_current s) = Some (nxt_commitment E (Simple 1) [ed_key (kp_pub (cb_next (k_box k)))] Blake3_256).
Proof.
  intros hx Hhx E0 K0 E K b extra ws k0 k se0 ops evs times Hc Hl Ho Hop Ht Hr Hf disk.
  destruct (C118_own_events_are_sound E0 K0 [] b extra ws k0 se0 ops Hc Hl) as (evs' & A1 & A2 & _ & A4). fold E in A1, A4. fold K in A1, A4.
  destruct (life_start E0 K0 [] b extra ws k0 se0 ops Hc Hl) as (_ & _ & _ & Hp0 & (s0 & P0) & evs2 & B1 & _ & _ & B4 & B5 & B6 & B7). fold E in P0, B1, B4, B5, B7. fold K in B1, B4, B5, B7.
  assert (Inj : forall x y : list SignedEventMessage, map (@Ok SignedEventMessage) x = map Ok y -> x = y).
  { induction x as [|a x IH]; intros [|c y] H; try reflexivity; try discriminate H. cbn [map] in H. f_equal; [congruence|apply IH; congruence]. }
  rewrite Hop in *. cbn [fst snd] in *. apply Inj in A1, B1. subst evs' evs2. destruct (B7 Ho) as (oks & Rv). clear B7.
  assert (V : run_v E db_empty (se0 :: evs) = (k_db k, map Ok (s0 :: oks))).
  { cbn [run_v]. change (run E db_empty []) with db_empty in P0. rewrite P0, Rv. reflexivity. }
  assert (Hm : map snd (combine times (se0 :: evs)) = se0 :: evs) by (apply map_snd_combine; exact Ht).
  assert (Hst : Forall storable_at (combine times (se0 :: evs))).
  { clear - A2 Hr. revert Hr. generalize times. intros ts Hr. revert ts Hr. induction A2 as [|e l He _ IH]; intros [|t ts] Hr; cbn [combine]; try apply Forall_nil.
    apply Forall_cons_iff in Hr as [Hr1 Hr2]. constructor; [split; [exact Hr1|exact (sound_storable e He)]|now apply IH]. }
  destruct (C116_bytes_are_values E hx _ Hhx Hst Hf) as (C1 & [_ C2] & C3). fold disk in C2, C3. rewrite Hm, V in C1, C2, C3. cbn [fst snd] in C1, C2, C3.
  assert (Hlog : get_kel (k_db k) (k_prefix k) = Some (se0 :: evs)).
  { unfold log in A4. destruct (get_kel (k_db k) (k_prefix k)); cbn [olist] in A4; congruence. }
  destruct (run_v_quiet E (se0 :: evs) db_empty _ _ V) as [_ R].
  split; [|split; [|split; [|split]]].
  - rewrite C1. apply Forall_forall. intros o Hin. apply in_map_iff in Hin as (x & <- & _). reflexivity.
  - now rewrite C2, Hlog.
  - intros id Hid. rewrite C2, <- R. f_equal. rewrite (run_submit_other E (se0 :: evs) db_empty (k_prefix k) id); [reflexivity| |exact Hid].
    intros e [<-|He]; [congruence|]. rewrite Forall_forall in B6. rewrite (B6 e He). congruence.
  - exact C3.
  - destruct (own_state E0 K0 k _ B4) as (s & S1 & S2 & _). fold E in S1. exists s. split; [now rewrite C3|]. split.
    + cbn [app List.length] in S2. rewrite map_length in S2. clear - S2. lia.
    + destruct B4 as [[Hid Hlg _ (s' & more & Hg & _ & Hk) _ _] _ _ _]. fold E in Hg. exists more.
      pose proof (compute_state_good E (k_db k) _ _ _ Hid Hlg Hg) as S3. assert (s' = s) by congruence. subst s'. rewrite Hk. split; [reflexivity|split; reflexivity].
Qed.
Print Assumptions C119_restart.

(** ** Concrete lives *)
Definition o_box (b c : byte) : CryptoBox := mkBox (pair_of b) (pair_of c).
Definition o_ops (p : option bytes) : list Op := [ORotate (pair_of x53); OIxn p [] []; OIxn None [] []; ORotate (pair_of x54)].
Definition o_k0 (b c : byte) : Keri := fst (h_start b c).
Definition o_se0 (b c : byte) : SignedEventMessage := of_ok s_icp (snd (h_start b c)).
Definition o_evs (b c : byte) (ops : list Op) : list SignedEventMessage := map (of_ok s_icp) (snd (operate h_env h_kenv (o_k0 b c) ops)).
Lemma o_sized : crypto_sized h_env h_kenv.
Proof. destruct C113_environment as (_ & _ & H1 & H2). split; assumption. Qed.
Lemma o_life b c p : is_ok (snd (h_start b c)) = true -> sized_life h_env h_kenv [] (o_box b c) [] [] (o_k0 b c) (o_se0 b c) (o_ops p).
Proof.
  intros H. split; [apply h_works|]. split; [apply h_works|]. split; [split; reflexivity|]. split; [constructor|]. split; [constructor|]. split; [apply Nat.leb_le; reflexivity|].
  split; [|split; [reflexivity|split; [|split]]].
  - change (incept_with h_env h_kenv (keri_new (o_box b c) (run h_env db_empty [])) [] []) with (h_start b c). unfold o_k0, o_se0.
    destruct (h_start b c) as [k [se|e|]]; [reflexivity|discriminate H..].
  - repeat (apply Forall_cons; [first [apply h_works|exact I]|]). apply Forall_nil.
  - repeat (apply Forall_cons; [first [exact I|reflexivity]|]). apply Forall_nil.
  - apply N.leb_le. vm_compute. reflexivity.
Qed.
Example C118_example : sized_life h_env h_kenv [] (o_box x51 x52) [] [] (o_k0 x51 x52) (o_se0 x51 x52) (o_ops (Some (bstr "hello"))).
Proof. apply o_life. vm_compute. reflexivity. Qed.
Lemma o_alone b c : is_ok (snd (h_start b c)) = true -> exists k l, alone h_env h_kenv k l /\ k_prefix k = k_prefix (o_k0 b c) /\ List.length l = 5.
Proof.
  intros H. pose proof (o_life b c None H) as Hl. destruct (C118_own_events_are_sound etoy h_kenv0 _ _ _ _ _ _ _ o_sized Hl) as (evs & A1 & _).
  destruct (life_start etoy h_kenv0 _ _ _ _ _ _ _ o_sized Hl) as (_ & _ & _ & _ & _ & evs' & _ & _ & _ & _ & B5 & _).
  change (with_json etoy) with h_env in *. change (with_json_k h_kenv0) with h_kenv in *.
  exists (fst (operate h_env h_kenv (o_k0 b c) (o_ops None))), (o_se0 b c :: evs). split; [|split; [exact B5|]].
  - exists (o_box b c), [], [], (o_k0 b c), (o_se0 b c), (o_ops None), evs. split; [exact Hl|].
    split; [repeat (apply Forall_cons; [exact I|]); apply Forall_nil|]. split; [repeat (apply Forall_cons; [exact I|]); apply Forall_nil|]. split; [|reflexivity].
    destruct (operate h_env h_kenv (o_k0 b c) (o_ops None)) as [k xs]. cbn [fst snd] in *. now rewrite A1.
  - assert (L : List.length (snd (operate h_env h_kenv (o_k0 b c) (o_ops None))) = 4).
    { unfold o_ops. cbn [operate]. destruct (rotate _ _ _ _) as [k1 x1]. destruct (make_ixn _ _ k1 _ _ _) as [k2 x2]. destruct (make_ixn _ _ k2 _ _ _) as [k3 x3]. destruct (rotate _ _ k3 _) as [k4 x4]. reflexivity. }
    rewrite A1, map_length in L. cbn [List.length]. now rewrite L.
Qed.
Example C118_meet_example : exists a b la lb,
  alone h_env h_kenv a la /\ alone h_env h_kenv b lb /\ k_prefix a <> k_prefix b /\ List.length la = 5 /\ List.length lb = 5.
Proof.
  destruct (o_alone x51 x52 ltac:(vm_compute; reflexivity)) as (a & la & A1 & A2 & A3). destruct (o_alone x61 x62 ltac:(vm_compute; reflexivity)) as (b & lb & B1 & B2 & B3).
  exists a, b, la, lb. split; [exact A1|]. split; [exact B1|]. split; [|split; assumption]. rewrite A2, B2. vm_compute. discriminate.
Qed.
Definition o_times : list bytes := repeat x_time 5.
Example C119_example : exists k evs,
  operate h_env h_kenv (o_k0 x51 x52) (o_ops (Some (bstr "hello"))) = (k, map Ok evs)
  /\ List.length o_times = S (List.length evs) /\ Forall rust_string o_times /\ fits_64 (combine o_times (o_se0 x51 x52 :: evs)).
Proof.
  exists (fst (operate h_env h_kenv (o_k0 x51 x52) (o_ops (Some (bstr "hello"))))), (o_evs x51 x52 (o_ops (Some (bstr "hello")))).
  apply conj; [vm_compute; reflexivity|]. apply conj; [vm_compute; reflexivity|]. apply conj; [repeat (apply Forall_cons; [vm_compute; reflexivity|]); apply Forall_nil|].
  unfold fits_64. apply N.leb_le. vm_compute. reflexivity.
Qed.
