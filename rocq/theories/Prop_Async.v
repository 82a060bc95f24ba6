(** * Prop_Async: the connection handler of the [async] feature (C83, C84).

    [states_length bv e]: the bytes 5 to 24 of the message [e] are a version string that gives
    [e]'s own length (as every message written by [EventMessage::serialize] does, C51, C72).
    [sed_cesr ser x]: the text of the signed message [x] (C42). *)
From Verif Require Import Base Base64 Codes NumFmt Types KeyConf SpecSig Version Cesr Message State Db Processor Spec SpecProc
  CesrProofs Keri Json JsonRead Async Demo Prop_Keri Prop_Json Prop_Json2 Prop_Json3.

Definition states_length (bv : bytes -> pres SerializationInfo) (e : bytes) : Prop :=
  24 <= List.length e
  /\ exists r info, version bv (firstn 19 (skipn 5 e)) = POk r info /\ N.to_nat (si_size info) = List.length e.

(** ** the first bytes of a written attachment *)
Lemma adjust_starts t n b : adjust_with_num t n = Ok b -> exists r, b = pt_str t ++ r.
Proof.
  unfold adjust_with_num. destruct (index_length t); cbn [obind]; try discriminate.
  destruct (0 <? a); [destruct (_ <? a)|]; intros H; injection H as <-; [eauto|eauto|exists []; now rewrite app_nil_r].
Qed.
Lemma with_count_starts t n o b : with_count t n o = Ok b -> exists r, b = pt_str t ++ r.
Proof.
  unfold with_count. destruct o as [x| |]; cbn [obind]; try discriminate. destruct (adjust_with_num t (as_u16 n)) as [c| |] eqn:H; cbn [obind]; try discriminate.
  intros Q; injection Q as <-. apply adjust_starts in H as [r ->]. exists (r ++ x). now rewrite app_assoc.
Qed.
Lemma written_starts a b : to_cesr a = Ok b ->
  exists r, b = bstr "-A" ++ r \/ b = bstr "-C" ++ r \/ b = bstr "-F" ++ r \/ b = bstr "-G" ++ r \/ b = bstr "-V" ++ r.
Proof.
  destruct a; cbn [to_cesr]; intros H.
  - apply with_count_starts in H as [r ->]. exists r. auto.
  - unfold sigs_cesr in H. apply with_count_starts in H as [r ->]. exists r. auto.
  - apply with_count_starts in H as [r ->]. exists r. auto.
  - apply with_count_starts in H as [r ->]. exists r. auto 7.
  - unfold with_count in H. destruct (oconcat _ l); discriminate H.
  - match type of H with context [obind ?x _] => destruct x as [y| |]; cbn [obind] in H; try discriminate H end.
    destruct (adjust_with_num MV _) as [c| |] eqn:Hc; cbn [obind] in H; try discriminate H. injection H as <-.
    apply adjust_starts in Hc as [r ->]. exists (r ++ y). rewrite app_assoc. auto 7.
Qed.

Lemma slice_app (a b c : bytes) n m : n = List.length a -> m = n + List.length b -> slice n m (a ++ b ++ c) = Ok b.
Proof.
  intros -> ->. unfold slice. rewrite !app_length. replace (_ <=? _) with true by (symmetry; apply Nat.leb_le; lia).
  replace (_ <=? _) with true by (symmetry; apply Nat.leb_le; lia). cbn [andb].
  rewrite skipn_app, skipn_all, Nat.sub_diag, app_nil_l. cbn [skipn].
  replace (List.length a + List.length b - List.length a) with (List.length b) by lia.
  now rewrite firstn_app, firstn_all, Nat.sub_diag, app_nil_r.
Qed.
Lemma slice_head (a b : bytes) n : n = List.length a -> slice 0 n (a ++ b) = Ok a.
Proof. intros H. apply (slice_app [] a b 0 n); [reflexivity|cbn; lia]. Qed.
Lemma slice_all (a : bytes) n : n = List.length a -> slice 0 n a = Ok a.
Proof. intros H. rewrite <- (app_nil_r a) at 1. now apply slice_head. Qed.

  Lemma first_not_7 first : first_ok first = true -> (bits3 first =? 7)%N = false.
  Proof. unfold first_ok. cbn [existsb]. intros H. destruct (N.eqb_spec (bits3 first) 7) as [Q|Q]; [rewrite Q in H; discriminate H|reflexivity]. Qed.
  Lemma framed_whole first e : framed first e (List.length e) = Ok (List.length e).
  Proof. unfold framed. now rewrite Nat.ltb_irrefl. Qed.
  Lemma nth_after (e t : bytes) : nth_error (e ++ t) (List.length e + 1) = nth_error t 1.
  Proof. rewrite nth_error_app2 by lia. f_equal. lia. Qed.
  Lemma framed_sigs first e r n : (N.of_nat (List.length (e ++ bstr "-A" ++ r)) <= buffer_cap)%N ->
    framed first (e ++ bstr "-A" ++ r) (List.length e) = Ok n -> List.length (e ++ bstr "-A" ++ r) < n.
  Proof.
    intros Hc. unfold framed. replace (_ <? _) with true by (symmetry; apply Nat.ltb_lt; rewrite !app_length; cbn; lia).
    rewrite nth_after. change (nth_error (bstr "-A" ++ r) 1) with (Some "A"%byte). cbn [obind].
    change (((bits3 "A" =? 1)%N || (bits3 "A" =? 2)%N)) with true. cbv iota.
    rewrite (slice_app e (bstr "-A") r) by reflexivity. cbn [obind]. change (slice_to_string (bstr "-A")) with (@Ok bytes (bstr "-A")). cbn [obind].
    change (pt_from (bstr "-A")) with (@Ok PayloadType MA). cbn [obind]. cbn [master_code_size pt_size].
    unfold slice. destruct ((List.length e <=? List.length e + 4) && (List.length e + 4 <=? List.length (e ++ bstr "-A" ++ r))) eqn:Hl; [|discriminate].
    cbn [obind]. rewrite skipn_app, skipn_all, Nat.sub_diag, app_nil_l. cbn [skipn].
    replace (List.length e + 4 - List.length e) with 4 by lia.
    change (firstn 4 (bstr "-A" ++ r)) with (bstr "-A" ++ firstn 2 r). unfold slice_to_string. destruct (valid_utf8 (bstr "-A" ++ firstn 2 r)); [|discriminate]. cbn [obind].
    unfold b64_count. rewrite take_app by reflexivity. cbn [pbnd]. change (b64_to_num (bstr "-A")) with (@Ok N 3968%N). cbn [plift].
    assert (Q : (3968 <= N.of_nat (N.to_nat 3968))%N) by lia. revert Q. generalize (N.to_nat 3968). intros q Q H. injection H as <-.
    unfold buffer_cap in Hc. lia.
  Qed.
  Lemma framed_other first e c r : first_ok first = true -> (bits3 c =? 1)%N = false -> (bits3 c =? 2)%N = false ->
    framed first (e ++ "-"%byte :: c :: r) (List.length e) = Ok (List.length e).
  Proof.
    intros Hf H1 H2. unfold framed. replace (_ <? _) with true by (symmetry; apply Nat.ltb_lt; rewrite !app_length; cbn; lia).
    rewrite nth_after. cbn [nth_error obind]. rewrite H1, H2. cbn [orb]. now rewrite (first_not_7 _ Hf).
  Qed.

Section Conn.
  Context (E : Env) (K : KEnv) (bv : bytes -> pres SerializationInfo) (km : bytes -> pres EventMessage).
  Lemma version_slice e t : states_length bv e -> slice (0 + 5) (0 + 5 + 19) (e ++ t) = Ok (firstn 19 (skipn 5 e)).
  Proof.
    intros [H _]. unfold slice. rewrite app_length. cbn [Nat.add].
    replace (5 <=? 24) with true by reflexivity. replace (24 <=? _) with true by (symmetry; apply Nat.leb_le; lia). cbn [andb].
    f_equal. change (24 - 5) with 19. rewrite skipn_app. rewrite firstn_app. rewrite skipn_length.
    replace (19 - (List.length e - 5)) with 0 by lia. now rewrite app_nil_r.
  Qed.
  (** a message without attachments is an error that leaves the controller as it is *)
  Lemma nothing_attached k e : (forall r t, k_parse K e = POk r t -> r = []) ->
    (exists x, respond_single E K k e = (k, Err x)) \/ respond_single E K k e = (k, Panic).
  Proof.
    intros H. unfold respond_single, signed_message. destruct (k_parse K e) as [r t| | | |] eqn:Hp; cbn [pbnd of_pres obind]; eauto.
    rewrite (H _ _ eq_refl). change (many0 attachment []) with (@POk (list Attachment) [] []). cbn [pbnd of_pres obind snd].
    destruct t; cbn [to_message sed_event sed_atts].
    - unfold signed_key_event. destruct (em_data e0); cbn; left; eexists; reflexivity.
    - unfold signed_receipt. cbn. left; eexists; reflexivity.
    - unfold signed_query. cbn. left; eexists; reflexivity.
    - unfold signed_reply. cbn. left; eexists; reflexivity.
  Qed.
  Lemma step_in first c : first_ok first = true -> cn_in c = true -> cn_done c = 0 -> cn_buf c <> [] ->
    forall e t r info, cn_buf c = e ++ t -> states_length bv e -> version bv (firstn 19 (skipn 5 e)) = POk r info ->
    N.to_nat (si_size info) = List.length e ->
    (forall x, framed first (cn_buf c) (List.length e) = Err x -> astep E K bv km first c = AEnd c (Err x))
    /\ (framed first (cn_buf c) (List.length e) = Panic -> astep E K bv km first c = AEnd c Panic)
    /\ (forall n, framed first (cn_buf c) (List.length e) = Ok n -> List.length (cn_buf c) < n -> astep E K bv km first c = AEnd c Panic).
  Proof.
    intros Hf Hi Hd Hb e t r info Hbuf Hs Hv Hlen. destruct c as [k reads writes buf done inner out sent]. cbn [cn_in cn_done cn_buf] in *. subst inner done buf.
    assert (L : (0 <? List.length (e ++ t)) = true) by (apply Nat.ltb_lt; destruct (e ++ t); [congruence|cbn; lia]).
    assert (G : (List.length (e ++ t) <? List.length e) = false) by (apply Nat.ltb_ge; rewrite app_length; lia).
    unfold astep. rewrite Hf. cbn [negb]. rewrite L, (version_slice e t Hs), Hv, Hlen, G. split; [|split].
    - intros x ->. reflexivity.
    - intros ->. reflexivity.
    - intros n -> Hn. cbn [obind]. unfold slice. replace (_ <=? List.length (e ++ t)) with false by (symmetry; apply Nat.leb_gt; lia).
      now rewrite Bool.andb_false_r.
  Qed.
  Lemma step_process first k reads writes e t out sent r info n msg :
    first_ok first = true -> states_length bv e -> version bv (firstn 19 (skipn 5 e)) = POk r info ->
    N.to_nat (si_size info) = List.length e -> framed first (e ++ t) (List.length e) = Ok n -> slice 0 n (e ++ t) = Ok msg ->
    astep E K bv km first (mkConn k reads writes (e ++ t) 0 true out sent)
    = match respond_single E K k msg with
      | (k, Ok (id, resp)) =>
          match answer E K km k msg resp with
          | (k, Ok b) =>
              match writes with
              | None :: ws => AGo (mkConn k reads ws (e ++ t) 0 false out sent)
              | w :: ws => AGo (mkConn k reads ws (e ++ t) n true
                                  (out ++ [match w with Some i => firstn i b | None => b end]) (sent ++ [(id, msg)]))
              | [] => AGo (mkConn k reads [] (e ++ t) n true (out ++ [b]) (sent ++ [(id, msg)]))
              end
          | (k, Err x) => AEnd (mkConn k reads writes (e ++ t) 0 true out sent) (Err x)
          | (k, Panic) => AEnd (mkConn k reads writes (e ++ t) 0 true out sent) Panic
          end
      | (k, Err x) => AEnd (mkConn k reads writes (e ++ t) 0 true out sent) (Err x)
      | (k, Panic) => AEnd (mkConn k reads writes (e ++ t) 0 true out sent) Panic
      end.
  Proof.
    intros Hf Hs Hv Hlen Hn Hm. unfold astep. rewrite Hf. cbn [negb].
    assert (L : (0 <? List.length (e ++ t)) = true) by (apply Nat.ltb_lt; destruct Hs; rewrite app_length; lia).
    assert (G : (List.length (e ++ t) <? List.length e) = false) by (apply Nat.ltb_ge; rewrite app_length; lia).
    rewrite L, (version_slice e t Hs), Hv, Hlen, G, Hn. cbn [obind Nat.add]. rewrite Hm. cbn [obind]. reflexivity.
  Qed.
  Lemma step_read first k r reads writes out sent : first_ok first = true -> 24 <= List.length r ->
    astep E K bv km first (mkConn k (r :: reads) writes [] 0 false out sent) = AGo (mkConn k reads writes r 0 true out sent).
  Proof.
    intros Hf Hr. unfold astep. rewrite Hf. cbn [negb]. destruct r as [|b r]; [cbn in Hr; lia|].
    replace (_ <? 24) with false by (symmetry; apply Nat.ltb_ge; exact Hr). reflexivity.
  Qed.
End Conn.

(** ** C83: a signed message that arrives whole is processed *)
(** what processing the messages [ms] one after the other does: the controller, the answers, the
    messages passed on and the result *)
Fixpoint serve (E : Env) (K : KEnv) (km : bytes -> pres EventMessage) (k : Keri) (ms : list bytes)
  : Keri * list bytes * list (IdentifierPrefix * bytes) * out unit :=
  match ms with
  | [] => (k, [], [], Ok tt)
  | m :: ms =>
      match respond_single E K k m with
      | (k, Ok (id, state)) =>
          match answer E K km k m state with
          | (k, Ok b) => let '(k, out, sent, r) := serve E K km k ms in (k, b :: out, (id, m) :: sent, r)
          | (k, Err x) => (k, [], [], Err x)
          | (k, Panic) => (k, [], [], Panic)
          end
      | (k, Err x) => (k, [], [], Err x)
      | (k, Panic) => (k, [], [], Panic)
      end
  end.
(** When every read delivers exactly one message and the message's version string gives the length
    of everything in it, the messages are processed in order until the first error; each answer
    is written and each message passed on. *)
Theorem C83_whole_messages_partial :
  forall E K bv km first k ms,
    first_ok first = true -> Forall (states_length bv) ms ->
    exists c r, arun E K bv km first (3 * List.length ms + 1) (connect k ms []) = AEnd c r
      /\ serve E K km k ms = (cn_keri c, cn_out c, cn_sent c, r).
Proof.
  intros E K bv km first k ms Hf Hms.
  assert (G : forall k out sent, exists c r out' sent',
    arun E K bv km first (3 * List.length ms + 1) (mkConn k ms [] [] 0 false out sent) = AEnd c r
    /\ serve E K km k ms = (cn_keri c, out', sent', r) /\ cn_out c = out ++ out' /\ cn_sent c = sent ++ sent').
  { clear k. induction Hms as [|m ms Hm _ IH]; intros k out sent.
    - cbn [List.length Nat.mul Nat.add arun]. unfold astep. rewrite Hf. cbn [negb]. do 4 eexists. split; [reflexivity|]. cbn. rewrite !app_nil_r. auto.
    - replace (3 * List.length (m :: ms) + 1) with (S (S (S (3 * List.length ms + 1)))) by (cbn [List.length]; lia).
      cbn [arun]. pose proof Hm as (Hl & r & info & Hv & Hs). rewrite step_read by assumption.
      pose proof (step_process E K bv km first k ms [] m [] out sent r info (List.length m) m Hf Hm Hv Hs) as St. rewrite app_nil_r in St.
      rewrite St; [|apply framed_whole|now apply slice_all]. cbn [serve].
      destruct (respond_single E K k m) as [k1 [[id st]|x|]].
      + destruct (answer E K km k1 m st) as [k2 [b|x|]].
        * assert (N3 : forall o s, astep E K bv km first (mkConn k2 ms [] m (List.length m) true o s) = AGo (mkConn k2 ms [] [] 0 false o s)).
          { intros o s. unfold astep. rewrite Hf. cbn [negb]. now rewrite Nat.ltb_irrefl. }
          rewrite N3. destruct (IH k2 (out ++ [b]) (sent ++ [(id, m)])) as (c & r' & o & s & R & S & O & T).
          exists c, r', (b :: o), ((id, m) :: s). rewrite R, S. rewrite O, T, <- !app_assoc. auto.
        * do 4 eexists. split; [reflexivity|]. cbn. rewrite !app_nil_r. auto.
        * do 4 eexists. split; [reflexivity|]. cbn. rewrite !app_nil_r. auto.
      + do 4 eexists. split; [reflexivity|]. cbn. rewrite !app_nil_r. auto.
      + do 4 eexists. split; [reflexivity|]. cbn. rewrite !app_nil_r. auto. }
  destruct (G k [] []) as (c & r & o & s & R & S & O & T). exists c, r. unfold connect. rewrite O, T. auto.
Qed.
Print Assumptions C83_whole_messages_partial.
(** The version string of a signed message that the code writes gives the length of the event
    alone.  No such message, whatever its attachments, is processed: the connection ends with an
    error or a panic, and the controller is as it was. *)
Theorem C83_signed_messages_never_processed :
  forall E K bv km ser first k (x : SignedEventData) e text writes more,
    first_ok first = true ->
    ser (sed_event x) = Ok e -> states_length bv e -> (forall r t, k_parse K e = POk r t -> r = []) ->
    sed_cesr ser x = Ok text -> (N.of_nat (List.length text) <= buffer_cap)%N ->
    exists c r, arun E K bv km first 2 (connect k (text :: more) writes) = AEnd c r
      /\ r <> Ok tt /\ cn_keri c = k /\ cn_out c = [] /\ cn_sent c = [].
Proof.
  intros E K bv km ser first k x e text writes more Hf He Hs Hp Ht Hcap.
  unfold sed_cesr in Ht. destruct (oconcat to_cesr (sed_atts x)) as [atts| |] eqn:Ha; cbn [obind] in Ht; try discriminate Ht.
  rewrite He in Ht. cbn [obind] in Ht. injection Ht as <-. pose proof Hs as (Hl & r0 & info & Hv & Hlen).
  unfold connect. cbn [arun]. rewrite step_read by (auto; rewrite app_length; lia).
  (* the event alone *)
  assert (Alone : framed first (e ++ atts) (List.length e) = Ok (List.length e) -> exists c r,
    match astep E K bv km first (mkConn k more writes (e ++ atts) 0 true [] []) with AGo c => AGo c | AEnd c r => AEnd c r end = AEnd c r
    /\ r <> Ok tt /\ cn_keri c = k /\ cn_out c = [] /\ cn_sent c = []).
  { intros Hfr. rewrite (step_process E K bv km first k more writes e atts [] [] r0 info (List.length e) e Hf Hs Hv Hlen Hfr); [|now apply slice_head].
    destruct (nothing_attached E K k e Hp) as [[y ->]| ->]; do 2 eexists; (split; [reflexivity|]); (split; [discriminate|auto]). }
  destruct (sed_atts x) as [|a l]; cbn [oconcat] in Ha.
  - injection Ha as <-. apply Alone. rewrite app_nil_r. apply framed_whole.
  - destruct (to_cesr a) as [b| |] eqn:Hb; cbn [obind] in Ha; try discriminate Ha. destruct (oconcat to_cesr l) as [tl| |]; cbn [obind] in Ha; try discriminate Ha.
    injection Ha as <-. destruct (written_starts a b Hb) as [r Hcase].
    destruct Hcase as [-> | Hcase].
    + rewrite <- app_assoc in Hcap |- *. set (c0 := mkConn k more writes (e ++ bstr "-A" ++ r ++ tl) 0 true [] []).
      assert (Hne : cn_buf c0 <> []) by (cbn [c0 cn_buf]; destruct e; [cbn in Hl; lia|discriminate]).
      destruct (step_in E K bv km first c0 Hf eq_refl eq_refl Hne e _ r0 info eq_refl Hs Hv Hlen) as (S1 & S2 & S3).
      destruct (framed first (cn_buf c0) (List.length e)) as [n|y|] eqn:Hfr.
      * rewrite (S3 n eq_refl); [|eapply framed_sigs; [exact Hcap|exact Hfr]]. do 2 eexists. split; [reflexivity|]. split; [discriminate|auto].
      * rewrite (S1 y eq_refl). do 2 eexists. split; [reflexivity|]. split; [discriminate|auto].
      * rewrite (S2 eq_refl). do 2 eexists. split; [reflexivity|]. split; [discriminate|auto].
    + apply Alone. destruct Hcase as [-> | [-> | [-> | ->]]]; (apply framed_other; [exact Hf|reflexivity|reflexivity]).
Qed.
Print Assumptions C83_signed_messages_never_processed.
(** With signatures first, as for events that are not delegated, the failure is a panic. *)
Theorem C83_signed_event_panics :
  forall E K bv km first k e r writes more,
    first_ok first = true -> states_length bv e -> 2 <= List.length r ->
    (N.of_nat (List.length (e ++ bstr "-A" ++ r)) <= buffer_cap)%N -> valid_utf8 (firstn 2 r) = true ->
    exists c, arun E K bv km first 2 (connect k ((e ++ bstr "-A" ++ r) :: more) writes) = AEnd c Panic /\ cn_keri c = k.
Proof.
  intros E K bv km first k e r writes more Hf Hs Hr2 Hcap Hu. pose proof Hs as (Hl & r0 & info & Hv & Hlen).
  unfold connect. cbn [arun]. rewrite step_read by (auto; rewrite app_length; lia).
  set (c0 := mkConn k more writes (e ++ bstr "-A" ++ r) 0 true [] []).
  assert (Hne : cn_buf c0 <> []) by (cbn [c0 cn_buf]; destruct e; [cbn in Hl; lia|discriminate]).
  destruct (step_in E K bv km first c0 Hf eq_refl eq_refl Hne e _ r0 info eq_refl Hs Hv Hlen) as (S1 & S2 & S3).
  destruct (framed first (cn_buf c0) (List.length e)) as [n|y|] eqn:Hfr.
  - rewrite (S3 n eq_refl); [|eapply framed_sigs; [exact Hcap|exact Hfr]]. eexists. split; reflexivity.
  - exfalso. revert Hfr. cbn [c0 cn_buf]. unfold framed. replace (_ <? _) with true by (symmetry; apply Nat.ltb_lt; rewrite !app_length; cbn; lia).
    rewrite nth_after. change (nth_error (bstr "-A" ++ r) 1) with (Some "A"%byte). cbn [obind].
    change (((bits3 "A" =? 1)%N || (bits3 "A" =? 2)%N)) with true. cbv iota.
    rewrite (slice_app e (bstr "-A") r) by reflexivity. cbn [obind]. change (slice_to_string (bstr "-A")) with (@Ok bytes (bstr "-A")). cbn [obind].
    change (pt_from (bstr "-A")) with (@Ok PayloadType MA). cbn [obind]. cbn [master_code_size pt_size].
    assert (Sl : slice (List.length e) (List.length e + 4) (e ++ bstr "-A" ++ r) = Ok (bstr "-A" ++ firstn 2 r)).
    { rewrite <- (firstn_skipn 2 r) at 1. rewrite (app_assoc (bstr "-A")). apply slice_app; [reflexivity|]. rewrite app_length, firstn_length, Nat.min_l by lia. reflexivity. }
    rewrite Sl. cbn [obind]. unfold slice_to_string. change (valid_utf8 (bstr "-A" ++ firstn 2 r)) with (valid_utf8 (firstn 2 r)). rewrite Hu. cbn [obind].
    unfold b64_count. rewrite take_app by reflexivity. cbn [pbnd]. change (b64_to_num (bstr "-A")) with (@Ok N 3968%N). cbn [plift]. discriminate.
  - rewrite (S2 eq_refl). eexists. split; reflexivity.
Qed.
Print Assumptions C83_signed_event_panics.
(** ** the demo: an inception whose version string gives the length [n] *)
Definition m_ev (n : N) : EventMessage :=
  mkEM (mkSI 1 0 n JSON) (jd x01) (IdBasic (jk x11)) 0
    (Icp (mkIcp (mkKC (Simple 1) [jk x11] (Some (jd x21))) (mkIWC 0 []) [bstr "EO"] [])).
Definition m_signed (n : N) : SignedEventMessage :=
  mkSEM (m_ev n) [mkASP 0 (mkSSP Ed25519Sha512 (repeat x11 32 ++ toy_digest Blake3_256 (Json.json (event_val (m_ev n)))))] None.
Definition m_env : Env := with_json etoy.
Definition m_kenv : KEnv := ktoy_with (read_event_type hx0 no_key no_rct).
Definition m_event_text (n : N) : bytes := Json.json (event_val (m_ev n)).
Definition m_text (n : N) : bytes := of_ok [] (sed_cesr (ser_json_type) (sed_of_event (m_signed n))).
(** the length of the event, and the length with its signature *)
Definition m_len : N := Eval vm_compute in N.of_nat (List.length (m_event_text 0)).
Definition m_full : N := Eval vm_compute in N.of_nat (List.length (m_text 0)).
Definition no_info : bytes -> pres SerializationInfo := fun _ => PErr.
Definition m_km : bytes -> pres EventMessage := json_message (read_key_event hx0).
Lemma m_states_event : states_length no_info (m_event_text m_len).
Proof. split; [apply Nat.leb_le; vm_compute; reflexivity|]. eexists; eexists. apply conj; vm_compute; reflexivity. Qed.
Lemma m_states_full : states_length no_info (m_text m_full).
Proof. split; [apply Nat.leb_le; vm_compute; reflexivity|]. eexists; eexists. apply conj; vm_compute; reflexivity. Qed.
Lemma m_parse_whole : forall r t, k_parse m_kenv (m_event_text m_len) = POk r t -> r = [].
Proof.
  assert (H : exists t, k_parse m_kenv (m_event_text m_len) = POk [] t) by (eexists; vm_compute; reflexivity).
  destruct H as [t H]. intros r t' H'. rewrite H in H'. congruence.
Qed.
Example C83_example :
  first_ok "{"%byte = true /\ ser_json_type (sed_event (sed_of_event (m_signed m_len))) = Ok (m_event_text m_len)
  /\ sed_cesr ser_json_type (sed_of_event (m_signed m_len)) = Ok (m_text m_len)
  /\ (N.of_nat (List.length (m_text m_len)) <=? buffer_cap)%N = true
  (** processed by [respond_single], lost by the connection *)
  /\ log (k_db (fst (respond_single m_env m_kenv n_keri (m_text m_len)))) (IdBasic (jk x11)) = [m_signed m_len]
  /\ (exists c, arun m_env m_kenv no_info m_km "{"%byte 2 (connect n_keri [m_text m_len] []) = AEnd c Panic /\ cn_keri c = n_keri)
  (** the same event stating the length of the whole message is processed *)
  /\ (exists c, arun m_env m_kenv no_info m_km "{"%byte 4 (connect n_keri [m_text m_full] []) = AEnd c (Ok tt)
      /\ log (k_db (cn_keri c)) (IdBasic (jk x11)) = [m_signed m_full] /\ cn_sent c = [(IdBasic (jk x11), m_text m_full)]).
Proof.
  do 5 (apply conj; [vm_compute; reflexivity|]). split; eexists.
  - apply conj; vm_compute; reflexivity.
  - apply conj; [vm_compute; reflexivity|]. apply conj; vm_compute; reflexivity.
Qed.
Definition C83_statement : Prop :=
  forall E K bv km ser first k (x : SignedEventData) e text k' id st,
    first_ok first = true -> ser (sed_event x) = Ok e -> states_length bv e -> sed_cesr ser x = Ok text ->
    (N.of_nat (List.length text) <= buffer_cap)%N -> respond_single E K k text = (k', Ok (id, st)) ->
    exists n c, arun E K bv km first n (connect k [text] []) = AEnd c (Ok tt) /\ cn_sent c = [(id, text)].
Lemma arun_end E K bv km first n m c x y r : arun E K bv km first n c = AEnd x y -> arun E K bv km first m c = r ->
  (r = AEnd x y) \/ (exists c', r = AGo c').
Proof.
  revert m c r. induction n as [|n IH]; intros m c r H Hm; [discriminate H|]. cbn [arun] in H.
  destruct m as [|m]; [right; exists c; now rewrite <- Hm|]. cbn [arun] in Hm. destruct (astep E K bv km first c) as [c1|c1 r1] eqn:Hs.
  - exact (IH _ _ _ H Hm).
  - left. congruence.
Qed.
Theorem C83_refuted : ~ C83_statement.
Proof.
  intros H. destruct C83_example as (H1 & H2 & H3 & H4 & _ & _ & _). apply N.leb_le in H4.
  assert (R : exists k' id st, respond_single m_env m_kenv n_keri (m_text m_len) = (k', Ok (id, st))) by (do 3 eexists; vm_compute; reflexivity).
  destruct R as (k' & id & st & R).
  destruct (H m_env m_kenv no_info m_km ser_json_type "{"%byte n_keri _ _ _ k' id st H1 H2 m_states_event H3 H4 R) as (n & c & Hn & _).
  destruct (C83_signed_messages_never_processed m_env m_kenv no_info m_km ser_json_type "{"%byte n_keri _ _ _ [] [] H1 H2 m_states_event m_parse_whole H3 H4)
    as (c' & r & Hr & Hne & _).
  destruct (arun_end _ _ _ _ _ _ _ _ _ _ _ Hr Hn) as [Q|[c1 Q]]; [injection Q as _ Q; congruence|discriminate Q].
Qed.
Print Assumptions C83_refuted.

(** ** C84: how a stream is cut into reads does not matter *)
Definition C84_statement : Prop :=
  forall E K bv km first k whole parts n c r,
    List.concat parts = whole -> Forall (fun p => p <> []) parts ->
    arun E K bv km first n (connect k [whole] []) = AEnd c r ->
    exists n' c', arun E K bv km first n' (connect k parts []) = AEnd c' r /\ cn_keri c' = cn_keri c /\ cn_sent c' = cn_sent c.
(** A connection whose buffer holds fewer than 24 bytes, or a message that gives a greater length
    than has arrived, repeats the same step for ever and never reads again. *)
Lemma stuck E K bv km first c : astep E K bv km first c = AGo c -> forall n, arun E K bv km first n c = AGo c.
Proof. intros H. induction n as [|n IH]; [reflexivity|]. cbn [arun]. now rewrite H. Qed.
Theorem C84_short_read_never_ends :
  forall E K bv km first k r more writes,
    first_ok first = true -> r <> [] -> List.length r < 24 ->
    forall n, arun E K bv km first (S n) (connect k (r :: more) writes) = AGo (mkConn k more writes r 0 false [] []).
Proof.
  intros E K bv km first k r more writes Hf Hr Hl n. unfold connect. cbn [arun].
  assert (S1 : astep E K bv km first (mkConn k (r :: more) writes [] 0 false [] []) = AGo (mkConn k more writes r 0 false [] [])).
  { unfold astep. rewrite Hf. cbn [negb]. destruct r as [|b r]; [congruence|]. now replace (_ <? 24) with true by (symmetry; apply Nat.ltb_lt; exact Hl). }
  rewrite S1. apply stuck. unfold astep. rewrite Hf. cbn [negb]. destruct r as [|b r]; [congruence|].
  now replace (_ <? 24) with true by (symmetry; apply Nat.ltb_lt; exact Hl).
Qed.
Theorem C84_split_message_never_ends :
  forall E K bv km first k r more writes x info,
    first_ok first = true -> 24 <= List.length r ->
    version bv (firstn 19 (skipn 5 r)) = POk x info -> List.length r < N.to_nat (si_size info) ->
    forall n, arun E K bv km first (S n) (connect k (r :: more) writes) = AGo (mkConn k more writes r 0 true [] []).
Proof.
  intros E K bv km first k r more writes x info Hf Hl Hv Hlt n. unfold connect. cbn [arun]. rewrite step_read by assumption. apply stuck.
  unfold astep. rewrite Hf. cbn [negb]. replace (0 <? List.length r) with true by (symmetry; apply Nat.ltb_lt; lia).
  assert (Sl : slice (0 + 5) (0 + 5 + 19) r = Ok (firstn 19 (skipn 5 r))).
  { unfold slice. cbn [Nat.add]. replace (5 <=? 24) with true by reflexivity. replace (24 <=? _) with true by (symmetry; apply Nat.leb_le; lia). reflexivity. }
  rewrite Sl, Hv. now replace (List.length r <? N.to_nat (si_size info)) with true by (symmetry; apply Nat.ltb_lt; lia).
Qed.
(** Two messages in one read: the first byte pair after the first message is looked up as an
    attachment code, and a second JSON message is not one. *)
Theorem C84_two_messages_in_one_read :
  forall E K bv km first k m m' more writes,
    first_ok first = true -> states_length bv m ->
    exists c, arun E K bv km first 2 (connect k ((m ++ bstr "{""" ++ m') :: more) writes) = AEnd c (Err EImproperPrefixType) /\ cn_keri c = k /\ cn_sent c = [].
Proof.
  intros E K bv km first k m m' more writes Hf Hs. pose proof Hs as (Hl & r0 & info & Hv & Hlen).
  unfold connect. cbn [arun]. rewrite step_read by (auto; rewrite app_length; lia).
  set (c0 := mkConn k more writes (m ++ bstr "{""" ++ m') 0 true [] []).
  assert (Hne : cn_buf c0 <> []) by (cbn [c0 cn_buf]; destruct m; [cbn in Hl; lia|discriminate]).
  destruct (step_in E K bv km first c0 Hf eq_refl eq_refl Hne m _ r0 info eq_refl Hs Hv Hlen) as (S1 & _ & _).
  rewrite (S1 EImproperPrefixType); [eexists; split; [reflexivity|]; split; reflexivity|].
  cbn [c0 cn_buf]. unfold framed. replace (_ <? _) with true by (symmetry; apply Nat.ltb_lt; rewrite !app_length; cbn; lia).
  rewrite nth_after. change (nth_error (bstr "{""" ++ m') 1) with (Some """"%byte). cbn [obind].
  change (((bits3 """" =? 1)%N || (bits3 """" =? 2)%N)) with true. cbv iota.
  rewrite (slice_app m (bstr "{""") m') by reflexivity. cbn [obind]. change (slice_to_string (bstr "{""")) with (@Ok bytes (bstr "{""")). cbn [obind].
  change (pt_from (bstr "{""")) with (@Err PayloadType EImproperPrefixType). reflexivity.
Qed.
(** A writer that is not ready makes the handler process the message again. *)
Theorem C84_pending_write_repeats :
  forall E K bv km first k m more ws k1 id st k2 b,
    first_ok first = true -> states_length bv m ->
    respond_single E K k m = (k1, Ok (id, st)) -> answer E K km k1 m st = (k2, Ok b) ->
    arun E K bv km first 2 (connect k (m :: more) (None :: ws)) = AGo (mkConn k2 more ws m 0 false [] [])
    /\ forall k3 x, respond_single E K k2 m = (k3, Err x) ->
       arun E K bv km first 4 (connect k (m :: more) (None :: ws)) = AEnd (mkConn k3 more ws m 0 true [] []) (Err x).
Proof.
  intros E K bv km first k m more ws k1 id st k2 b Hf Hm R A. pose proof Hm as (Hl & r & info & Hv & Hs).
  assert (A2 : arun E K bv km first 2 (connect k (m :: more) (None :: ws)) = AGo (mkConn k2 more ws m 0 false [] [])).
  { unfold connect. cbn [arun]. rewrite step_read by assumption.
    pose proof (step_process E K bv km first k more (None :: ws) m [] [] [] r info (List.length m) m Hf Hm Hv Hs) as St. rewrite app_nil_r in St.
    rewrite St; [|apply framed_whole|now apply slice_all]. now rewrite R, A. }
  split; [exact A2|]. intros k3 x R3.
  assert (G : forall n c c', arun E K bv km first 2 c = AGo c' -> arun E K bv km first (S (S n)) c = arun E K bv km first n c').
  { intros n c c'. cbn [arun]. destruct (astep E K bv km first c) as [c1|]; [|discriminate]. destruct (astep E K bv km first c1) as [c2|]; [|discriminate]. congruence. }
  rewrite (G 2 _ _ A2). cbn [arun].
  assert (B : astep E K bv km first (mkConn k2 more ws m 0 false [] []) = AGo (mkConn k2 more ws m 0 true [] [])).
  { unfold astep. rewrite Hf. cbn [negb]. destruct m as [|b0 m]; [cbn in Hl; lia|].
    replace (_ <? 24) with false by (symmetry; apply Nat.ltb_ge; exact Hl). reflexivity. }
  rewrite B. pose proof (step_process E K bv km first k2 more ws m [] [] [] r info (List.length m) m Hf Hm Hv Hs) as St. rewrite app_nil_r in St.
  rewrite St; [|apply framed_whole|now apply slice_all]. now rewrite R3.
Qed.
(** A writer that takes part of the answer loses the rest. *)
Theorem C84_partial_write_truncates :
  forall E K bv km first k m i k1 id st k2 b,
    first_ok first = true -> states_length bv m ->
    respond_single E K k m = (k1, Ok (id, st)) -> answer E K km k1 m st = (k2, Ok b) ->
    arun E K bv km first 4 (connect k [m] [Some i]) = AEnd (mkConn k2 [] [] [] 0 false [firstn i b] [(id, m)]) (Ok tt).
Proof.
  intros E K bv km first k m i k1 id st k2 b Hf Hm R A. pose proof Hm as (Hl & r & info & Hv & Hs).
  unfold connect. cbn [arun]. rewrite step_read by assumption.
  pose proof (step_process E K bv km first k [] [Some i] m [] [] [] r info (List.length m) m Hf Hm Hv Hs) as St. rewrite app_nil_r in St.
  rewrite St; [|apply framed_whole|now apply slice_all]. rewrite R, A. cbn [app].
  assert (N3 : forall o s, astep E K bv km first (mkConn k2 [] [] m (List.length m) true o s) = AGo (mkConn k2 [] [] [] 0 false o s)).
  { intros o s. unfold astep. rewrite Hf. cbn [negb]. now rewrite Nat.ltb_irrefl. }
  rewrite N3. unfold astep. rewrite Hf. cbn [negb]. reflexivity.
Qed.
(** What does hold: a connection that delivers each message in its own read gives the same for
    every such stream (C83_whole_messages_partial); and a stream that is delivered in one read and
    is one message is processed like [respond_single] processes it. *)
Theorem C84_one_message_partial :
  forall E K bv km first k m,
    first_ok first = true -> states_length bv m ->
    exists c r, arun E K bv km first 4 (connect k [m] []) = AEnd c r
      /\ serve E K km k [m] = (cn_keri c, cn_out c, cn_sent c, r).
Proof. intros E K bv km first k m Hf Hm. apply (C83_whole_messages_partial E K bv km first k [m] Hf). now constructor. Qed.
Example C84_example :
  first_ok "{"%byte = true
  /\ match respond_single m_env m_kenv n_keri (m_text m_full) with
     | (k1, Ok (id, st)) =>
         match answer m_env m_kenv m_km k1 (m_text m_full) st with
         | (k2, Ok b) => match respond_single m_env m_kenv k2 (m_text m_full) with (k3, Err x) => true | _ => false end
         | _ => false
         end
     | _ => false
     end = true
  /\ List.length (firstn 100 (m_text m_full)) = 100
  /\ (100 <? m_full)%N = true
  /\ exists x, version no_info (firstn 19 (skipn 5 (firstn 100 (m_text m_full)))) = POk x (mkSI 1 0 m_full JSON).
Proof.
  do 4 (apply conj; [vm_compute; reflexivity|]). eexists. vm_compute. reflexivity.
Qed.
Lemma cut_after_10 E K bv km first k (m : bytes) n c r : first_ok first = true -> 24 <= List.length m ->
  arun E K bv km first n (connect k [firstn 10 m; skipn 10 m] []) = AEnd c r -> False.
Proof.
  intros Hf Hl Hn. destruct n as [|n]; [discriminate Hn|].
  assert (L : List.length (firstn 10 m) = 10) by (rewrite firstn_length; lia).
  rewrite C84_short_read_never_ends in Hn; [discriminate Hn|exact Hf| |lia]. intros Q. rewrite Q in L. discriminate L.
Qed.
Lemma cut_parts (m : bytes) : 24 <= List.length m -> List.concat [firstn 10 m; skipn 10 m] = m /\ Forall (fun p => p <> []) [firstn 10 m; skipn 10 m].
Proof.
  intros H. split; [cbn [List.concat]; rewrite app_nil_r; apply firstn_skipn|].
  apply Forall_cons; [|apply Forall_cons; [|apply Forall_nil]]; intros Q; apply (f_equal (@List.length byte)) in Q.
  - rewrite firstn_length in Q. cbn [List.length] in Q. lia.
  - rewrite skipn_length in Q. cbn [List.length] in Q. lia.
Qed.
Theorem C84_refuted : ~ C84_statement.
Proof.
  intros H.
  assert (W : exists c, arun m_env m_kenv no_info m_km "{"%byte 4 (connect n_keri [m_text m_full] []) = AEnd c (Ok tt)) by (eexists; vm_compute; reflexivity).
  assert (L : 24 <= List.length (m_text m_full)) by apply m_states_full.
  assert (F : first_ok "{"%byte = true) by reflexivity.
  revert W L F. generalize "{"%byte, (m_text m_full). intros b m [c W] L F. destruct (cut_parts m L) as [P Q].
  destruct (H m_env m_kenv no_info m_km b n_keri m _ 4 c (Ok tt) P Q W) as (n & c' & Hn & _).
  exact (cut_after_10 _ _ _ _ _ _ _ _ _ _ F L Hn).
Qed.
Print Assumptions C84_one_message_partial.
Print Assumptions C84_refuted.
Print Assumptions C84_short_read_never_ends.
Print Assumptions C84_split_message_never_ends.
Print Assumptions C84_two_messages_in_one_read.
Print Assumptions C84_pending_write_repeats.
Print Assumptions C84_partial_write_truncates.
