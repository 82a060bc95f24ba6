(** * Prop_Trial: trying an event out before it is sent (C138).

    [keri_process E d id f se] is [Keri::process(id, event)], the public method of a controller
    that says whether an event would do for the identifier [id] without changing anything; [f]
    is the form in which the event is handed over (signed event, message, bare key event, or the
    contents alone), see [Trial.v]. The rules are in [SpecTrial.v]. *)
From Verif Require Import Base Base64 Codes NumFmt Types KeyConf SpecSig State Db Processor Spec SpecProc SpecRules
  StateProofs LogProofs LogTheorems LogTheorems2 SigProofs ProcProofs ProcProofs2 AcceptProofs Trial SpecTrial TrialProofs Demo.

(** ** C138: what the trial answers, exactly *)
(** It says yes exactly when the identifier is known and the event, in the form it is handed
    over, follows the log; no signature and no delegator is looked at. *)
Theorem C138_exactly :
  forall E cs id f se,
    let d := run E db_empty cs in
    id <> id_default -> em_prefix (sem_msg se) <> id_default -> (exists x, e_deriv_data E (sem_msg se) = Ok x) ->
    (keri_process E d id f se = Ok tt <-> known E d id /\ trial_rule E id (log_of (log d id)) f (sem_msg se)).
Proof. exact trial_iff. Qed.
Print Assumptions C138_exactly.

(** An event of a known identifier that would be accepted tries out well in every form, and a
    whole message yields the state that the acceptance will return. *)
Theorem C138_accepted_tries_out_partial :
  forall E cs f se d' s,
    let d := run E db_empty cs in let id := em_prefix (sem_msg se) in
    id <> id_default -> (exists x, e_deriv_data E (sem_msg se) = Ok x) ->
    known E d id -> process E d (MEvent se) = (d', Ok (Some s)) ->
    keri_process E d id f se = Ok tt
    /\ match f with FSigned | FMessage => try_out E d id f se = Ok (Some s) | _ => True end.
Proof. exact trial_accepted. Qed.
Print Assumptions C138_accepted_tries_out_partial.

(** What a yes for a whole message is worth: signatures of the keys then in force, and the
    anchor if the event is delegated, are all that can still be missing. *)
Theorem C138_yes_and_signed :
  forall E cs f se,
    let d := run E db_empty cs in let m := sem_msg se in let id := em_prefix m in
    let logs := fun i => log_of (log d i) in
    id <> id_default -> (exists x, e_deriv_data E m = Ok x) ->
    (forall p, delegator_of (logs id) m = Some p -> p <> id_default) ->
    (forall kc, keys_in_force (logs id) m = Some kc -> rational_threshold (kc_threshold kc)) ->
    (f = FSigned \/ f = FMessage) -> keri_process E d id f se = Ok tt ->
    ((exists d' s, process E d (MEvent se) = (d', Ok (Some s))) <->
     (is_delegated m = true -> anchored E logs (logs id) se) /\ signed_enough E (logs id) se).
Proof.
  cbv zeta. intros E cs f se Hid Hx Hdg Hr Hf Ht.
  rewrite (accept_iff E cs se Hid Hdg Hx Hr). unfold acceptable. cbv zeta.
  apply (trial_iff E cs _ f se Hid Hid Hx) in Ht. destruct Ht as [_ Ht].
  assert (R : if is_inception (sem_msg se) then begins E (log_of (log (run E db_empty cs) (em_prefix (sem_msg se)))) (sem_msg se)
              else continues E (log_of (log (run E db_empty cs) (em_prefix (sem_msg se)))) (sem_msg se)).
  { destruct Hf as [->| ->]; cbn [trial_rule] in Ht; destruct (is_inception (sem_msg se)); auto; apply Ht. }
  split; [intros (_ & H); exact H|intros H; split; [exact R|exact H]].
Qed.
Print Assumptions C138_yes_and_signed.

(** The forms differ: a whole message is held to most, the contents alone to least. *)
Theorem C138_forms :
  forall E cs id se,
    let d := run E db_empty cs in
    id <> id_default -> em_prefix (sem_msg se) <> id_default -> (exists x, e_deriv_data E (sem_msg se) = Ok x) ->
    (keri_process E d id FSigned se = Ok tt <-> keri_process E d id FMessage se = Ok tt)
    /\ (keri_process E d id FMessage se = Ok tt -> keri_process E d id FEvent se = Ok tt)
    /\ (keri_process E d id FEvent se = Ok tt -> keri_process E d id FData se = Ok tt).
Proof.
  cbv zeta. intros E cs id se Hid Hp Hx.
  rewrite !(trial_iff E cs id _ se Hid Hp Hx).
  destruct (rule_forms E id (log_of (log (run E db_empty cs) id)) (sem_msg se)) as [F1 F2].
  apply conj; [reflexivity|]. apply conj; intros [H1 H2]; (apply conj; [exact H1|]); auto.
Qed.
Print Assumptions C138_forms.

(** The contents of an interaction, or of an inception, of anybody, do for every known
    identifier. *)
Theorem C138_contents_always_do :
  forall E cs id se,
    let d := run E db_empty cs in
    id <> id_default -> em_prefix (sem_msg se) <> id_default -> (exists x, e_deriv_data E (sem_msg se) = Ok x) ->
    known E d id -> is_rotation (sem_msg se) = false -> keri_process E d id FData se = Ok tt.
Proof.
  cbv zeta. intros E cs id se Hid Hp Hx Hk Hr. apply (trial_iff E cs id FData se Hid Hp Hx).
  apply conj; [exact Hk|]. cbn [trial_rule]. unfold opens. rewrite Hr. discriminate.
Qed.
Print Assumptions C138_contents_always_do.

(** An identifier the store has never been handed an event of cannot be tried out. *)
Theorem C138_unknown_identifier :
  forall E d id f se, compute_state E d id = Ok None ->
    keri_process E d id f se = Err (ESemantic "Unknown identifier.").
Proof. exact trial_unknown. Qed.
Print Assumptions C138_unknown_identifier.

(** ... but any refused try makes it known: an inception without signatures is refused, leaves no
    event, and from then on the trial of that inception says yes. *)
Theorem C138_a_refusal_makes_known :
  forall E cs se e,
    let d := run E db_empty cs in let m := sem_msg se in let id := em_prefix m in
    let d' := fst (process E d (MEvent se)) in
    id <> id_default -> (exists x, e_deriv_data E m = Ok x) -> (exists ser, e_ser_event E m = Ok ser) ->
    is_inception m = true -> is_delegated m = false -> begins E (log_of (log d id)) m ->
    snd (process E d (MEvent se)) = Err e ->
    log d' id = [] /\ keri_process E d' id FMessage se = Ok tt.
Proof.
  cbv zeta. intros E cs se e H1 H2 H3 H4 H5 H6 H7. exact (trial_after_refusal E cs se H1 H2 H3 H4 H5 H6 e H7).
Qed.
Print Assumptions C138_a_refusal_makes_known.

(** ** Hypotheses met, and the trial is not the submission *)
Definition grown : list Call := [CProcess (MEvent s_icp); CProcess (MEvent s_rot); CProcess (MEvent s_ixn)].
Definition unsigned : SignedEventMessage := mkSEM a_ixn2 [] None.
(** names another event than the last one as its predecessor *)
Definition astray : SignedEventMessage :=
  signed (mk_event alice 3 (Ixn (mkIxn (em_digest a_icp) []))) [key x03; key x04] None.
Definition verdict (cs : list Call) (se : SignedEventMessage) : bool :=
  match process toy (run toy db_empty cs) (MEvent se) with (_, Ok (Some _)) => true | _ => false end.
Definition trial (cs : list Call) (id : IdentifierPrefix) (f : Form) (se : SignedEventMessage) : bool :=
  match keri_process toy (run toy db_empty cs) id f se with Ok _ => true | _ => false end.

Definition before_drt : list Call := grown ++ [CProcess (MEvent s_dip)].
Definition bare_inception : SignedEventMessage := mkSEM a_icp [] None.

(** The full claim, "the trial says yes exactly when the event will be accepted", fails both ways:
    unsigned and unanchored events try out, a first inception does not; a bare event may name any
    predecessor; the contents of another identifier's event may do. *)
Theorem C138_refuted :
  (trial grown alice FSigned s_ixn2 = true /\ verdict grown s_ixn2 = true)
  /\ (trial grown alice FSigned unsigned = true /\ verdict grown unsigned = false)
  /\ (trial [] alice FSigned s_icp = false /\ verdict [] s_icp = true)
  /\ (trial grown alice FSigned astray = false /\ trial grown alice FEvent astray = true /\ verdict grown astray = false)
  /\ (trial grown alice FEvent s_dip = false /\ trial grown alice FData s_dip = true)
  /\ (trial before_drt bob FSigned s_drt = true /\ verdict before_drt s_drt = false)
  /\ (verdict [] bare_inception = false /\ trial [] alice FMessage bare_inception = false
      /\ trial [CProcess (MEvent bare_inception)] alice FMessage bare_inception = true).
Proof. ex_vm. Qed.
Print Assumptions C138_refuted.

Example C138_hypotheses :
  alice <> id_default /\ em_prefix (sem_msg s_ixn2) = alice /\ (exists x, e_deriv_data toy (sem_msg s_ixn2) = Ok x)
  /\ (exists s, compute_state toy (run toy db_empty grown) alice = Ok (Some s))
  /\ (exists d' s, process toy (run toy db_empty grown) (MEvent s_ixn2) = (d', Ok (Some s))).
Proof. ex_vm. Qed.
Example C138_hypotheses_refusal :
  em_prefix (sem_msg bare_inception) <> id_default /\ (exists x, e_deriv_data toy (sem_msg bare_inception) = Ok x)
  /\ (exists ser, e_ser_event toy (sem_msg bare_inception) = Ok ser)
  /\ is_inception (sem_msg bare_inception) = true /\ is_delegated (sem_msg bare_inception) = false
  /\ begins toy (log_of (log (run toy db_empty []) alice)) (sem_msg bare_inception)
  /\ (exists e, snd (process toy (run toy db_empty []) (MEvent bare_inception)) = Err e).
Proof.
  apply conj; [vm_compute; discriminate|]. apply conj; [eexists; reflexivity|]. apply conj; [eexists; reflexivity|].
  apply conj; [reflexivity|]. apply conj; [reflexivity|]. apply conj.
  { unfold begins. apply conj; [vm_compute; reflexivity|]. apply conj; [vm_compute; reflexivity|].
    change (em_digest a_icp = em_digest a_icp). reflexivity. }
  ex_vm.
Qed.
Example C138_hypotheses_yes :
  keri_process toy (run toy db_empty grown) alice FSigned s_ixn2 = Ok tt
  /\ delegator_of (log_of (log (run toy db_empty grown) alice)) (sem_msg s_ixn2) = None
  /\ option_map kc_threshold (keys_in_force (log_of (log (run toy db_empty grown) alice)) (sem_msg s_ixn2)) = Some (Simple 2).
Proof. ex_vm. Qed.
