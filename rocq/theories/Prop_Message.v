(** * Signed messages and streams: C66, C67, C68. *)
From Coq Require Import ZifyBool ZifyN ZifyNat.
From Verif Require Import Base Base64 Base64Proofs Codes NumFmt Types SpecCodec CodecProofs CodecProofs2 Demo Cesr CesrProofs SpecCesr CesrProofs2 CesrProofs3 Message.

(** ** C66: conversion round trip *)
Definition is_delegated (d : EventData) : Prop := match d with Dip _ | Drt _ => True | _ => False end.
(** a key event carries a source seal exactly when it is delegated *)
Definition sealed_right (e : SignedEventMessage) : Prop :=
  match sem_seal e with Some _ => is_delegated (em_data (sem_msg e)) | None => ~ is_delegated (em_data (sem_msg e)) end.
Theorem C66_event_round_trip_partial :
  forall e, sealed_right e -> to_message (sed_of_event e) = Ok (MEvent e).
Proof.
  intros [m sigs seal]. unfold sealed_right, to_message, sed_of_event. cbn [sem_seal sem_msg sem_sigs sed_event sed_atts].
  unfold signed_key_event, is_delegated. destruct seal as [s|]; destruct (em_data m); intros H; try contradiction; try reflexivity; exfalso; tauto.
Qed.
Print Assumptions C66_event_round_trip_partial.
(** The full statement is false: every other signed event converts to an error. *)
Theorem C66_event_refuted :
  forall e, ~ sealed_right e -> exists msg, to_message (sed_of_event e) = Err (ESemantic msg).
Proof.
  intros [m sigs seal]. unfold sealed_right, to_message, sed_of_event. cbn [sem_seal sem_msg sem_sigs sed_event sed_atts].
  unfold signed_key_event, is_delegated. destruct seal as [s|]; destruct (em_data m); intros H; try tauto; eexists; reflexivity.
Qed.
Print Assumptions C66_event_refuted.
Theorem C66_receipt_round_trip :
  forall r, to_message (sed_of_ntr r) = Ok (MNontransferableRct r).
Proof. intros [b c]. reflexivity. Qed.
Theorem C66_transferable_receipt_round_trip :
  forall r, to_message (sed_of_tr r) = Ok (MTransferableRct r).
Proof. intros [b s c]. reflexivity. Qed.
Theorem C66_reply_round_trip :
  forall r, to_message (sed_of_reply r) = Ok (MKeyStateNotice r).
Proof. intros [b [seal sigs|p sig]]; reflexivity. Qed.
(** of several groups of a transferable receipt only the last survives, and of the couplets
    of a reply only the first *)
Theorem C66_extra_groups_dropped :
  forall b l x, to_message (mkSED (ReceiptT b) [SealSignaturesGroups (l ++ [x])]) = Ok (MTransferableRct (mkTRct b (fst x) (snd x))).
Proof.
  intros b l x. unfold to_message. cbn [sed_event sed_atts]. unfold signed_receipt.
  change (last_attachment [SealSignaturesGroups (l ++ [x])]) with (@Ok Attachment (SealSignaturesGroups (l ++ [x]))). cbn [obind].
  assert (E : popped (l ++ [x]) = Some x).
  { induction l as [|a l IH]; [reflexivity|]. cbn [app popped]. destruct (l ++ [x]) eqn:El; [|exact IH].
    now apply app_eq_nil in El. }
  rewrite E. now destruct x.
Qed.
Print Assumptions C66_extra_groups_dropped.
Example C66_example : sealed_right s_icp /\ sealed_right s_dip /\ sem_seal s_dip <> None.
Proof.
  split; [vm_compute; tauto|]. split; [vm_compute; tauto|]. vm_compute; discriminate.
Qed.

(** ** C67: conversion never panics *)
(** the last attachment, looking inside the last frame *)
Inductive ends_with : list Attachment -> Attachment -> Prop :=
| EndHere l a : (forall l', a <> Frame l') -> ends_with (l ++ [a]) a
| EndFrame l l' a : ends_with l' a -> ends_with (l ++ [Frame l']) a.
Lemma last_frame l x : last_attachment (l ++ [x]) = innermost x.
Proof.
  unfold last_attachment. induction l as [|a l IH]; [reflexivity|]. cbn [app]. cbn [innermost] in IH |- *.
  destruct (l ++ [x]) eqn:E; [now apply app_eq_nil in E|exact IH].
Qed.
Lemma ends_last l a : ends_with l a -> last_attachment l = Ok a.
Proof.
  induction 1 as [l a H|l l' a H IH]; rewrite last_frame; [|exact IH].
  destruct a; try reflexivity. exfalso. eapply H. reflexivity.
Qed.
Lemma last_ends a : forall x, innermost a = Ok x -> match a with Frame l => ends_with l x | _ => x = a end /\ (forall l, x <> Frame l).
Proof.
  induction a as [l|l|l|l|l|l IH] using attachment_ind'; intros x H; try (inversion H; split; [reflexivity|discriminate]).
  destruct l as [|y l] using rev_ind; [discriminate H|]. clear IHl.
  change (last_attachment (l ++ [y]) = Ok x) in H. rewrite last_frame in H.
  apply Forall_app in IH as [_ IH]. inversion IH as [|? ? Hy _]; subst. destruct (Hy x H) as [Hx Hf].
  split; [|exact Hf]. destruct y; try (subst x; now constructor). now apply EndFrame.
Qed.
Lemma innermost_no_panic a : innermost a <> Panic.
Proof.
  induction a as [l|l|l|l|l|l IH] using attachment_ind'; try discriminate.
  destruct l as [|y l] using rev_ind; [discriminate|]. clear IHl.
  change (last_attachment (l ++ [y]) <> Panic). rewrite last_frame. apply Forall_app in IH as [_ IH]. now inversion IH.
Qed.
(** conversion panics exactly on a reply whose last attachment is an empty list of
    couplets, and on a query whose last attachment is an empty list of groups *)
Theorem C67_conversion_panics_partial :
  forall d, to_message d = Panic <->
    (exists r, sed_event d = RpyT r /\ ends_with (sed_atts d) (ReceiptCouplets []))
    \/ (exists q, sed_event d = QryT q /\ ends_with (sed_atts d) (LastEstSignaturesGroups [])).
Proof.
  intros [e l]. unfold to_message. cbn [sed_event sed_atts].
  assert (L : forall x, last_attachment l = Ok x -> ends_with l x) by (intros x H; exact (proj1 (last_ends (Frame l) x H))).
  assert (LP : last_attachment l <> Panic) by exact (innermost_no_panic (Frame l)).
  split.
  - destruct e as [m|r|q|r].
    + unfold signed_key_event. intros H. exfalso. revert H.
      destruct (em_data m); try (destruct l as [|[]]; discriminate);
        (destruct (rev l) as [|a [|b ?]]; try discriminate; destruct a, b; cbn [obind]; try discriminate;
         match goal with |- match ?s with _ => _ end = _ -> _ => destruct s as [|? [|? ?]]; discriminate end).
    + unfold signed_receipt. intros H. exfalso. destruct (last_attachment l) as [a| |]; cbn [obind] in H; try congruence.
      destruct a as [| | |g| |]; try discriminate H. destruct (popped g) as [[]|]; discriminate H.
    + unfold signed_query. intros H. right. exists q. split; [reflexivity|].
      destruct (last_attachment l) as [a| |]; cbn [obind] in H; try congruence.
      destruct a as [| | | |g|]; try discriminate H. destruct g as [|[] ?]; [now apply L|discriminate H].
    + unfold signed_reply. intros H. left. exists r. split; [reflexivity|].
      destruct (last_attachment l) as [a| |]; cbn [obind] in H; try congruence.
      destruct a as [| |g|g| |]; try discriminate H.
      * destruct g as [|[] ?]; [now apply L|discriminate H].
      * destruct (popped g) as [[]|]; discriminate H.
  - intros [(r & -> & H)|(q & -> & H)]; apply ends_last in H.
    + unfold signed_reply. now rewrite H.
    + unfold signed_query. now rewrite H.
Qed.
Print Assumptions C67_conversion_panics_partial.
(** The full statement is false, and the panic can be reached from the wire: the parser
    reads such attachments. *)
Theorem C67_refuted :
  (forall r, exists l, many0 attachment (bstr "-CAA") = POk [] l /\ to_message (mkSED (RpyT r) l) = Panic)
  /\ (forall q, exists l, many0 attachment (bstr "-HAA") = POk [] l /\ to_message (mkSED (QryT q) l) = Panic).
Proof.
  split.
  - intros r. exists [ReceiptCouplets []]. split; reflexivity.
  - intros q. exists [LastEstSignaturesGroups []]. split; reflexivity.
Qed.
Print Assumptions C67_refuted.
Example C67_example : ends_with [AttachedSignatures []; Frame [ReceiptCouplets []]] (ReceiptCouplets []).
Proof. apply (EndFrame [AttachedSignatures []]). apply (EndHere []). discriminate. Qed.

(** ** C68: streams *)
Section Stream.
  Context (parse : bytes -> pres EventType) (ser : EventType -> out bytes).
  (** the event codec reads back [e] whatever follows it *)
  Definition reads_back (e : EventType) : Prop := exists b, ser e = Ok b /\ forall r, parse (b ++ r) = POk r e.
  (** the text of a JSON object with at least one field *)
  Definition json_object (s : bytes) : Prop := exists t, s = bstr "{""" ++ t.
  Definition json_event (e : EventType) : Prop := forall b, ser e = Ok b -> json_object b.
  Definition data_fits (d : SignedEventData) : Prop :=
    reads_back (sed_event d) /\ json_event (sed_event d) /\ Forall (fun a => att_fits a /\ att_small a) (sed_atts d).
  (** what can follow a message: nothing, or something that is neither an attachment nor
      a reason for the parser to fail hard *)
  Definition ends (r : bytes) : Prop := attachment r = PErr.

  Lemma json_ends s : json_object s -> ends s.
  Proof. intros [t ->]. unfold ends. rewrite attachment_eq. unfold attachment_body. now rewrite take_app. Qed.
  Lemma attachments_read l : Forall (fun a => att_fits a /\ att_small a) l -> forall r, ends r ->
    exists t, oconcat to_cesr l = Ok t /\ forall fuel, List.length t < fuel -> many0_f attachment fuel (t ++ r) = POk r l.
  Proof.
    induction 1 as [|a l [Ha Hs] Hl IH]; intros r Hr.
    - exists []. split; [reflexivity|]. intros [|fuel] Hf; [cbn in Hf; lia|]. cbn [app many0_f]. now rewrite Hr.
    - destruct (IH r Hr) as (t & E & Ht). pose proof (att_write a Ha Hs) as Hw. exists (att_text a ++ t).
      split; [cbn [oconcat]; rewrite Hw, E; reflexivity|]. intros [|fuel] Hf; [lia|].
      apply to_cesr_ne in Hw. rewrite app_length in Hf. rewrite <- app_assoc. cbn [many0_f]. rewrite att_read by exact Ha.
      replace (List.length (t ++ r) =? List.length (att_text a ++ t ++ r)) with false by (rewrite !app_length; lia).
      rewrite Ht by lia. reflexivity.
  Qed.
  Lemma message_read d : data_fits d -> forall r, ends r ->
    exists t, sed_cesr ser d = Ok t /\ json_object t /\ signed_message parse (t ++ r) = POk r d.
  Proof.
    intros ((b & Hb & Hp) & Hj & Ha) r Hr. destruct (attachments_read _ Ha r Hr) as (t & E & Ht).
    exists (b ++ t). unfold sed_cesr. rewrite E, Hb. split; [reflexivity|]. split.
    - destruct (Hj b Hb) as [u ->]. exists (u ++ t). now rewrite <- app_assoc.
    - unfold signed_message. rewrite <- app_assoc, Hp. cbn [pbnd]. unfold many0. rewrite Ht by (rewrite app_length; lia).
      cbn [pbnd]. now destruct d.
  Qed.
  Lemma stream_read ds : Forall data_fits ds -> forall r, ends r -> parse r = PErr ->
    exists t, oconcat (sed_cesr ser) ds = Ok t /\ (ends (t ++ r)) /\
      forall fuel, List.length t < fuel -> many0_f (signed_message parse) fuel (t ++ r) = POk r ds.
  Proof.
    induction 1 as [|d ds Hd Hds IH]; intros r Hr Hp.
    - exists []. split; [reflexivity|]. split; [exact Hr|]. intros [|fuel] Hf; [cbn in Hf; lia|]. cbn [app many0_f].
      unfold signed_message. rewrite Hp. reflexivity.
    - destruct (IH r Hr Hp) as (t & E & He & Ht). destruct (message_read d Hd _ He) as (u & Eu & Hj & Hu).
      exists (u ++ t). split; [cbn [oconcat]; rewrite Eu, E; reflexivity|]. split.
      + rewrite <- app_assoc. apply json_ends. destruct Hj as [v ->]. exists (v ++ t ++ r). now rewrite <- app_assoc.
      + intros [|fuel] Hf; [lia|]. rewrite app_length in Hf. rewrite <- app_assoc. cbn [many0_f]. rewrite Hu.
        assert (Hlu : List.length u <> 0) by (destruct Hj as [v ->]; discriminate).
        match goal with |- (if ?b then _ else _) = _ => replace b with false by (rewrite !app_length; lia) end.
        rewrite Ht by lia. reflexivity.
  Qed.
  (** A stream of JSON messages is read back message by message; [r] is what follows. *)
  Theorem C68_stream_round_trip_partial :
    forall ds, Forall data_fits ds -> forall r, ends r -> parse r = PErr ->
    exists t, oconcat (sed_cesr ser) ds = Ok t /\ signed_event_stream parse (t ++ r) = POk r ds.
  Proof.
    intros ds H r Hr Hp. destruct (stream_read ds H r Hr Hp) as (t & E & _ & Ht). exists t. split; [exact E|].
    unfold signed_event_stream, many0. apply Ht. rewrite app_length. lia.
  Qed.
  (** The full statement is false.  A message in binary form (its first two bytes are not
      UTF-8 text, as in CBOR and MessagePack, whose maps start with a byte of 128 or more)
      cannot follow an attachment: the whole stream is refused, the messages before it
      included. *)
  Theorem C68_binary_messages_refused :
    forall d, data_fits d -> forall x y r, valid_utf8 [x; y] = false ->
    exists t, sed_cesr ser d = Ok t /\ signed_event_stream parse (t ++ [x; y] ++ r) = PFail.
  Proof.
    intros d ((b & Hb & Hp) & Hj & Ha) x y r Hu.
    assert (Hf : attachment ([x; y] ++ r) = PFail).
    { rewrite attachment_eq. unfold attachment_body. rewrite take_app by reflexivity. cbn [pbnd]. now rewrite Hu. }
    assert (A : forall l, Forall (fun a => att_fits a /\ att_small a) l ->
              exists t, oconcat to_cesr l = Ok t /\ forall fuel, List.length t < fuel -> many0_f attachment fuel (t ++ [x; y] ++ r) = PFail).
    { induction 1 as [|a l [Hfa Hs] Hl IH].
      - exists []. split; [reflexivity|]. intros [|fuel] Hl; [cbn in Hl; lia|].
        change (([] : bytes) ++ [x; y] ++ r) with ([x; y] ++ r). cbn [many0_f]. now rewrite Hf.
      - destruct IH as (t & E & Ht). pose proof (att_write a Hfa Hs) as Hw. exists (att_text a ++ t).
        split; [cbn [oconcat]; rewrite Hw, E; reflexivity|]. intros [|fuel] Hl'; [lia|].
        apply to_cesr_ne in Hw. rewrite app_length in Hl'. rewrite <- app_assoc. cbn [many0_f]. rewrite att_read by exact Hfa.
        match goal with |- (if ?b then _ else _) = _ => replace b with false by (rewrite !app_length; lia) end.
        rewrite Ht by lia. reflexivity. }
    destruct (A _ Ha) as (t & E & Ht). exists (b ++ t). unfold sed_cesr. rewrite E, Hb. split; [reflexivity|].
    unfold signed_event_stream, many0. cbn [many0_f]. unfold signed_message. rewrite <- app_assoc, Hp. cbn [pbnd].
    unfold many0. rewrite Ht by (rewrite app_length; lia). reflexivity.
  Qed.
End Stream.
Print Assumptions C68_stream_round_trip_partial.
Print Assumptions C68_binary_messages_refused.

(** a case: two messages with their attachments, then a line feed *)
Definition toy_parse (s : bytes) : pres EventType :=
  let! (r, t) := take 7 s in if is t "{""k"":1}" then POk r (KeyEventT a_icp) else PErr.
Definition toy_ser (e : EventType) : out bytes :=
  match e with KeyEventT _ => Ok (bstr "{""k"":1}") | _ => Err ESerialization end.
Definition ex_data : SignedEventData :=
  sed_of_event (mkSEM a_icp [mkASP 0 (mkSSP Ed25519Sha512 (repeat x01 64)); mkASP 1 (mkSSP Ed25519Sha512 (repeat x02 64))] None).
Example C68_example :
  Forall (data_fits toy_parse toy_ser) [ex_data; ex_data]
  /\ ends (bstr "
") /\ toy_parse (bstr "
") = PErr /\ valid_utf8 [xa8; x61] = false.
Proof.
  split; [|split; [reflexivity|split; reflexivity]].
  assert (H : data_fits toy_parse toy_ser ex_data).
  { split; [|split].
    - exists (bstr "{""k"":1}"). split; [reflexivity|]. intros r. unfold toy_parse.
      rewrite take_app by reflexivity. reflexivity.
    - intros b Hb. inversion Hb. exists (bstr "k"":1}"). reflexivity.
    - unfold ex_data, sed_of_event. cbn [sed_atts sem_seal sem_sigs].
      apply Forall_cons; [|apply Forall_nil]. unfold att_fits, att_small, counted, small.
      split; (split; [cbn; lia|]); (apply Forall_cons; [|apply Forall_cons; [|apply Forall_nil]]);
        try (split; vm_compute; reflexivity); vm_compute; reflexivity. }
  apply Forall_cons; [exact H|]. apply Forall_cons; [exact H|apply Forall_nil].
Qed.
Print Assumptions C66_reply_round_trip.
Print Assumptions C66_transferable_receipt_round_trip.
Print Assumptions C66_receipt_round_trip.
