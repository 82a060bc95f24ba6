(** * State: event semantics (the [EventSemantics] trait, [apply_to]). *)
From Verif Require Import Base Base64 Codes NumFmt Types KeyConf.

(** Record updates used by Rust's [IdentifierState { .., ..state }]. *)
(** event_message/key_event_message.rs and event/event_data/*.rs ([..state]) *)
Definition st_set_last_digest (s : IdentifierState) (d : SelfAddressingPrefix) : IdentifierState :=
  mkState (st_prefix s) (st_sn s) d (st_last_previous s) (st_last_type s) (st_current s)
          (st_tally s) (st_witnesses s) (st_delegator s) (st_last_est s).
(** event/mod.rs:55-90 ([..state]) *)
Definition st_set_sn_prefix (s : IdentifierState) (sn : N) (p : IdentifierPrefix) : IdentifierState :=
  mkState p sn (st_last_digest s) (st_last_previous s) (st_last_type s) (st_current s)
          (st_tally s) (st_witnesses s) (st_delegator s) (st_last_est s).
(** event/event_data/delegated/mod.rs ([..state]) *)
Definition st_set_delegator (s : IdentifierState) (d : option IdentifierPrefix) : IdentifierState :=
  mkState (st_prefix s) (st_sn s) (st_last_digest s) (st_last_previous s) (st_last_type s)
          (st_current s) (st_tally s) (st_witnesses s) d (st_last_est s).
(** event/event_data/inception.rs, rotation.rs ([..state]) *)
Definition st_set_est (s : IdentifierState) (kc : KeyConfig) (tally : N) (ws : list BasicPrefix)
    (le : LastEst) : IdentifierState :=
  mkState (st_prefix s) (st_sn s) (st_last_digest s) (st_last_previous s) (st_last_type s)
          kc tally ws (st_delegator s) le.

(** [Vec::contains]; event/event_data/rotation.rs, event/sections/mod.rs *)
Definition bp_mem (p : BasicPrefix) (l : list BasicPrefix) : bool :=
  if in_dec BasicPrefix_eq_dec p l then true else false.

(** inception.rs:75-92 [InceptionEvent::apply_to] *)
Definition apply_icp (e : InceptionEvent) (s : IdentifierState) : out IdentifierState :=
  Ok (st_set_est s (icp_kc e) (iwc_tally (icp_wc e)) (iwc_witnesses (icp_wc e))
        (mkLE (st_sn s) (st_last_digest s) [] [])).
(** delegated/mod.rs:50-58 [DelegatedInceptionEvent::apply_to] *)
Definition apply_dip (e : DelegatedInceptionEvent) (s : IdentifierState) : out IdentifierState :=
  let? s' := apply_icp (dip_icp e) s in Ok (st_set_delegator s' (Some (dip_delegator e))).
(** rotation.rs:31-42: the new witness list *)
Definition rotate_witnesses (wc : WitnessConfig) (ws : list BasicPrefix) : list BasicPrefix :=
  match wc_prune wc, wc_graft wc with
  | [], [] => ws
  | _, _ => filter (fun w => negb (bp_mem w (wc_prune wc))) ws ++ wc_graft wc
  end.
(** interaction.rs:25-29 [InteractionEvent::apply_to] *)
Definition apply_ixn (e : InteractionEvent) (s : IdentifierState) : out IdentifierState := Ok s.

Section WithEnv.
  Context (E : Env).

  (** rotation.rs:28-61 [RotationEvent::apply_to]; note [br] := graft, [ba] := prune *)
  Definition apply_rot (e : RotationEvent) (s : IdentifierState) : out IdentifierState :=
    let? bound := verify_next E (st_current s) (rot_kc e) in
    if (bound : bool) then
      Ok (st_set_est s (rot_kc e) (wc_tally (rot_wc e))
            (rotate_witnesses (rot_wc e) (st_witnesses s))
            (mkLE (st_sn s) (st_last_digest s) (wc_graft (rot_wc e)) (wc_prune (rot_wc e))))
    else Err (ESemantic "Incorrect Key Config binding").

  (** event_data/mod.rs:66-76 *)
  Definition apply_data (d : EventData) (s : IdentifierState) : out IdentifierState :=
    match d with
    | Icp e => apply_icp e s
    | Rot e => apply_rot e s
    | Ixn e => apply_ixn e s
    | Dip e => apply_dip e s
    | Drt e => apply_rot e s
    end.

  (** event/mod.rs:59-90 [Event::apply_to] (also [KeyEvent::apply_to],
      key_event_message.rs:28-32).  [state.sn + 1] is not wrapped (DESIGN.md). *)
  Definition apply_event (m : EventMessage) (s : IdentifierState) : out IdentifierState :=
    let? _ :=
      match em_data m with
      | Icp _ | Dip _ =>
          if IdentifierPrefix_eq_dec (st_prefix s) id_default then
            if (em_sn m =? 0)%N then Ok tt else Err (ESemantic "SN is not correct")
          else Err EDuplicate
      | _ =>
          if IdentifierPrefix_eq_dec (em_prefix m) (st_prefix s) then
            if (em_sn m <? st_sn s + 1)%N then Err EDuplicate
            else if (st_sn s + 1 <? em_sn m)%N then Err EOutOfOrder
            else Ok tt
          else Err (ESemantic "Prefix does not match")
      end in
    apply_data (em_data m) (st_set_sn_prefix s (em_sn m) (em_prefix m)).

  (** key_event_message.rs:54-61 [check_digest] *)
  Definition check_digest (m : EventMessage) (sai : SelfAddressingPrefix) : out bool :=
    if SelfAddressing_eq_dec (sap_code (em_digest m)) (sap_code sai)
    then Ok (if SAP_eq_dec (em_digest m) sai then true else false)
    else let? data := e_deriv_data E m in verify_binding E sai data.

  (** key_event_message.rs:167-184 [verify_identifier_binding]; [todo!()] panics *)
  Definition verify_identifier_binding (m : EventMessage) : out bool :=
    match em_data m with
    | Icp icp =>
        match em_prefix m with
        | IdBasic bp =>
            Ok (match kc_keys (icp_kc icp) with
                | [k] => if BasicPrefix_eq_dec bp k then true else false
                | _ => false end)
        | IdSelfAddressing sap =>
            let? b := check_digest m sap in
            Ok (b && if SAP_eq_dec (em_digest m) sap then true else false)
        | IdSelfSigning _ => Panic
        end
    | Dip _ =>
        match em_prefix m with
        | IdSelfAddressing sap => check_digest m sap
        | _ => Panic
        end
    | _ => Err (ESemantic "Not an ICP or DIP event")
    end.

  (** key_event_message.rs:87-91, the closure [check_event_digest] *)
  Definition check_event_digest (m : EventMessage) : out unit :=
    let? b := check_digest m (em_digest m) in ok_if b EIncorrectDigest.

  (** the previous-digest check shared by key_event_message.rs:117-128, 137-146, 150-161 *)
  Definition chain_to (m : EventMessage) (prev : SelfAddressingPrefix)
      (s next : IdentifierState) : out IdentifierState :=
    if SAP_eq_dec prev (st_last_digest s)
    then Ok (st_set_last_digest next (em_digest m))
    else Err (ESemantic "Last event does not match previous event").

  (** key_event_message.rs:85-165 [EventMessage<KeyEvent>::apply_to]
      (also [SignedEventMessage::apply_to], signed_event_message.rs:167-171) *)
  Definition apply_msg (m : EventMessage) (s : IdentifierState) : out IdentifierState :=
    match em_data m with
    | Icp _ | Dip _ =>
        let? b := verify_identifier_binding m in
        if (b : bool) then apply_event m (st_set_last_digest s (em_digest m))
        else Err (ESemantic "Invalid Identifier Prefix Binding")
    | Rot rot =>
        let? _ := check_event_digest m in
        match st_delegator s with
        | Some _ => Err (ESemantic "Applying non-delegated rotation to delegated state.")
        | None => let? next := apply_event m s in chain_to m (rot_prev rot) s next
        end
    | Drt drt =>
        let? next := apply_event m s in
        let? _ := check_event_digest m in
        match st_delegator s with
        | None => Err (ESemantic "Applying delegated rotation to non-delegated state.")
        | Some _ => chain_to m (rot_prev drt) s next
        end
    | Ixn ixn =>
        let? _ := check_event_digest m in
        let? next := apply_event m s in chain_to m (ixn_prev ixn) s next
    end.
End WithEnv.
