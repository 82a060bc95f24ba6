(** * SpecRules: when an event belongs at the end of a log.

    The rules are stated over the logs alone ([logs id] is the list of events held for [id],
    oldest first); nothing here refers to the functions that apply or process events. *)
From Verif Require Import Base Base64 Codes NumFmt Types KeyConf SpecSig State Db Processor Spec SpecProc.

(** An inception event carries the identifier it is entitled to: a basic identifier is its
    only key, a self-addressing one is its digest. *)
Definition names_itself (E : Env) (m : EventMessage) : Prop :=
  match em_data m, em_prefix m with
  | Icp i, IdBasic k => kc_keys (icp_kc i) = [k]
  | Icp _, IdSelfAddressing g => em_digest m = g
  | Dip _, IdSelfAddressing g => digest_of_event E m g
  | _, _ => False
  end.
(** The keys and threshold of rotation [m] are those establishment event [e] committed to (with
    a computable algorithm). *)
Definition commits_to (E : Env) (e m : EventMessage) : Prop :=
  exists kc n kc',
    est_keys e = Some kc /\ kc_next kc = Some n /\ est_keys m = Some kc' /\ computable (sap_code n)
    /\ sap_digest n = xor_all (e_digest E (sap_code n) (threshold_str (kc_threshold kc')))
                              (map (fun k => e_digest E (sap_code n) (bp_str k)) (kc_keys kc')).
(** [m] may start the log [l]. *)
Definition begins (E : Env) (l : list EventMessage) (m : EventMessage) : Prop :=
  l = [] /\ em_sn m = 0%N /\ names_itself E m.
(** [m] may follow the log [l]. *)
Definition continues (E : Env) (l : list EventMessage) (m : EventMessage) : Prop :=
  exists first last,
    hd_error l = Some first /\ last_event l = Some last
    /\ em_sn m = N.of_nat (List.length l)
    /\ prev_digest m = Some (em_digest last)
    /\ (is_rotation m = true -> exists est, last_establishment l = Some est /\ commits_to E est m)
    /\ match em_data m with
       | Rot _ => named_delegator first = None
       | Drt _ => named_delegator first <> None
       | _ => True
       end.
(** The delegator of the identifier whose log [l] event [m] extends. *)
Definition delegator_of (l : list EventMessage) (m : EventMessage) : option IdentifierPrefix :=
  match l with [] => named_delegator m | first :: _ => named_delegator first end.
(** The event that the attached source seal points to, in the delegator's log, seals [m]; the
    seals are tried in order, so those before it must be comparable. *)
Definition anchored (E : Env) (logs : IdentifierPrefix -> list EventMessage)
    (l : list EventMessage) (se : SignedEventMessage) : Prop :=
  exists delegator src x before es after,
    delegator_of l (sem_msg se) = Some delegator /\ sem_seal se = Some src
    /\ In x (logs delegator) /\ em_sn x = src_sn src
    /\ anchor_data x = Some (before ++ SealEvent es :: after)
    /\ (forall es', In (SealEvent es') before -> checkable (sem_msg se) (es_digest es'))
    /\ digest_of_event E (sem_msg se) (es_digest es).
(** The keys in force once [m] is at the end of [l]. *)
Definition keys_in_force (l : list EventMessage) (m : EventMessage) : option KeyConfig :=
  match last_establishment (l ++ [m]) with Some e => est_keys e | None => None end.
(** Enough of them signed the serialization of [m]. *)
Definition signed_enough (E : Env) (l : list EventMessage) (se : SignedEventMessage) : Prop :=
  exists kc ser,
    keys_in_force l (sem_msg se) = Some kc /\ e_ser_event E (sem_msg se) = Ok ser
    /\ in_single (kc_threshold kc) (sem_sigs se) /\ satisfies E kc ser (sem_sigs se).

(** The rules together. *)
Definition acceptable (E : Env) (logs : IdentifierPrefix -> list EventMessage)
    (se : SignedEventMessage) : Prop :=
  let m := sem_msg se in let l := logs (em_prefix m) in
  (if is_inception m then begins E l m else continues E l m)
  /\ (is_delegated m = true -> anchored E logs l se)
  /\ signed_enough E l se.
