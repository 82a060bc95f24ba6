(** * Spec: vocabulary in which the properties are stated.

    Nothing here refers to the transition functions of the model ([apply_msg],
    [process_event], ...): only to the data of events, logs and states. *)
From Verif Require Import Base Base64 Codes NumFmt Types.

(** ** Digests *)
(** The digest algorithms the library can compute: all but the two keyed 256 bit Blake2
    variants (see [KeyConf.digest_aborts]). *)
Definition computable (g : SelfAddressing) : Prop :=
  match g with Blake2B256 _ | Blake2S256 _ => False | _ => True end.

(** ** Events *)
Definition is_inception (e : EventMessage) : bool :=
  match em_data e with Icp _ | Dip _ => true | _ => false end.
Definition is_rotation (e : EventMessage) : bool :=
  match em_data e with Rot _ | Drt _ => true | _ => false end.
Definition is_establishment (e : EventMessage) : bool := is_inception e || is_rotation e.
(** The key configuration an establishment event establishes. *)
Definition est_keys (e : EventMessage) : option KeyConfig :=
  match em_data e with
  | Icp i => Some (icp_kc i)
  | Dip d => Some (icp_kc (dip_icp d))
  | Rot r | Drt r => Some (rot_kc r)
  | Ixn _ => None
  end.
(** The digest a non-inception event names as its predecessor's. *)
Definition prev_digest (e : EventMessage) : option SelfAddressingPrefix :=
  match em_data e with
  | Icp _ | Dip _ => None
  | Rot r | Drt r => Some (rot_prev r)
  | Ixn i => Some (ixn_prev i)
  end.
Definition named_delegator (e : EventMessage) : option IdentifierPrefix :=
  match em_data e with Dip d => Some (dip_delegator d) | _ => None end.
(** Removed and added witnesses of an establishment event. *)
Definition removed_witnesses (e : EventMessage) : list BasicPrefix :=
  match em_data e with Rot r | Drt r => wc_prune (rot_wc r) | _ => [] end.
Definition added_witnesses (e : EventMessage) : list BasicPrefix :=
  match em_data e with Rot r | Drt r => wc_graft (rot_wc r) | _ => [] end.

(** ** Witness list after an event, from the list before it (KERI: prune, then graft). *)
Definition spec_witnesses (ws : list BasicPrefix) (e : EventMessage) : list BasicPrefix :=
  match em_data e with
  | Icp i => iwc_witnesses (icp_wc i)
  | Dip d => iwc_witnesses (icp_wc (dip_icp d))
  | Rot r | Drt r =>
      filter (fun w => if in_dec BasicPrefix_eq_dec w (wc_prune (rot_wc r)) then false else true) ws
      ++ wc_graft (rot_wc r)
  | Ixn _ => ws
  end.
Definition spec_tally (t : N) (e : EventMessage) : N :=
  match em_data e with
  | Icp i => iwc_tally (icp_wc i)
  | Dip d => iwc_tally (icp_wc (dip_icp d))
  | Rot r | Drt r => wc_tally (rot_wc r)
  | Ixn _ => t
  end.

(** ** Logs, as lists of events, oldest first *)
Definition log_of (l : list SignedEventMessage) : list EventMessage := map sem_msg l.
(** The last event of a log with a given property. *)
Fixpoint last_such (p : EventMessage -> bool) (l : list EventMessage) : option EventMessage :=
  match l with
  | [] => None
  | e :: r => match last_such p r with
              | Some x => Some x
              | None => if p e then Some e else None
              end
  end.
Definition last_establishment (l : list EventMessage) : option EventMessage :=
  last_such is_establishment l.
Definition last_event (l : list EventMessage) : option EventMessage := last_such (fun _ => true) l.

(** ** Next-key commitment: the bytewise xor of the digest of the threshold string and the
    digests of the keys' text forms *)
Definition xor_all (z : bytes) (l : list bytes) : bytes :=
  fold_right (fun d acc => map (fun p => n2b (N.lxor (b2n (fst p)) (b2n (snd p)))) (combine acc d)) z l.
