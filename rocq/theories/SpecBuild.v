(** * SpecBuild: what a user of the event builder asked for.

    Each field is what the last setting of its kind says, seals are those of all settings. *)
From Verif Require Import Base Base64 Codes NumFmt Types KeyConf State Db Processor Cesr Message Keri Builder Spec.

Fixpoint last_said {A} (f : Setting -> option A) (l : list Setting) : option A :=
  match l with
  | [] => None
  | s :: r => match last_said f r with Some a => Some a | None => f s end
  end.
Definition asked_prefix := last_said (fun s => match s with SPrefix p => Some p | _ => None end).
Definition asked_keys := last_said (fun s => match s with SKeys k => Some k | _ => None end).
Definition asked_next_keys := last_said (fun s => match s with SNextKeys k => Some k | _ => None end).
Definition asked_sn := last_said (fun s => match s with SSn n => Some n | _ => None end).
Definition asked_previous := last_said (fun s => match s with SPrevious g => Some g | _ => None end).
Definition asked_delegator := last_said (fun s => match s with SDelegator p => Some p | _ => None end).
Definition asked_threshold := last_said (fun s => match s with SThreshold t => Some t | _ => None end).
Definition asked_next_threshold := last_said (fun s => match s with SNextThreshold t => Some t | _ => None end).
Definition asked_witnesses := last_said (fun s => match s with SWitnesses w => Some w | _ => None end).
Definition asked_add := last_said (fun s => match s with SAdd w => Some w | _ => None end).
Definition asked_remove := last_said (fun s => match s with SRemove w => Some w | _ => None end).
Definition asked_seals (l : list Setting) : list Seal :=
  flat_map (fun s => match s with SSeals x => x | _ => [] end) l.

(** Parts of an event, where it has them *)
Definition seals_of (m : EventMessage) : list Seal :=
  match em_data m with
  | Icp i => icp_data i | Dip d => icp_data (dip_icp d)
  | Rot r | Drt r => rot_data r | Ixn i => ixn_data i
  end.
Definition initial_witnesses (m : EventMessage) : list BasicPrefix :=
  match em_data m with Icp i => iwc_witnesses (icp_wc i) | Dip d => iwc_witnesses (icp_wc (dip_icp d)) | _ => [] end.
(** The commitment to a threshold and keys (algorithm [g]). *)
Definition commitment (E : Env) (g : SelfAddressing) (t : SignatureThreshold) (ks : list BasicPrefix) : SelfAddressingPrefix :=
  mkSAP g (xor_all (e_digest E g (threshold_str t)) (map (fun k => e_digest E g (bp_str k)) ks)).
Definition kind_of (m : EventMessage) : EventTypeTag :=
  match em_data m with Icp _ => TIcp | Rot _ => TRot | Ixn _ => TIxn | Dip _ => TDip | Drt _ => TDrt end.
