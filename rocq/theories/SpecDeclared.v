(** * SpecDeclared: what an identifier declares about its own future. *)
From Verif Require Import Base Base64 Codes NumFmt Types KeyConf State Db Processor Spec SpecProc.

(** the configuration traits in an inception event, field "c" *)
Definition traits (m : EventMessage) : list bytes :=
  match em_data m with Icp i => icp_config i | Dip d => icp_config (dip_icp d) | _ => [] end.
(** The first event of the log [l] declares the trait [t]: "EO", only establishment events
    follow; "DND", no identifiers are delegated. *)
Definition declares (l : list EventMessage) (t : string) : Prop :=
  exists first, hd_error l = Some first /\ In (bstr t) (traits first).
(** The events of [l] up to [e] end with one that commits to no next keys. *)
Definition abandons (e : EventMessage) : Prop := exists kc, est_keys e = Some kc /\ kc_next kc = None.

(** The full claim, for the logs [logs] and states [state] that a node holds *)
Definition limits_kept (logs : IdentifierPrefix -> list EventMessage) (state : IdentifierPrefix -> option IdentifierState) : Prop :=
  forall id, id <> id_default ->
    (declares (logs id) "EO" -> Forall (fun e => is_establishment e = true) (logs id))
    /\ (declares (logs id) "DND" -> forall id' first, id' <> id_default -> hd_error (logs id') = Some first -> named_delegator first <> Some id)
    /\ (forall j k e, nth_error (logs id) j = Some e -> abandons e -> j < k -> nth_error (logs id) k = None)
    /\ (forall s, state id = Some s -> logs id <> [] -> (st_tally s <= N.of_nat (List.length (st_witnesses s)))%N).
