(** * SpecSchema: which JSON objects are which messages.

    A table of member names and the texts they may hold, for each type of event.  Written over
    the members as they stand in the text; [latest] is the last member of a name, [once] the
    only one. *)
From Verif Require Import Base Types KeyConf Version Codes JsonRead.

Definition members := list (bytes * jval).
Definition named (k : string) (l : members) : list jval :=
  map snd (filter (fun kv => bytes_eqb (fst kv) (bstr k)) l).
Definition once (k : string) (l : members) (v : jval) : Prop := named k l = [v].
Definition latest (k : string) (l : members) (v : jval) : Prop := exists vs, named k l = vs ++ [v].

(** ** Values *)
Definition text {A} (f : bytes -> out A) (v : jval) (a : A) : Prop := exists x, v = JStr x /\ f x = Ok a.
Definition array {A} (R : jval -> A -> Prop) (v : jval) (l : list A) : Prop := exists vs, v = JArr vs /\ Forall2 R vs l.
Definition has {A} (R : jval -> A -> Prop) (k : string) (l : members) (a : A) : Prop := exists v, latest k l v /\ R v a.
Definition has_once {A} (R : jval -> A -> Prop) (k : string) (l : members) (a : A) : Prop := exists v, once k l v /\ R v a.

Definition string_v : jval -> bytes -> Prop := text Ok.
Definition key_v : jval -> BasicPrefix -> Prop := text bp_from.
Definition digest_v : jval -> SelfAddressingPrefix -> Prop := text sap_from.
Definition id_v : jval -> IdentifierPrefix -> Prop := text id_from.
Definition fraction_v : jval -> frac -> Prop := text frac_from.
Definition next_v (v : jval) (o : option SelfAddressingPrefix) : Prop :=
  match o with
  | None => v = JNull \/ v = JStr []
  | Some d => v <> JStr [] /\ digest_v v d
  end.

Section WithHex.
  Context (hx : bytes -> option N).
  Definition hex_v (v : jval) (n : N) : Prop := exists x, v = JStr x /\ hx x = Some n.
  Definition threshold_v (v : jval) (t : SignatureThreshold) : Prop :=
    match t with
    | Simple n => hex_v v n
    | Weighted (WSingle c) => array fraction_v v c
    | Weighted (WMulti cs) => cs <> [] /\ array (array fraction_v) v cs
    end.

  (** seals: an object or an array; a location seal goes before an event seal, that before a
      digest, that before a root *)
  Definition location_v (v : jval) (x : LocationSeal) : Prop :=
    (exists l, v = JObj l /\ has id_v "i" l (ls_prefix x) /\ has hex_v "s" l (ls_sn x) /\ has string_v "t" l (ls_ilk x)
       /\ has digest_v "p" l (ls_prior x))
    \/ (exists i s t p, v = JArr [i; s; t; p] /\ id_v i (ls_prefix x) /\ hex_v s (ls_sn x) /\ string_v t (ls_ilk x)
       /\ digest_v p (ls_prior x)).
  Definition event_seal_v (v : jval) (x : EventSeal) : Prop :=
    (exists l, v = JObj l /\ has id_v "i" l (es_prefix x) /\ has hex_v "s" l (es_sn x) /\ has digest_v "d" l (es_digest x))
    \/ (exists i s d, v = JArr [i; s; d] /\ id_v i (es_prefix x) /\ hex_v s (es_sn x) /\ digest_v d (es_digest x)).
  Definition only_v (k : string) (v : jval) (x : SelfAddressingPrefix) : Prop :=
    (exists l, v = JObj l /\ has digest_v k l x) \/ (exists d, v = JArr [d] /\ digest_v d x).
  Definition seal_v (v : jval) (s : Seal) : Prop :=
    let no_location := forall x, ~ location_v v x in
    let no_event := forall x, ~ event_seal_v v x in
    let no_digest := forall x, ~ only_v "d" v x in
    match s with
    | SealLocation x => location_v v x
    | SealEvent x => event_seal_v v x /\ no_location
    | SealDigest x => only_v "d" v x /\ no_location /\ no_event
    | SealRoot x => only_v "rd" v x /\ no_location /\ no_event /\ no_digest
    end.

  (** ** Events *)
  Definition keys_o (l : members) (x : KeyConfig) : Prop :=
    has (array key_v) "k" l (kc_keys x) /\ has threshold_v "kt" l (kc_threshold x) /\ has next_v "n" l (kc_next x).
  Definition icp_o (l : members) (x : InceptionEvent) : Prop :=
    keys_o l (icp_kc x) /\ has hex_v "bt" l (iwc_tally (icp_wc x)) /\ has (array key_v) "b" l (iwc_witnesses (icp_wc x))
    /\ has (array string_v) "c" l (icp_config x) /\ has (array seal_v) "a" l (icp_data x).
  Definition rot_o (l : members) (x : RotationEvent) : Prop :=
    has digest_v "p" l (rot_prev x) /\ keys_o l (rot_kc x)
    /\ has hex_v "bt" l (wc_tally (rot_wc x)) /\ has (array key_v) "br" l (wc_prune (rot_wc x))
    /\ has (array key_v) "ba" l (wc_graft (rot_wc x)) /\ has (array seal_v) "a" l (rot_data x).
  Definition ixn_o (l : members) (x : InteractionEvent) : Prop :=
    has digest_v "p" l (ixn_prev x) /\ has (array seal_v) "a" l (ixn_data x).
  Definition dip_o (l : members) (x : DelegatedInceptionEvent) : Prop :=
    icp_o l (dip_icp x) /\ has id_v "di" l (dip_delegator x).
  (** the type: a string, or an object with that member only, null *)
  Definition type_v (name : string) (v : jval) : Prop :=
    v = JStr (bstr name)
    \/ exists l, v = JObj l /\ Forall (fun kv => fst kv = bstr name) l /\ latest name l JNull.
  Definition typed (name : string) (l : members) : Prop := exists v, latest "t" l v /\ type_v name v.
  Definition data_o (l : members) (x : EventData) : Prop :=
    match x with
    | Icp e => typed "icp" l /\ icp_o l e
    | Rot e => typed "rot" l /\ rot_o l e
    | Ixn e => typed "ixn" l /\ ixn_o l e
    | Dip e => typed "dip" l /\ dip_o l e
    | Drt e => typed "drt" l /\ rot_o l e
    end.
  Definition event_o (l : members) (e : EventMessage) : Prop :=
    has_once digest_v "d" l (em_digest e) /\ has_once id_v "i" l (em_prefix e) /\ has_once hex_v "s" l (em_sn e)
    /\ data_o l (em_data e).
  Definition receipt_o (l : members) (c : ReceiptMessage) : Prop :=
    has_once digest_v "d" l (rct_digest c) /\ has_once id_v "i" l (rct_prefix c) /\ has_once hex_v "s" l (rct_sn c).
End WithHex.
(** the names that are read in an event *)
Definition event_names : list string :=
  ["d"; "i"; "s"; "t"; "p"; "k"; "kt"; "n"; "bt"; "b"; "br"; "ba"; "c"; "a"; "di"]%string.
