(** * SpecSchema2: which JSON objects are queries and replies. *)
From Verif Require Import Base Types KeyConf Version Codes JsonRead SpecSchema.

(** a member that may be null or absent *)
Definition has_opt {A} (R : jval -> A -> Prop) (k : string) (l : members) (o : option A) : Prop :=
  match o with
  | None => named k l = [] \/ once k l JNull
  | Some a => has_once R k l a
  end.
Definition version_v : jval -> SerializationInfo -> Prop := text si_from.
Definition tag_text (t : EventTypeTag) : string :=
  match t with TIcp => "icp" | TRot => "rot" | TIxn => "ixn" | TDip => "dip" | TDrt => "drt" | TRct => "rct" | TRpy => "rpy" | TQry => "qry" end.
Definition tag_v (v : jval) (t : EventTypeTag) : Prop :=
  v = JStr (bstr (tag_text t)) \/ v = JObj [(bstr (tag_text t), JNull)].
Definition route_v (v : jval) (r : Route) : Prop :=
  match r with
  | RLog => v = JStr (bstr "log")
  | RKsn => v = JStr (bstr "ksn")
  | RReplyKsn i => exists x, v = JStr (bstr "/ksn/" ++ x) /\ id_from x = Ok i
  end.
Definition args_v (v : jval) (i : IdentifierPrefix) : Prop :=
  (exists l, v = JObj l /\ has_once id_v "i" l i) \/ (exists x, v = JArr [x] /\ id_v x i).

Section WithHex.
  Context (hx : bytes -> option N) (tr : bytes -> option Z).
  Definition instant_v (v : jval) (t : Z) : Prop := exists x, v = JStr x /\ tr x = Some t.
  Definition last_est_v (v : jval) (e : LastEst) : Prop :=
    (exists l, v = JObj l /\ has_once (hex_v hx) "s" l (le_sn e) /\ has_once digest_v "d" l (le_digest e)
       /\ has_once (array key_v) "br" l (le_br e) /\ has_once (array key_v) "ba" l (le_ba e))
    \/ (exists s d br ba, v = JArr [s; d; br; ba] /\ hex_v hx s (le_sn e) /\ digest_v d (le_digest e)
       /\ array key_v br (le_br e) /\ array key_v ba (le_ba e)).
  Definition state_o (l : members) (s : IdentifierState) : Prop :=
    has_once id_v "i" l (st_prefix s) /\ has_once (hex_v hx) "s" l (st_sn s) /\ has_once digest_v "d" l (st_last_digest s)
    /\ has_opt digest_v "p" l (st_last_previous s) /\ has_opt tag_v "et" l (st_last_type s)
    /\ has_once (hex_v hx) "bt" l (st_tally s) /\ has_once (array key_v) "b" l (st_witnesses s)
    /\ has_opt id_v "di" l (st_delegator s) /\ has_once last_est_v "ee" l (st_last_est s)
    /\ has_once (threshold_v hx) "kt" l (kc_threshold (st_current s)) /\ has_once (array key_v) "k" l (kc_keys (st_current s))
    /\ has_once next_v "n" l (kc_next (st_current s)).
  Definition notice_v (v : jval) (k : KeyStateNotice) : Prop :=
    exists l, v = JObj l /\ has_once version_v "v" l (ksn_info k) /\ has_once (hex_v hx) "f" l (ksn_first_seen k)
      /\ has_once instant_v "dt" l (ksn_timestamp k) /\ has_once (array string_v) "c" l (ksn_config k)
      /\ state_o l (ksn_state k).
  Definition query_o (l : members) (q : QueryMessage) : Prop :=
    has_once digest_v "d" l (q_digest q) /\ has_once instant_v "dt" l (q_timestamp q) /\ has_once route_v "r" l (q_route q)
    /\ has_once string_v "rr" l (q_reply_route q) /\ has_once args_v "q" l (q_i q).
  Definition reply_o (l : members) (m : ReplyMessage) : Prop :=
    has_once digest_v "d" l (rp_digest m) /\ has_once instant_v "dt" l (rp_timestamp m) /\ has_once route_v "r" l (rp_route m)
    /\ has_once notice_v "a" l (rp_ksn m).
End WithHex.
