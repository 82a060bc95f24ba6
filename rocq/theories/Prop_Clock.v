(** * Prop_Clock: C94 and C95 with the times as the node writes them.
    [Clock.rfc_write], [Clock.rfc_read] are chrono's texts of an instant. *)
From Verif Require Import Base Base64 Codes NumFmt Types SpecCodec Cesr SpecCesr SpecJson SpecJsonQ Message Keri Json JsonRead JsonQuery CesrProofs Prop_Json Prop_Json2 Prop_JsonQ.
From Verif Require Import Clock.
Notation json := Json.json.
Open Scope Z_scope.

(** ** The text of an instant keeps its microseconds, for the years the text can show *)
Theorem C94_clock : forall t : Z, written_year t -> instant_kept rfc_write rfc_read t.
Proof.
  intros t H. split; [apply ascii_valid, rfc_ascii|]. split; [now apply rfc_round_trip|].
  unfold rfc_write, micros. now rewrite Z.div_mul by lia.
Qed.
Print Assumptions C94_clock.
(** So a query that was made now is read back by its receiver, its time to the microsecond. *)
Theorem C94_query_made_is_read :
  forall (hx : bytes -> option N) (bk : bytes -> pres EventMessage) (bp : bytes -> pres ReplyMessage)
         (bq : bytes -> pres QueryMessage) (br : bytes -> pres ReceiptMessage), outside hx bk bp bq br ->
  forall (E : Env) (route : Route) (id : IdentifierPrefix) (g : SelfAddressing) (now : Z) (q : QueryMessage) (t : bytes),
    digests_sized E -> unkeyed g = g -> written_year now -> Forall id_stable (route_ids route) -> id_stable id ->
    new_query rfc_write E route id g now = Ok q -> e_ser_query (with_json_q rfc_write E) q = Ok t -> (List.length t <= N.to_nat u16_max)%nat ->
    forall r, exists q', read_event_type_q hx rfc_read bk bp bq br (t ++ r) = POk r (QryT q')
      /\ q_info q' = q_info q /\ q_digest q' = q_digest q /\ q_route q' = route /\ q_i q' = id
      /\ q_timestamp q' <= now < q_timestamp q' + 1000.
Proof.
  intros hx bk bp bq br Ho E route id g now q t HE Hg Hn Hr Hi Hq Ht Hl r.
  destruct (C94_new_query E rfc_write rfc_read route id g now q t HE Hg (C94_clock now Hn) Hr Hi Hq Ht Hl) as (Hs & Hk & Er & Ei & En & _).
  destruct (C94_query_round_trip hx rfc_write rfc_read bk bp bq br Ho E q t Hs Hk Ht) as [Hb _].
  exists (query_at_micros q). split; [apply Hb|]. unfold query_at_micros. cbn [q_info q_digest q_route q_i q_timestamp].
  rewrite En. unfold micros. pose proof (Z.div_mod now 1000 ltac:(lia)). pose proof (Z.mod_pos_bound now 1000 ltac:(lia)). repeat split; auto; lia.
Qed.
Print Assumptions C94_query_made_is_read.
(** An instant beyond the year 9999 is written with a sign and five digits, and is not a text of
    this length: the bound is needed. *)
Example C94_clock_example :
  written_year 1642089212020709123 /\ rfc_write 1642089212020709123 = bstr "2022-01-13T15:53:32.020709+00:00"
  /\ rfc_read (bstr "2022-01-13T15:53:32.020709+00:00") = Some 1642089212020709000
  /\ rfc_read (bstr "2022-02-30T15:53:32.020709+00:00") = None
  /\ rfc_read (bstr "2022-01-13T16:53:32.020709+01:00") = Some 1642089212020709000.
Proof. split; [unfold written_year; lia|]. repeat (apply conj; [vm_compute; reflexivity|]). vm_compute. reflexivity. Qed.
Definition now0 : Z := 1642089212020709123.
Definition q1 : QueryMessage := queried rfc_write jtoy RKsn j_id Blake3_256 now0.
Example C94_query_made_is_read_example :
  outside hx0 no_key no_rpy no_qry no_rct /\ digests_sized jtoy /\ written_year now0 /\ id_stable j_id
  /\ new_query rfc_write jtoy RKsn j_id Blake3_256 now0 = Ok q1
  /\ e_ser_query (with_json_q rfc_write jtoy) q1 = Ok (json (query_val rfc_write q1))
  /\ (List.length (json (query_val rfc_write q1)) <= N.to_nat u16_max)%nat.
Proof.
  assert (L : List.length (json (query_val rfc_write q1)) = 206%nat) by (vm_compute; reflexivity).
  split; [exact outside0|]. split; [exact jtoy_sized|]. split; [unfold written_year, now0; lia|]. split; [exact j_id_stable|].
  split; [now rewrite new_query_queried|]. split; [now apply ser_query|]. rewrite L. change u16_max with 65535%N. lia.
Qed.
