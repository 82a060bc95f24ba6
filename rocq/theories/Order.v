(** * Order: comparing and sorting timestamped events
    ([src/event_message/mod.rs], [src/event_message/signed_event_message.rs]). *)
From Verif Require Import Base Types.

(** event_message/mod.rs:136-140 [TimestampedEventMessage]; the moment is a number of
    nanoseconds (chrono compares [DateTime<Local>] as moments) *)
Record TimestampedEventMessage := mkTEM { tem_time : Z; tem_event : EventMessage }.
(** signed_event_message.rs:73-77 [TimestampedSignedEventMessage] *)
Record TimestampedSignedEventMessage := mkTSEM { tsem_time : Z; tsem_event : SignedEventMessage }.

(** event_message/mod.rs:136, derived [PartialEq] *)
Definition tem_eqb (a b : TimestampedEventMessage) : bool :=
  (tem_time a =? tem_time b)%Z && (if EM_eq_dec (tem_event a) (tem_event b) then true else false).
(** signed_event_message.rs:105-109 [PartialEq]: the moment is not looked at *)
Definition tsem_eqb (a b : TimestampedSignedEventMessage) : bool := sem_eqb (tsem_event a) (tsem_event b).

(** event_message/mod.rs:150-164 [partial_cmp] *)
Definition tem_partial_cmp (a b : TimestampedEventMessage) : option comparison :=
  Some (if (em_sn (tem_event a) =? em_sn (tem_event b))%N then Eq
        else if (em_sn (tem_event b) <? em_sn (tem_event a))%N then Gt else Lt).
(** event_message/mod.rs:166-176 [cmp] *)
Definition tem_cmp (a b : TimestampedEventMessage) : comparison :=
  if (em_sn (tem_event a) =? em_sn (tem_event b))%N then Eq
  else if (em_sn (tem_event b) <? em_sn (tem_event a))%N then Gt else Lt.
(** signed_event_message.rs:111-129 [partial_cmp] *)
Definition tsem_partial_cmp (a b : TimestampedSignedEventMessage) : option comparison :=
  Some (if (em_sn (sem_msg (tsem_event a)) =? em_sn (sem_msg (tsem_event b)))%N then Eq
        else if (em_sn (sem_msg (tsem_event b)) <? em_sn (sem_msg (tsem_event a)))%N then Gt else Lt).
(** signed_event_message.rs:131-145 [cmp] *)
Definition tsem_cmp (a b : TimestampedSignedEventMessage) : comparison :=
  if (em_sn (sem_msg (tsem_event a)) =? em_sn (sem_msg (tsem_event b)))%N then Eq
  else if (em_sn (sem_msg (tsem_event b)) <? em_sn (sem_msg (tsem_event a)))%N then Gt else Lt.

(** [Vec::sort] (processor/mod.rs:54, 87): the standard library's stable sort asks
    [a.lt(b)], that is [partial_cmp == Some(Less)].  Modelled as insertion: the result of a
    stable sort does not depend on how it is computed (C143_sort_is_the_only_one). *)
Definition tsem_lt (a b : TimestampedSignedEventMessage) : bool :=
  match tsem_partial_cmp a b with Some Lt => true | _ => false end.
Fixpoint tsem_insert (e : TimestampedSignedEventMessage) (l : list TimestampedSignedEventMessage) :=
  match l with [] => [e] | x :: r => if tsem_lt x e then x :: tsem_insert e r else e :: l end.
Fixpoint tsem_sort (l : list TimestampedSignedEventMessage) : list TimestampedSignedEventMessage :=
  match l with [] => [] | e :: r => tsem_insert e (tsem_sort r) end.
