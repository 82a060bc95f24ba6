(** * SpecOrder: what an order by sequence number is. *)
From Coq Require Import Permutation Sorted.
From Verif Require Import Base Types Order.

(** the sequence number of a held event *)
Definition number (e : TimestampedSignedEventMessage) : N := em_sn (sem_msg (tsem_event e)).

(** a comparison that orders: nothing is before itself, the two sides agree, and it can be chained *)
Definition orders {A} (cmp : A -> A -> comparison) : Prop :=
  (forall a, cmp a a = Eq)
  /\ (forall a b, cmp b a = CompOpp (cmp a b))
  /\ (forall a b c r, cmp a b = r -> cmp b c = r -> cmp a c = r)
  /\ (forall a b c, cmp a b = Eq -> cmp a c = cmp b c).

(** [l'] is [l] put in the order of the numbers, with events of one number left as they were *)
Definition sorted_of (l l' : list TimestampedSignedEventMessage) : Prop :=
  Permutation l l'
  /\ StronglySorted (fun a b => (number a <= number b)%N) l'
  /\ (forall n, filter (fun e => number e =? n)%N l' = filter (fun e => number e =? n)%N l).
