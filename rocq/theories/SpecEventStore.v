(** * SpecEventStore: what C116 and C117 say. *)
From Verif Require Import Base Base64 Codes NumFmt Types KeyConf State Db Processor Version Cesr Message Keri Json JsonRead JsonQuery SpecJson Cbor EventStore.

(** a signed event whose every part reads back as it was written, with the text of a time *)
Definition sig_stable (s : AttachedSignaturePrefix) : Prop := asp_from (asp_str s) = Ok s.
Definition storable (se : SignedEventMessage) : Prop := event_stable (sem_msg se) /\ Forall sig_stable (sem_sigs se).
Definition storable_at (x : bytes * SignedEventMessage) : Prop := rust_string (fst x) /\ storable (snd x).
(** the bytes of an entry, and of a list of them *)
Definition entry_size (x : bytes * SignedEventMessage) : nat := List.length (cbor (entry_val x)).
Definition total_size (l : list (bytes * SignedEventMessage)) : nat := fold_right (fun x n => entry_size x + n) 0 l.
(** everything ever offered, in one log with its header, has a length below 2^64 *)
Definition fits_64 (l : list (bytes * SignedEventMessage)) : Prop := (N.of_nat (9 + total_size l) <= u64_max)%N.
(** the log of [id] cannot be read *)
Definition unreadable (hx : bytes -> option N) (b : BDb) (id : IdentifierPrefix) : Prop := b_log hx b id = Panic.
(** the stores hold the same: each log of the byte store reads as the log of the other *)
Definition same_store (hx : bytes -> option N) (b : BDb) (d : Db) : Prop :=
  b_rest b = set_kel d [] /\ forall id, b_log hx b id = Ok (get_kel d id).
(** the same events on a store of values *)
Fixpoint run_v (E : Env) (d : Db) (l : list SignedEventMessage) : Db * list (out (option IdentifierState)) :=
  match l with
  | [] => (d, [])
  | se :: r => let (d1, o) := process_event E d se in let (d2, os) := run_v E d1 r in (d2, o :: os)
  end.
(** delegated inceptions and rotations need a seal in another log *)
Definition is_delegated_event (se : SignedEventMessage) : bool := match em_data (sem_msg se) with Dip _ | Drt _ => true | _ => false end.
