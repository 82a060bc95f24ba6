(** * SpecBind: what it takes for a list of texts to be pinned down by the XOR of their digests. *)
From Verif Require Import Base Base64 Codes NumFmt Types KeyConf Spec.

(** The XOR of the digests of the texts [l], for digests of [n] bytes. *)
Definition combined (E : Env) (d : SelfAddressing) (n : nat) (l : list bytes) : bytes :=
  xor_all (repeat x00 n) (map (e_digest E d) l).
(** Every digest has [n] bytes. *)
Definition digest_size (E : Env) (d : SelfAddressing) (n : nat) : Prop :=
  forall x, List.length (e_digest E d x) = n.
(** No non-empty choice among [texts] (each taken at most once) has digests that cancel out.
    For two texts this says they do not collide. *)
Definition independent (E : Env) (d : SelfAddressing) (n : nat) (texts : list bytes) : Prop :=
  forall l, NoDup l -> incl l texts -> combined E d n l = repeat x00 n -> l = [].
