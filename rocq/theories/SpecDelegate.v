(** * SpecDelegate: a hierarchy of identifiers, as a program builds it with the public API.

    Nothing of this is in the library: it is what a user writes with [EventMsgBuilder], key
    pairs, [compute_state] and [EventProcessor::process].  An identifier is held by a group of
    key pairs with a signing threshold, and the group that will take over at the next
    rotation.  ([Keri::make_ixn] cannot be used for the anchors: it only makes
    digest seals.)  The library's own example of the steps is the test
    [processor/tests.rs] [test_process_delegated]. *)
From Coq Require Import QArith.
From Verif Require Import Base Base64 Codes NumFmt Types KeyConf SpecSig State Db Processor Spec Cesr Message Keri Builder SpecKeri.
Local Open Scope nat_scope.

(** Key pairs and how many of them (or with what weights) must sign. *)
Record Group := mkGroup { g_pairs : list KeyPair; g_threshold : SignatureThreshold }.
Definition g_keys (g : Group) : list BasicPrefix := map (fun p => ed_key (kp_pub p)) (g_pairs g).
(** The members at positions [who] of [g] may act together: they are members, none is named twice, and there
    are enough of them or the weights of each clause add up to 1. *)
Definition quorum (g : Group) (who : list nat) : Prop :=
  NoDup who /\ Forall (fun i => i < List.length (g_pairs g)) who
  /\ match g_threshold g with
     | Simple n => (n <= N.of_nat (List.length who))%N
     | Weighted w => Forall (fun sc => (1 <= fold_right Qplus 0 (map (key_weight (fst sc) (snd sc)) who))%Q) (clauses_of w)
     end
  /\ match g_threshold g with
     | Weighted (WSingle c) => Forall (fun i => i < List.length c) who
     | _ => True
     end.
Definition sound_group (E : Env) (K : KEnv) (g : Group) : Prop :=
  Forall (works E K) (g_pairs g) /\ rational_threshold (g_threshold g).

(** An identifier, its keys, and the position of its delegator among the parties, if any. *)
Record Party := mkParty { pa_id : IdentifierPrefix; pa_cur : Group; pa_next : Group; pa_boss : option nat }.
Record World := mkWorld { w_db : Db; w_parties : list Party }.

(** What the parties may do.  [pk], [npk] stand for the key pairs that [EventMsgBuilder::new]
    generates (they end up in no event here).  [who]: who signs; [bwho]: who of the delegator's group signs the
    anchor.  [between]: what the rest of the world does
    after the delegator anchored the event and before the event itself is submitted. *)
Inductive Step :=
| Incept (cur next : Group) (who : list nat) (boss : option nat) (bwho : list nat) (pk npk : bytes) (between : list Call)
| Rotate (i : nat) (fresh : Group) (who : list nat) (bwho : list nat) (seals : list Seal) (pk npk : bytes) (between : list Call)
| Anchor (i : nat) (who : list nat) (seals : list Seal) (pk npk : bytes)
| Others (c : Call).

Section WithEnv.
  Context (E : Env) (K : KEnv).

  (** the next event of an identifier, built from its key state *)
  Definition next_event (d : Db) (id : IdentifierPrefix) (t : EventTypeTag) (pk npk : bytes) (l : list Setting) : out EventMessage :=
    let? os := compute_state E d id in
    let? s := ok_or os EInvalidIdentifierState in
    build_with E K t pk npk ([SPrefix id; SSn (st_sn s + 1); SPrevious (st_last_digest s)] ++ l).
  (** the members [who] of the group sign an event *)
  Fixpoint signatures (g : Group) (who : list nat) (ser : bytes) : out (list AttachedSignaturePrefix) :=
    match who with
    | [] => Ok []
    | i :: r =>
        let? p := ok_or (nth_error (g_pairs g) i) EKey in
        let? sig := k_sign_ed K (kp_priv p) ser in
        let? sigs := signatures g r ser in
        Ok (mkASP (N.of_nat i) (mkSSP Ed25519Sha512 sig) :: sigs)
    end.
  Definition sign_by (g : Group) (who : list nat) (m : EventMessage) : out SignedEventMessage :=
    let? ser := e_ser_event E m in
    let? sigs := signatures g who ser in
    Ok (mkSEM m sigs None).
  (** submitting: [Ok] exactly when the event is accepted *)
  Definition deliver (d : Db) (o : out SignedEventMessage) : out Db :=
    let? se := o in
    match process E d (MEvent se) with
    | (d', Ok (Some _)) => Ok d'
    | (_, Ok None) => Err EInvalidIdentifierState
    | (_, Err e) => Err e
    | (_, Panic) => Panic
    end.
  Definition with_source (src : SourceSeal) (o : out SignedEventMessage) : out SignedEventMessage :=
    let? se := o in Ok (mkSEM (sem_msg se) (sem_sigs se) (Some src)).

  (** the delegator [j] anchors event [m]: the store, and where the anchor is *)
  Definition anchor_for (w : World) (j : nat) (who : list nat) (m : EventMessage) (pk npk : bytes) : out (Db * SourceSeal) :=
    let? p := ok_or (nth_error (w_parties w) j) EInvalidIdentifierState in
    let? a := next_event (w_db w) (pa_id p) TIxn pk npk [SSeals [SealEvent (mkES (em_prefix m) (em_sn m) (em_digest m))]] in
    let? d := deliver (w_db w) (sign_by (pa_cur p) who a) in
    Ok (d, mkSrc (em_sn a) (em_digest a)).
  (** submitting [m], signed by [who] of [g], after its delegator anchored it *)
  Definition submit_event (w : World) (boss : option nat) (bwho : list nat) (g : Group) (who : list nat) (m : EventMessage) (pk npk : bytes) (between : list Call) : out Db :=
    match boss with
    | None => deliver (run E (w_db w) between) (sign_by g who m)
    | Some j =>
        let? x := anchor_for w j bwho m pk npk in
        deliver (run E (fst x) between) (with_source (snd x) (sign_by g who m))
    end.

  Definition own_keys (cur next : Group) : list Setting :=
    [SKeys (g_keys cur); SThreshold (g_threshold cur); SNextKeys (g_keys next); SNextThreshold (g_threshold next)].
  Definition boss_id (w : World) (boss : option nat) : option IdentifierPrefix :=
    match boss with None => None | Some j => option_map pa_id (nth_error (w_parties w) j) end.
  Definition first_event (w : World) (cur next : Group) (boss : option nat) (pk npk : bytes) : out EventMessage :=
    match boss with
    | None => build_with E K TIcp pk npk (own_keys cur next)
    | Some j => let? p := ok_or (boss_id w boss) EInvalidIdentifierState in
                build_with E K TDip pk npk (own_keys cur next ++ [SDelegator p])
    end.

  Fixpoint set_nth {A} (i : nat) (x : A) (l : list A) : list A :=
    match l, i with
    | [], _ => []
    | _ :: r, O => x :: r
    | y :: r, S i => y :: set_nth i x r
    end.
  Definition step (w : World) (s : Step) : out World :=
    match s with
    | Incept cur next who boss bwho pk npk between =>
        let? m := first_event w cur next boss pk npk in
        let? d := submit_event w boss bwho cur who m pk npk between in
        Ok (mkWorld d (w_parties w ++ [mkParty (em_prefix m) cur next boss]))
    | Rotate i fresh who bwho seals pk npk between =>
        let? p := ok_or (nth_error (w_parties w) i) EInvalidIdentifierState in
        let? m := next_event (w_db w) (pa_id p) (match pa_boss p with None => TRot | Some _ => TDrt end)
                    pk npk (own_keys (pa_next p) fresh ++ [SSeals seals]) in
        let? d := submit_event w (pa_boss p) bwho (pa_next p) who m pk npk between in
        Ok (mkWorld d (set_nth i (mkParty (pa_id p) (pa_next p) fresh (pa_boss p)) (w_parties w)))
    | Anchor i who seals pk npk =>
        let? p := ok_or (nth_error (w_parties w) i) EInvalidIdentifierState in
        let? m := next_event (w_db w) (pa_id p) TIxn pk npk [SSeals seals] in
        let? d := deliver (w_db w) (sign_by (pa_cur p) who m) in
        Ok (mkWorld d (w_parties w))
    | Others c => Ok (mkWorld (call E (w_db w) c) (w_parties w))
    end.
  Fixpoint live (w : World) (l : list Step) : out World :=
    match l with [] => Ok w | s :: r => let? w := step w s in live w r end.

  (** Steps of careful parties: sound key pairs, a new identifier is new, and nobody else submits
      events for the identifiers of the parties. *)
  Definition careful (w : World) (s : Step) : Prop :=
    let ours := fun c => forall p, In p (w_parties w) -> foreign (pa_id p) c in
    match s with
    | Incept cur next who boss bwho pk npk between =>
        sound_group E K cur /\ sound_group E K next
        /\ (forall m, first_event w cur next boss pk npk = Ok m ->
              olist (get_kel (w_db w) (em_prefix m)) = [] /\ Forall (foreign (em_prefix m)) between)
        /\ Forall ours between
    | Rotate i fresh who bwho _ _ _ between => sound_group E K fresh /\ Forall ours between
    | Anchor i who _ _ _ => True
    | Others c => ours c
    end.
  (** The acting party and its delegator exist, and enough of them sign: of the acting party the keys that
      will be in force after the event, of the delegator those in force now. *)
  Definition boss_agrees (w : World) (boss : option nat) (bwho : list nat) : Prop :=
    forall j, boss = Some j -> exists p, nth_error (w_parties w) j = Some p /\ quorum (pa_cur p) bwho.
  Definition agreed (w : World) (s : Step) : Prop :=
    match s with
    | Incept cur next who boss bwho _ _ _ => quorum cur who /\ boss_agrees w boss bwho
    | Rotate i fresh who bwho _ _ _ _ =>
        exists p, nth_error (w_parties w) i = Some p /\ quorum (pa_next p) who /\ boss_agrees w (pa_boss p) bwho
    | Anchor i who _ _ _ => exists p, nth_error (w_parties w) i = Some p /\ quorum (pa_cur p) who
    | Others _ => True
    end.
  Definition step_ok (w : World) (s : Step) : Prop := careful w s /\ agreed w s.
  Fixpoint steps_ok (w : World) (l : list Step) : Prop :=
    match l with
    | [] => True
    | s :: r => step_ok w s /\ forall w', step w s = Ok w' -> steps_ok w' r
    end.
End WithEnv.

(** ** Bookkeeping: how many events of which party a step makes *)
(** 1 for the party at position [b], 0 for the others *)
Definition one_if (b : option nat) (k : nat) : nat :=
  match b with Some j => if Nat.eq_dec j k then 1 else 0 | None => 0 end.
Definition grew (d d' : Db) (id : IdentifierPrefix) (n : nat) : Prop :=
  exists l, olist (get_kel d' id) = olist (get_kel d id) ++ l /\ List.length l = n.
(** the delegator of the acting party makes an anchor, the acting party its event *)
Definition boss_of (w : World) (i : nat) : option nat :=
  match nth_error (w_parties w) i with Some p => pa_boss p | None => None end.
Definition made (w : World) (x : Step) (k : nat) : nat :=
  match x with
  | Incept _ _ _ boss _ _ _ _ => one_if boss k
  | Rotate i _ _ _ _ _ _ _ => one_if (boss_of w i) k + one_if (Some i) k
  | Anchor i _ _ _ _ => one_if (Some i) k
  | Others _ => 0
  end.
(** the parties after a step: an inception adds one, with a log of one event *)
Definition newcomer (w w' : World) (x : Step) : Prop :=
  match x with
  | Incept _ _ _ boss _ _ _ _ => exists id, map pa_id (w_parties w') = map pa_id (w_parties w) ++ [id]
      /\ map pa_boss (w_parties w') = map pa_boss (w_parties w) ++ [boss] /\ List.length (olist (get_kel (w_db w') id)) = 1
  | _ => map pa_id (w_parties w') = map pa_id (w_parties w) /\ map pa_boss (w_parties w') = map pa_boss (w_parties w)
  end.
