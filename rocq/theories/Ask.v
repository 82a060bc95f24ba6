(** * Ask: the questions one can ask a node, as accesses to the numeric-key store.

    [Processor.v] gives the answers as functions of the store; here each question is the
    sequence of store operations it makes ([Prog.v], [Sled.v]). *)
From Verif Require Import Base Base64 Codes NumFmt Types KeyConf State Db Processor Prog Sled Crash.

(** processor/mod.rs:48-193, 234-247, 425-459; database/sled/mod.rs [get_*] *)
Inductive question :=
| QState (id : IdentifierPrefix)
| QStateAt (id : IdentifierPrefix) (sn : N)
| QLastSeal (id : IdentifierPrefix)
| QKerl (id : IdentifierPrefix)
| QEventAt (id : IdentifierPrefix) (sn : N)
| QKeysAt (id : IdentifierPrefix) (sn : N) (dig : SelfAddressingPrefix)
| QReceipt (id : IdentifierPrefix) (sn : N) (validator : IdentifierPrefix)
| QVerify (data : bytes) (sig : Signature)
| QTable (n : tname) (id : IdentifierPrefix).
Inductive answer :=
| AState (x : out (option IdentifierState))
| ASeal (x : out (option EventSeal))
| AText (x : out (option bytes))
| AEvent (x : option SignedEventMessage)
| AKeys (x : out KeyConfig)
| AYes (x : bool)
| AChecked (x : out unit)
| ARows (n : tname) (x : option (list (tty n)))
| ADone (x : out (option IdentifierState)).

Section Ask.
  Context (E : Env).
  (** processor/mod.rs:78-98 *)
  Definition p_state_at (id : IdentifierPrefix) (sn : N) : prog op (out (option IdentifierState)) :=
    let* o := p_get TKel id in
    Ret match o with
        | None => Ok None
        | Some evs =>
            let? s := replay_strict E (filter (fun e => em_sn (sem_msg e) <=? sn)%N (sort_by_sn evs)) state_default in Ok (Some s)
        end.
  (** processor/mod.rs:104-134 *)
  Definition p_last_seal (id : IdentifierPrefix) : prog op (out (option EventSeal)) :=
    let* o := p_get TKel id in
    Ret match o with
        | None => Ok None
        | Some evs =>
            let? last := last_est_loop E evs state_default None in
            Ok (option_map (fun e => mkES (em_prefix (sem_msg e)) (em_sn (sem_msg e)) (em_digest (sem_msg e))) last)
        end.
  (** processor/mod.rs:139-151 *)
  Definition p_kerl (id : IdentifierPrefix) : prog op (out (option bytes)) :=
    let* o := p_get TKel id in
    Ret match o with None => Ok None | Some evs => let? b := kerl_bytes E evs in Ok (Some b) end.
  (** processor/mod.rs:234-247 *)
  Definition p_has_receipt (id : IdentifierPrefix) (sn : N) (v : IdentifierPrefix) : prog op bool :=
    let* o := p_get TRctT id in
    Ret match o with
        | Some rs => existsb (fun r => (rct_sn (tr_body r) =? sn)%N
                                       && (if IdentifierPrefix_eq_dec (es_prefix (tr_seal r)) v then true else false)) rs
        | None => false
        end.
  (** no counterpart in /repo: the accesses made by each question *)
  Definition p_ask (q : question) : prog op answer :=
    match q with
    | QState id => let* x := p_compute_state E id in Ret (AState x)
    | QStateAt id sn => let* x := p_state_at id sn in Ret (AState x)
    | QLastSeal id => let* x := p_last_seal id in Ret (ASeal x)
    | QKerl id => let* x := p_kerl id in Ret (AText x)
    | QEventAt id sn => let* x := p_event_at_sn id sn in Ret (AEvent x)
    | QKeysAt id sn dig => let* x := p_keys_at_event E id sn dig in Ret (AKeys x)
    | QReceipt id sn v => let* x := p_has_receipt id sn v in Ret (AYes x)
    | QVerify data sig => let* x := p_verify E data sig in Ret (AChecked x)
    | QTable n id => let* x := p_get n id in Ret (ARows n x)
    end.
  (** no counterpart in /repo: a question put to the numeric-key store *)
  Definition sask (s : Sled) (q : question) : Sled * answer := sinterp (expand (p_ask q)) s.

  (** no counterpart in /repo: a history of messages and questions, and what is returned *)
  Inductive step := Tell (m : Message) | Ask (q : question).
  Definition sstep (s : Sled) (st : step) : Sled * answer :=
    match st with
    | Tell m => let (s', r) := sprocess E s m in (s', ADone r)
    | Ask q => sask s q
    end.
  Definition ssteps (s : Sled) (h : list step) : Sled := fold_left (fun s st => fst (sstep s st)) h s.
  Fixpoint sanswered (s : Sled) (h : list step) : list answer :=
    match h with [] => [] | st :: r => snd (sstep s st) :: sanswered (fst (sstep s st)) r end.
End Ask.
