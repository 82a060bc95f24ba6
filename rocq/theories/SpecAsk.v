(** * SpecAsk: vocabulary of C124. *)
From Verif Require Import Base Base64 Codes NumFmt Types KeyConf State Db Processor SpecCodec SpecStore Prog Ask.

(** The identifiers a question is about. *)
Definition about (q : question) : list IdentifierPrefix :=
  match q with
  | QState id | QStateAt id _ | QLastSeal id | QKerl id | QEventAt id _ | QKeysAt id _ _ | QReceipt id _ _ | QTable _ id => [id]
  | QVerify _ (Transferable seal _) => [es_prefix seal]
  | QVerify _ (NonTransferable _ _) => []
  end.
(** The answers, as functions of the store (the functions all other theorems speak about). *)
Definition truth (E : Env) (d : Db) (q : question) : answer :=
  match q with
  | QState id => AState (compute_state E d id)
  | QStateAt id sn => AState (compute_state_at_sn E d id sn)
  | QLastSeal id => ASeal (get_last_establishment_event_seal E d id)
  | QKerl id => AText (get_kerl E d id)
  | QEventAt id sn => AEvent (get_event_at_sn d id sn)
  | QKeysAt id sn dig => AKeys (get_keys_at_event E d id sn dig)
  | QReceipt id sn v => AYes (has_receipt d id sn v)
  | QVerify data sig => AChecked (proc_verify E d data sig)
  | QTable n id => ARows n (tget (dtab n d) id)
  end.
Definition step_ids_ok (st : step) : Prop :=
  match st with Tell m => message_ids_ok m | Ask q => Forall id_ok (about q) end.
Fixpoint messages (h : list step) : list Message :=
  match h with [] => [] | Tell m :: r => m :: messages r | Ask _ :: r => messages r end.
(** What should be returned: messages are processed, questions answered from the store that
    the messages so far have made. *)
Fixpoint expected (E : Env) (d : Db) (h : list step) : list answer :=
  match h with
  | [] => []
  | Tell m :: r => ADone (snd (process E d m)) :: expected E (fst (process E d m)) r
  | Ask q :: r => truth E d q :: expected E d r
  end.
