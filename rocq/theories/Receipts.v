(** * Receipts: [ReceiptBuilder], event_message/event_msg_builder.rs:238-282. *)
From Verif Require Import Base Base64 Codes NumFmt Types KeyConf State Db Processor Cesr Message Keri Builder.

(** event_msg_builder.rs:238-242 [ReceiptBuilder] *)
Record RBuilder := mkRB { rb_format : SerializationFormats; rb_derivation : SelfAddressing; rb_event : EventMessage }.
(** a setter: event_msg_builder.rs:256-270 [with_format], [with_derivation], [with_receipted_event] *)
Inductive RSetting := RFormat (f : SerializationFormats) | RDerivation (g : SelfAddressing) | REvent (m : EventMessage).
(** event_msg_builder.rs:256-270 *)
Definition rb_set (b : RBuilder) (s : RSetting) : RBuilder :=
  match s with
  | RFormat f => mkRB f (rb_derivation b) (rb_event b)
  | RDerivation g => mkRB (rb_format b) g (rb_event b)
  | REvent m => mkRB (rb_format b) (rb_derivation b) m
  end.

Section WithEnv.
  Context (E : Env) (K : KEnv).
  (** event_msg_builder.rs:244-253 [Default]; the default event has two generated keys; a failure
      to build it panics ([unwrap]) *)
  Definition rb_default (pk npk : bytes) : out RBuilder :=
    match build E K (builder_new E TIcp pk npk) with
    | Ok m => Ok (mkRB JSON Blake3_256 m)
    | _ => Panic
    end.
  (** event_msg_builder.rs:271-281 [build] *)
  Definition rb_build (b : RBuilder) : out ReceiptMessage :=
    let? ser := e_ser_event E (rb_event b) in
    if digest_aborts (rb_derivation b) then Panic
    else receipt_to_message K (derive E (rb_derivation b) ser) (em_prefix (rb_event b)) (em_sn (rb_event b)) (rb_format b).
  (** [ReceiptBuilder::default().with_...()...build()] *)
  Definition receipt_with (pk npk : bytes) (l : list RSetting) : out ReceiptMessage :=
    let? b := rb_default pk npk in rb_build (fold_left rb_set l b).
End WithEnv.
