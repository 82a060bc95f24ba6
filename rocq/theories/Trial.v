(** * Trial: trying an event out with [Keri::process].

    keri/mod.rs:110-116 [Keri::process], processor/mod.rs:264-274 [process_actual_event].  The
    argument is anything with [EventSemantics]; the four forms that carry a whole key event are
    modelled. (The contents on their own, [InceptionEvent], [RotationEvent], [InteractionEvent]
    and [DelegatedInceptionEvent], act as the [EventData] they make, event_data/mod.rs:66-76.) *)
From Verif Require Import Base Base64 Codes NumFmt Types KeyConf State Db Processor.

(** The types that implement [EventSemantics]: signed_event_message.rs:167-171,
    key_event_message.rs:85-165, key_event_message.rs:28-32 with event/mod.rs:59-90,
    event_data/mod.rs:66-76 *)
Inductive Form := FSigned | FMessage | FEvent | FData.

Section WithEnv.
  Context (E : Env).
  (** [EventSemantics::apply_to] of the form [f] of one signed event *)
  Definition apply_form (f : Form) (se : SignedEventMessage) (s : IdentifierState) : out IdentifierState :=
    match f with
    | FSigned | FMessage => apply_msg E (sem_msg se) s
    | FEvent => apply_event E (sem_msg se) s
    | FData => apply_data E (em_data (sem_msg se)) s
    end.
  (** processor/mod.rs:264-274 [process_actual_event]; with [FMessage] this is
      [Processor.process_actual_event] *)
  Definition try_out (d : Db) (id : IdentifierPrefix) (f : Form) (se : SignedEventMessage)
    : out (option IdentifierState) :=
    let? os := compute_state E d id in
    match os with
    | Some s => let? s' := apply_form f se s in Ok (Some s')
    | None => Ok None
    end.
  (** keri/mod.rs:110-116 [Keri::process]; it only reads the store *)
  Definition keri_process (d : Db) (id : IdentifierPrefix) (f : Form) (se : SignedEventMessage) : out unit :=
    match try_out d id f se with
    | Ok (Some _) => Ok tt
    | Ok None => Err (ESemantic "Unknown identifier.")
    | Err e => Err e
    | Panic => Panic
    end.
End WithEnv.
