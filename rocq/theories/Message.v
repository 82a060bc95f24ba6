(** * Message: signed messages, their attachments and streams
    ([src/event_parsing/mod.rs:130-399], [src/event_parsing/message.rs]). *)
From Verif Require Import Base Base64 Codes NumFmt Types Cesr.

(** mod.rs:136-144 [EventType] *)
Inductive EventType :=
| KeyEventT (e : EventMessage)
| ReceiptT (r : ReceiptMessage)
| QryT (q : QueryMessage)
| RpyT (r : ReplyMessage).
(** mod.rs:130-134 *)
Record SignedEventData := mkSED { sed_event : EventType; sed_atts : list Attachment }.

(** mod.rs:171-188 [From<&SignedEventMessage>] *)
Definition sed_of_event (e : SignedEventMessage) : SignedEventData :=
  mkSED (KeyEventT (sem_msg e))
    match sem_seal e with
    | Some s => [SealSourceCouplets [s]; AttachedSignatures (sem_sigs e)]
    | None => [AttachedSignatures (sem_sigs e)]
    end.
(** mod.rs:190-198 *)
Definition sed_of_ntr (r : SignedNontransferableReceipt) : SignedEventData :=
  mkSED (ReceiptT (nr_body r)) [ReceiptCouplets (nr_couplets r)].
(** mod.rs:200-212 *)
Definition sed_of_tr (r : SignedTransferableReceipt) : SignedEventData :=
  mkSED (ReceiptT (tr_body r)) [SealSignaturesGroups [(tr_seal r, tr_sigs r)]].
(** mod.rs:214-230 *)
Definition sed_of_reply (r : SignedReply) : SignedEventData :=
  mkSED (RpyT (sr_reply r))
    [match sr_sig r with
     | Transferable seal sigs => SealSignaturesGroups [(seal, sigs)]
     | NonTransferable p sig => ReceiptCouplets [(p, sig)]
     end].

(** [Vec::pop] *)
(** event_parsing/mod.rs:252, 288, 317, 320, 372 *)
Fixpoint popped {A} (l : list A) : option A :=
  match l with [] => None | [a] => Some a | _ :: l => popped l end.
(** event_parsing/mod.rs:130-399: the error for an absent attachment *)
Definition missing {A} : out A := Err (ESemantic "Missing attachment").
(** [attachments.pop().ok_or(..)?] and the recursion into frames of [signed_reply],
    [signed_query] and [signed_receipt]: the last attachment, inside the last frame *)
(** event_parsing/mod.rs:240-399 *)
Fixpoint innermost (a : Attachment) : out Attachment :=
  match a with
  | Frame l =>
      (fix lst (l : list Attachment) : out Attachment :=
         match l with [] => missing | [a] => innermost a | _ :: l => lst l end) l
  | a => Ok a
  end.
(** event_parsing/mod.rs:240-399 *)
Definition last_attachment (l : list Attachment) : out Attachment := innermost (Frame l).
(** mod.rs:246-277 [signed_reply]; [couplets[0]] panics when empty *)
Definition signed_reply (r : ReplyMessage) (l : list Attachment) : out Message :=
  let? a := last_attachment l in
  match a with
  | ReceiptCouplets [] => Panic
  | ReceiptCouplets ((p, sig) :: _) => Ok (MKeyStateNotice (mkSRpy r (NonTransferable p sig)))
  | SealSignaturesGroups data =>
      match popped data with
      | Some (seal, sigs) => Ok (MKeyStateNotice (mkSRpy r (Transferable seal sigs)))
      | None => Err (ESemantic "More than one seal")
      end
  | _ => Err (ESemantic "Improper payload type")
  end.
(** mod.rs:279-308 [signed_query]; [groups[0]] panics when empty *)
Definition signed_query (q : QueryMessage) (l : list Attachment) : out Message :=
  let? a := last_attachment l in
  match a with
  | LastEstSignaturesGroups [] => Panic
  | LastEstSignaturesGroups ((i, sigs) :: _) => Ok (MQuery (mkSQry q i sigs))
  | _ => Err (ESemantic "Improper attachments for query message")
  end.
(** mod.rs:310-369 [signed_key_event] *)
Definition signed_key_event (m : EventMessage) (l : list Attachment) : out Message :=
  match em_data m with
  | Dip _ | Drt _ =>
      match rev l with
      | [] | [_] => missing
      | att1 :: att2 :: _ =>
          let? x := match att1, att2 with
                    | SealSourceCouplets seals, AttachedSignatures sigs => Ok (seals, sigs)
                    | AttachedSignatures sigs, SealSourceCouplets seals => Ok (seals, sigs)
                    | _, _ => Err (ESemantic "Improper attachment type")
                    end in
          let (seals, sigs) := x in
          match seals with
          | [] => Err (ESemantic "Missing delegator seal")
          | [s] => Ok (MEvent (mkSEM m sigs (Some s)))
          | _ => Err (ESemantic "Too many seals")
          end
      end
  | _ =>
      match l with
      | [] => missing
      | AttachedSignatures sigs :: _ => Ok (MEvent (mkSEM m sigs None))
      | _ => Err (ESemantic "Improper attachment type")
      end
  end.
(** mod.rs:371-399 [signed_receipt] *)
Definition signed_receipt (r : ReceiptMessage) (l : list Attachment) : out Message :=
  let? a := last_attachment l in
  match a with
  | ReceiptCouplets couplets => Ok (MNontransferableRct (mkNRct r couplets))
  | SealSignaturesGroups data =>
      match popped data with
      | Some (seal, sigs) => Ok (MTransferableRct (mkTRct r seal sigs))
      | None => Err (ESemantic "More than one seal")
      end
  | _ => Err (ESemantic "Improper payload type")
  end.
(** mod.rs:232-244 [TryFrom<SignedEventData> for Message] *)
Definition to_message (d : SignedEventData) : out Message :=
  match sed_event d with
  | KeyEventT e => signed_key_event e (sed_atts d)
  | ReceiptT r => signed_receipt r (sed_atts d)
  | QryT q => signed_query q (sed_atts d)
  | RpyT r => signed_reply r (sed_atts d)
  end.

(** ** Streams *)
Section Stream.
  (** [message::<D>] for the four kinds tried in order by [signed_message]
      (message.rs:28-88), and [EventType::serialize] (mod.rs:146-158); serde is not modelled *)
  Context (parse : bytes -> pres EventType) (ser : EventType -> out bytes).
  (** mod.rs:160-170 [SignedEventData::to_cesr]; attachments are written first *)
  Definition sed_cesr (d : SignedEventData) : out bytes :=
    let? atts := oconcat to_cesr (sed_atts d) in
    let? e := ser (sed_event d) in
    Ok (e ++ atts).
  (** message.rs:90-117 [signed_message] *)
  Definition signed_message (s : bytes) : pres SignedEventData :=
    let! (rest, e) := parse s in
    let! (rest, l) := many0 attachment rest in
    POk rest (mkSED e l).
  (** message.rs:119-121 [signed_event_stream] *)
  Definition signed_event_stream (s : bytes) : pres (list SignedEventData) := many0 signed_message s.
End Stream.
