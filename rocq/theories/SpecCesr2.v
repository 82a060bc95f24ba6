(** * SpecCesr2: exactly which texts are attachments (independent of the parser). *)
From Verif Require Import Base Base64 Codes NumFmt Types SpecCodec Cesr SpecCesr.

(** texts without the padding character *)
Definition nopad (t : bytes) : Prop := ~ In "="%byte t.
(** the key that stands in a text: of the size of its kind, except that the ECDSA codes come with
    35 bytes (47 characters) instead of 33 *)
Definition key_carried (p : BasicPrefix) : Prop :=
  List.length (bp_key p) = if is_ecdsa (bp_code p) then 35 else key_bytes (bp_code p).
(** a sequence number: 16 bytes, of which only the last eight count *)
Definition sn_spelling (n : N) (t : bytes) : Prop :=
  sn_fits n /\ exists high, List.length high = 8 /\ t = bstr "0A" ++ b64_encode (high ++ be_bytes 8 n).
Definition digest_spelling (d : SelfAddressingPrefix) (t : bytes) : Prop := digest_fits d /\ t = sap_str d.
(** an identifier is a key or a digest *)
Definition id_spelling (i : IdentifierPrefix) (t : bytes) : Prop :=
  match i with
  | IdBasic p => key_carried p /\ t = bp_str p
  | IdSelfAddressing d => digest_spelling d t
  | IdSelfSigning _ => False
  end.
Definition sig_spelling (p : AttachedSignaturePrefix) (t : bytes) : Prop := sig_fits p /\ t = sig_text p.
Definition couplet_spelling (x : BasicPrefix * SelfSigningPrefix) (t : bytes) : Prop :=
  key_carried (fst x) /\ ssp_sized (snd x) /\ t = bp_str (fst x) ++ ssp_str (snd x).
(** a group: code, count of two characters, then the members one after another *)
Definition group_spelling {A} (code : string) (R : A -> bytes -> Prop) (l : list A) (t : bytes) : Prop :=
  List.length l < 4096 /\ exists ts, Forall2 R l ts /\ t = group code (List.length l) (List.concat ts).
Definition sigs_spelling := group_spelling "-A" sig_spelling.
Definition source_spelling (s : SourceSeal) (t : bytes) : Prop :=
  exists a b, sn_spelling (src_sn s) a /\ digest_spelling (src_digest s) b /\ t = a ++ b.
Definition seal_spelling (e : EventSeal) (t : bytes) : Prop :=
  exists a b c, id_spelling (es_prefix e) a /\ sn_spelling (es_sn e) b /\ digest_spelling (es_digest e) c /\ t = a ++ b ++ c.
Definition with_sigs {A} (R : A -> bytes -> Prop) (x : A * list AttachedSignaturePrefix) (t : bytes) : Prop :=
  exists a b, R (fst x) a /\ sigs_spelling (snd x) b /\ t = a ++ b.
(** a frame counts quadlets of its contents *)
Inductive spells : Attachment -> bytes -> Prop :=
| sp_source l t : group_spelling "-G" source_spelling l t -> spells (SealSourceCouplets l) t
| sp_sigs l t : sigs_spelling l t -> spells (AttachedSignatures l) t
| sp_couplets l t : group_spelling "-C" couplet_spelling l t -> spells (ReceiptCouplets l) t
| sp_seals l t : group_spelling "-F" (with_sigs seal_spelling) l t -> spells (SealSignaturesGroups l) t
| sp_last l t : group_spelling "-H" (with_sigs id_spelling) l t -> spells (LastEstSignaturesGroups l) t
| sp_frame l ts k : k < 4096 -> List.length (List.concat ts) = 4 * k -> Forall2 spells l ts ->
    spells (Frame l) (group "-V" k (List.concat ts)).

(** attachments that carry no sequence number *)
Inductive numberless : Attachment -> Prop :=
| nl_source : numberless (SealSourceCouplets [])
| nl_sigs l : numberless (AttachedSignatures l)
| nl_couplets l : numberless (ReceiptCouplets l)
| nl_seals : numberless (SealSignaturesGroups [])
| nl_last l : numberless (LastEstSignaturesGroups l)
| nl_frame l : Forall numberless l -> numberless (Frame l).
(** the characters of URL-safe base64 *)
Definition url_safe (t : bytes) : Prop := Forall (fun c => In c alphabet) t.
