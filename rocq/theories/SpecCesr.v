(** * SpecCesr: the text format of attachments, as KID-0001 defines it, independent of the
    writer and the parser; and which attachments fit the format. *)
From Verif Require Import Base Base64 Codes NumFmt Types SpecCodec Cesr.

(** a count or index of two base64 digits *)
Definition two_digits (n : N) : bytes := [enc6 (n / 64); enc6 (n mod 64)].
(** big-endian bytes *)
Fixpoint be_bytes (k : nat) (n : N) : bytes :=
  match k with O => [] | S k => be_bytes k (n / 256) ++ [n2b n] end.
(** a sequence number: code [0A] and 16 bytes *)
Definition sn_text (n : N) : bytes := bstr "0A" ++ b64_encode (be_bytes 16 n).
(** an indexed signature *)
Definition sig_text (p : AttachedSignaturePrefix) : bytes :=
  match ssp_code (asp_sig p) with
  | Ed25519Sha512 => bstr "A" ++ [enc6 (asp_index p)]
  | ECDSAsecp256k1Sha256 => bstr "B" ++ [enc6 (asp_index p)]
  | Ed448Sig => bstr "0A" ++ two_digits (asp_index p)
  end ++ b64_encode (ssp_sig (asp_sig p)).
Definition group (code : string) (n : nat) (body : bytes) : bytes :=
  bstr code ++ two_digits (N.of_nat n) ++ body.
Definition sigs_text (l : list AttachedSignaturePrefix) : bytes :=
  group "-A" (List.length l) (flat_map sig_text l).
Definition seal_text (e : EventSeal) : bytes :=
  id_str (es_prefix e) ++ sn_text (es_sn e) ++ sap_str (es_digest e).
(** a frame counts quadlets (groups of four characters) *)
Fixpoint att_text (a : Attachment) : bytes :=
  match a with
  | SealSourceCouplets l => group "-G" (List.length l) (flat_map (fun s => sn_text (src_sn s) ++ sap_str (src_digest s)) l)
  | AttachedSignatures l => sigs_text l
  | ReceiptCouplets l => group "-C" (List.length l) (flat_map (fun x => bp_str (fst x) ++ ssp_str (snd x)) l)
  | SealSignaturesGroups l => group "-F" (List.length l) (flat_map (fun x => seal_text (fst x) ++ sigs_text (snd x)) l)
  | LastEstSignaturesGroups l => group "-H" (List.length l) (flat_map (fun x => id_str (fst x) ++ sigs_text (snd x)) l)
  | Frame l =>
      let body := (fix all (l : list Attachment) : bytes :=
                     match l with [] => [] | a :: l => att_text a ++ all l end) l in
      group "-V" (List.length body / 4) body
  end.

(** values that the format can carry *)
Definition digest_fits (d : SelfAddressingPrefix) : Prop := sap_sized d /\ unkeyed (sap_code d) = sap_code d.
Definition id_fits (p : IdentifierPrefix) : Prop :=
  id_sized p /\ id_not_ecdsa p /\ id_unkeyed p = p /\ forall s, p <> IdSelfSigning s.
Definition sn_fits (n : N) : Prop := (n <= u64_max)%N.
Definition sig_fits (p : AttachedSignaturePrefix) : Prop :=
  asp_sized p
  /\ (asp_index p < match ssp_code (asp_sig p) with Ed448Sig => 4096 | _ => 64 end)%N.
Definition couplet_fits (x : BasicPrefix * SelfSigningPrefix) : Prop :=
  bp_sized (fst x) /\ is_ecdsa (bp_code (fst x)) = false /\ ssp_sized (snd x).
Definition counted {A} (P : A -> Prop) (l : list A) : Prop := List.length l < 4096 /\ Forall P l.
Definition seal_fits (e : EventSeal) : Prop := id_fits (es_prefix e) /\ sn_fits (es_sn e) /\ digest_fits (es_digest e).
Fixpoint att_fits (a : Attachment) : Prop :=
  match a with
  | SealSourceCouplets l => counted (fun s => sn_fits (src_sn s) /\ digest_fits (src_digest s)) l
  | AttachedSignatures l => counted sig_fits l
  | ReceiptCouplets l => counted couplet_fits l
  | SealSignaturesGroups l => counted (fun x => seal_fits (fst x) /\ counted sig_fits (snd x)) l
  | LastEstSignaturesGroups l => counted (fun x => id_fits (fst x) /\ counted sig_fits (snd x)) l
  | Frame l =>
      List.length (flat_map att_text l) < 4 * 4096
      /\ (fix all (l : list Attachment) : Prop :=
            match l with [] => True | a :: l => att_fits a /\ all l end) l
  end.
(** attachments whose counts and indices the writer can write, and that it does not panic
    on or miscount *)
Definition small_sig (p : AttachedSignaturePrefix) : Prop := (asp_index p < 63)%N.
Definition small {A} (P : A -> Prop) (l : list A) : Prop := List.length l < 63 /\ Forall P l.
Definition att_small (a : Attachment) : Prop :=
  match a with
  | SealSourceCouplets l => small (fun _ => True) l
  | AttachedSignatures l => small small_sig l
  | ReceiptCouplets l => small (fun _ => True) l
  | SealSignaturesGroups l => small (fun x => small small_sig (snd x)) l
  | LastEstSignaturesGroups _ => False
  | Frame l => l = []
  end.
(** codes of the code table that the parser does not implement *)
Definition unimplemented : list bytes :=
  map bstr ["0A"; "0B"; "0C"; "0D"; "0E"; "0F"; "0G"; "0H"; "-B"; "-D"; "-E"; "-U"; "-W"; "-X"; "-Y"; "-Z"]%string.
