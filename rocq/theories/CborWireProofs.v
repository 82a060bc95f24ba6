(** * CborWireProofs: reading CBOR messages back. *)
From Coq Require Import ZifyBool ZifyN ZifyNat.
From Verif Require Import Base Base64 Base64Proofs Codes NumFmt NumProofs Types SpecCodec CodecProofs CodecProofs2 KeyConf Version Cesr CesrProofs SpecCesr Message Keri Json JsonRead JsonQuery JsonProofs SpecJson JsonProofs2 JsonProofs3 JsonProofs4 JsonProofs7 JsonProofs8 JsonProofs10 JsonProofs11 Cbor CborProofs
  State Db Processor Spec StateProofs LogProofs EventStore SpecEventStore EventStoreProofs ReceiptStore SpecReceiptStore ReceiptStoreProofs Prop_Json2 Prop_JsonQ CborWire SpecCborWire.

Lemma readable_stable m : event_readable m -> event_stable m.
Proof.
  intros (Hv & Hd & Hi & Hs & (D1 & D2 & D3 & D4 & D5 & D6)). split; [exact Hv|]. split; [now apply as_sap_stable|]. split; [now apply as_id_stable|]. split; [exact Hs|].
  split. { eapply Forall_impl; [|exact D1]. intros k [K1 K2]. now apply c41. }
  split. { eapply Forall_impl; [|exact D2]. apply as_sap_stable. }
  split. { eapply Forall_impl; [|exact D3]. apply as_id_stable. }
  auto.
Qed.
Lemma rct_readable_stable c : receipt_readable c -> rct_stable c.
Proof. intros (Hv & Hd & Hi & Hs). split; [exact Hv|]. split; [now apply as_sap_stable|]. split; [now apply as_id_stable|exact Hs]. Qed.

Lemma cbor_map_opens l : cbor (VMap l) = xbf :: flat_map pair_bytes l ++ [n2b 255].
Proof. reflexivity. Qed.
Lemma json_refuses_map {D} (read : SerializationInfo -> list (bytes * jval) -> out D) s : json_message read (xbf :: s) = PErr.
Proof. reflexivity. Qed.
Lemma cbor_message_back {D} (read : SerializationInfo -> list (bytes * jval) -> out D) l r :
  fits 3 (VMap l) -> addressable (cbor (VMap l)) ->
  cbor_message read (cbor (VMap l) ++ r)
  = match as_message read (erase (VMap l)) with Ok e => POk r e | Err _ => PErr | Panic => PPanic end.
Proof.
  intros Hf Hl. unfold cbor_message. rewrite (cbor_back (VMap l) 127); [reflexivity|apply (fits_le 3 127); [lia|exact Hf]|exact Hl|].
  rewrite app_length. lia.
Qed.
Lemma cbor_refuses_text {D} (read : SerializationInfo -> list (bytes * jval) -> out D) : refuses_text (cbor_message read).
Proof.
  split; [reflexivity|]. intros s. unfold cbor_message. change (bstr "{" ++ s) with (x7b :: s).
  replace (2 * List.length (x7b :: s) + 2) with (S (2 * List.length (x7b :: s) + 1)) by lia. cbn [read_cbor].
  change (b2n x7b =? 246)%N with false. change (b2n x7b / 32 =? 3)%N with true. cbv iota.
  destruct (cbor_len (b2n x7b mod 32) s) as [[n r]|]; [|reflexivity]. destruct (cbor_str n r) as [[x r']|]; reflexivity.
Qed.
Lemma palt_refuses {A} (p q : bytes -> pres A) : refuses_text p -> refuses_text q -> refuses_text (palt p q).
Proof. intros [P1 P2] [Q1 Q2]. split; [unfold palt; now rewrite P1|]. intros s. unfold palt. now rewrite P2. Qed.

Section Hex.
  Context (hx : bytes -> option N) (Hhx : reads_hex hx) (mk : bytes -> pres EventMessage) (mr : bytes -> pres ReceiptMessage).
  Lemma event_in_cbor m r : event_readable m -> addressable (cbor (event_val m)) ->
    read_formats hx mk mr (cbor (event_val m) ++ r) = POk r (KeyEventT m).
  Proof.
    intros Hm Hl. unfold read_formats, read_event_type, palt at 1, key_event_message, palt at 1.
    pose proof (cbor_message_back (read_key_event hx)
      (head_fields (em_info m) (event_type (em_data m)) (sap_str (em_digest m)) ++ event_fields (em_prefix m) (em_sn m) (em_data m)) r) as B.
    fold (event_val m) in B. rewrite stored_event_text in B by (assumption || now apply readable_stable).
    unfold palt. rewrite B; [|apply fits_event, Hm|exact Hl]. reflexivity.
  Qed.
  Lemma event_in_json m r : event_readable m -> read_formats hx mk mr (json (event_val m) ++ r) = POk r (KeyEventT m).
  Proof. intros H. unfold read_formats. now apply c76_event. Qed.
  Lemma receipt_no_event c : receipt_readable c -> as_message (read_key_event hx) (erase (receipt_val c)) = Err ESerialization.
  Proof.
    intros (Hv & Hd & Hi & Hs). unfold receipt_val, head_fields. cbn [app erase map].
    change (fst (sfld ?k ?x), erase (snd (sfld ?k ?x))) with (bstr k, JStr x). unfold as_message.
    rewrite (scan_mine _ _ _ _ _ [] [(bstr "t", JStr (bstr "rct")); (bstr "d", JStr (sap_str (rct_digest c))); (bstr "i", JStr (id_str (rct_prefix c)));
      (bstr "s", JStr (fmt_hex (rct_sn c)))] (chk as_si)); [|reflexivity|reflexivity|exact (chk_ok _ _ _ (si_text _ Hv))|].
    - cbn [obind]. erewrite (got_ok as_si _ "v"); [|reflexivity|exact (si_text _ Hv)]. cbn [obind].
      apply (key_event_bad hx _ _ _ _ _ [] (rct_digest c) (rct_prefix c) (rct_sn c)); [constructor|now apply as_sap_ok|now apply as_id_ok|now apply as_hex_ok|reflexivity].
    - do 4 (apply scan_rest; [reflexivity|]). reflexivity.
  Qed.
  Lemma receipt_in_cbor c r : refuses_map mk -> receipt_readable c -> addressable (cbor (receipt_val c)) ->
    read_formats hx mk mr (cbor (receipt_val c) ++ r) = POk r (ReceiptT c).
  Proof.
    intros Hmk Hc Hl. unfold read_formats, read_event_type, palt at 1, key_event_message, palt at 1.
    pose proof (cbor_message_back (read_key_event hx) (head_fields (rct_info c) TRct (sap_str (rct_digest c)) ++ [sfld "i" (id_str (rct_prefix c)); sfld "s" (fmt_hex (rct_sn c))]) r) as B1.
    pose proof (cbor_message_back (read_receipt hx) (head_fields (rct_info c) TRct (sap_str (rct_digest c)) ++ [sfld "i" (id_str (rct_prefix c)); sfld "s" (fmt_hex (rct_sn c))]) r) as B2.
    fold (receipt_val c) in B1, B2. specialize (B1 (fits_receipt c) Hl). specialize (B2 (fits_receipt c) Hl).
    rewrite receipt_no_event in B1 by assumption. rewrite body_text in B2 by (assumption || now apply rct_readable_stable).
    assert (J : forall D (read : SerializationInfo -> list (bytes * jval) -> out D), json_message read (cbor (receipt_val c) ++ r) = PErr).
    { intros D read. unfold receipt_val. rewrite cbor_map_opens. cbn [app]. apply json_refuses_map. }
    assert (M : mk (cbor (receipt_val c) ++ r) = PErr).
    { unfold receipt_val. rewrite cbor_map_opens. cbn [app]. apply Hmk. }
    rewrite J. unfold palt at 1. rewrite B1, M. cbn [pmap]. unfold receipt_message, palt. rewrite J, B2. reflexivity.
  Qed.
  Lemma receipt_in_json c r : refuses_text mk -> receipt_readable c -> read_formats hx mk mr (json (receipt_val c) ++ r) = POk r (ReceiptT c).
  Proof. intros Hmk H. unfold read_formats. apply c76_receipt; [exact Hhx| |exact H]. apply palt_refuses; [apply cbor_refuses_text|exact Hmk]. Qed.
End Hex.
