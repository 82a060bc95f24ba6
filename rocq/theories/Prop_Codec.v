(** * Prop_Codec: text forms of prefixes (C40-C46, C63, C64). *)
From Verif Require Import Base Base64 Base64Proofs Codes SpecCodec CodecProofs CodecProofs2 Demo.

(** ** C40: the base64url codec *)
Theorem C40_decode_encode : forall l, b64_decode (b64_encode l) = Some l.
Proof. exact decode_encode. Qed.
Print Assumptions C40_decode_encode.
(** ceil(4n/3) characters, all of the alphabet *)
Theorem C40_encoding_shape :
  forall l, 3 * List.length (b64_encode l) < 4 * List.length l + 3
            /\ 4 * List.length l <= 3 * List.length (b64_encode l)
            /\ (forall c, In c (b64_encode l) -> In c alphabet).
Proof.
  intros l. rewrite encode_length. unfold enc_len.
  pose proof (Nat.div_mod (4 * List.length l + 2) 3 ltac:(lia)).
  pose proof (Nat.mod_upper_bound (4 * List.length l + 2) 3 ltac:(lia)).
  split; [lia|]. split; [lia|].
  intros c Hc. pose proof (encode_chars l) as F. rewrite Forall_forall in F. apply F in Hc.
  unfold is_b64_char in Hc. destruct (dec6 c) as [n|] eqn:E; [|discriminate].
  apply dec6_spec in E. destruct E as [Hn <-]. unfold enc6. apply nth_In.
  change (List.length alphabet) with 64. lia.
Qed.
Print Assumptions C40_encoding_shape.
Theorem C40_canonical :
  forall s x, ~ In x3d s -> b64_decode s = Some x -> b64_encode x = s.
Proof. exact decode_canonical. Qed.
Print Assumptions C40_canonical.
Example C40_example :
  b64_encode (bstr "keri!") = bstr "a2VyaSE" /\ b64_decode (bstr "a2VyaSE") = Some (bstr "keri!").
Proof. vm_compute. split; reflexivity. Qed.

(** ** C41: key prefixes *)
(** keys of every algorithm except ECDSA read back *)
Theorem C41_partial :
  forall p, bp_sized p -> is_ecdsa (bp_code p) = false -> bp_from (bp_str p) = Ok p.
Proof. exact c41. Qed.
Print Assumptions C41_partial.
(** no ECDSA key ever reads back: the expected length is wrong *)
Theorem C41_ecdsa_refuted :
  forall p, bp_sized p -> is_ecdsa (bp_code p) = true -> exists e, bp_from (bp_str p) = Err e.
Proof. intros p H1 H2. eexists. now apply c41_ecdsa. Qed.
Print Assumptions C41_ecdsa_refuted.
Theorem C41_refuted : ~ (forall p, bp_sized p -> bp_from (bp_str p) = Ok p).
Proof.
  intros H. specialize (H (mkBP ECDSAsecp256k1 (repeat x02 33)) eq_refl). vm_compute in H. discriminate.
Qed.
Print Assumptions C41_refuted.
Example C41_example : bp_sized (mkBP Ed448 (repeat x07 57)) /\ bp_sized (mkBP Ed25519NT (repeat x07 32)).
Proof. split; reflexivity. Qed.

(** ** C42: digest prefixes *)
Theorem C42_partial :
  forall p, sap_sized p -> unkeyed (sap_code p) = sap_code p -> sap_from (sap_str p) = Ok p.
Proof. intros [c d] H E. rewrite c42 by exact H. cbn in *. now rewrite E. Qed.
Print Assumptions C42_partial.
(** a keyed Blake2 prefix reads back without its key *)
Theorem C42_key_is_dropped :
  forall p, sap_sized p -> sap_from (sap_str p) = Ok (mkSAP (unkeyed (sap_code p)) (sap_digest p)).
Proof. exact c42. Qed.
Print Assumptions C42_key_is_dropped.
Theorem C42_refuted : ~ (forall p, sap_sized p -> sap_from (sap_str p) = Ok p).
Proof.
  intros H. specialize (H (mkSAP (Blake2B256 [x01]) (repeat x02 32)) eq_refl). vm_compute in H. discriminate.
Qed.
Print Assumptions C42_refuted.
Example C42_example :
  sap_sized (mkSAP SHA2_512 (repeat x07 64)) /\ unkeyed SHA2_512 = SHA2_512 /\ unkeyed (Blake2B256 []) = Blake2B256 [].
Proof. split; [reflexivity|split; reflexivity]. Qed.

(** ** C43: signature prefixes *)
Theorem C43_signature_round_trip : forall p, ssp_sized p -> ssp_from (ssp_str p) = Ok p.
Proof. exact c43. Qed.
Print Assumptions C43_signature_round_trip.
Example C43_example : ssp_sized (mkSSP Ed448Sig (repeat x09 114)).
Proof. reflexivity. Qed.

(** ** C44: identifier prefixes *)
Theorem C44_partial :
  forall p, id_sized p -> id_not_ecdsa p -> id_unkeyed p = p -> id_from (id_str p) = Ok p.
Proof. intros p H1 H2 H3. rewrite c44 by assumption. now rewrite H3. Qed.
Print Assumptions C44_partial.
(** different well-sized identifiers have different texts, unless they differ only in
    Blake2 key material (ECDSA keys included) *)
Theorem C44_texts_are_unambiguous :
  forall p q, id_sized p -> id_sized q -> id_str p = id_str q -> id_unkeyed p = id_unkeyed q.
Proof. intros p q Hp Hq. apply id_str_inj; now apply id_sized_material. Qed.
Print Assumptions C44_texts_are_unambiguous.
Theorem C44_refuted :
  ~ (forall p, id_sized p -> id_from (id_str p) = Ok p)
  /\ ~ (forall p q, id_sized p -> id_sized q -> id_str p = id_str q -> p = q).
Proof.
  split; intros H.
  - specialize (H (IdBasic (mkBP ECDSAsecp256k1 (repeat x02 33))) eq_refl). vm_compute in H. discriminate.
  - specialize (H (IdSelfAddressing (mkSAP (Blake2B256 [x01]) (repeat x02 32)))
                  (IdSelfAddressing (mkSAP (Blake2B256 [x02]) (repeat x02 32))) eq_refl eq_refl).
    vm_compute in H. specialize (H eq_refl). discriminate.
Qed.
Print Assumptions C44_refuted.
Example C44_example :
  let p := IdSelfAddressing (mkSAP Blake3_512 (repeat x05 64)) in
  id_sized p /\ id_not_ecdsa p /\ id_unkeyed p = p.
Proof. split; [reflexivity|split; [exact I|reflexivity]]. Qed.

(** ** C45: indexed signatures *)
Theorem C45_partial :
  forall p, asp_sized p -> (asp_index p < 63)%N -> asp_from (asp_str p) = Ok p.
Proof. exact c45. Qed.
Print Assumptions C45_partial.
(** with any greater index the text never reads back *)
Theorem C45_greater_index_refuted :
  forall p, asp_sized p -> (63 <= asp_index p <= 65535)%N -> exists e, asp_from (asp_str p) = Err e.
Proof. intros p H1 H2. eexists. now apply c45_big. Qed.
Print Assumptions C45_greater_index_refuted.
Theorem C45_refuted :
  ~ (forall p, asp_sized p -> (asp_index p <= 65535)%N -> asp_from (asp_str p) = Ok p).
Proof.
  intros H. assert (L : (63 <= 65535)%N) by lia.
  specialize (H (mkASP 63 (mkSSP Ed25519Sha512 (repeat x01 64))) eq_refl L). vm_compute in H. discriminate.
Qed.
Print Assumptions C45_refuted.
Example C45_example : asp_sized (mkASP 62 (mkSSP Ed448Sig (repeat x01 114))).
Proof. reflexivity. Qed.

(** ** C46: reading any string *)
(** exactly the strings on which reading panics *)
Theorem C46_partial :
  forall s, utf8 s = true ->
    (bp_from s = Panic <-> starts_with (bstr "1") s /\ ~ can_cut s 4)
    /\ (sap_from s = Panic <-> starts_with (bstr "0") s /\ ~ can_cut s 2)
    /\ (ssp_from s = Panic <->
        (starts_with (bstr "0") s /\ ~ can_cut s 2) \/ (starts_with (bstr "1") s /\ ~ can_cut s 4))
    /\ (id_from s = Panic <->
        (starts_with (bstr "0") s /\ ~ can_cut s 2) \/ (starts_with (bstr "1") s /\ ~ can_cut s 4))
    /\ (asp_from s = Panic <->
        ~ can_cut s 1
        \/ ((starts_with (bstr "A") s \/ starts_with (bstr "B") s) /\ List.length s < 2)
        \/ (starts_with (bstr "0") s /\ ~ can_cut s 3)
        \/ (starts_with (bstr "0AA") s /\ List.length s < 4))
    /\ (seed_from s = Panic <-> ~ can_cut s 1 \/ (starts_with (bstr "0") s /\ ~ can_cut s 2)).
Proof.
  intros s H.
  split; [now apply bp_panic|]. split; [now apply sap_panic|]. split; [now apply ssp_panic|].
  split; [now apply id_panic|]. split; [now apply asp_panic|now apply seed_panic].
Qed.
Print Assumptions C46_partial.
Theorem C46_refuted :
  id_from (bstr "1") = Panic /\ id_from (bstr "0") = Panic /\ bp_from (bstr "1AA") = Panic
  /\ asp_from [] = Panic /\ asp_from (bstr "A") = Panic /\ seed_from [] = Panic.
Proof. vm_compute. repeat split; reflexivity. Qed.
Print Assumptions C46_refuted.
Example C46_example : utf8 (bstr "1") = true /\ utf8 (id_str alice) = true /\ id_from (id_str alice) = Ok alice.
Proof. vm_compute. repeat split; reflexivity. Qed.

(** ** C63: accepted texts are canonical *)
(** without padding characters, an accepted text is the text form of what it reads as *)
Theorem C63_partial :
  forall s p, ~ In "="%byte s -> id_from s = Ok p -> id_str p = s.
Proof. exact id_canonical. Qed.
Print Assumptions C63_partial.
(** with a padding character a key of the wrong length is accepted, whose text is not
    the accepted one and does not read back *)
Theorem C63_refuted :
  exists s p, id_from s = Ok p /\ id_str p <> s /\ ~ id_sized p /\ (exists e, id_from (id_str p) = Err e).
Proof.
  exists (bstr "DAAAAAAAAAAAAAAAAAAAAAAAAAAAAAAAAAAAAAAAAAA="), (IdBasic (mkBP Ed25519 (repeat x00 31))).
  split; [vm_compute; reflexivity|]. split; [vm_compute; congruence|]. split; [vm_compute; congruence|].
  eexists. vm_compute. reflexivity.
Qed.
Print Assumptions C63_refuted.
Example C63_example : ~ In "="%byte (id_str alice) /\ id_from (id_str alice) = Ok alice.
Proof.
  split; [|vm_compute; reflexivity].
  intros H. assert (A : existsb (Byte.eqb "="%byte) (id_str alice) = true).
  { apply existsb_exists. exists "="%byte. split; [exact H|reflexivity]. }
  vm_compute in A. discriminate.
Qed.

(** ** C64: seeds *)
Theorem C64_seed_round_trip :
  forall p, seed_bytes p <> [] -> seed_from (seed_str p) = Ok p.
Proof. exact seed_round_trip. Qed.
Print Assumptions C64_seed_round_trip.
Example C64_example : seed_bytes (RandomSeed128 (repeat x01 16)) <> [].
Proof. discriminate. Qed.
