(** * JsonProofs2: reading back events. *)
From Coq Require Import ZifyBool ZifyN ZifyNat.
From Verif Require Import Base Base64 Base64Proofs Codes NumFmt NumProofs Types SpecCodec CodecProofs KeyConf Version Cesr CesrProofs Message Keri Json JsonRead JsonProofs SpecJson.

(** ** Everything written is ASCII except free text *)
Lemma bstr_ascii_prefix code d : ascii code -> ascii (prefix_str code d).
Proof. intros H. unfold prefix_str. destruct d; [constructor|]. apply Forall_app. split; [assumption|apply encode_ascii]. Qed.
Lemma bp_str_ascii p : ascii (bp_str p).
Proof. apply bstr_ascii_prefix, basic_code_ascii. Qed.
Lemma sap_str_ascii p : ascii (sap_str p).
Proof. apply bstr_ascii_prefix, sa_code_ascii. Qed.
Lemma ssp_str_ascii p : ascii (ssp_str p).
Proof. apply bstr_ascii_prefix, ss_code_ascii. Qed.
Lemma id_str_ascii p : ascii (id_str p).
Proof. destruct p; [apply bp_str_ascii|apply sap_str_ascii|apply ssp_str_ascii]. Qed.
Lemma digit_ascii d : (d < 16)%N -> (b2n (digit_char d) < 128)%N.
Proof.
  intros H. assert (D : (d = 0 \/ d = 1 \/ d = 2 \/ d = 3 \/ d = 4 \/ d = 5 \/ d = 6 \/ d = 7 \/ d = 8 \/ d = 9 \/ d = 10 \/ d = 11 \/ d = 12 \/ d = 13 \/ d = 14 \/ d = 15)%N) by lia.
  repeat (destruct D as [D|D]); subst d; reflexivity.
Qed.
Lemma fmt_ascii r n : radix r -> ascii (fmt_radix r n).
Proof.
  intros Hr. apply Forall_forall. intros c Hc. destruct (fmt_chars r n c Hr Hc) as (d & Hd & ->).
  apply digit_ascii. destruct Hr; lia.
Qed.
Lemma radix16 : radix 16. Proof. red; lia. Qed.
Lemma radix10 : radix 10. Proof. red; lia. Qed.
Lemma hex_ascii n : ascii (fmt_hex n). Proof. apply fmt_ascii, radix16. Qed.
Lemma dec_ascii n : ascii (fmt_dec n). Proof. apply fmt_ascii, radix10. Qed.
Ltac lit_ascii := repeat constructor.
Lemma frac_ascii f : ascii (frac_str f).
Proof.
  destruct f as [| |n d]; [lit_ascii|lit_ascii|]. cbn [frac_str]. destruct (d =? 1)%N; [apply dec_ascii|].
  apply Forall_app; split; [apply dec_ascii|]. apply Forall_app; split; [lit_ascii|apply dec_ascii].
Qed.
Lemma tag_ascii t : ascii (tag_str t). Proof. destruct t; lit_ascii. Qed.
Lemma pad_ascii w s : ascii s -> ascii (pad0 w s).
Proof. intros H. apply Forall_app; split; [|assumption]. apply Forall_forall. intros c Hc. apply repeat_spec in Hc. now subst. Qed.
Lemma si_ascii v : ascii (si_str v).
Proof.
  unfold si_str. apply Forall_app; split; [lit_ascii|]. apply Forall_app; split; [apply hex_ascii|].
  apply Forall_app; split; [apply hex_ascii|]. apply Forall_app; split; [destruct (si_kind v); lit_ascii|].
  apply Forall_app; split; [apply pad_ascii, hex_ascii|lit_ascii].
Qed.
Lemma dummy_ascii g : ascii (dummy_prefix g).
Proof. apply Forall_forall. intros c Hc. apply repeat_spec in Hc. now subst. Qed.

(** ** The values fit *)
Lemma fits_ascii n s : ascii s -> fits n (VStr s).
Proof. intros H. cbn [fits]. now apply ascii_valid. Qed.
Lemma kv_ascii n k s : ascii s -> valid_utf8 (bstr k) = true -> fits_kv n (sfld k s).
Proof. intros H Hk. split; [exact Hk|now apply fits_ascii]. Qed.
Lemma fits_keys l : fits 1 (keys_val l).
Proof. apply fits_seq. apply Forall_forall. intros v Hv. apply in_map_iff in Hv as (p & <- & _). apply fits_ascii, bp_str_ascii. Qed.
Lemma fits_clause c : fits 1 (clause_val c).
Proof. apply fits_seq. apply Forall_forall. intros v Hv. apply in_map_iff in Hv as (p & <- & _). apply fits_ascii, frac_ascii. Qed.
Lemma fits_threshold t : fits 2 (threshold_val t).
Proof.
  destruct t as [n|[c|cs]]; cbn [threshold_val].
  - apply fits_ascii, hex_ascii.
  - apply fits_S, fits_clause.
  - apply fits_seq. apply Forall_forall. intros v Hv. apply in_map_iff in Hv as (c & <- & _). apply fits_clause.
Qed.
Definition strings_of_seal (s : Seal) : list bytes := match s with SealLocation l => [ls_ilk l] | _ => [] end.
Ltac kv := match goal with |- fits_kv _ (sfld _ _) => apply kv_ascii; [|reflexivity] end.
Lemma fits_seal s : Forall rust_string (strings_of_seal s) -> fits 1 (seal_val s).
Proof.
  intros H. destruct s as [l|e|d|d]; cbn [seal_val]; apply fits_struct;
    repeat (apply Forall_cons || apply Forall_nil);
    try (apply kv_ascii; [first [apply id_str_ascii|apply hex_ascii|apply sap_str_ascii]|reflexivity]).
  inversion H as [|? ? H1 _]. split; [reflexivity|exact H1].
Qed.
Lemma fits_seals l : Forall rust_string (flat_map strings_of_seal l) -> fits 2 (VSeq (map seal_val l)).
Proof.
  intros H. apply fits_seq. apply Forall_forall. intros v Hv. apply in_map_iff in Hv as (s & <- & Hs).
  apply fits_seal. apply Forall_forall. intros x Hx. rewrite Forall_forall in H. apply H. apply in_flat_map. now exists s.
Qed.
Lemma fits_strings l : Forall rust_string l -> fits 1 (VSeq (map VStr l)).
Proof. intros H. apply fits_seq. apply Forall_forall. intros v Hv. apply in_map_iff in Hv as (s & <- & Hs). rewrite Forall_forall in H. now apply H. Qed.

Lemma fits_le n m v : n <= m -> fits n v -> fits m v.
Proof. induction 1; [trivial|]. intros H1. apply fits_S. auto. Qed.
Ltac parts := repeat lazymatch goal with
  | |- Forall (fits_kv _) (_ ++ _) => apply Forall_app; split
  | |- Forall (fits_kv _) (_ :: _) => constructor
  | |- Forall (fits_kv _) [] => constructor
  end.
Ltac one := lazymatch goal with
  | |- fits_kv _ (sfld _ _) => apply kv_ascii; [first [apply id_str_ascii|apply hex_ascii|apply sap_str_ascii|apply si_ascii|apply tag_ascii|apply dummy_ascii]|reflexivity]
  | |- fits_kv _ (fld _ (keys_val _)) => split; [reflexivity|apply (fits_le 1 2); [lia|apply fits_keys]]
  | |- fits_kv _ (fld _ (threshold_val _)) => split; [reflexivity|apply fits_threshold]
  | |- fits_kv _ (seals_fld _) => split; [reflexivity|apply fits_seals]
  | |- fits_kv _ (fld "c" _) => split; [reflexivity|apply (fits_le 1 2); [lia|apply fits_strings]]
  end.
Lemma fits_kc kc : Forall (fits_kv 2) (kc_fields kc).
Proof. unfold kc_fields. parts; try one. apply kv_ascii; [destruct (kc_next kc); [apply sap_str_ascii|constructor]|reflexivity]. Qed.
Lemma fits_icp e : Forall rust_string (icp_config e) -> Forall rust_string (flat_map strings_of_seal (icp_data e)) -> Forall (fits_kv 2) (icp_fields e).
Proof. intros H1 H2. unfold icp_fields. parts; try one; try apply fits_kc; assumption. Qed.
Lemma fits_rot e : Forall rust_string (flat_map strings_of_seal (rot_data e)) -> Forall (fits_kv 2) (rot_fields e).
Proof. intros H. unfold rot_fields. cbn [app]. constructor; [one|]. parts; try one; try apply fits_kc; assumption. Qed.
Lemma fits_data d : Forall rust_string (data_strings d) -> Forall (fits_kv 2) (data_fields d).
Proof.
  intros H. unfold data_strings in H. apply Forall_app in H as [H1 H2]. fold strings_of_seal in H2.
  destruct d as [e|e|e|e|e]; cbn [data_fields data_seals] in *.
  - now apply fits_icp.
  - now apply fits_rot.
  - parts; one. assumption.
  - parts; [now apply fits_icp|one].
  - now apply fits_rot.
Qed.
Lemma fits_event m : Forall rust_string (data_strings (em_data m)) -> fits 3 (event_val m).
Proof. intros H. apply fits_map. unfold head_fields, event_fields. parts; try one. now apply fits_data. Qed.
Lemma fits_receipt r : fits 3 (receipt_val r).
Proof. apply fits_map. unfold head_fields. parts; one. Qed.
