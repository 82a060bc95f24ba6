(** Attachments: exactly which texts are read. *)
From Coq Require Import ZifyBool ZifyN ZifyNat.
From Verif Require Import Base Base64 Base64Proofs Codes NumFmt Types SpecCodec CodecProofs CodecProofs2 Cesr CesrProofs SpecCesr CesrProofs2 CesrProofs3 SpecCesr2.
Ltac Zify.zify_post_hook ::= Z.div_mod_to_equations.

Definition sound {A} (f : bytes -> pres A) (R : A -> bytes -> Prop) : Prop :=
  forall s r a, f s = POk r a -> exists t, s = t ++ r /\ (nopad t -> R a t).
Definition complete {A} (f : bytes -> pres A) (R : A -> bytes -> Prop) : Prop :=
  forall a t r, R a t -> f (t ++ r) = POk r a.
Lemma obind_okv {A B} (x : out A) (f : A -> out B) b : obind x f = Ok b -> exists a, x = Ok a /\ f a = Ok b.
Proof. destruct x; try discriminate. intros H. now eexists. Qed.
Lemma nopad_app a b : nopad (a ++ b) <-> nopad a /\ nopad b.
Proof. unfold nopad. rewrite in_app_iff. tauto. Qed.
Lemma decode_exact t d : nopad t -> decode t = Ok d -> t = b64_encode d.
Proof. unfold decode. intros Hn H. destruct (b64_decode t) as [x|] eqn:E; [|discriminate]. injection H as <-. symmetry. now apply decode_canonical. Qed.
Lemma enc_len_inv n k : enc_len n = k -> n = k * 3 / 4.
Proof. unfold enc_len. lia. Qed.
Lemma decode_length t d : nopad t -> decode t = Ok d -> List.length d = List.length t * 3 / 4.
Proof. intros Hn H. apply decode_exact in H; [|exact Hn]. apply enc_len_inv. now rewrite H, encode_length. Qed.
Ltac psteps :=
  repeat match goal with
  | H : pbnd _ _ = POk _ _ |- _ => apply pbnd_inv in H; destruct H as (? & ? & ? & H)
  | H : plift _ _ _ = POk _ _ |- _ => apply plift_inv in H; [destruct H; subst|discriminate]
  | H : p_code _ _ _ = POk _ _ |- _ => apply p_code_inv in H; destruct H as (? & ? & ?); subst
  | H : POk _ _ = POk _ _ |- _ => inversion H; subst; clear H
  | H : take _ _ = POk _ _ |- _ => apply take_inv in H; destruct H as [? ?]; subst
  end.

(** ** Digits *)
Lemma two_exact a b n : nopad [a; b] -> b64_to_num [a; b] = Ok n -> (n < 4096)%N /\ [a; b] = two_digits n.
Proof.
  intros Hn. unfold b64_to_num, decode. cbn [List.length]. change (bstr "AA" ++ [a; b]) with ["A"%byte; "A"%byte; a; b]. cbn [b64_decode].
  destruct (is_pad b) eqn:Eb; [apply is_pad_spec in Eb; subst; exfalso; apply Hn; cbn; tauto|].
  unfold dec_group4. change (dec6 "A"%byte) with (Some 0%N).
  destruct (dec6 a) as [x|] eqn:Ea; [|discriminate]. destruct (dec6 b) as [y|] eqn:Ey; [|discriminate].
  cbn [ok_or obind rev app]. intros H. injection H as <-.
  apply dec6_spec in Ea as [Lx <-]. apply dec6_spec in Ey as [Ly <-].
  rewrite !n2b_mod.
  match goal with |- (?e < _)%N /\ _ => assert (E : e = (64 * x + y)%N) by lia; rewrite E end. split; [lia|].
  unfold two_digits. f_equal; [f_equal; lia|]. f_equal. f_equal. lia.
Qed.
Lemma one_exact a n : nopad [a] -> b64_to_num [a] = Ok n -> (n < 64)%N /\ a = enc6 n.
Proof.
  intros Hn. unfold b64_to_num, decode. cbn [List.length]. change (bstr "AAA" ++ [a]) with ["A"%byte; "A"%byte; "A"%byte; a]. cbn [b64_decode].
  destruct (is_pad a) eqn:Eb; [apply is_pad_spec in Eb; subst; exfalso; apply Hn; cbn; tauto|].
  unfold dec_group4. change (dec6 "A"%byte) with (Some 0%N).
  destruct (dec6 a) as [x|] eqn:Ea; [|discriminate].
  cbn [ok_or obind rev app]. intros H. injection H as <-.
  apply dec6_spec in Ea as [Lx <-].
  change (n2b (0 mod 16 * 16 + 0 / 4)) with x00. change (b2n x00) with 0%N. rewrite !n2b_mod.
  match goal with |- (?e < _)%N /\ _ => assert (E : e = x) by lia; rewrite E end. split; [lia|reflexivity].
Qed.
Lemma count_sound : sound b64_count (fun n t => (n < 4096)%N /\ t = two_digits n).
Proof.
  intros s r n H. unfold b64_count in H. psteps.
  match goal with H : List.length ?t = 2 |- _ => exists t; split; [reflexivity|]; destruct t as [|a [|b [|]]]; try discriminate H end.
  intros Hn. now apply two_exact.
Qed.

(** ** Sequence numbers *)
Lemma be_value_snoc l b : be_value (l ++ [b]) = (be_value l * 256 + b2n b)%N.
Proof. unfold be_value. now rewrite fold_left_app. Qed.
Lemma be_bytes_value l : be_bytes (List.length l) (be_value l) = l.
Proof.
  induction l as [|b l IH] using rev_ind; [reflexivity|]. rewrite app_length, be_value_snoc. cbn [List.length]. rewrite Nat.add_1_r. cbn [be_bytes].
  pose proof (b2n_lt b) as Hb. f_equal.
  - replace ((be_value l * 256 + b2n b) / 256)%N with (be_value l) by lia. exact IH.
  - f_equal. apply b2n_inj. rewrite n2b_mod. lia.
Qed.
Lemma be_value_bound l : (be_value l < 256 ^ N.of_nat (List.length l))%N.
Proof.
  induction l as [|b l IH] using rev_ind; [reflexivity|]. rewrite app_length, be_value_snoc. cbn [List.length]. rewrite Nat.add_1_r, Nat2N.inj_succ, N.pow_succ_r'. pose proof (b2n_lt b). lia.
Qed.
Lemma be_value_bytes n : (n <= u64_max)%N -> be_value (be_bytes 8 n) = n.
Proof. intros H. rewrite be_bytes_u64. now apply be_value_u64. Qed.
Lemma sn_sound : sound attached_sn sn_spelling.
Proof.
  intros s r n H. unfold attached_sn in H. apply pbnd_inv in H as (m & c & Hc & H). apply take_inv in Hc as [-> Hc].
  destruct (is c "0A") eqn:Ec; [|discriminate]. apply is_true_eq in Ec. subst c.
  apply pbnd_inv in H as (r1 & t & Ht & H). apply take_inv in Ht as [-> Ht].
  apply pbnd_inv in H as (r2 & d & Hd & H). apply plift_inv in Hd; [|discriminate]. destruct Hd as [-> Hd].
  destruct (List.length d =? 16) eqn:El; [|discriminate]. apply Nat.eqb_eq in El. injection H as <- <-.
  exists (bstr "0A" ++ t). split; [now rewrite <- app_assoc|]. rewrite nopad_app. intros [_ Hn]. apply decode_exact in Hd; [|exact Hn].
  assert (L : List.length (skipn 8 d) = 8) by (rewrite skipn_length; lia).
  pose proof (be_value_bound (skipn 8 d)) as B. rewrite L in B.
  split; [apply N.lt_succ_r; exact B|]. exists (firstn 8 d). split; [rewrite firstn_length; lia|].
  rewrite Hd. do 2 f_equal. rewrite <- L at 2. rewrite be_bytes_value. symmetry. apply firstn_skipn.
Qed.
Lemma sn_complete : complete attached_sn sn_spelling.
Proof.
  intros n t r (Hn & high & Hh & ->). unfold attached_sn. rewrite <- app_assoc.
  rewrite take_app by reflexivity. cbn [pbnd]. rewrite is_self by reflexivity.
  rewrite take_app by (rewrite encode_length, app_length, Hh, be_bytes_length; reflexivity). cbn [pbnd].
  unfold decode. rewrite decode_encode. cbn [ok_or plift pbnd]. rewrite app_length, Hh, be_bytes_length. cbn [Nat.add Nat.eqb].
  rewrite skipn_app, Hh, Nat.sub_diag, skipn_all2 by lia. cbn [skipn app]. now rewrite be_value_bytes.
Qed.

(** ** Prefixes *)
(** the code that was looked at is the first character *)
Lemma first_char (c r0 cs r1 : bytes) n : c ++ r0 = cs ++ r1 -> List.length c = 1 -> List.length cs = S n -> c = firstn 1 cs.
Proof.
  intros E Lc Ls. destruct c as [|a [|]]; try discriminate Lc. destruct cs as [|b cs]; [discriminate Ls|]. cbn in *. congruence.
Qed.
Lemma basic_sound : sound basic_prefix (fun p t => key_carried p /\ t = bp_str p).
Proof.
  intros s r p H. unfold basic_prefix in H. apply pbnd_inv in H as (r0 & c & H0 & H). apply take_inv in H0 as [E0 L0].
  apply pbnd_inv in H as (r1 & cs & H1 & H). apply take_inv in H1 as [E1 L1].
  apply pbnd_inv in H as (r2 & code & H2 & H). apply p_code_inv in H2 as (-> & H2 & _).
  apply pbnd_inv in H as (r3 & b & H3 & H). apply take_inv in H3 as [-> L3].
  apply pbnd_inv in H as (r4 & k & H4 & H). apply plift_inv in H4; [|discriminate]. destruct H4 as [-> H4]. injection H as <- <-.
  exists (cs ++ b). split; [now rewrite <- app_assoc|]. rewrite nopad_app. intros [_ Hn].
  pose proof (decode_length _ _ Hn H4) as Lk. rewrite L3 in Lk. apply decode_exact in H4; [|exact Hn].
  assert (K : key_carried (mkBP code k)) by (unfold key_carried; cbn [bp_key bp_code]; rewrite Lk; destruct code; reflexivity).
  split; [exact K|]. unfold bp_str. cbn [bp_key bp_code].
  rewrite prefix_str_ne by (intros ->; destruct code; discriminate Lk). rewrite <- H4. f_equal.
  pose proof (basic_code_text _ _ H2) as Et. rewrite E0 in E1.
  assert (Ec : c = firstn 1 cs) by (destruct (is c "1"); eapply first_char; eauto).
  rewrite Et in Ec |- *. clear Et E0 E1 H2 H4 K. subst c.
  replace (skipn (basic_code_len code) cs) with (@nil byte); [now rewrite app_nil_r|].
  symmetry. apply skipn_all2. revert L1. destruct code; cbn; lia.
Qed.
Lemma basic_complete : complete basic_prefix (fun p t => key_carried p /\ t = bp_str p).
Proof.
  intros p t r [Hk ->]. destruct p as [c k]. unfold key_carried, bp_str in *. cbn [bp_key bp_code] in *.
  rewrite prefix_str_ne by (intros ->; destruct c; discriminate Hk).
  rewrite <- app_assoc. unfold basic_prefix.
  rewrite (take_firstn 1) by (destruct c; cbn; lia). cbn [pbnd].
  replace (if is (firstn 1 (basic_code c)) "1" then 4 else 1) with (List.length (basic_code c)) by (destruct c; reflexivity).
  rewrite take_app by reflexivity. cbn [pbnd].
  rewrite (p_code_ok _ _ _ c); [ | apply basic_code_ascii | rewrite <- (app_nil_r (basic_code c)); apply basic_code_from_app; apply Forall_nil].
  cbn [pbnd]. rewrite take_app by (rewrite encode_length, Hk; destruct c; reflexivity).
  cbn [pbnd]. unfold decode. rewrite decode_encode. reflexivity.
Qed.
Lemma sap_sound : sound self_addressing_prefix digest_spelling.
Proof.
  intros s r p H. unfold self_addressing_prefix in H. apply pbnd_inv in H as (r0 & c & H0 & H). apply take_inv in H0 as [E0 L0].
  apply pbnd_inv in H as (r1 & cs & H1 & H). apply take_inv in H1 as [E1 L1].
  apply pbnd_inv in H as (r2 & code & H2 & H). apply p_code_inv in H2 as (-> & H2 & _).
  apply pbnd_inv in H as (r3 & b & H3 & H). apply take_inv in H3 as [-> L3]. apply p_code_inv in H as (-> & H & _).
  exists (cs ++ b). split; [now rewrite <- app_assoc|]. intros Hn. pose proof (sap_canonical _ _ Hn H) as Et. split; [|now symmetry].
  unfold sap_from in H. apply obind_okv in H as (code' & Hc & H). cbv zeta in H.
  destruct (List.length (cs ++ b) =? sa_code_len code' + sa_b64_len code') eqn:El; [|discriminate]. apply Nat.eqb_eq in El.
  apply obind_okv in H as (sub & Hs & H). apply obind_okv in H as (d & Hd & H). injection H as <-.
  cbn [sap_digest sap_code] in *. unfold sap_str in Et. cbn [sap_digest sap_code] in Et.
  assert (Hne : d <> []).
  { intros ->. cbn in Et. destruct cs; [destruct (is c "0"); discriminate L1|discriminate Et]. }
  rewrite prefix_str_ne in Et by exact Hne. rewrite <- Et, app_length, sa_code_length, encode_length in El. apply Nat.add_cancel_l, enc_len_inv in El.
  split; unfold sap_sized; cbn [sap_digest sap_code].
  - rewrite El. destruct code'; reflexivity.
  - clear -Hc. unfold sa_code_from in Hc. destruct (str_get1 (cs ++ b)) as [h|]; [|discriminate].
    repeat match type of Hc with (if ?b then _ else _) = _ => destruct b; [congruence|] end. 
    repeat match type of Hc with
    | (if ?b then _ else _) = _ => destruct b
    | obind _ _ = Ok _ => let x := fresh in apply obind_okv in Hc as (x & _ & Hc)
    | Ok _ = Ok _ => injection Hc as <-
    | Err _ = Ok _ => discriminate Hc
    end; reflexivity.
Qed.
Lemma sap_complete : complete self_addressing_prefix digest_spelling.
Proof. intros d t r [H ->]. now apply digest_read. Qed.
Lemma ssp_sound : sound self_signing_prefix (fun p t => ssp_sized p /\ t = ssp_str p).
Proof.
  intros s r p H. unfold self_signing_prefix in H. apply pbnd_inv in H as (r0 & c & H0 & H). apply take_inv in H0 as [E0 L0].
  apply pbnd_inv in H as (r1 & cs & H1 & H). apply take_inv in H1 as [E1 L1].
  apply pbnd_inv in H as (r2 & code & H2 & H). apply p_code_inv in H2 as (-> & H2 & _).
  apply pbnd_inv in H as (r3 & b & H3 & H). apply take_inv in H3 as [-> L3].
  apply pbnd_inv in H as (r4 & k & H4 & H). apply plift_inv in H4; [|discriminate]. destruct H4 as [-> H4]. injection H as <- <-.
  exists (cs ++ b). split; [now rewrite <- app_assoc|]. rewrite nopad_app. intros [_ Hn].
  pose proof (decode_length _ _ Hn H4) as Lk. rewrite L3 in Lk. apply decode_exact in H4; [|exact Hn].
  assert (K : ssp_sized (mkSSP code k)) by (unfold ssp_sized; cbn [ssp_sig ssp_code]; rewrite Lk; destruct code; reflexivity).
  split; [exact K|]. unfold ssp_str. cbn [ssp_sig ssp_code].
  rewrite prefix_str_ne by (intros ->; destruct code; discriminate Lk). rewrite <- H4. f_equal.
  pose proof (ss_code_text _ _ H2) as Et. rewrite E0 in E1.
  assert (Ec : c = firstn 1 cs) by (destruct (is c "1"); eapply first_char; eauto).
  rewrite Et in Ec |- *. clear Et E0 E1 H2 H4 K. subst c.
  replace (skipn (ss_code_len code) cs) with (@nil byte); [now rewrite app_nil_r|].
  symmetry. apply skipn_all2. revert L1. destruct code; cbn; lia.
Qed.
Lemma prefix_sound : sound prefix id_spelling.
Proof.
  intros s r p H. unfold prefix in H. destruct (self_addressing_prefix s) as [r1 d| | | |] eqn:E; try discriminate.
  2-4: apply pbnd_inv in H as (r1 & b & H1 & H); injection H as <- <-; exact (basic_sound _ _ _ H1).
  injection H as <- <-. exact (sap_sound _ _ _ E).
Qed.
Lemma prefix_complete : complete prefix id_spelling.
Proof.
  intros p t r H. destruct p as [p|d|q]; cbn [id_spelling] in H; [|unfold prefix; now rewrite (sap_complete _ _ r H)|contradiction].
  unfold prefix. rewrite (basic_complete p t r H). destruct H as [Hk ->].
  assert (F : self_addressing_prefix (bp_str p ++ r) = PFail); [|now rewrite F].
  destruct p as [c k]. unfold key_carried, bp_str in *. cbn [bp_key bp_code] in *.
  rewrite prefix_str_ne by (intros ->; destruct c; discriminate Hk).
  rewrite <- app_assoc. unfold self_addressing_prefix.
  rewrite (take_firstn 1) by (destruct c; cbn; lia). cbn [pbnd].
  replace (if is (firstn 1 (basic_code c)) "0" then 2 else 1) with 1 by (destruct c; reflexivity).
  rewrite (take_firstn 1) by (destruct c; cbn; lia). cbn [pbnd].
  destruct c; reflexivity.
Qed.

(** ** Signatures *)
Lemma sig_sound : sound attached_signature sig_spelling.
Proof.
  intros s r p H. unfold attached_signature in H. apply pbnd_inv in H as (r0 & c & H0 & H). apply take_inv in H0 as [-> L0].
  assert (one : forall k code, List.length c = 1 -> c = bstr k -> ss_b64_len code = 86 -> sig_bytes code = 64 ->
    (forall i, sig_text (mkASP i (mkSSP code [])) = bstr k ++ [enc6 i]) ->
    (forall i x, sig_text (mkASP i (mkSSP code x)) = sig_text (mkASP i (mkSSP code [])) ++ b64_encode x) ->
    (forall i x, sig_fits (mkASP i (mkSSP code x)) <-> List.length x = 64 /\ (i < 64)%N) ->
    (let! (r, i) := p_index 1 r0 in let! (r, sig) := p_decode 86 r in POk r (mkASP i (mkSSP code sig))) = POk r p ->
    exists t, c ++ r0 = t ++ r /\ (nopad t -> sig_spelling p t)).
  { intros k code Lc -> _ _ T1 T2 F G. apply pbnd_inv in G as (r1 & i & G1 & G). apply pbnd_inv in G as (r2 & x & G2 & G). injection G as <- <-.
    unfold p_index in G1. apply pbnd_inv in G1 as (r3 & ti & G1 & G3). apply take_inv in G1 as [-> Li]. apply plift_inv in G3; [|discriminate]. destruct G3 as [-> G3].
    unfold p_decode in G2. apply pbnd_inv in G2 as (r4 & tx & G2 & G4). apply take_inv in G2 as [-> Lx]. apply plift_inv in G4; [|discriminate]. destruct G4 as [-> G4].
    exists (bstr k ++ ti ++ tx). split; [now rewrite <- !app_assoc|]. rewrite !nopad_app. intros (_ & Ni & Nx).
    destruct ti as [|a [|]]; try discriminate Li. destruct (one_exact _ _ Ni G3) as [Bi ->].
    pose proof (decode_length _ _ Nx G4) as Lk. rewrite Lx in Lk. apply decode_exact in G4; [|exact Nx].
    split; [apply F; split; [exact Lk|exact Bi]|]. rewrite T2, T1, G4. now rewrite <- app_assoc. }
  assert (F1 : forall code i x, code <> Ed448Sig -> (sig_fits (mkASP i (mkSSP code x)) <-> List.length x = 64 /\ (i < 64)%N)).
  { intros code i x Hc. unfold sig_fits, asp_sized, ssp_sized. cbn. destruct code; [reflexivity|reflexivity|congruence]. }
  destruct (is c "A") eqn:EA.
  { apply is_true_eq in EA. apply (one "A"%string Ed25519Sha512); auto. intros. now apply F1. }
  destruct (is c "B") eqn:EB.
  { apply is_true_eq in EB. apply (one "B"%string ECDSAsecp256k1Sha256); auto. intros. now apply F1. }
  destruct (is c "0") eqn:E0; [|discriminate]. apply is_true_eq in E0. subst c. clear one F1.
  apply pbnd_inv in H as (r1 & c2 & H2 & H). apply take_inv in H2 as [-> L2]. destruct (is c2 "A") eqn:E2; [|discriminate]. apply is_true_eq in E2. subst c2.
  apply pbnd_inv in H as (r2 & i & G1 & G). apply pbnd_inv in G as (r3 & x & G2 & G). injection G as <- <-.
  unfold p_index in G1. apply pbnd_inv in G1 as (r4 & ti & G1 & G3). apply take_inv in G1 as [-> Li]. apply plift_inv in G3; [|discriminate]. destruct G3 as [-> G3].
  unfold p_decode in G2. apply pbnd_inv in G2 as (r5 & tx & G2 & G4). apply take_inv in G2 as [-> Lx]. apply plift_inv in G4; [|discriminate]. destruct G4 as [-> G4].
  exists (bstr "0A" ++ ti ++ tx). split; [now rewrite <- !app_assoc|]. rewrite !nopad_app. intros (_ & Ni & Nx).
  destruct ti as [|a [|b [|]]]; try discriminate Li. destruct (two_exact _ _ _ Ni G3) as [Bi ->].
  pose proof (decode_length _ _ Nx G4) as Lk. rewrite Lx in Lk. apply decode_exact in G4; [|exact Nx].
  split; [split; [exact Lk|exact Bi]|]. unfold sig_text. cbn [asp_sig asp_index ssp_sig ssp_code]. rewrite G4. now rewrite <- app_assoc.
Qed.
Lemma sig_complete : complete attached_signature sig_spelling.
Proof. intros p t r [H ->]. now apply sig_read. Qed.
