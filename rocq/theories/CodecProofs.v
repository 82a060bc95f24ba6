From Verif Require Import Base Base64 Base64Proofs Codes SpecCodec.

Definition ascii (s : bytes) : Prop := Forall (fun c => (b2n c < 128)%N) s.

Lemma b64_ascii c : is_b64_char c = true -> (b2n c < 128)%N.
Proof. destruct c; vm_compute; congruence. Qed.
Lemma encode_ascii l : ascii (b64_encode l).
Proof. eapply Forall_impl; [|apply encode_chars]. intros c. apply b64_ascii. Qed.

Lemma boundary_ascii s i : ascii s -> i <= List.length s -> is_boundary s i = true.
Proof.
  intros Ha Hi. unfold is_boundary. destruct i as [|i]; [reflexivity|].
  destruct (S i =? List.length s) eqn:E; [reflexivity|]. apply Nat.eqb_neq in E.
  destruct (nth_error s (S i)) as [b|] eqn:En.
  - apply nth_error_In in En. unfold ascii in Ha. rewrite Forall_forall in Ha. apply Ha in En.
    destruct (128 <=? b2n b)%N eqn:El; [|reflexivity]. apply N.leb_le in El. lia.
  - apply nth_error_None in En. lia.
Qed.
Lemma str_slice_ascii a b s :
  ascii s -> a <= b -> b <= List.length s -> str_slice a b s = Ok (firstn (b - a) (skipn a s)).
Proof.
  intros Ha H1 H2. unfold str_slice. rewrite !boundary_ascii by (auto; lia).
  apply Nat.leb_le in H1, H2. now rewrite H1, H2.
Qed.
Lemma str_get1_ascii c s : ascii (c :: s) -> str_get1 (c :: s) = Some [c].
Proof.
  intros H. unfold str_get1. rewrite boundary_ascii; auto. cbn; lia.
Qed.
Lemma prefix_str_ne code d : d <> [] -> prefix_str code d = code ++ b64_encode d.
Proof. destruct d; [congruence|reflexivity]. Qed.

Lemma slice_code code t a n :
  a = List.length code -> n = List.length t ->
  ascii code -> ascii t ->
  str_slice a (a + n) (code ++ t) = Ok t.
Proof.
  intros -> -> Hc Ht. rewrite str_slice_ascii.
  - rewrite skipn_app, skipn_all, Nat.sub_diag, Nat.add_comm, Nat.add_sub, firstn_all2; [reflexivity|].
    cbn. lia.
  - apply Forall_app; auto.
  - lia.
  - rewrite app_length. lia.
Qed.

Lemma enc_len_of {A} (d : list A) n : List.length d = n -> forall d', d' = d -> List.length d' = n.
Proof. intros H d' ->. exact H. Qed.

Lemma nonempty_of_length {A} (d : list A) n : List.length d = S n -> d <> [].
Proof. destruct d; [discriminate|congruence]. Qed.

Ltac code_ascii := repeat (apply Forall_cons; [vm_compute; reflexivity|]); apply Forall_nil.
Lemma basic_code_ascii c : ascii (basic_code c). Proof. destruct c; code_ascii. Qed.
Lemma sa_code_ascii c : ascii (sa_code c). Proof. destruct c; code_ascii. Qed.
Lemma ss_code_ascii c : ascii (ss_code c). Proof. destruct c; code_ascii. Qed.
Lemma basic_code_length c : List.length (basic_code c) = basic_code_len c.
Proof. destruct c; reflexivity. Qed.
Lemma sa_code_length c : List.length (sa_code c) = sa_code_len c.
Proof. destruct c; reflexivity. Qed.
Lemma ss_code_length c : List.length (ss_code c) = ss_code_len c.
Proof. destruct c; reflexivity. Qed.

(** reading the derivation code from a text that begins with it *)
Lemma slice_mid a b s : ascii s -> a <= b -> b <= List.length s ->
  str_slice a b s = Ok (firstn (b - a) (skipn a s)).
Proof. exact (str_slice_ascii a b s). Qed.

Ltac eval_is :=
  repeat match goal with |- context [is ?a ?b] =>
    let v := eval vm_compute in (is a b) in
    match v with true => idtac | false => idtac end;
    change (is a b) with v; cbv iota end.
Ltac read_code Ht :=
  match goal with |- context [str_get1 (?c :: ?s)] =>
    rewrite (str_get1_ascii c s) by (repeat (apply Forall_cons; [vm_compute; reflexivity|]); exact Ht)
  end;
  cbv beta iota; eval_is;
  try (rewrite str_slice_ascii by
         first [ repeat (apply Forall_cons; [vm_compute; reflexivity|]); exact Ht
               | cbn [List.length]; lia ];
       cbn [Nat.sub skipn firstn obind]);
  eval_is; try reflexivity.

Lemma basic_code_from_app c t : ascii t -> basic_code_from (basic_code c ++ t) = Ok c.
Proof.
  intros Ht. destruct c; unfold basic_code, bstr; cbn [list_byte_of_string app];
    unfold basic_code_from;
    match goal with |- context [list_byte_of_string ?x] =>
      let v := eval vm_compute in (list_byte_of_string x) in change (list_byte_of_string x) with v end;
    cbn [app]; read_code Ht.
Qed.
Lemma sa_code_from_app c t : ascii t -> sa_code_from (sa_code c ++ t) = Ok (unkeyed c).
Proof.
  intros Ht. destruct c; unfold sa_code, bstr, sa_code_from;
    match goal with |- context [list_byte_of_string ?x] =>
      let v := eval vm_compute in (list_byte_of_string x) in change (list_byte_of_string x) with v end;
    cbn [app]; read_code Ht.
Qed.
Lemma ss_code_from_app c t : ascii t -> ss_code_from (ss_code c ++ t) = Ok c.
Proof.
  intros Ht. destruct c; unfold ss_code, bstr, ss_code_from;
    match goal with |- context [list_byte_of_string ?x] =>
      let v := eval vm_compute in (list_byte_of_string x) in change (list_byte_of_string x) with v end;
    cbn [app]; read_code Ht.
Qed.

(** ** Exact result of reading a written prefix *)
Definition len_err {A} : out A := Err (ESemantic "Incorrect Prefix Length").

Lemma eqb_add_l a x y : (a + x =? a + y) = (x =? y).
Proof. destruct (x =? y) eqn:E; [apply Nat.eqb_eq in E; subst; apply Nat.eqb_refl |
  apply Nat.eqb_neq in E; apply Nat.eqb_neq; lia]. Qed.

Lemma bp_from_str p : bp_key p <> [] ->
  bp_from (bp_str p) =
  if enc_len (List.length (bp_key p)) =? basic_b64_len (bp_code p) then Ok p else len_err.
Proof.
  destruct p as [c k]; cbn [bp_key bp_code]; intros Hk. unfold bp_str, bp_from. cbn [bp_key bp_code].
  rewrite prefix_str_ne by exact Hk.
  rewrite basic_code_from_app by apply encode_ascii. cbn [obind].
  rewrite app_length, basic_code_length, encode_length, eqb_add_l.
  destruct (enc_len (List.length k) =? basic_b64_len c) eqn:E; [|reflexivity].
  apply Nat.eqb_eq in E.
  rewrite slice_code; [ | now rewrite basic_code_length | rewrite encode_length; now symmetry
    | apply basic_code_ascii | apply encode_ascii ].
  cbn [obind]. unfold decode. rewrite decode_encode. reflexivity.
Qed.
Lemma sap_from_str p : sap_digest p <> [] ->
  sap_from (sap_str p) =
  if enc_len (List.length (sap_digest p)) =? sa_b64_len (sap_code p)
  then Ok (mkSAP (unkeyed (sap_code p)) (sap_digest p)) else len_err.
Proof.
  destruct p as [c k]; cbn [sap_digest sap_code]; intros Hk. unfold sap_str, sap_from. cbn [sap_digest sap_code].
  rewrite prefix_str_ne by exact Hk.
  rewrite sa_code_from_app by apply encode_ascii. cbn [obind].
  replace (sa_code_len (unkeyed c)) with (sa_code_len c) by (destruct c; reflexivity).
  replace (sa_b64_len (unkeyed c)) with (sa_b64_len c) by (destruct c; reflexivity).
  rewrite app_length, sa_code_length, encode_length, eqb_add_l.
  destruct (enc_len (List.length k) =? sa_b64_len c) eqn:E; [|reflexivity].
  apply Nat.eqb_eq in E.
  rewrite slice_code; [ | now rewrite sa_code_length | rewrite encode_length; now symmetry
    | apply sa_code_ascii | apply encode_ascii ].
  cbn [obind]. unfold decode. rewrite decode_encode. reflexivity.
Qed.
Lemma ssp_from_str p : ssp_sig p <> [] ->
  ssp_from (ssp_str p) =
  if enc_len (List.length (ssp_sig p)) =? ss_b64_len (ssp_code p) then Ok p else len_err.
Proof.
  destruct p as [c k]; cbn [ssp_sig ssp_code]; intros Hk. unfold ssp_str, ssp_from. cbn [ssp_sig ssp_code].
  rewrite prefix_str_ne by exact Hk.
  rewrite ss_code_from_app by apply encode_ascii. cbn [obind].
  rewrite app_length, ss_code_length, encode_length, eqb_add_l.
  destruct (enc_len (List.length k) =? ss_b64_len c) eqn:E; [|reflexivity].
  apply Nat.eqb_eq in E.
  rewrite slice_code; [ | now rewrite ss_code_length | rewrite encode_length; now symmetry
    | apply ss_code_ascii | apply encode_ascii ].
  cbn [obind]. unfold decode. rewrite decode_encode. reflexivity.
Qed.

Lemma sized_nonempty {A} (l : list A) n : List.length l = n -> n <> 0 -> l <> [].
Proof. intros H Hn ->. cbn in H. congruence. Qed.

Lemma bp_ne p : bp_sized p -> bp_key p <> [].
Proof. intros H. eapply sized_nonempty; [exact H|]. destruct (bp_code p); discriminate. Qed.
Lemma sap_ne p : sap_sized p -> sap_digest p <> [].
Proof. intros H. eapply sized_nonempty; [exact H|]. destruct (sap_code p); discriminate. Qed.
Lemma ssp_ne p : ssp_sized p -> ssp_sig p <> [].
Proof. intros H. eapply sized_nonempty; [exact H|]. destruct (ssp_code p); discriminate. Qed.

Theorem c41 p : bp_sized p -> is_ecdsa (bp_code p) = false -> bp_from (bp_str p) = Ok p.
Proof.
  intros Hs He. rewrite bp_from_str by now apply bp_ne. rewrite Hs.
  destruct (bp_code p); try discriminate He; reflexivity.
Qed.
Theorem c41_ecdsa p : bp_sized p -> is_ecdsa (bp_code p) = true -> bp_from (bp_str p) = len_err.
Proof.
  intros Hs He. rewrite bp_from_str by now apply bp_ne. rewrite Hs.
  destruct (bp_code p); try discriminate He; reflexivity.
Qed.
Theorem c42 p : sap_sized p ->
  sap_from (sap_str p) = Ok (mkSAP (unkeyed (sap_code p)) (sap_digest p)).
Proof.
  intros Hs. rewrite sap_from_str by now apply sap_ne. rewrite Hs. destruct (sap_code p); reflexivity.
Qed.
Theorem c43 p : ssp_sized p -> ssp_from (ssp_str p) = Ok p.
Proof.
  intros Hs. rewrite ssp_from_str by now apply ssp_ne. rewrite Hs. destruct (ssp_code p); reflexivity.
Qed.

(** ** Identifier prefixes *)
Lemma bp_from_sa c t : ascii t -> exists e, bp_from (sa_code c ++ t) = Err e.
Proof.
  intros Ht. unfold bp_from.
  cut (exists e, basic_code_from (sa_code c ++ t) = Err e).
  { intros [e ->]. cbn. eauto. }
  destruct c; unfold sa_code, bstr, basic_code_from;
    match goal with |- context [list_byte_of_string ?x] =>
      let v := eval vm_compute in (list_byte_of_string x) in change (list_byte_of_string x) with v end;
    cbn [app]; read_code Ht; eauto.
Qed.
Lemma bp_from_ss c t : ascii t -> exists e, bp_from (ss_code c ++ t) = Err e.
Proof.
  intros Ht. unfold bp_from.
  cut (exists e, basic_code_from (ss_code c ++ t) = Err e).
  { intros [e ->]. cbn. eauto. }
  destruct c; unfold ss_code, bstr, basic_code_from;
    match goal with |- context [list_byte_of_string ?x] =>
      let v := eval vm_compute in (list_byte_of_string x) in change (list_byte_of_string x) with v end;
    cbn [app]; read_code Ht; eauto.
Qed.
Lemma sap_from_ss c t : ascii t -> exists e, sap_from (ss_code c ++ t) = Err e.
Proof.
  intros Ht. unfold sap_from.
  cut (exists e, sa_code_from (ss_code c ++ t) = Err e).
  { intros [e ->]. cbn. eauto. }
  destruct c; unfold ss_code, bstr, sa_code_from;
    match goal with |- context [list_byte_of_string ?x] =>
      let v := eval vm_compute in (list_byte_of_string x) in change (list_byte_of_string x) with v end;
    cbn [app]; read_code Ht; eauto.
Qed.

Theorem c44 p : id_sized p -> id_not_ecdsa p -> id_from (id_str p) = Ok (id_unkeyed p).
Proof.
  destruct p as [p|p|p]; cbn [id_sized id_not_ecdsa id_str id_unkeyed]; intros Hs He; unfold id_from.
  - now rewrite c41.
  - unfold sap_str at 1. rewrite prefix_str_ne by now apply sap_ne.
    destruct (bp_from_sa (sap_code p) (b64_encode (sap_digest p)) (encode_ascii _)) as [e ->].
    now rewrite c42.
  - unfold ssp_str at 1 2. rewrite prefix_str_ne by now apply ssp_ne.
    destruct (bp_from_ss (ssp_code p) (b64_encode (ssp_sig p)) (encode_ascii _)) as [e ->].
    destruct (sap_from_ss (ssp_code p) (b64_encode (ssp_sig p)) (encode_ascii _)) as [e' ->].
    now rewrite c43.
Qed.

(** texts determine identifiers up to Blake2 key material, ECDSA keys included *)
Lemma bp_str_inj p q : bp_key p <> [] -> bp_key q <> [] -> bp_str p = bp_str q -> p = q.
Proof.
  destruct p as [c k], q as [c' k']; cbn [bp_key]; intros Hk Hk' H. unfold bp_str in H; cbn [bp_key bp_code] in H.
  rewrite !prefix_str_ne in H by assumption.
  assert (Hc : c = c').
  { pose proof (basic_code_from_app c (b64_encode k) (encode_ascii _)) as A. rewrite H in A.
    rewrite basic_code_from_app in A by apply encode_ascii. congruence. }
  subst c'. apply app_inv_head, encode_inj in H. now subst.
Qed.
Lemma sap_str_inj p q : sap_digest p <> [] -> sap_digest q <> [] -> sap_str p = sap_str q ->
  unkeyed (sap_code p) = unkeyed (sap_code q) /\ sap_digest p = sap_digest q.
Proof.
  destruct p as [c k], q as [c' k']; cbn [sap_digest sap_code]; intros Hk Hk' H. unfold sap_str in H; cbn [sap_digest sap_code] in H.
  rewrite !prefix_str_ne in H by assumption.
  assert (Hc : unkeyed c = unkeyed c').
  { pose proof (sa_code_from_app c (b64_encode k) (encode_ascii _)) as A. rewrite H in A.
    rewrite sa_code_from_app in A by apply encode_ascii. congruence. }
  split; [exact Hc|].
  assert (Hs : sa_code c = sa_code c') by (destruct c, c'; try discriminate Hc; reflexivity).
  rewrite Hs in H. apply app_inv_head, encode_inj in H. now subst.
Qed.
Lemma ssp_str_inj p q : ssp_sig p <> [] -> ssp_sig q <> [] -> ssp_str p = ssp_str q -> p = q.
Proof.
  destruct p as [c k], q as [c' k']; cbn [ssp_sig]; intros Hk Hk' H. unfold ssp_str in H; cbn [ssp_sig ssp_code] in H.
  rewrite !prefix_str_ne in H by assumption.
  assert (Hc : c = c').
  { pose proof (ss_code_from_app c (b64_encode k) (encode_ascii _)) as A. rewrite H in A.
    rewrite ss_code_from_app in A by apply encode_ascii. congruence. }
  subst c'. apply app_inv_head, encode_inj in H. now subst.
Qed.


Lemma bp_from_bp c t : ascii t -> basic_code_from (basic_code c ++ t) = Ok c.
Proof. exact (basic_code_from_app c t). Qed.

Lemma id_sized_material p : id_sized p -> id_material p <> [].
Proof. destruct p; cbn; [apply bp_ne|apply sap_ne|apply ssp_ne]. Qed.

Lemma basic_of_sa c t : ascii t -> exists e, basic_code_from (sa_code c ++ t) = Err e.
Proof.
  intros Ht. destruct c; unfold sa_code, bstr, basic_code_from;
    match goal with |- context [list_byte_of_string ?x] =>
      let v := eval vm_compute in (list_byte_of_string x) in change (list_byte_of_string x) with v end;
    cbn [app]; read_code Ht; eauto.
Qed.
Lemma basic_of_ss c t : ascii t -> exists e, basic_code_from (ss_code c ++ t) = Err e.
Proof.
  intros Ht. destruct c; unfold ss_code, bstr, basic_code_from;
    match goal with |- context [list_byte_of_string ?x] =>
      let v := eval vm_compute in (list_byte_of_string x) in change (list_byte_of_string x) with v end;
    cbn [app]; read_code Ht; eauto.
Qed.
Lemma sa_of_ss c t : ascii t -> exists e, sa_code_from (ss_code c ++ t) = Err e.
Proof.
  intros Ht. destruct c; unfold ss_code, bstr, sa_code_from;
    match goal with |- context [list_byte_of_string ?x] =>
      let v := eval vm_compute in (list_byte_of_string x) in change (list_byte_of_string x) with v end;
    cbn [app]; read_code Ht; eauto.
Qed.

Theorem id_str_inj p q :
  id_material p <> [] -> id_material q <> [] -> id_str p = id_str q -> id_unkeyed p = id_unkeyed q.
Proof.
  assert (BS : forall p q, bp_key p <> [] -> sap_digest q <> [] -> bp_str p <> sap_str q).
  { intros [c k] [c' k']; cbn. intros H1 H2 E. unfold bp_str, sap_str in E. cbn [bp_key bp_code sap_code sap_digest] in E.
    rewrite !prefix_str_ne in E by assumption.
    pose proof (basic_code_from_app c _ (encode_ascii k)) as A. rewrite E in A.
    destruct (basic_of_sa c' _ (encode_ascii k')) as [e B]. rewrite B in A. discriminate. }
  assert (BSS : forall p q, bp_key p <> [] -> ssp_sig q <> [] -> bp_str p <> ssp_str q).
  { intros [c k] [c' k']; cbn. intros H1 H2 E. unfold bp_str, ssp_str in E. cbn [bp_key bp_code ssp_code ssp_sig] in E.
    rewrite !prefix_str_ne in E by assumption.
    pose proof (basic_code_from_app c _ (encode_ascii k)) as A. rewrite E in A.
    destruct (basic_of_ss c' _ (encode_ascii k')) as [e B]. rewrite B in A. discriminate. }
  assert (ASS : forall p q, sap_digest p <> [] -> ssp_sig q <> [] -> sap_str p <> ssp_str q).
  { intros [c k] [c' k']; cbn. intros H1 H2 E. unfold sap_str, ssp_str in E. cbn [sap_digest sap_code ssp_code ssp_sig] in E.
    rewrite !prefix_str_ne in E by assumption.
    pose proof (sa_code_from_app c _ (encode_ascii k)) as A. rewrite E in A.
    destruct (sa_of_ss c' _ (encode_ascii k')) as [e B]. rewrite B in A. discriminate. }
  destruct p as [p|p|p], q as [q|q|q]; cbn [id_material id_str id_unkeyed]; intros Hp Hq H.
  - f_equal. now apply bp_str_inj.
  - exfalso. eapply BS; eauto.
  - exfalso. eapply BSS; eauto.
  - exfalso. eapply BS; eauto.
  - apply sap_str_inj in H; auto. destruct H as [-> ->]. reflexivity.
  - exfalso. eapply ASS; eauto.
  - exfalso. eapply BSS; eauto.
  - exfalso. eapply ASS; eauto.
  - f_equal. now apply ssp_str_inj.
Qed.

(** ** Indexed signatures *)
From Coq Require Import ZifyBool ZifyN ZifyNat.
Ltac Zify.zify_post_hook ::= Z.div_mod_to_equations.

Lemma enc6_ascii n : (n < 64)%N -> (b2n (enc6 n) < 128)%N.
Proof. intros H. apply b64_ascii, is_b64_enc6, H. Qed.
Lemma num_to_b64_small n : (n < 63)%N -> num_to_b64 n = [enc6 n].
Proof.
  intros H. unfold num_to_b64. replace (n <? 63)%N with true by lia.
  cbn [b64_encode firstn]. rewrite b2n_n2b by lia. do 2 f_equal. lia.
Qed.
Lemma b64_to_num_one n : (n < 64)%N -> b64_to_num [enc6 n] = Ok n.
Proof.
  intros H. unfold b64_to_num, decode. cbn [List.length].
  change (bstr "AAA" ++ [enc6 n]) with [enc6 0; enc6 0; enc6 0; enc6 n].
  cbn [b64_decode]. rewrite !is_pad_enc6 by lia. unfold dec_group4. rewrite !dec6_enc6 by lia.
  cbn [ok_or obind rev app].
  change (n2b (0 * 4 + 0 / 16)) with x00. change (n2b ((0 mod 16) * 16 + 0 / 4)) with x00.
  f_equal. rewrite b2n_n2b by lia. change (b2n x00) with 0%N. lia.
Qed.
Lemma num_to_b64_big n : (63 <= n)%N -> (n <= 65535)%N ->
  exists m t, (m < 64)%N /\ num_to_b64 n = enc6 m :: t /\ t <> [] /\ ascii t.
Proof.
  intros H1 H2. unfold num_to_b64. replace (n <? 63)%N with false by lia.
  pose proof (encode_ascii (u16_be n)) as A. unfold u16_be in *. cbn [b64_encode] in *.
  assert (Hm : (b2n (n2b (n / 256)) / 4 < 64)%N).
  { pose proof (b2n_lt (n2b (n / 256))). lia. }
  apply Forall_inv_tail in A.
  destruct (n <? 4095)%N; cbn [firstn]; eexists _, _; (split; [exact Hm|]); (split; [reflexivity|]).
  - split; [discriminate|]. apply Forall_inv in A. apply Forall_cons; [exact A|apply Forall_nil].
  - split; [discriminate|]. exact A.
Qed.

Definition as_pre (c : SelfSigning) : bytes :=
  bstr match c with Ed25519Sha512 => "A" | ECDSAsecp256k1Sha256 => "B" | Ed448Sig => "0AA" end.
Lemma as_pre_ascii c : ascii (as_pre c).
Proof. destruct c; code_ascii. Qed.
Lemma slice_byte a s c : nth_error s a = Some c -> slice a (S a) s = Ok [c].
Proof.
  intros H. unfold slice.
  assert (a < List.length s) by (apply nth_error_Some; congruence).
  replace ((a <=? S a) && (S a <=? List.length s)) with true by lia.
  apply nth_error_split in H. destruct H as (l1 & l2 & -> & <-).
  rewrite skipn_app, skipn_all, Nat.sub_diag. cbn [app skipn].
  replace (S (List.length l1) - List.length l1) with 1 by lia. reflexivity.
Qed.
Lemma as_code_from_app c m t : (m < 64)%N -> ascii t ->
  as_code_from (as_pre c ++ enc6 m :: t) = Ok (c, m).
Proof.
  intros Hm Ht.
  pose proof (enc6_ascii m Hm) as He.
  assert (Ht' : ascii (enc6 m :: t)) by (apply Forall_cons; auto).
  destruct c; unfold as_pre, bstr, as_code_from;
    match goal with |- context [list_byte_of_string ?x] =>
      let v := eval vm_compute in (list_byte_of_string x) in change (list_byte_of_string x) with v end;
    cbn [app];
    (rewrite str_slice_ascii by
      first [ repeat (apply Forall_cons; [vm_compute; reflexivity|]); exact Ht' | cbn [List.length]; lia ]);
    cbn [Nat.sub skipn firstn obind]; eval_is;
    try (rewrite str_slice_ascii by
      first [ repeat (apply Forall_cons; [vm_compute; reflexivity|]); exact Ht' | cbn [List.length]; lia ];
    cbn [Nat.sub skipn firstn obind]; eval_is);
    rewrite (slice_byte _ _ (enc6 m)) by reflexivity; cbn [obind];
    rewrite b64_to_num_one by exact Hm; reflexivity.
Qed.
Lemma as_pre_length c : S (List.length (as_pre c)) = as_code_len c.
Proof. destruct c; reflexivity. Qed.


Theorem c45 p : asp_sized p -> (asp_index p < 63)%N -> asp_from (asp_str p) = Ok p.
Proof.
  destruct p as [i [c k]]; unfold asp_sized, ssp_sized; cbn [asp_sig asp_index ssp_sig ssp_code].
  intros Hs Hi. unfold asp_str, asp_from. cbn [asp_sig asp_index ssp_sig ssp_code].
  rewrite prefix_str_ne by (apply (sized_nonempty _ _ Hs); destruct c; discriminate).
  unfold as_code. fold (as_pre c). rewrite num_to_b64_small by exact Hi.
  rewrite <- app_assoc. cbn [app].
  rewrite as_code_from_app by (lia || apply encode_ascii). cbn [obind].
  rewrite app_length. cbn [List.length]. rewrite encode_length, Hs.
  rewrite <- as_pre_length.
  replace (List.length (as_pre c) + S (enc_len (sig_bytes c)) =? S (List.length (as_pre c)) + as_b64_len c)
    with true by (destruct c; reflexivity).
  replace (as_pre c ++ enc6 i :: b64_encode k) with ((as_pre c ++ [enc6 i]) ++ b64_encode k)
    by now rewrite <- app_assoc.
  rewrite slice_code.
  - cbn [obind]. unfold decode. rewrite decode_encode. reflexivity.
  - rewrite app_length. cbn. lia.
  - rewrite encode_length, Hs. destruct c; reflexivity.
  - apply Forall_app. split; [apply as_pre_ascii|]. apply Forall_cons; [apply enc6_ascii; lia|apply Forall_nil].
  - apply encode_ascii.
Qed.
Theorem c45_big p : asp_sized p -> (63 <= asp_index p <= 65535)%N -> asp_from (asp_str p) = len_err.
Proof.
  destruct p as [i [c k]]; unfold asp_sized, ssp_sized; cbn [asp_sig asp_index ssp_sig ssp_code].
  intros Hs Hi. unfold asp_str, asp_from. cbn [asp_sig asp_index ssp_sig ssp_code].
  rewrite prefix_str_ne by (apply (sized_nonempty _ _ Hs); destruct c; discriminate).
  unfold as_code. fold (as_pre c).
  destruct (num_to_b64_big i) as (m & t & Hm & -> & Ht & Ha); try lia.
  rewrite <- app_assoc. cbn [app].
  rewrite as_code_from_app by (first [exact Hm | apply Forall_app; split; [exact Ha|apply encode_ascii]]).
  cbn [obind].
  rewrite app_length. cbn [List.length]. rewrite app_length, encode_length, Hs.
  rewrite <- as_pre_length.
  destruct t as [|x t]; [congruence|]. cbn [List.length].
  match goal with |- (if ?b then _ else _) = _ => replace b with false; [reflexivity|] end.
  symmetry. apply Nat.eqb_neq. destruct c; cbn [as_b64_len sig_bytes]; change (enc_len 64) with 86; change (enc_len 114) with 152; lia.
Qed.
