(** Proofs about the base64 codec. *)
From Verif Require Import Base Base64.
From Coq Require Import ZifyBool ZifyN ZifyNat.
Ltac Zify.zify_post_hook ::= Z.div_mod_to_equations.
Local Open Scope N_scope.

Definition range64 : list N := map N.of_nat (seq 0 64).
Lemma range64_in n : n < 64 -> In n range64.
Proof.
  intros H. unfold range64. rewrite <- (N2Nat.id n). apply in_map, in_seq. lia.
Qed.

Lemma dec6_enc6 n : n < 64 -> dec6 (enc6 n) = Some n.
Proof.
  intros H.
  assert (F : forallb (fun n => match dec6 (enc6 n) with Some m => m =? n | None => false end) range64 = true)
    by (vm_compute; reflexivity).
  rewrite forallb_forall in F. specialize (F n (range64_in n H)).
  destruct (dec6 (enc6 n)); [|discriminate]. apply N.eqb_eq in F. congruence.
Qed.

Lemma dec6_spec c n : dec6 c = Some n -> n < 64 /\ enc6 n = c.
Proof.
  destruct c; vm_compute; intros H; try discriminate H; inversion H; subst; split; reflexivity.
Qed.

Lemma is_pad_spec c : is_pad c = true -> c = x3d.
Proof. unfold is_pad. intros H. now apply Byte.byte_dec_bl in H. Qed.

Lemma is_pad_enc6 n : n < 64 -> is_pad (enc6 n) = false.
Proof.
  intros H. destruct (is_pad (enc6 n)) eqn:E; [|reflexivity].
  apply is_pad_spec in E. pose proof (dec6_enc6 n H) as D. rewrite E in D. discriminate D.
Qed.

(** induction in steps of three / four *)
Lemma list_ind3 {A} (P : list A -> Prop) :
  P [] -> (forall a, P [a]) -> (forall a b, P [a; b]) ->
  (forall a b c r, P r -> P (a :: b :: c :: r)) -> forall l, P l.
Proof.
  intros H0 H1 H2 H3.
  fix IH 1. intros [|a [|b [|c r]]]; [exact H0|exact (H1 a)|exact (H2 a b)|exact (H3 a b c r (IH r))].
Qed.
Lemma list_ind4 {A} (P : list A -> Prop) :
  P [] -> (forall a, P [a]) -> (forall a b, P [a; b]) -> (forall a b c, P [a; b; c]) ->
  (forall a b c d r, P r -> P (a :: b :: c :: d :: r)) -> forall l, P l.
Proof.
  intros H0 H1 H2 H3 H4.
  fix IH 1. intros [|a [|b [|c [|d r]]]];
    [exact H0|exact (H1 a)|exact (H2 a b)|exact (H3 a b c)|exact (H4 a b c d r (IH r))].
Qed.

Ltac bl := repeat match goal with b : byte |- _ =>
  lazymatch goal with H : b2n b < 256 |- _ => fail | _ => pose proof (b2n_lt b) end end.

Lemma dec_group2_enc a :
  dec_group2 (enc6 (b2n a / 4)) (enc6 ((b2n a mod 4) * 16)) = Some [a].
Proof.
  bl. unfold dec_group2. rewrite !dec6_enc6 by lia.
  replace ((b2n a mod 4 * 16) mod 16 =? 0) with true by lia.
  f_equal. f_equal. rewrite <- (n2b_b2n a) at 3. f_equal. lia.
Qed.
Lemma dec_group3_enc a b :
  dec_group3 (enc6 (b2n a / 4)) (enc6 ((b2n a mod 4) * 16 + b2n b / 16)) (enc6 ((b2n b mod 16) * 4))
  = Some [a; b].
Proof.
  bl. unfold dec_group3. rewrite !dec6_enc6 by lia.
  replace ((b2n b mod 16 * 4) mod 4 =? 0) with true by lia.
  do 2 f_equal; [rewrite <- (n2b_b2n a) | f_equal; rewrite <- (n2b_b2n b)]; f_equal;
    rewrite ?n2b_b2n; lia.
Qed.
Lemma dec_group4_enc a b c :
  dec_group4 (enc6 (b2n a / 4)) (enc6 ((b2n a mod 4) * 16 + b2n b / 16))
             (enc6 ((b2n b mod 16) * 4 + b2n c / 64)) (enc6 (b2n c mod 64)) = Some [a; b; c].
Proof.
  bl. unfold dec_group4. rewrite !dec6_enc6 by lia.
  assert (n2b (b2n a / 4 * 4 + (b2n a mod 4 * 16 + b2n b / 16) / 16) = a) as ->
    by (rewrite <- (n2b_b2n a); f_equal; rewrite ?n2b_b2n; lia).
  assert (n2b ((b2n a mod 4 * 16 + b2n b / 16) mod 16 * 16 + (b2n b mod 16 * 4 + b2n c / 64) / 4) = b) as ->
    by (rewrite <- (n2b_b2n b); f_equal; rewrite ?n2b_b2n; lia).
  assert (n2b ((b2n b mod 16 * 4 + b2n c / 64) mod 4 * 64 + b2n c mod 64) = c) as ->
    by (rewrite <- (n2b_b2n c); f_equal; rewrite ?n2b_b2n; lia).
  reflexivity.
Qed.

Lemma b64_encode_nil_iff l : b64_encode l = [] <-> l = [].
Proof. destruct l as [|a [|b [|c r]]]; cbn; split; congruence. Qed.

(** unfolding the decoder on a full group followed by something *)
Lemma b64_decode_group c1 c2 c3 c4 r :
  r <> [] ->
  b64_decode (c1 :: c2 :: c3 :: c4 :: r) =
  match dec_group4 c1 c2 c3 c4, b64_decode r with
  | Some x, Some y => Some (x ++ y) | _, _ => None end.
Proof. destruct r; [congruence|reflexivity]. Qed.

Lemma decode_encode l : b64_decode (b64_encode l) = Some l.
Proof.
  induction l as [| a | a b | a b c r IH] using list_ind3.
  - reflexivity.
  - cbn [b64_encode b64_decode]. apply dec_group2_enc.
  - cbn [b64_encode b64_decode]. bl. rewrite is_pad_enc6 by lia. apply dec_group3_enc.
  - cbn [b64_encode]. destruct r as [|r0 r'].
    + cbn [b64_encode b64_decode]. bl. rewrite is_pad_enc6 by lia. apply dec_group4_enc.
    + rewrite b64_decode_group by (rewrite b64_encode_nil_iff; discriminate).
      rewrite IH, dec_group4_enc. reflexivity.
Qed.

Lemma encode_inj l1 l2 : b64_encode l1 = b64_encode l2 -> l1 = l2.
Proof.
  intros H. assert (Some l1 = Some l2) by (rewrite <- !decode_encode; congruence). congruence.
Qed.

Definition enc_len (n : nat) : nat := ((4 * n + 2) / 3)%nat.

Lemma encode_length l : List.length (b64_encode l) = enc_len (List.length l).
Proof.
  unfold enc_len.
  induction l as [| a | a b | a b c r IH] using list_ind3; try reflexivity.
  cbn [b64_encode List.length]. rewrite IH. lia.
Qed.

Lemma is_b64_enc6 n : n < 64 -> is_b64_char (enc6 n) = true.
Proof. intros H. unfold is_b64_char. now rewrite dec6_enc6. Qed.

Lemma encode_chars l : Forall (fun c => is_b64_char c = true) (b64_encode l).
Proof.
  induction l as [| a | a b | a b c r IH] using list_ind3; bl; cbn [b64_encode];
    repeat (apply Forall_cons; [apply is_b64_enc6; lia|]); auto.
Qed.

(** canonicity: an accepted string without padding is the encoding of its decoding *)
Lemma dec_group2_inv c1 c2 x : dec_group2 c1 c2 = Some x -> b64_encode x = [c1; c2].
Proof.
  unfold dec_group2. destruct (dec6 c1) as [v1|] eqn:E1; [|discriminate].
  destruct (dec6 c2) as [v2|] eqn:E2; [|discriminate].
  destruct (v2 mod 16 =? 0) eqn:E; [|discriminate]. intros H; inversion H; subst x; clear H.
  apply dec6_spec in E1 as [L1 <-]. apply dec6_spec in E2 as [L2 <-].
  cbn [b64_encode]. rewrite b2n_n2b by lia. f_equal; [|f_equal]; f_equal; lia.
Qed.
Lemma dec_group3_inv c1 c2 c3 x : dec_group3 c1 c2 c3 = Some x -> b64_encode x = [c1; c2; c3].
Proof.
  unfold dec_group3. destruct (dec6 c1) as [v1|] eqn:E1; [|discriminate].
  destruct (dec6 c2) as [v2|] eqn:E2; [|discriminate].
  destruct (dec6 c3) as [v3|] eqn:E3; [|discriminate].
  destruct (v3 mod 4 =? 0) eqn:E; [|discriminate]. intros H; inversion H; subst x; clear H.
  apply dec6_spec in E1 as [L1 <-]. apply dec6_spec in E2 as [L2 <-]. apply dec6_spec in E3 as [L3 <-].
  cbn [b64_encode]. rewrite !b2n_n2b by lia. repeat (apply f_equal2; [f_equal; lia|]). reflexivity.
Qed.
Lemma dec_group4_inv c1 c2 c3 c4 x :
  dec_group4 c1 c2 c3 c4 = Some x ->
  exists a b c, x = [a; b; c] /\ b64_encode x = [c1; c2; c3; c4].
Proof.
  unfold dec_group4. destruct (dec6 c1) as [v1|] eqn:E1; [|discriminate].
  destruct (dec6 c2) as [v2|] eqn:E2; [|discriminate].
  destruct (dec6 c3) as [v3|] eqn:E3; [|discriminate].
  destruct (dec6 c4) as [v4|] eqn:E4; [|discriminate].
  intros H; inversion H; subst x; clear H.
  apply dec6_spec in E1 as [L1 <-]. apply dec6_spec in E2 as [L2 <-].
  apply dec6_spec in E3 as [L3 <-]. apply dec6_spec in E4 as [L4 <-].
  do 3 eexists. split; [reflexivity|].
  cbn [b64_encode]. rewrite !b2n_n2b by lia. repeat (apply f_equal2; [f_equal; lia|]). reflexivity.
Qed.

Lemma encode_app3 a b c y : b64_encode ([a; b; c] ++ y) = b64_encode [a; b; c] ++ b64_encode y.
Proof. reflexivity. Qed.

Lemma decode_canonical s x :
  ~ In x3d s -> b64_decode s = Some x -> b64_encode x = s.
Proof.
  revert x.
  induction s as [| a | a b | a b c | a b c d r IH] using list_ind4; intros x Hp H.
  - cbn in H. now inversion H.
  - discriminate H.
  - now apply dec_group2_inv.
  - cbn in H. destruct (is_pad c) eqn:E.
    + apply is_pad_spec in E; subst. exfalso. apply Hp. cbn. tauto.
    + now apply dec_group3_inv.
  - destruct r as [|r0 r'].
    + cbn in H. destruct (is_pad d) eqn:E.
      * apply is_pad_spec in E; subst. exfalso. apply Hp. cbn. tauto.
      * apply dec_group4_inv in H as (? & ? & ? & -> & H). exact H.
    + rewrite b64_decode_group in H by discriminate.
      destruct (dec_group4 a b c d) as [g|] eqn:G; [|discriminate].
      destruct (b64_decode (r0 :: r')) as [y|] eqn:D; [|discriminate].
      inversion H; subst x; clear H.
      apply dec_group4_inv in G as (g1 & g2 & g3 & -> & G).
      rewrite encode_app3, G. cbn [app]. do 4 (apply f_equal2; [reflexivity|]).
      apply IH; [|reflexivity]. intros Hin. apply Hp. cbn. tauto.
Qed.
