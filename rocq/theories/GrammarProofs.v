(** * GrammarProofs: the reader reads exactly the JSON texts. *)
From Verif Require Import Base Base64 Codes NumFmt Types KeyConf Version Cesr Message Json JsonRead JsonProofs SpecGrammar.

(** ** UTF-8 *)
Ltac bools :=
  repeat match goal with
  | H : (_ && _)%bool = true |- _ => apply andb_true_iff in H; destruct H
  | H : negb _ = true |- _ => apply negb_true_iff in H
  | H : (_ && _)%bool = false |- _ => apply andb_false_iff in H
  | H : (_ <=? _)%N = true |- _ => apply N.leb_le in H
  | H : (_ <? _)%N = true |- _ => apply N.ltb_lt in H
  | H : (_ =? _)%N = true |- _ => apply N.eqb_eq in H
  | H : (_ <=? _)%N = false |- _ => apply N.leb_gt in H
  | H : (_ <? _)%N = false |- _ => apply N.ltb_ge in H
  | H : (_ =? _)%N = false |- _ => apply N.eqb_neq in H
  end.
Ltac yes := repeat (apply andb_true_iff; split); try (apply N.leb_le; lia); try (apply N.ltb_lt; lia).
Lemma encodes_valid n x s : encodes n x -> valid_utf8 (x ++ s) = valid_utf8 s.
Proof.
  unfold encodes, tail_byte, surrogate.
  destruct x as [|a [|b [|c [|d [|e x]]]]]; cbn [map]; try contradiction.
  - intros [H _]. cbn [app valid_utf8]. apply N.ltb_lt in H. now rewrite H.
  - intros (H1 & H2 & -> & H3). cbn [app valid_utf8]. replace (b2n a <? 128)%N with false by (symmetry; apply N.ltb_ge; lia).
    replace ((194 <=? b2n a) && (b2n a <? 224))%N with true by (symmetry; yes). unfold cont.
    replace ((128 <=? b2n b) && (b2n b <? 192))%N with true by (symmetry; yes). reflexivity.
  - intros (H1 & H2 & H3 & -> & H4 & H5). cbn [app valid_utf8]. replace (b2n a <? 128)%N with false by (symmetry; apply N.ltb_ge; lia).
    replace ((194 <=? b2n a) && (b2n a <? 224))%N with false by (symmetry; apply andb_false_iff; right; apply N.ltb_ge; lia).
    replace ((224 <=? b2n a) && (b2n a <? 240))%N with true by (symmetry; yes). unfold cont.
    replace ((128 <=? b2n b) && (b2n b <? 192))%N with true by (symmetry; yes).
    replace ((128 <=? b2n c) && (b2n c <? 192))%N with true by (symmetry; yes). cbn [andb].
    replace ((b2n a =? 224) && (b2n b <? 160))%N with false; [replace ((b2n a =? 237) && (160 <=? b2n b))%N with false; [reflexivity|]|].
    + symmetry. apply not_true_iff_false. intros H. bools. lia.
    + symmetry. apply not_true_iff_false. intros H. bools. lia.
  - intros (H1 & H2 & H3 & H4 & -> & H5 & H6). cbn [app valid_utf8]. replace (b2n a <? 128)%N with false by (symmetry; apply N.ltb_ge; lia).
    replace ((194 <=? b2n a) && (b2n a <? 224))%N with false by (symmetry; apply andb_false_iff; right; apply N.ltb_ge; lia).
    replace ((224 <=? b2n a) && (b2n a <? 240))%N with false by (symmetry; apply andb_false_iff; right; apply N.ltb_ge; lia).
    replace ((240 <=? b2n a) && (b2n a <? 245))%N with true by (symmetry; yes). unfold cont.
    replace ((128 <=? b2n b) && (b2n b <? 192))%N with true by (symmetry; yes).
    replace ((128 <=? b2n c) && (b2n c <? 192))%N with true by (symmetry; yes).
    replace ((128 <=? b2n d) && (b2n d <? 192))%N with true by (symmetry; yes). cbn [andb].
    replace ((b2n a =? 240) && (b2n b <? 144))%N with false; [replace ((b2n a =? 244) && (144 <=? b2n b))%N with false; [reflexivity|]|].
    + symmetry. apply not_true_iff_false. intros H. bools. lia.
    + symmetry. apply not_true_iff_false. intros H. bools. lia.
Qed.
Lemma valid_iff s : valid_utf8 s = true <-> utf8_text s.
Proof.
  split.
  - remember (List.length s) as k eqn:Hk. assert (Hle : List.length s <= k) by lia. clear Hk.
    revert s Hle. induction k as [|k IH]; intros s Hl Hv.
    { destruct s; [constructor|cbn in Hl; lia]. }
    destruct s as [|a r]; [constructor|]. cbn [valid_utf8 List.length] in *.
    destruct (b2n a <? 128)%N eqn:E1.
    { apply (utf8_char (b2n a) [a]); [cbn; bools; split; [lia|reflexivity]|]. apply IH; [lia|exact Hv]. }
    destruct r as [|b r1]; [discriminate Hv|]. cbn [List.length] in *.
    destruct ((194 <=? b2n a) && (b2n a <? 224))%N eqn:E2.
    { unfold cont in Hv. bools. apply (utf8_char ((b2n a - 192) * 64 + (b2n b - 128))%N [a; b]).
      - cbn. unfold tail_byte. repeat split; lia.
      - apply IH; [lia|assumption]. }
    destruct r1 as [|c r2]; [discriminate Hv|]. cbn [List.length] in *.
    destruct ((224 <=? b2n a) && (b2n a <? 240))%N eqn:E3.
    { unfold cont in Hv. bools. apply (utf8_char ((b2n a - 224) * 4096 + (b2n b - 128) * 64 + (b2n c - 128))%N [a; b; c]).
      - cbn. unfold tail_byte, surrogate.
        repeat match goal with H : _ \/ _ |- _ => destruct H; bools end; repeat split; try lia.
      - apply IH; [lia|assumption]. }
    destruct r2 as [|d r3]; [discriminate Hv|]. cbn [List.length] in *. unfold cont in Hv. bools.
    apply (utf8_char ((b2n a - 240) * 262144 + (b2n b - 128) * 4096 + (b2n c - 128) * 64 + (b2n d - 128))%N [a; b; c; d]).
    + cbn. unfold tail_byte. repeat match goal with H : _ \/ _ |- _ => destruct H; bools end; repeat split; try lia.
    + apply IH; [lia|assumption].
  - induction 1 as [|n x s Hx _ IH]; [reflexivity|]. now rewrite (encodes_valid n x s Hx).
Qed.
Lemma encodes_utf8 n x : encodes n x -> x = utf8_of n.
Proof.
  unfold encodes, tail_byte, surrogate.
  destruct x as [|a [|b [|c [|d [|e x]]]]]; cbn [map]; try contradiction; unfold utf8_of.
  - intros [H ->]. apply N.ltb_lt in H. rewrite H. now rewrite n2b_b2n.
  - intros (H1 & H2 & Hn & H3). pose proof (b2n_lt b) as Lb.
    replace (n <? 128)%N with false by (symmetry; apply N.ltb_ge; lia). replace (n <? 2048)%N with true by (symmetry; apply N.ltb_lt; lia).
    replace (n / 64)%N with (b2n a - 192)%N by (apply (N.div_unique n 64 _ (b2n b - 128)); lia).
    replace (n mod 64)%N with (b2n b - 128)%N by (apply (N.mod_unique n 64 (b2n a - 192)); lia).
    replace (192 + (b2n a - 192))%N with (b2n a) by lia. replace (128 + (b2n b - 128))%N with (b2n b) by lia. now rewrite !n2b_b2n.
  - intros (H1 & H2 & H3 & Hn & H4 & H5).
    replace (n <? 128)%N with false by (symmetry; apply N.ltb_ge; lia). replace (n <? 2048)%N with false by (symmetry; apply N.ltb_ge; lia).
    replace (n <? 65536)%N with true by (symmetry; apply N.ltb_lt; lia).
    replace (n / 4096)%N with (b2n a - 224)%N by (apply (N.div_unique n 4096 _ ((b2n b - 128) * 64 + (b2n c - 128))); lia).
    replace (n / 64)%N with ((b2n a - 224) * 64 + (b2n b - 128))%N by (apply (N.div_unique n 64 _ (b2n c - 128)); lia).
    replace (((b2n a - 224) * 64 + (b2n b - 128)) mod 64)%N with (b2n b - 128)%N by (apply (N.mod_unique _ 64 (b2n a - 224)); lia).
    replace (n mod 64)%N with (b2n c - 128)%N by (apply (N.mod_unique n 64 ((b2n a - 224) * 64 + (b2n b - 128))); lia).
    replace (224 + (b2n a - 224))%N with (b2n a) by lia. replace (128 + (b2n b - 128))%N with (b2n b) by lia.
    replace (128 + (b2n c - 128))%N with (b2n c) by lia. now rewrite !n2b_b2n.
  - intros (H1 & H2 & H3 & H4 & Hn & H5 & H6).
    replace (n <? 128)%N with false by (symmetry; apply N.ltb_ge; lia). replace (n <? 2048)%N with false by (symmetry; apply N.ltb_ge; lia).
    replace (n <? 65536)%N with false by (symmetry; apply N.ltb_ge; lia).
    replace (n / 262144)%N with (b2n a - 240)%N by (apply (N.div_unique n 262144 _ ((b2n b - 128) * 4096 + (b2n c - 128) * 64 + (b2n d - 128))); lia).
    replace (n / 4096)%N with ((b2n a - 240) * 64 + (b2n b - 128))%N by (apply (N.div_unique n 4096 _ ((b2n c - 128) * 64 + (b2n d - 128))); lia).
    replace (n / 64)%N with ((b2n a - 240) * 4096 + (b2n b - 128) * 64 + (b2n c - 128))%N by (apply (N.div_unique n 64 _ (b2n d - 128)); lia).
    replace (((b2n a - 240) * 64 + (b2n b - 128)) mod 64)%N with (b2n b - 128)%N by (apply (N.mod_unique _ 64 (b2n a - 240)); lia).
    replace (((b2n a - 240) * 4096 + (b2n b - 128) * 64 + (b2n c - 128)) mod 64)%N with (b2n c - 128)%N by (apply (N.mod_unique _ 64 ((b2n a - 240) * 64 + (b2n b - 128))); lia).
    replace (n mod 64)%N with (b2n d - 128)%N by (apply (N.mod_unique n 64 ((b2n a - 240) * 4096 + (b2n b - 128) * 64 + (b2n c - 128))); lia).
    replace (240 + (b2n a - 240))%N with (b2n a) by lia. replace (128 + (b2n b - 128))%N with (b2n b) by lia.
    replace (128 + (b2n c - 128))%N with (b2n c) by lia. replace (128 + (b2n d - 128))%N with (b2n d) by lia. now rewrite !n2b_b2n.
Qed.
Lemma utf8_encodes n : (n < 1114112)%N -> ~ surrogate n -> encodes n (utf8_of n).
Proof.
  unfold surrogate, utf8_of. intros Hn Hs.
  assert (Hm : forall k, (k mod 64 < 64)%N) by (intros; apply N.mod_lt; discriminate).
  destruct (n <? 128)%N eqn:E1; bools; [|destruct (n <? 2048)%N eqn:E2; bools; [|destruct (n <? 65536)%N eqn:E3; bools]]; unfold encodes, tail_byte, surrogate; cbn [map].
  - rewrite b2n_n2b by lia. split; [lia|reflexivity].
  - pose proof (N.div_mod n 64 ltac:(discriminate)) as D. pose proof (Hm n).
    assert (n / 64 < 32)%N by (apply N.div_lt_upper_bound; lia).
    rewrite !b2n_n2b by lia. repeat split; try lia.
  - pose proof (N.div_mod n 64 ltac:(discriminate)) as D. pose proof (Hm n). pose proof (Hm (n / 64)%N).
    pose proof (N.div_mod (n / 64) 64 ltac:(discriminate)) as D2. rewrite N.div_div in D2 by discriminate. change (64 * 64)%N with 4096%N in D2.
    assert (n / 4096 < 16)%N by (apply N.div_lt_upper_bound; lia).
    rewrite !b2n_n2b by lia. repeat split; try lia.
  - pose proof (N.div_mod n 64 ltac:(discriminate)) as D. pose proof (Hm n). pose proof (Hm (n / 64)%N). pose proof (Hm (n / 4096)%N).
    pose proof (N.div_mod (n / 64) 64 ltac:(discriminate)) as D2. rewrite N.div_div in D2 by discriminate. change (64 * 64)%N with 4096%N in D2.
    pose proof (N.div_mod (n / 4096) 64 ltac:(discriminate)) as D3. rewrite N.div_div in D3 by discriminate. change (4096 * 64)%N with 262144%N in D3.
    assert (n / 262144 < 8)%N by (apply N.div_lt_upper_bound; lia).
    rewrite !b2n_n2b by lia. repeat split; try lia.
Qed.

(** ** Strings *)
Lemma hex_digit_iff c d : hex_digit c d <-> char_digit 16 c = Some (N.of_nat d).
Proof.
  split.
  - assert (H : forall l, List.length l = 16 -> forall d, nth_error l d = Some c -> In d (seq 0 16)).
    { intros l Hl k Hk. apply in_seq. assert (k < List.length l) by (apply nth_error_Some; congruence). lia. }
    intros [Hd|Hd]; assert (Hin : In d (seq 0 16)) by (eapply H; [|exact Hd]; reflexivity); repeat (destruct Hin as [<-|Hin]; [cbn in Hd; injection Hd as <-; reflexivity|]); destruct Hin.
  - intros H. assert (G : match char_digit 16 c with Some n => hex_digit c (N.to_nat n) | None => True end).
    { unfold hex_digit. clear H. destruct c; vm_compute; try exact I; try (left; reflexivity); right; reflexivity. }
    rewrite H, Nnat.Nat2N.id in G. exact G.
Qed.
Lemma char_digit_nat c n : char_digit 16 c = Some n -> hex_digit c (N.to_nat n) /\ (n < 16)%N.
Proof.
  intros H. split; [apply hex_digit_iff; now rewrite Nnat.N2Nat.id|].
  assert (G : match char_digit 16 c with Some k => (k < 16)%N | None => True end) by (clear H; destruct c; vm_compute; try exact I; reflexivity).
  rewrite H in G. exact G.
Qed.
Lemma hex_sound s n r : hex_escape s = Some (n, r) -> exists t, hex4 n t /\ s = t ++ r.
Proof.
  destruct s as [|a [|b [|c [|d s]]]]; cbn [hex_escape]; try discriminate.
  destruct (char_digit 16 a) as [na|] eqn:Ea; [|discriminate]. destruct (char_digit 16 b) as [nb|] eqn:Eb; [|discriminate].
  destruct (char_digit 16 c) as [nc|] eqn:Ec; [|discriminate]. destruct (char_digit 16 d) as [nd|] eqn:Ed; [|discriminate].
  intros H. assert (Hn : (na * 4096 + nb * 256 + nc * 16 + nd)%N = n) by congruence. assert (Hr : s = r) by congruence. clear H. subst r. exists [a; b; c; d]. split; [|reflexivity].
  apply char_digit_nat in Ea, Eb, Ec, Ed. destruct Ea as [Ea _], Eb as [Eb _], Ec as [Ec _], Ed as [Ed _].
  replace n with (N.of_nat (16 * (16 * (16 * N.to_nat na + N.to_nat nb) + N.to_nat nc) + N.to_nat nd)) by lia. now constructor.
Qed.
Lemma hex_complete n t : hex4 n t -> List.length t = 4 /\ (n < 65536)%N /\ forall r, hex_escape (t ++ r) = Some (n, r).
Proof.
  intros [c3 c2 c1 c0 d3 d2 d1 d0 H3 H2 H1 H0]. apply hex_digit_iff in H3, H2, H1, H0. split; [reflexivity|].
  pose proof (proj2 (char_digit_nat _ _ H3)). pose proof (proj2 (char_digit_nat _ _ H2)). pose proof (proj2 (char_digit_nat _ _ H1)). pose proof (proj2 (char_digit_nat _ _ H0)).
  split; [lia|]. intros r. cbn [app hex_escape]. rewrite H3, H2, H1, H0. f_equal. f_equal. lia.
Qed.
Lemma eat_sound w : forall s r, eat w s = Some r -> s = w ++ r.
Proof.
  induction w as [|a w IH]; intros [|b s] r; cbn [eat]; try discriminate; try (intros H; injection H as <-; reflexivity).
  destruct (Byte.byte_eq_dec a b) as [->|]; [|discriminate]. intros H. cbn [app]. now rewrite (IH s r H).
Qed.
Lemma eat_complete w r : eat w (w ++ r) = Some r.
Proof. induction w as [|a w IH]; cbn [app eat]; [destruct r; reflexivity|]. destruct (Byte.byte_eq_dec a a); congruence. Qed.
Lemma c_is_eq c n : c_is c n = true -> (n < 256)%N -> c = n2b n.
Proof. unfold c_is. intros H Hn. apply N.eqb_eq in H. apply b2n_inj. now rewrite b2n_n2b. Qed.
Lemma c_is_same n : (n < 256)%N -> c_is (n2b n) n = true.
Proof. intros H. unfold c_is. rewrite b2n_n2b by exact H. apply N.eqb_refl. Qed.

Lemma escape_sound s x r : read_escape s = Some (x, r) -> exists t, s = t ++ r /\ char_text x (n2b 92 :: t).
Proof.
  destruct s as [|c s]; cbn [read_escape]; [discriminate|].
  assert (SH : forall a b, (a < 256)%N -> In (a, b) short_escapes -> c_is c a = true -> Some ([n2b b], s) = Some (x, r) ->
    exists t, c :: s = t ++ r /\ char_text x (n2b 92 :: t)).
  { intros a b Ha Hin Hc H. injection H as <- <-. exists [c]. split; [reflexivity|]. rewrite (c_is_eq c a Hc Ha). now apply char_short. }
  destruct (c_is c 34) eqn:E1; [apply (SH 34 34)%N; cbn; auto 10; lia|].
  destruct (c_is c 92) eqn:E2; [apply (SH 92 92)%N; cbn; auto 10; lia|].
  destruct (c_is c 47) eqn:E3; [apply (SH 47 47)%N; cbn; auto 10; lia|].
  destruct (c_is c 98) eqn:E4; [apply (SH 98 8)%N; cbn; auto 10; lia|].
  destruct (c_is c 102) eqn:E5; [apply (SH 102 12)%N; cbn; auto 10; lia|].
  destruct (c_is c 110) eqn:E6; [apply (SH 110 10)%N; cbn; auto 10; lia|].
  destruct (c_is c 114) eqn:E7; [apply (SH 114 13)%N; cbn; auto 10; lia|].
  destruct (c_is c 116) eqn:E8; [apply (SH 116 9)%N; cbn; auto 10; lia|].
  destruct (c_is c 117) eqn:E9; [|discriminate]. apply c_is_eq in E9; [|lia]. subst c.
  destruct (hex_escape s) as [[n s1]|] eqn:Eh; [|discriminate]. apply hex_sound in Eh. destruct Eh as (t & Ht & ->).
  pose proof (hex_complete n t Ht) as (_ & Ln & _).
  destruct ((56320 <=? n) && (n <=? 57343))%N eqn:Ea; [discriminate|].
  destruct ((55296 <=? n) && (n <=? 56319))%N eqn:Eb.
  - destruct (eat (bstr "\u") s1) as [s2|] eqn:Ee; [|discriminate]. apply eat_sound in Ee. subst s1.
    destruct (hex_escape s2) as [[m s3]|] eqn:Eh; [|discriminate]. apply hex_sound in Eh. destruct Eh as (t' & Ht' & ->).
    destruct ((56320 <=? m) && (m <=? 57343))%N eqn:Ec; [|discriminate]. intros H. assert (utf8_of (65536 + (n - 55296) * 1024 + (m - 56320)) = x) as <- by congruence. assert (s3 = r) as -> by congruence. clear H.
    exists (n2b 117 :: t ++ bstr "\u" ++ t'). split; [cbn [app]; now rewrite <- !app_assoc|].
    change (n2b 92 :: n2b 117 :: t ++ bstr "\u" ++ t') with (bstr "\u" ++ t ++ bstr "\u" ++ t').
    bools. eapply char_pair; [exact Ht|exact Ht'|lia|lia|]. apply utf8_encodes; [lia|unfold surrogate; lia].
  - intros H. assert (utf8_of n = x) as <- by congruence. assert (s1 = r) as -> by congruence. clear H. exists (n2b 117 :: t). split; [reflexivity|].
    change (n2b 92 :: n2b 117 :: t) with (bstr "\u" ++ t).
    assert (~ surrogate n) by (unfold surrogate; bools; destruct Ea, Eb; bools; lia).
    eapply char_unicode; [exact Ht|assumption|]. apply utf8_encodes; [lia|assumption].
Qed.
Lemma char_complete x u : char_text x u ->
  (exists c, x = [c] /\ u = [c] /\ 32 <= b2n c /\ b2n c <> 34 /\ b2n c <> 92)%N
  \/ (exists t, u = n2b 92 :: t /\ forall r, read_escape (t ++ r) = Some (x, r)).
Proof.
  destruct 1 as [c H1 H2 H3|a b Hin|n t x Ht Hs Hx|n t m t' x Ht Ht' Hn Hm Hx].
  - left. exists c. auto.
  - right. exists [n2b a]. split; [reflexivity|]. intros r. unfold short_escapes in Hin.
    repeat (destruct Hin as [Hin|Hin]; [injection Hin as <- <-; reflexivity|]). destruct Hin.
  - right. exists (n2b 117 :: t). split; [reflexivity|]. intros r. cbn [app read_escape].
    change (c_is (n2b 117) 34) with false. change (c_is (n2b 117) 92) with false. change (c_is (n2b 117) 47) with false. change (c_is (n2b 117) 98) with false.
    change (c_is (n2b 117) 102) with false. change (c_is (n2b 117) 110) with false. change (c_is (n2b 117) 114) with false. change (c_is (n2b 117) 116) with false.
    change (c_is (n2b 117) 117) with true. cbv iota. destruct (hex_complete n t Ht) as (_ & Ln & ->). unfold surrogate in Hs.
    replace ((56320 <=? n) && (n <=? 57343))%N with false by (symmetry; apply not_true_iff_false; intros H; bools; lia).
    replace ((55296 <=? n) && (n <=? 56319))%N with false by (symmetry; apply not_true_iff_false; intros H; bools; lia).
    now rewrite (encodes_utf8 n x Hx).
  - right. exists (n2b 117 :: t ++ bstr "\u" ++ t'). split; [reflexivity|]. intros r. cbn [app read_escape]. rewrite <- !app_assoc.
    change (c_is (n2b 117) 34) with false. change (c_is (n2b 117) 92) with false. change (c_is (n2b 117) 47) with false. change (c_is (n2b 117) 98) with false.
    change (c_is (n2b 117) 102) with false. change (c_is (n2b 117) 110) with false. change (c_is (n2b 117) 114) with false. change (c_is (n2b 117) 116) with false.
    change (c_is (n2b 117) 117) with true. cbv iota. destruct (hex_complete n t Ht) as (_ & Ln & ->).
    replace ((56320 <=? n) && (n <=? 57343))%N with false by (symmetry; apply not_true_iff_false; intros H; bools; lia).
    replace ((55296 <=? n) && (n <=? 56319))%N with true by (symmetry; yes). rewrite eat_complete.
    destruct (hex_complete m t' Ht') as (_ & Lm & ->).
    replace ((56320 <=? m) && (m <=? 57343))%N with true by (symmetry; yes). now rewrite (encodes_utf8 _ x Hx).
Qed.
Lemma chars_sound f : forall s x r, read_chars f s = Some (x, r) -> exists u, chars_text x u /\ s = u ++ quote ++ r.
Proof.
  induction f as [|f IH]; intros s x r; cbn [read_chars]; [discriminate|]. destruct s as [|c s]; [discriminate|].
  destruct (c_is c 34) eqn:E1.
  - intros H. injection H as <- <-. exists []. split; [constructor|]. apply c_is_eq in E1; [|lia]. now subst c.
  - destruct (c_is c 92) eqn:E2.
    + destruct (read_escape s) as [[x1 s1]|] eqn:Ee; [|discriminate]. apply escape_sound in Ee. destruct Ee as (t & -> & Ht).
      destruct (read_chars f s1) as [[y r1]|] eqn:Ec; [|discriminate]. intros H. injection H as <- <-.
      apply IH in Ec. destruct Ec as (u & Hu & ->). exists ((n2b 92 :: t) ++ u). split; [now constructor|].
      apply c_is_eq in E2; [|lia]. subst c. cbn [app]. now rewrite <- !app_assoc.
    + destruct (b2n c <? 32)%N eqn:E3; [discriminate|]. destruct (read_chars f s) as [[y r1]|] eqn:Ec; [|discriminate]. intros H. injection H as <- <-.
      apply IH in Ec. destruct Ec as (u & Hu & ->). exists ([c] ++ u). split; [|reflexivity].
      change (c :: y) with ([c] ++ y). constructor; [|exact Hu]. unfold c_is in *. bools. now constructor.
Qed.
Lemma chars_complete x u : chars_text x u -> forall f r, List.length u < f -> read_chars f (u ++ quote ++ r) = Some (x, r).
Proof.
  induction 1 as [|x t y u Hc _ IH]; intros f r Hf.
  - destruct f; [cbn in Hf; lia|]. reflexivity.
  - destruct f as [|f]; [lia|]. rewrite app_length in Hf. rewrite <- app_assoc.
    apply char_complete in Hc. destruct Hc as [(c & -> & -> & H1 & H2 & H3)|(t' & -> & Hr)].
    + cbn [app read_chars]. unfold c_is. apply N.eqb_neq in H2, H3. rewrite H2, H3. apply N.ltb_ge in H1. rewrite H1.
      rewrite IH by (cbn in Hf; lia). reflexivity.
    + cbn [app read_chars]. change (c_is (n2b 92) 34) with false. change (c_is (n2b 92) 92) with true. cbv iota.
      rewrite Hr. rewrite IH by (cbn in Hf; lia). reflexivity.
Qed.
Lemma string_sound s x r : read_string s = Some (x, r) -> exists t, string_text x (n2b 34 :: t) /\ s = t ++ r.
Proof.
  unfold read_string. destruct (read_chars _ s) as [[y r1]|] eqn:E; [|discriminate]. destruct (valid_utf8 y) eqn:V; [|discriminate].
  intros H. injection H as <- <-. apply chars_sound in E. destruct E as (u & Hu & ->). exists (u ++ quote). split; [|now rewrite <- app_assoc].
  split; [now apply valid_iff|]. exists u. split; [exact Hu|]. reflexivity.
Qed.
Lemma string_complete x s : string_text x s -> exists t, s = n2b 34 :: t /\ forall r, read_string (t ++ r) = Some (x, r).
Proof.
  intros [Hv (u & Hu & ->)]. exists (u ++ quote). split; [reflexivity|]. intros r. unfold read_string. rewrite <- app_assoc.
  rewrite (chars_complete x u Hu); [|rewrite !app_length; cbn; lia]. apply valid_iff in Hv. now rewrite Hv.
Qed.

(** ** Numbers *)
Definition nd (q : bytes) : Prop := match q with c :: _ => ~ digit c | [] => True end.
Lemma is_digit_iff c : is_digit c = true <-> digit c.
Proof. unfold is_digit, digit. split; [intros H; bools; lia|intros; yes]. Qed.
Lemma skip_sound s : exists u, Forall digit u /\ s = u ++ skip_digits s /\ nd (skip_digits s).
Proof.
  induction s as [|c s (u & Hu & Hs & Hn)]; [exists []; cbn; auto|]. cbn [skip_digits]. destruct (is_digit c) eqn:E.
  - exists (c :: u). split; [constructor; [now apply is_digit_iff|exact Hu]|]. split; [cbn [app]; now f_equal|exact Hn].
  - exists []. split; [constructor|]. split; [reflexivity|]. cbn. intros H. apply is_digit_iff in H. congruence.
Qed.
Lemma skip_complete u q : Forall digit u -> nd q -> skip_digits (u ++ q) = q.
Proof.
  induction 1 as [|c u Hc _ IH]; intros Hq; cbn [app].
  - destruct q as [|c q]; [reflexivity|]. cbn [skip_digits]. destruct (is_digit c) eqn:E; [|reflexivity]. apply is_digit_iff in E. now elim Hq.
  - cbn [skip_digits]. apply is_digit_iff in Hc. rewrite Hc. now apply IH.
Qed.
Lemma some_sound s r : some_digits s = Some r -> exists u, digits u /\ s = u ++ r /\ nd r.
Proof.
  destruct s as [|c s]; cbn [some_digits]; [discriminate|]. destruct (is_digit c) eqn:E; [|discriminate]. intros H. injection H as <-.
  destruct (skip_sound s) as (u & Hu & Hs & Hn). exists (c :: u). split; [split; [discriminate|constructor; [now apply is_digit_iff|exact Hu]]|].
  split; [cbn [app]; now f_equal|exact Hn].
Qed.
Lemma some_complete u q : digits u -> nd q -> some_digits (u ++ q) = Some q.
Proof.
  intros [Hn Hu] Hq. destruct u as [|c u]; [congruence|]. cbn [app some_digits]. inversion Hu as [|? ? Hc Hu']; subst.
  apply is_digit_iff in Hc. rewrite Hc. now rewrite skip_complete.
Qed.
Definition int_of (s : bytes) : option bytes :=
  match s with
  | c :: r => if c_is c 48 then match r with d :: _ => if is_digit d then None else Some r | [] => Some r end else some_digits s
  | [] => None end.
Definition frac_of (q : bytes) : option bytes :=
  match q with c :: r => if c_is c 46 then some_digits r else Some (c :: r) | [] => Some [] end.
Definition exp_of (q : bytes) : option bytes :=
  match q with
  | c :: r => if c_is c 101 || c_is c 69 then
                match r with d :: r' => if c_is d 43 || c_is d 45 then some_digits r' else some_digits r | [] => None end
              else Some (c :: r)
  | [] => Some [] end.
Lemma read_number_parts s : read_number s =
  match int_of (match s with c :: r => if c_is c 45 then r else s | [] => s end) with
  | Some q => match frac_of q with Some q => exp_of q | None => None end
  | None => None end.
Proof.
  assert (T1 : forall int : option bytes,
    match int with Some (c :: r) => if c_is c 46 then some_digits r else Some (c :: r) | x => x end
    = match int with Some q => frac_of q | None => None end) by (intros [[|c q]|]; reflexivity).
  assert (T2 : forall fr : option bytes,
    match fr with
    | Some (c :: r) =>
        if c_is c 101 || c_is c 69 then
          match r with d :: r' => if c_is d 43 || c_is d 45 then some_digits r' else some_digits r | [] => None end
        else Some (c :: r)
    | x => x end = match fr with Some q => exp_of q | None => None end) by (intros [[|c q]|]; reflexivity).
  unfold read_number. cbv zeta. rewrite T2, T1.
  assert (T3 : forall o : option bytes, match match o with Some q => frac_of q | None => None end with Some q => exp_of q | None => None end
    = match o with Some q => match frac_of q with Some q => exp_of q | None => None end | None => None end) by (intros [q|]; reflexivity).
  rewrite T3. reflexivity.
Qed.
Lemma int_sound s q : int_of s = Some q -> exists i, int_text i /\ s = i ++ q /\ nd q.
Proof.
  destruct s as [|c s]; cbn [int_of]; [discriminate|]. destruct (c_is c 48) eqn:E.
  - apply c_is_eq in E; [|lia]. subst c. intros H. assert (q = s /\ nd s) as [-> Hn].
    { destruct s as [|d s]; [injection H as <-; now split|]. destruct (is_digit d) eqn:Ed; [discriminate H|]. injection H as <-. split; [reflexivity|].
      cbn. intros Hd. apply is_digit_iff in Hd. congruence. }
    exists (bstr "0"). split; [now left|]. split; [reflexivity|exact Hn].
  - intros H. apply some_sound in H. destruct H as (u & Hu & Hs & Hn). exists u. split; [|split; assumption]. right. split; [exact Hu|].
    destruct u as [|d u]; [now elim (proj1 Hu)|]. cbn. intros Hd. injection Hd as Hd. cbn [app] in Hs. injection Hs as Hc _. rewrite Hc, Hd in E. vm_compute in E. discriminate E.
Qed.
Lemma int_complete i q : int_text i -> nd q -> int_of (i ++ q) = Some q.
Proof.
  intros [->|[Hi H0]] Hq.
  - change (bstr "0" ++ q) with (n2b 48 :: q). cbn [int_of]. change (c_is (n2b 48) 48) with true. cbv iota. destruct q as [|d q]; [reflexivity|].
    destruct (is_digit d) eqn:E; [|reflexivity]. apply is_digit_iff in E. now elim Hq.
  - pose proof (some_complete i q Hi Hq) as G. destruct i as [|c i]; [now elim (proj1 Hi)|]. cbn [app int_of] in *.
    destruct (c_is c 48) eqn:E; [|exact G]. apply c_is_eq in E; [|lia]. subst c. now elim H0.
Qed.
Lemma frac_sound q q1 : frac_of q = Some q1 -> nd q -> exists f, optional frac_text f /\ q = f ++ q1 /\ nd q1.
Proof.
  destruct q as [|c q]; cbn [frac_of]; [intros H _; injection H as <-; exists []; cbn; unfold optional; auto|].
  destruct (c_is c 46) eqn:E.
  - apply c_is_eq in E; [|lia]. subst c. intros H _. apply some_sound in H. destruct H as (u & Hu & -> & Hn).
    exists (bstr "." ++ u). split; [right; exists u; now split|]. split; [reflexivity|exact Hn].
  - intros H Hn. injection H as <-. exists []. split; [now left|]. split; [reflexivity|exact Hn].
Qed.
Lemma frac_complete f q1 : optional frac_text f -> nd q1 -> match q1 with c :: _ => c <> n2b 46 | [] => True end -> frac_of (f ++ q1) = Some q1.
Proof.
  intros [->|(u & Hu & ->)] Hq Hd.
  - cbn [app]. destruct q1 as [|c q1]; [reflexivity|]. cbn [frac_of]. destruct (c_is c 46) eqn:E; [|reflexivity]. apply c_is_eq in E; [|lia]. contradiction.
  - change ((bstr "." ++ u) ++ q1) with (n2b 46 :: u ++ q1). cbn [frac_of]. change (c_is (n2b 46) 46) with true. cbv iota. now apply some_complete.
Qed.
Lemma exp_sound q r : exp_of q = Some r -> exists e, optional exp_text e /\ q = e ++ r.
Proof.
  destruct q as [|c q]; cbn [exp_of]; [intros H; injection H as <-; exists []; split; [now left|reflexivity]|].
  destruct (c_is c 101 || c_is c 69) eqn:E; [|intros H; injection H as <-; exists []; split; [now left|reflexivity]].
  assert (He : [c] = bstr "e" \/ [c] = bstr "E") by (apply orb_true_iff in E; destruct E as [E|E]; apply c_is_eq in E; try lia; subst c; auto).
  destruct q as [|d q]; [discriminate|]. destruct (c_is d 43 || c_is d 45) eqn:Ed; intros H; apply some_sound in H; destruct H as (u & Hu & Hq & _).
  - exists ([c] ++ [d] ++ u). split; [|rewrite Hq; reflexivity]. right. exists [c], [d], u. split; [exact He|]. split; [|split; [exact Hu|reflexivity]].
    right. apply orb_true_iff in Ed. destruct Ed as [Ed|Ed]; apply c_is_eq in Ed; try lia; subst d; auto.
  - exists ([c] ++ [] ++ u). split; [|rewrite Hq; reflexivity]. right. exists [c], [], u. split; [exact He|]. split; [now left|]. split; [exact Hu|reflexivity].
Qed.
Lemma exp_complete e r : optional exp_text e -> number_ends r -> exp_of (e ++ r) = Some r.
Proof.
  intros [->|(c & sg & u & Hc & Hsg & Hu & ->)] Hr.
  - cbn [app]. destruct r as [|c r]; [reflexivity|]. cbn [exp_of]. destruct Hr as (_ & _ & H1 & H2).
    destruct (c_is c 101) eqn:E1; [apply c_is_eq in E1; [contradiction|lia]|]. destruct (c_is c 69) eqn:E2; [apply c_is_eq in E2; [contradiction|lia]|]. reflexivity.
  - assert (Hn : nd r) by (destruct r; [exact I|apply Hr]). rewrite <- !app_assoc.
    assert (G : match sg ++ u ++ r with d :: r' => if c_is d 43 || c_is d 45 then some_digits r' else some_digits (sg ++ u ++ r) | [] => None end = Some r).
    { destruct Hsg as [->|Hsg].
      - cbn [app]. pose proof (some_complete u r Hu Hn) as G. destruct u as [|d u]; [now elim (proj1 Hu)|]. cbn [app] in *.
        destruct (c_is d 43 || c_is d 45) eqn:E; [|exact G]. destruct Hu as [_ Hu]. inversion Hu as [|? ? Hd _]; subst. unfold digit in Hd. unfold c_is in E.
        apply orb_true_iff in E. destruct E as [E|E]; apply N.eqb_eq in E; lia.
      - destruct Hsg as [-> | ->]; [change (bstr "+" ++ u ++ r) with (n2b 43 :: u ++ r)|change (bstr "-" ++ u ++ r) with (n2b 45 :: u ++ r)];
          exact (some_complete u r Hu Hn). }
    destruct Hc as [-> | ->]; exact G.
Qed.
Lemma number_sound s r : read_number s = Some r -> exists t, number_text t /\ s = t ++ r.
Proof.
  rewrite read_number_parts. set (s1 := match s with c :: r => if c_is c 45 then r else s | [] => s end).
  assert (M : exists m, optional minus_text m /\ s = m ++ s1).
  { unfold s1. destruct s as [|c s]; [exists []; split; [now left|reflexivity]|]. destruct (c_is c 45) eqn:E; [|exists []; split; [now left|reflexivity]].
    apply c_is_eq in E; [|lia]. subst c. exists (bstr "-"). split; [right; reflexivity|reflexivity]. }
  destruct M as (m & Hm & Hs). clearbody s1. destruct (int_of s1) as [q|] eqn:Ei; [|discriminate]. apply int_sound in Ei. destruct Ei as (i & Hi & -> & Hq).
  destruct (frac_of q) as [q1|] eqn:Ef; [|discriminate]. apply frac_sound in Ef; [|exact Hq]. destruct Ef as (f & Hf & -> & _).
  intros He. apply exp_sound in He. destruct He as (e & He & ->). exists (m ++ i ++ f ++ e). split; [exists m, i, f, e; auto|].
  rewrite Hs. now rewrite <- !app_assoc.
Qed.
Lemma number_complete t r : number_text t -> number_ends r -> read_number (t ++ r) = Some r.
Proof.
  intros (m & i & f & e & Hm & Hi & Hf & He & ->) Hr. rewrite <- !app_assoc, read_number_parts.
  assert (M : match m ++ i ++ f ++ e ++ r with c :: r0 => if c_is c 45 then r0 else m ++ i ++ f ++ e ++ r | [] => m ++ i ++ f ++ e ++ r end = i ++ f ++ e ++ r).
  { destruct Hm as [-> | ->]; [|reflexivity]. cbn [app]. destruct i as [|c i].
    - destruct Hi as [Hi|[[Hi _] _]]; [discriminate Hi|now elim Hi].
    - cbn [app]. destruct (c_is c 45) eqn:E; [|reflexivity]. apply c_is_eq in E; [|lia]. subst c.
      destruct Hi as [Hi|[[_ Hi] _]]; [discriminate Hi|]. inversion Hi as [|? ? Hd _]; subst. unfold digit in Hd. change (b2n (n2b 45)) with 45%N in Hd. lia. }
  match goal with |- match int_of ?x with _ => _ end = _ => assert (X : x = i ++ f ++ e ++ r) by exact M; rewrite X; clear X end. clear M.
  assert (N2 : nd (e ++ r) /\ match e ++ r with c :: _ => c <> n2b 46 | [] => True end).
  { destruct He as [->|(c & sg & u & [-> | ->] & _ & _ & ->)]; [destruct r as [|c r]; [now split|split; apply Hr]|..].
    - change ((bstr "e" ++ sg ++ u) ++ r) with (n2b 101 :: (sg ++ u) ++ r). split; [|discriminate]. unfold nd, digit. change (b2n (n2b 101)) with 101%N. lia.
    - change ((bstr "E" ++ sg ++ u) ++ r) with (n2b 69 :: (sg ++ u) ++ r). split; [|discriminate]. unfold nd, digit. change (b2n (n2b 69)) with 69%N. lia. }
  assert (N1 : nd (f ++ e ++ r)).
  { destruct Hf as [->|(u & _ & ->)]; [apply N2|]. change ((bstr "." ++ u) ++ e ++ r) with (n2b 46 :: u ++ e ++ r). unfold nd, digit. change (b2n (n2b 46)) with 46%N. lia. }
  rewrite (int_complete i _ Hi N1), (frac_complete f _ Hf (proj1 N2) (proj2 N2)). now apply exp_complete.
Qed.
