(** * CborProofs: reading back what [serde_cbor] wrote. *)
From Coq Require Import ZifyBool ZifyN ZifyNat.
From Verif Require Import Base Base64 Base64Proofs Codes NumFmt NumProofs Types SpecCodec CodecProofs KeyConf Version Cesr CesrProofs Message Keri Json JsonRead JsonQuery JsonProofs Cbor.

(** ** Numbers *)
Lemma be_bytes_length k : forall n, List.length (be_bytes k n) = k.
Proof. induction k as [|k IH]; intros n; [reflexivity|]. cbn [be_bytes]. rewrite app_length, IH. cbn. lia. Qed.
Lemma be_value_snoc l b : be_value (l ++ [b]) = (be_value l * 256 + b2n b)%N.
Proof. unfold be_value. now rewrite fold_left_app. Qed.
Lemma be_value_bytes k : forall n, be_value (be_bytes k n) = (n mod 256 ^ N.of_nat k)%N.
Proof.
  induction k as [|k IH]; intros n; [cbn; now rewrite N.mod_1_r|].
  cbn [be_bytes]. rewrite be_value_snoc, IH. rewrite n2b_mod.
  replace (N.of_nat (S k)) with (N.of_nat k + 1)%N by lia. rewrite N.pow_add_r, N.pow_1_r.
  rewrite N.mod_mod by discriminate.
  rewrite (N.mul_comm (256 ^ N.of_nat k) 256). rewrite N.mod_mul_r; [lia|discriminate|]. apply N.pow_nonzero. discriminate.
Qed.
Lemma be_read_bytes k n r : (n < 256 ^ N.of_nat k)%N -> be_read k (be_bytes k n ++ r) = Some (n, r).
Proof.
  intros H. unfold be_read. rewrite app_length, be_bytes_length.
  replace (k <=? k + List.length r) with true by (symmetry; apply Nat.leb_le; lia).
  rewrite firstn_app, skipn_app, be_bytes_length, Nat.sub_diag. cbn [firstn skipn].
  rewrite firstn_all2 by (rewrite be_bytes_length; lia). rewrite skipn_all2 by (rewrite be_bytes_length; lia).
  rewrite app_nil_r, be_value_bytes. cbn [app]. now rewrite N.mod_small.
Qed.
Definition head_ok (m i : N) : bool :=
  let c := n2b (m * 32 + i) in ((b2n c / 32 =? m) && (b2n c mod 32 =? i) && negb (b2n c =? 246) && negb (b2n c =? 255))%N.
Lemma heads m i : (3 <= m <= 5)%N -> (i < 31)%N ->
  let c := n2b (m * 32 + i) in (b2n c / 32 = m /\ b2n c mod 32 = i /\ b2n c <> 246 /\ b2n c <> 255)%N.
Proof.
  intros Hm Hi c. unfold c. rewrite n2b_mod. rewrite N.mod_small by lia.
  split; [|split; [|split]].
  - rewrite N.add_comm, N.div_add by discriminate. rewrite N.div_small by lia. reflexivity.
  - rewrite N.add_comm, N.mod_add by discriminate. apply N.mod_small. lia.
  - lia.
  - lia.
Qed.
(** the first byte of a text, array or map, and the length that follows it *)
Lemma cbor_head_reads m n : (3 <= m <= 5)%N -> (n <= u64_max)%N ->
  exists c t, cbor_head m n = c :: t /\ (b2n c / 32 = m)%N /\ b2n c <> 246%N /\ b2n c <> 255%N /\ (b2n c mod 32 =? 31)%N = false
    /\ forall r, cbor_len (b2n c mod 32) (t ++ r) = Some (n, r).
Proof.
  intros Hm Hn. unfold cbor_head.
  assert (K : forall i t, (i < 31)%N -> (forall r, cbor_len i (t ++ r) = Some (n, r)) ->
    exists c t', n2b (m * 32 + i) :: t = c :: t' /\ (b2n c / 32 = m)%N /\ b2n c <> 246%N /\ b2n c <> 255%N /\ (b2n c mod 32 =? 31)%N = false
      /\ forall r, cbor_len (b2n c mod 32) (t' ++ r) = Some (n, r)).
  { intros i t Hi Hr. exists (n2b (m * 32 + i)), t. destruct (heads m i Hm Hi) as (E1 & E2 & E3 & E4). cbv zeta in *.
    rewrite E2. split; [reflexivity|]. split; [exact E1|]. split; [exact E3|]. split; [exact E4|]. split; [lia|exact Hr]. }
  destruct (n <? 24)%N eqn:E1.
  { apply K; [lia|]. intros r. unfold cbor_len. now rewrite E1. }
  destruct (n <=? 255)%N eqn:E2.
  { apply K; [lia|]. intros r. unfold cbor_len. change (24 <? 24)%N with false. change (24 =? 24)%N with true. cbv iota.
    apply be_read_bytes. change (256 ^ N.of_nat 1)%N with 256%N. lia. }
  destruct (n <=? 65535)%N eqn:E3.
  { apply K; [lia|]. intros r. unfold cbor_len. change (25 <? 24)%N with false. change (25 =? 24)%N with false. change (25 =? 25)%N with true. cbv iota.
    apply be_read_bytes. change (256 ^ N.of_nat 2)%N with 65536%N. lia. }
  destruct (n <=? 4294967295)%N eqn:E4.
  { apply K; [lia|]. intros r. unfold cbor_len. change (26 <? 24)%N with false. change (26 =? 24)%N with false. change (26 =? 25)%N with false. change (26 =? 26)%N with true. cbv iota.
    apply be_read_bytes. change (256 ^ N.of_nat 4)%N with 4294967296%N. lia. }
  apply K; [lia|]. intros r. unfold cbor_len. change (27 <? 24)%N with false. change (27 =? 24)%N with false. change (27 =? 25)%N with false. change (27 =? 26)%N with false. change (27 =? 27)%N with true. cbv iota.
  apply be_read_bytes. change (256 ^ N.of_nat 8)%N with (N.succ u64_max). lia.
Qed.
Lemma cbor_head_length m n : 1 <= List.length (cbor_head m n).
Proof. unfold cbor_head. repeat match goal with |- context [if ?b then _ else _] => destruct b end; cbn [List.length]; lia. Qed.

(** ** Text *)
Lemma cbor_str_ok s r : valid_utf8 s = true -> cbor_str (N.of_nat (List.length s)) (s ++ r) = Some (s, r).
Proof.
  intros H. unfold cbor_str. rewrite app_length.
  replace (N.of_nat (List.length s) <=? N.of_nat (List.length s + List.length r))%N with true by lia.
  rewrite Nat2N.id, firstn_app, skipn_app, Nat.sub_diag, firstn_all, skipn_all. cbn [firstn skipn app]. rewrite app_nil_r. now rewrite H.
Qed.
Definition held (n : nat) : Prop := (N.of_nat n <= u64_max)%N.
Lemma held_le n m : n <= m -> held m -> held n. Proof. unfold held. lia. Qed.
Lemma cbor_key_ok s r : valid_utf8 s = true -> held (List.length s) -> cbor_key (cbor_text s ++ r) = Some (s, r).
Proof.
  intros H Hl. unfold cbor_text. destruct (cbor_head_reads 3 (N.of_nat (List.length s)) ltac:(lia) Hl) as (c & t & E & M & _ & _ & _ & L).
  rewrite E. rewrite <- app_assoc. cbn [app cbor_key]. rewrite M. change (3 =? 3)%N with true. cbv iota. rewrite L. now apply cbor_str_ok.
Qed.

(** ** Values *)
Lemma cbor_length v : 1 <= List.length (cbor v).
Proof. destruct v; cbn [cbor]; unfold cbor_text; rewrite ?app_length; try (pose proof (cbor_head_length 3 (N.of_nat (List.length s)))); try (pose proof (cbor_head_length 4 (N.of_nat (List.length l)))); try (pose proof (cbor_head_length 5 (N.of_nat (List.length l)))); cbn [List.length]; lia. Qed.
Lemma cbor_no_break v : held (List.length (cbor v)) -> exists c t, cbor v = c :: t /\ (b2n c =? 255)%N = false.
Proof.
  intros H. destruct v; cbn [cbor] in *.
  - unfold cbor_text in *. rewrite app_length in H. destruct (cbor_head_reads 3 (N.of_nat (List.length s)) ltac:(lia)) as (c & t & E & _ & _ & B & _); [eapply held_le; [|exact H]; lia|].
    rewrite E. cbn [app]. eexists _, _. split; [reflexivity|lia].
  - rewrite app_length in H. destruct (cbor_head_reads 4 (N.of_nat (List.length l)) ltac:(lia)) as (c & t & E & _ & _ & B & _).
    { eapply held_le; [|exact H]. clear H. induction l as [|a l IH]; [cbn; lia|]. cbn [flat_map List.length]. rewrite app_length. pose proof (cbor_length a). pose proof (cbor_head_length 4 (N.of_nat (List.length l))). 
      assert (List.length l <= List.length (flat_map cbor l)). { clear. induction l as [|a l IH]; [cbn; lia|]. cbn [flat_map List.length]. rewrite app_length. pose proof (cbor_length a). lia. } lia. }
    rewrite E. cbn [app]. eexists _, _. split; [reflexivity|lia].
  - eexists _, _. split; reflexivity.
  - rewrite app_length in H. destruct (cbor_head_reads 5 (N.of_nat (List.length l)) ltac:(lia)) as (c & t & E & _ & _ & B & _).
    { eapply held_le; [|exact H]. assert (List.length l <= List.length (flat_map (fun kv => cbor_text (fst kv) ++ cbor (snd kv)) l)). { clear. induction l as [|a l IH]; [cbn; lia|]. cbn [flat_map List.length]. rewrite !app_length. pose proof (cbor_length (snd a)). lia. } lia. }
    rewrite E. cbn [app]. eexists _, _. split; [reflexivity|lia].
  - eexists _, _. split; reflexivity.
Qed.
Definition back (v : sval) : Prop := forall n f r, fits n v -> held (List.length (cbor v)) -> 2 * List.length (cbor v) <= f ->
  read_cbor f (S n) (cbor v ++ r) = Some (erase v, r).
Definition pair_bytes (kv : bytes * sval) : bytes := cbor_text (fst kv) ++ cbor (snd kv).
Lemma pair_length kv : List.length (cbor (snd kv)) + 1 <= List.length (pair_bytes kv).
Proof. unfold pair_bytes, cbor_text. rewrite !app_length. pose proof (cbor_head_length 3 (N.of_nat (List.length (fst kv)))). lia. Qed.
Lemma items_back l : Forall back l -> forall n f r, Forall (fits n) l -> held (List.length (flat_map cbor l)) -> 2 * List.length (flat_map cbor l) + 1 <= f ->
  read_items f (S n) (Some (N.of_nat (List.length l))) (flat_map cbor l ++ r) = Some (map erase l, r).
Proof.
  induction 1 as [|v l Hv _ IH]; intros n f r Hf Hh Hl.
  - destruct f as [|f]; [cbn in Hl; lia|]. reflexivity.
  - inversion_clear Hf as [|? ? F1 F2]. cbn [flat_map] in *. rewrite app_length in *. pose proof (cbor_length v).
    destruct f as [|f]; [lia|]. cbn [read_items List.length]. replace (N.of_nat (S (List.length l)) =? 0)%N with false by lia.
    rewrite <- app_assoc. rewrite (Hv n f) by (assumption || lia || (eapply held_le; [|exact Hh]; lia)).
    replace (N.of_nat (S (List.length l)) - 1)%N with (N.of_nat (List.length l)) by lia.
    rewrite IH by (assumption || lia || (eapply held_le; [|exact Hh]; lia)). reflexivity.
Qed.
Lemma pairs_back l : Forall (fun kv => back (snd kv)) l -> forall n f r, Forall (fits_kv n) l -> held (List.length (flat_map pair_bytes l)) -> 2 * List.length (flat_map pair_bytes l) + 1 <= f ->
  read_pairs f (S n) (Some (N.of_nat (List.length l))) (flat_map pair_bytes l ++ r) = Some (map erase_kv l, r)
  /\ read_pairs f (S n) None (flat_map pair_bytes l ++ n2b 255 :: r) = Some (map erase_kv l, r).
Proof.
  induction 1 as [|kv l Hv _ IH]; intros n f r Hf Hh Hl.
  - destruct f as [|f]; [cbn in Hl; lia|]. split; reflexivity.
  - inversion_clear Hf as [|? ? [F0 F1] F2]. cbn [flat_map] in *. rewrite app_length in *. pose proof (pair_length kv) as HL. pose proof (cbor_length (snd kv)).
    assert (Hk : held (List.length (fst kv))).
    { eapply held_le; [|exact Hh]. unfold pair_bytes, cbor_text. rewrite !app_length. lia. }
    destruct f as [|f]; [lia|].
    assert (G : forall o s, read_pairs f (S n) o s = Some (map erase_kv l, r) ->
       match cbor_key ((pair_bytes kv ++ s)) with
       | Some (k, r) =>
           match read_cbor f (S n) r with
           | Some (v, r) => match read_pairs f (S n) o r with Some (l, r) => Some ((k, v) :: l, r) | None => None end
           | None => None
           end
       | None => None
       end = Some (map erase_kv (kv :: l), r)).
    { intros o s E. unfold pair_bytes. rewrite <- app_assoc. rewrite cbor_key_ok by assumption.
      rewrite (Hv n f) by (assumption || lia || (eapply held_le; [|exact Hh]; lia)). rewrite E. reflexivity. }
    destruct (IH n f r F2) as [I1 I2]; [eapply held_le; [|exact Hh]; lia|lia|]. split.
    + cbn [read_pairs List.length]. replace (N.of_nat (S (List.length l)) =? 0)%N with false by lia.
      replace (N.of_nat (S (List.length l)) - 1)%N with (N.of_nat (List.length l)) by lia. rewrite <- app_assoc. now apply G.
    + cbn [read_pairs]. rewrite <- app_assoc.
      assert (exists c t, pair_bytes kv ++ flat_map pair_bytes l ++ n2b 255 :: r = c :: t /\ (b2n c =? 255)%N = false) as (c & t & Ec & Eb).
      { unfold pair_bytes at 1, cbor_text. destruct (cbor_head_reads 3 (N.of_nat (List.length (fst kv))) ltac:(lia) Hk) as (c & t & E & _ & _ & B & _).
        rewrite E, <- !app_assoc. cbn [app]. eexists _, _. split; [reflexivity|lia]. }
      rewrite Ec, Eb, <- Ec. now apply G.
Qed.
Theorem cbor_back v : back v.
Proof.
  induction v as [s|l IH|l IH|l IH|] using sval_ind'; intros n f r Hf Hh Hl; pose proof (fun v => cbor_length v) as Hlen;
    (destruct f as [|f]; [specialize (Hlen (VStr [])); cbn [cbor List.length] in Hl; try (rewrite app_length in Hl); cbn in Hl; try lia; unfold cbor_text in Hl; rewrite ?app_length in Hl;
      try (pose proof (cbor_head_length 3 (N.of_nat (List.length s)))); try (pose proof (cbor_head_length 4 (N.of_nat (List.length l)))); try (pose proof (cbor_head_length 5 (N.of_nat (List.length l)))); lia|]).
  - cbn [cbor erase fits] in *. unfold cbor_text in *. rewrite app_length in *.
    destruct (cbor_head_reads 3 (N.of_nat (List.length s)) ltac:(lia)) as (c & t & E & M & B & _ & _ & L); [eapply held_le; [|exact Hh]; lia|].
    rewrite E, <- app_assoc. cbn [app read_cbor]. rewrite M. replace (b2n c =? 246)%N with false by lia. cbn [N.eqb Pos.eqb]. rewrite L. now rewrite cbor_str_ok.
  - destruct n as [|n]; [contradiction|]. apply fits_seq in Hf. cbn [cbor erase] in *. rewrite app_length in *.
    assert (List.length l <= List.length (flat_map cbor l)). { clear. induction l as [|a l IH]; [cbn; lia|]. cbn [flat_map List.length]. rewrite app_length. pose proof (cbor_length a). lia. }
    destruct (cbor_head_reads 4 (N.of_nat (List.length l)) ltac:(lia)) as (c & t & E & M & B & _ & I & L); [eapply held_le; [|exact Hh]; lia|].
    pose proof (cbor_head_length 4 (N.of_nat (List.length l))).
    rewrite E in *. rewrite <- app_assoc. cbn [app read_cbor]. rewrite M, I. replace (b2n c =? 246)%N with false by lia. cbn [N.eqb Pos.eqb]. cbv zeta. rewrite L.
    rewrite (items_back l IH n f r Hf) by (lia || (eapply held_le; [|exact Hh]; lia)). reflexivity.
  - destruct n as [|n]; [contradiction|]. apply fits_map in Hf. cbn [cbor erase] in *. fold pair_bytes in *.
    change (fun kv : bytes * sval => cbor_text (fst kv) ++ cbor (snd kv)) with pair_bytes in *. cbn [List.length] in *. rewrite app_length in *. cbn [List.length] in *.
    cbn [app read_cbor]. change (b2n (n2b 191)) with 191%N. cbn [N.eqb Pos.eqb N.div N.modulo]. 
    change (191 / 32)%N with 5%N. change (191 mod 32)%N with 31%N. cbn [N.eqb Pos.eqb]. cbv zeta.
    rewrite <- app_assoc. cbn [app].
    destruct (pairs_back l IH n f r Hf) as [_ P]; [eapply held_le; [|exact Hh]; lia|lia|]. rewrite P. reflexivity.
  - destruct n as [|n]; [contradiction|]. apply fits_struct in Hf. cbn [cbor erase] in *.
    change (fun kv : bytes * sval => cbor_text (fst kv) ++ cbor (snd kv)) with pair_bytes in *. rewrite app_length in *.
    assert (List.length l <= List.length (flat_map pair_bytes l)). { clear. induction l as [|a l IH]; [cbn; lia|]. cbn [flat_map List.length]. rewrite app_length. pose proof (pair_length a). lia. }
    destruct (cbor_head_reads 5 (N.of_nat (List.length l)) ltac:(lia)) as (c & t & E & M & B & _ & I & L); [eapply held_le; [|exact Hh]; lia|].
    pose proof (cbor_head_length 5 (N.of_nat (List.length l))).
    rewrite E in *. rewrite <- app_assoc. cbn [app read_cbor]. rewrite M, I. replace (b2n c =? 246)%N with false by lia. cbn [N.eqb Pos.eqb]. cbv zeta. rewrite L.
    destruct (pairs_back l IH n f r Hf) as [P _]; [eapply held_le; [|exact Hh]; lia|lia|]. rewrite P. reflexivity.
  - cbn [cbor app read_cbor erase]. reflexivity.
Qed.
Lemma from_cbor_back v : fits 127 v -> held (List.length (cbor v)) -> from_cbor (cbor v) = Some (erase v).
Proof.
  intros Hf Hh. unfold from_cbor. rewrite <- (app_nil_r (cbor v)) at 2. rewrite (cbor_back v 127 _ [] Hf Hh) by lia. reflexivity.
Qed.
