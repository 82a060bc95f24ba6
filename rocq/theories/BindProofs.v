(** * BindProofs: the XOR of digests as a linear map. *)
From Coq Require Import Permutation ListDec.
From Verif Require Import Base Base64 Codes NumFmt Types KeyConf Spec SpecBind LogTheorems SigProofs.
Local Open Scope nat_scope.

Lemma xor_bytes_zero_r a : xor_bytes a (repeat x00 (List.length a)) = a.
Proof.
  induction a as [|x a IH]; [reflexivity|]. cbn. rewrite IH. f_equal.
  apply b2n_inj. rewrite b2n_xor. change (b2n x00) with 0%N. apply N.lxor_0_r.
Qed.
Lemma xor_bytes_nil a : xor_bytes a a = repeat x00 (List.length a).
Proof.
  induction a as [|x a IH]; [reflexivity|]. cbn. rewrite IH. f_equal.
  apply b2n_inj. rewrite b2n_xor. change (b2n x00) with 0%N. apply N.lxor_nilpotent.
Qed.

(** Masks *)
Fixpoint sel {A} (m : list bool) (l : list A) : list A :=
  match m, l with
  | b :: m', x :: l' => if b then x :: sel m' l' else sel m' l'
  | _, _ => []
  end.
Fixpoint masks (k : nat) : list (list bool) :=
  match k with 0 => [[]] | S k => map (cons true) (masks k) ++ map (cons false) (masks k) end.
Lemma masks_len k : List.length (masks k) = 2 ^ k.
Proof. induction k as [|k IH]; [reflexivity|]. cbn [masks Nat.pow]. rewrite app_length, !map_length, IH. lia. Qed.
Lemma masks_in k m : In m (masks k) <-> List.length m = k.
Proof.
  revert m. induction k as [|k IH]; intros m.
  - cbn. destruct m; cbn; split; try tauto; try lia; intros [H|[]]; discriminate.
  - cbn [masks]. rewrite in_app_iff, !in_map_iff. split.
    + intros [(x & <- & H)|(x & <- & H)]; cbn; f_equal; now apply IH.
    + destruct m as [|[|] m]; cbn; intros H; [discriminate| |]; [left|right]; exists m; split; auto; apply IH; lia.
Qed.
Lemma nodup_app_intro {A} (a b : list A) : NoDup a -> NoDup b -> (forall x, In x a -> ~ In x b) -> NoDup (a ++ b).
Proof.
  induction 1 as [|x a Hx Ha IH]; intros Hb Hd; [exact Hb|]. cbn. constructor.
  - rewrite in_app_iff. intros [H|H]; [auto|]. exact (Hd x (or_introl eq_refl) H).
  - apply IH; [exact Hb|]. intros y Hy. apply Hd. now right.
Qed.
Lemma nodup_map_inj {A B} (f : A -> B) l : (forall x y, In x l -> In y l -> f x = f y -> x = y) -> NoDup l -> NoDup (map f l).
Proof.
  intros Hf Hl. induction Hl as [|x l Hx Hl IH]; [constructor|]. cbn. constructor.
  - rewrite in_map_iff. intros (y & He & Hy). apply Hx. rewrite (Hf x y); [exact Hy|now left|now right|congruence].
  - apply IH. intros a b Ha Hb. apply Hf; now right.
Qed.
Lemma masks_nodup k : NoDup (masks k).
Proof.
  induction k as [|k IH]; [repeat constructor; auto|]. cbn [masks]. apply nodup_app_intro.
  - apply nodup_map_inj; [|exact IH]. intros x y _ _ H. now injection H.
  - apply nodup_map_inj; [|exact IH]. intros x y _ _ H. now injection H.
  - intros x Hx Hy. apply in_map_iff in Hx as (a & <- & _). apply in_map_iff in Hy as (b & H & _). discriminate.
Qed.
Definition all_byte : list byte := map (fun i => n2b (N.of_nat i)) (seq 0 256).
Lemma all_byte_in b : In b all_byte.
Proof.
  unfold all_byte. apply in_map_iff. exists (N.to_nat (b2n b)). split; [now rewrite N2Nat.id, n2b_b2n|].
  apply in_seq. pose proof (b2n_lt b). lia.
Qed.
Fixpoint all_bytes (n : nat) : list bytes :=
  match n with 0 => [[]] | S n => flat_map (fun b => map (cons b) (all_bytes n)) all_byte end.
Lemma all_bytes_in n l : List.length l = n -> In l (all_bytes n).
Proof.
  revert l. induction n as [|n IH]; intros l H; [destruct l; [now left|discriminate]|].
  destruct l as [|b l]; [discriminate|]. cbn [all_bytes]. apply in_flat_map. exists b. split; [apply all_byte_in|].
  apply in_map. apply IH. now injection H.
Qed.
Lemma flat_map_len {A B} (f : A -> list B) k l : (forall x, List.length (f x) = k) -> List.length (flat_map f l) = List.length l * k.
Proof. intros H. induction l as [|x l IH]; [reflexivity|]. cbn. rewrite app_length, IH, H. reflexivity. Qed.
Lemma all_byte_len : List.length all_byte = 256.
Proof. unfold all_byte. now rewrite map_length, seq_length. Qed.
Lemma all_bytes_len n : List.length (all_bytes n) = 256 ^ n.
Proof.
  induction n as [|n IH]; [reflexivity|]. cbn [all_bytes]. rewrite (flat_map_len _ (256 ^ n)).
  - rewrite all_byte_len. symmetry. apply Nat.pow_succ_r'.
  - intros x. now rewrite map_length.
Qed.
Lemma pow_bits n : 2 ^ (8 * n) = 256 ^ n.
Proof. rewrite Nat.pow_mul_r. reflexivity. Qed.

Lemma sel_incl {A} m (l : list A) : incl (sel m l) l.
Proof.
  revert m. induction l as [|x l IH]; intros [|b m]; cbn; try apply incl_nil_l.
  destruct b; [|now apply incl_tl]. intros y [H|H]; [now left|right; now apply IH in H].
Qed.
Lemma sel_nodup {A} m (l : list A) : NoDup l -> NoDup (sel m l).
Proof.
  intros H. revert m. induction H as [|x l Hx Hl IH]; intros [|b m]; cbn; try constructor.
  destruct b; [|apply IH]. constructor; [|apply IH]. intros Hi. apply Hx. now apply sel_incl in Hi.
Qed.
Lemma sel_map {A B} (f : A -> B) m l : sel m (map f l) = map f (sel m l).
Proof. revert m. induction l as [|x l IH]; intros [|b m]; cbn; auto. destruct b; cbn; now rewrite IH. Qed.
Fixpoint xmask (a b : list bool) : list bool :=
  match a, b with x :: a, y :: b => xorb x y :: xmask a b | _, _ => [] end.
Lemma sel_xmask_nil {A} a b (l : list A) :
  List.length a = List.length l -> List.length b = List.length l -> sel (xmask a b) l = [] -> a = b.
Proof.
  revert a b. induction l as [|x l IH]; intros [|p a] [|q b] Ha Hb H; try discriminate; auto.
  cbn in *. destruct p, q; cbn in H; try discriminate; f_equal; apply IH; auto.
Qed.
Lemma sel_same {A} a b (l : list A) :
  NoDup l -> List.length a = List.length l -> List.length b = List.length l ->
  (forall x, In x (sel a l) <-> In x (sel b l)) -> a = b.
Proof.
  intros Hn. revert a b. induction Hn as [|x l Hx Hl IH]; intros [|p a] [|q b] Ha Hb H; try discriminate; auto.
  cbn in Ha, Hb.
  assert (Hs : forall m, ~ In x (sel m l)) by (intros m Hi; apply Hx; now apply sel_incl in Hi).
  cbn in H. destruct p, q; cbn in H.
  - f_equal. apply IH; try lia. intros y. specialize (H y). split; intros Hy.
    + destruct (proj1 H (or_intror Hy)) as [->|]; auto. now apply Hs in Hy.
    + destruct (proj2 H (or_intror Hy)) as [->|]; auto. now apply Hs in Hy.
  - exfalso. apply (Hs b), H. now left.
  - exfalso. apply (Hs a), H. now left.
  - f_equal. apply IH; try lia. exact H.
Qed.

Section Lin.
  Context (E : Env) (d : SelfAddressing) (n : nat) (Hn : digest_size E d n).
  Notation X := (combined E d n).

  Lemma X_nil : X [] = repeat x00 n. Proof. reflexivity. Qed.
  Lemma X_cons x l : X (x :: l) = xor_bytes (X l) (e_digest E d x).
  Proof. unfold combined. cbn [map]. apply xor_all_cons. Qed.
  Lemma X_len l : List.length (X l) = n.
  Proof.
    unfold combined. apply xor_all_len; [apply repeat_length|]. apply Forall_forall. intros y Hy.
    apply in_map_iff in Hy as (t & <- & _). apply Hn.
  Qed.
  Lemma X_app a b : X (a ++ b) = xor_bytes (X a) (X b).
  Proof.
    induction a as [|x a IH]; cbn [app].
    - rewrite X_nil, xor_bytes_comm. pose proof (xor_bytes_zero_r (X b)) as Z. rewrite X_len in Z. now rewrite Z.
    - rewrite !X_cons, IH, !xor_bytes_assoc. f_equal. apply xor_bytes_comm.
  Qed.
  Lemma X_perm a b : Permutation a b -> X a = X b.
  Proof. intros H. unfold combined. apply xor_all_perm. now apply Permutation_map. Qed.
  Lemma X_start t l : xor_all (e_digest E d t) (map (e_digest E d) l) = X (t :: l).
  Proof.
    rewrite X_cons. unfold combined. induction l as [|x l IH].
    - cbn. rewrite xor_bytes_comm. pose proof (xor_bytes_zero_r (e_digest E d t)) as Z. rewrite Hn in Z. now rewrite Z.
    - cbn [map]. rewrite !xor_all_cons, IH, !xor_bytes_assoc. f_equal. apply xor_bytes_comm.
  Qed.
  Lemma X_eq_app a b : X a = X b -> X (a ++ b) = repeat x00 n.
  Proof. intros H. rewrite X_app, H, xor_bytes_nil, X_len. reflexivity. Qed.
  Lemma X_app_inv_l a b c : X (a ++ b) = X (a ++ c) -> X b = X c.
  Proof. rewrite !X_app. apply xor_bytes_inj_r; now rewrite !X_len. Qed.

  Lemma filter_split {A} (f : A -> bool) l : Permutation l (filter f l ++ filter (fun x => negb (f x)) l).
  Proof.
    induction l as [|x l IH]; [constructor|]. cbn. destruct (f x); cbn; [now constructor|].
    apply Permutation_cons_app. exact IH.
  Qed.
  Definition mem (l : list bytes) (x : bytes) : bool := if in_dec bytes_eq_dec x l then true else false.
  Lemma mem_in l x : mem l x = true <-> In x l.
  Proof. unfold mem. destruct (in_dec bytes_eq_dec x l); split; auto; discriminate. Qed.

  (** Equal combinations of duplicate-free lists from an independent set: the same elements. *)
  Lemma combined_inj texts a b :
    independent E d n texts -> NoDup a -> NoDup b -> incl a texts -> incl b texts -> X a = X b -> Permutation a b.
  Proof.
    intros Hi Ha Hb Ia Ib H.
    set (a1 := filter (mem b) a). set (a2 := filter (fun x => negb (mem b x)) a).
    set (b1 := filter (mem a) b). set (b2 := filter (fun x => negb (mem a x)) b).
    pose proof (filter_split (mem b) a) as Pa. fold a1 a2 in Pa.
    pose proof (filter_split (mem a) b) as Pb. fold b1 b2 in Pb.
    assert (Pc : Permutation a1 b1).
    { apply NoDup_Permutation; [now apply NoDup_filter..|]. intros x. unfold a1, b1. rewrite !filter_In, !mem_in. tauto. }
    assert (Hz : X (a2 ++ b2) = repeat x00 n).
    { apply X_eq_app. apply (X_app_inv_l a1). rewrite <- (X_perm _ _ Pa), H, (X_perm _ _ Pb).
      apply X_perm. apply Permutation_app_tail. now symmetry. }
    assert (Hnil : a2 ++ b2 = []).
    { apply Hi; [| |exact Hz].
      - apply nodup_app_intro; [now apply NoDup_filter..|]. intros x Hx Hy. unfold a2, b2 in *.
        rewrite filter_In in Hx, Hy. destruct Hx as (Hx & Hx'), Hy as (Hy & _).
        apply mem_in in Hy. rewrite Hy in Hx'. discriminate.
      - intros x Hx. apply in_app_iff in Hx as [Hx|Hx]; apply filter_In in Hx as (Hx & _); auto. }
    apply app_eq_nil in Hnil as (Za & Zb). rewrite Pa, Pb, Za, Zb, !app_nil_r. exact Pc.
  Qed.

  Lemma sel_lin a b l :
    List.length a = List.length l -> List.length b = List.length l ->
    X (sel (xmask a b) l) = xor_bytes (X (sel a l)) (X (sel b l)).
  Proof.
    revert a b. induction l as [|x l IH]; intros [|p a] [|q b] Ha Hb; try discriminate.
    - cbn [sel xmask]. rewrite X_nil, xor_bytes_nil, repeat_length. reflexivity.
    - cbn in Ha, Hb. cbn [sel xmask]. pose proof (IH a b ltac:(lia) ltac:(lia)) as I.
      destruct p, q; cbn [xorb]; rewrite ?X_cons, ?I; auto.
      + rewrite xor_bytes_assoc. rewrite (xor_bytes_comm (X (sel b l))). rewrite <- (xor_bytes_assoc (e_digest E d x)).
        rewrite xor_bytes_nil, Hn. rewrite (xor_bytes_comm (repeat _ _)).
        pose proof (xor_bytes_zero_r (X (sel b l))) as Z. rewrite X_len in Z. now rewrite Z.
      + rewrite !xor_bytes_assoc. f_equal. apply xor_bytes_comm.
      + rewrite !xor_bytes_assoc. reflexivity.
  Qed.

  (** [8 n] independent texts reach every value. *)
  Lemma span pool v :
    NoDup pool -> List.length pool = 8 * n -> independent E d n pool -> List.length v = n ->
    exists m, List.length m = List.length pool /\ X (sel m pool) = v.
  Proof.
    intros Hd Hl Hi Hv. set (vals := map (fun m => X (sel m pool)) (masks (List.length pool))).
    assert (Hnd : NoDup vals).
    { apply nodup_map_inj; [|apply masks_nodup]. intros a b Ha Hb He. apply masks_in in Ha, Hb.
      apply (sel_xmask_nil a b pool); auto. apply Hi; [now apply sel_nodup|apply sel_incl|].
      rewrite sel_lin by auto. rewrite He, xor_bytes_nil, X_len. reflexivity. }
    assert (Hincl : incl (all_bytes n) vals).
    { apply NoDup_length_incl; [exact Hnd| |].
      - unfold vals. rewrite map_length, masks_len, Hl, pow_bits, all_bytes_len. apply Nat.le_refl.
      - intros x Hx. apply in_map_iff in Hx as (m & <- & _). apply all_bytes_in, X_len. }
    specialize (Hincl v (all_bytes_in n v Hv)). apply in_map_iff in Hincl as (m & He & Hm).
    exists m. split; [now apply masks_in|exact He].
  Qed.

  (** More than [8 n] texts: two different choices agree. *)
  Lemma dup_or_nodup {A B} (f : A -> B) (dec : forall x y : B, {x = y} + {x <> y}) l :
    NoDup l -> NoDup (map f l) \/ exists x y, In x l /\ In y l /\ x <> y /\ f x = f y.
  Proof.
    induction 1 as [|x l Hx Hl IH]; [left; constructor|].
    destruct IH as [IH|(a & b & Ha & Hb & Hab & Hf)]; [|right; exists a, b; split; [now right|]; split; [now right|]; auto].
    cbn. destruct (in_dec dec (f x) (map f l)) as [Hi|Hi]; [|left; now constructor].
    right. apply in_map_iff in Hi as (y & Hy & Hin). exists x, y. split; [now left|]. split; [now right|].
    split; [|now symmetry]. intros ->. contradiction.
  Qed.
  Lemma pigeon pool :
    NoDup pool -> 8 * n < List.length pool ->
    exists a b, List.length a = List.length pool /\ List.length b = List.length pool /\ a <> b
                /\ X (sel a pool) = X (sel b pool).
  Proof.
    intros Hd Hl.
    destruct (dup_or_nodup (fun m => X (sel m pool)) bytes_eq_dec _ (masks_nodup (List.length pool)))
      as [Hnd|(a & b & Ha & Hb & Hab & He)].
    - exfalso. assert (Hle : 2 ^ List.length pool <= 2 ^ (8 * n)).
      { rewrite pow_bits, <- masks_len, <- all_bytes_len.
        rewrite <- (map_length (fun m => X (sel m pool)) (masks (List.length pool))).
        apply NoDup_incl_length; [exact Hnd|]. intros x Hx. apply in_map_iff in Hx as (m & <- & _). apply all_bytes_in, X_len. }
      apply Nat.pow_le_mono_r_iff in Hle; lia.
    - apply masks_in in Ha, Hb. exists a, b. auto.
  Qed.

  Lemma commitment_eq t ks : nxt_commitment E t ks d = mkSAP d (X (threshold_str t :: map bp_str ks)).
  Proof. rewrite nxt_commitment_xor, <- X_start, map_map. reflexivity. Qed.
End Lin.

(** Deciding independence by trying every choice (used by the examples). *)
Definition independent_b (E : Env) (d : SelfAddressing) (n : nat) (texts : list bytes) : bool :=
  let u := nodup bytes_eq_dec texts in
  forallb (fun m => match sel m u with [] => true | _ => negb (bytes_eqb (combined E d n (sel m u)) (repeat x00 n)) end)
          (masks (List.length u)).
Lemma sel_mem l u : sel (map (mem l) u) u = filter (mem l) u.
Proof. induction u as [|x u IH]; [reflexivity|]. cbn. rewrite IH. reflexivity. Qed.
Lemma independent_by E d n texts : independent_b E d n texts = true -> independent E d n texts.
Proof.
  unfold independent_b. cbv zeta. set (u := nodup bytes_eq_dec texts). intros H l Hl Hi Hz.
  rewrite forallb_forall in H. specialize (H (map (mem l) u)).
  assert (P : Permutation l (sel (map (mem l) u) u)).
  { rewrite sel_mem. apply NoDup_Permutation; [exact Hl|apply NoDup_filter, NoDup_nodup|].
    intros x. rewrite filter_In, mem_in. unfold u. rewrite nodup_In. specialize (Hi x). tauto. }
  rewrite (X_perm E d n _ _ P) in Hz.
  destruct (sel (map (mem l) u) u) as [|x r]; [now apply Permutation_nil, Permutation_sym|].
  rewrite Hz in H. exfalso. assert (Hb : bytes_eqb (repeat x00 n) (repeat x00 n) = true) by now apply bytes_eqb_eq.
  rewrite Hb in H. discriminate (H (proj2 (masks_in _ _) (map_length _ _))).
Qed.
