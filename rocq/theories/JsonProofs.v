(** * JsonProofs: reading back what [serde_json] wrote. *)
From Coq Require Import ZifyBool ZifyN ZifyNat.
From Verif Require Import Base Base64 Base64Proofs Codes NumFmt NumProofs Types SpecCodec CodecProofs KeyConf Version Cesr CesrProofs Message Keri Json JsonRead.

Section SvalInd.
  Context (P : sval -> Prop)
    (Hs : forall s, P (VStr s))
    (Hq : forall l, Forall P l -> P (VSeq l))
    (Hm : forall l, Forall (fun kv => P (snd kv)) l -> P (VMap l))
    (Hr : forall l, Forall (fun kv => P (snd kv)) l -> P (VStruct l)) (Hn : P VNull).
  Fixpoint sval_ind' (v : sval) : P v :=
    match v with
    | VStr s => Hs s
    | VSeq l => Hq l ((fix go l := match l return Forall P l with [] => Forall_nil _ | a :: l => Forall_cons _ (sval_ind' a) (go l) end) l)
    | VMap l => Hm l ((fix go l := match l return Forall (fun kv => P (snd kv)) l with [] => Forall_nil _ | a :: l => Forall_cons _ (sval_ind' (snd a)) (go l) end) l)
    | VStruct l => Hr l ((fix go l := match l return Forall (fun kv => P (snd kv)) l with [] => Forall_nil _ | a :: l => Forall_cons _ (sval_ind' (snd a)) (go l) end) l)
    | VNull => Hn
    end.
End SvalInd.

(** the JSON value written: maps and structs are both objects *)
Fixpoint erase (v : sval) : jval :=
  match v with
  | VStr s => JStr s
  | VSeq l => JArr (map erase l)
  | VMap l | VStruct l => JObj (map (fun kv => (fst kv, erase (snd kv))) l)
  | VNull => JNull
  end.
(** nesting at most [n] containers, every string a Rust string *)
Fixpoint fits (n : nat) (v : sval) {struct v} : Prop :=
  match v with
  | VStr s => valid_utf8 s = true
  | VSeq l => match n with O => False | S n => (fix all l := match l with [] => True | a :: l => fits n a /\ all l end) l end
  | VMap l | VStruct l =>
      match n with
      | O => False
      | S n => (fix all l := match l with [] => True | (k, a) :: l => (valid_utf8 k = true /\ fits n a) /\ all l end) l
      end
  | VNull => True
  end.
Lemma fits_seq n l : fits (S n) (VSeq l) <-> Forall (fits n) l.
Proof.
  cbn [fits]. induction l as [|a l IH]; [split; constructor|]. rewrite IH. split; [intros [? ?]; now constructor|inversion 1; now split].
Qed.
Definition fits_kv n (kv : bytes * sval) : Prop := valid_utf8 (fst kv) = true /\ fits n (snd kv).
Lemma fits_map n l : fits (S n) (VMap l) <-> Forall (fits_kv n) l.
Proof.
  cbn [fits]. induction l as [|[k a] l IH]; [split; constructor|]. rewrite IH. split; [intros [? ?]; now constructor|inversion 1; now split].
Qed.
Lemma fits_struct n l : fits (S n) (VStruct l) <-> Forall (fits_kv n) l.
Proof. exact (fits_map n l). Qed.
Lemma fits_S n v : fits n v -> fits (S n) v.
Proof.
  revert n; induction v as [s|l IH|l IH|l IH|] using sval_ind'; intros n; [| | | |trivial].
  - trivial.
  - destruct n; [contradiction|]. rewrite !fits_seq. intros H. rewrite Forall_forall in *. intros x Hx. apply IH; auto.
  - destruct n; [contradiction|]. rewrite !fits_map. intros H. rewrite Forall_forall in *. intros x Hx. destruct (H x Hx). split; [assumption|apply IH; auto].
  - destruct n; [contradiction|]. rewrite !fits_struct. intros H. rewrite Forall_forall in *. intros x Hx. destruct (H x Hx). split; [assumption|apply IH; auto].
Qed.

(** ** Strings *)
Lemma esc_cases c :
  (esc c = [c] /\ c_is c 34 = false /\ c_is c 92 = false /\ (b2n c <? 32)%N = false)
  \/ (exists t, esc c = x5c :: t /\ forall r, read_escape (t ++ r) = Some ([c], r)).
Proof.
  destruct c; first [left; vm_compute; repeat split; reflexivity | right; eexists; split; [vm_compute; reflexivity|intros r; reflexivity]].
Qed.
Lemma esc_length c : 1 <= List.length (esc c).
Proof. destruct (esc_cases c) as [(-> & _)|(t & -> & _)]; cbn; lia. Qed.
Lemma read_chars_esc s : forall f r, List.length (flat_map esc s) < f ->
  read_chars f (flat_map esc s ++ x22 :: r) = Some (s, r).
Proof.
  induction s as [|c s IH]; intros f r Hf.
  - destruct f; [lia|]. reflexivity.
  - cbn [flat_map] in *. rewrite app_length in Hf. pose proof (esc_length c) as Hl.
    destruct f as [|f]; [lia|]. destruct (esc_cases c) as [(E & E1 & E2 & E3)|(t & E & Ht)]; rewrite E in *.
    + cbn [app read_chars]. rewrite E1, E2, E3. rewrite IH by (cbn in Hf; lia). reflexivity.
    + cbn [app read_chars]. change (c_is x5c 34) with false. change (c_is x5c 92) with true. cbn [andb].
      rewrite <- app_assoc, Ht. rewrite IH by (cbn in Hf; lia). reflexivity.
Qed.
Lemma read_string_esc s r : valid_utf8 s = true -> read_string (flat_map esc s ++ x22 :: r) = Some (s, r).
Proof.
  intros H. unfold read_string. rewrite read_chars_esc; [now rewrite H|]. rewrite app_length. cbn. lia.
Qed.
Lemma quote_eq s r : quote s ++ r = x22 :: flat_map esc s ++ x22 :: r.
Proof. unfold quote. change (bstr """") with [x22]. cbn [app]. now rewrite <- app_assoc. Qed.

(** ** Values *)
Definition opens (c : byte) : Prop := c = x22 \/ c = x5b \/ c = x7b \/ c = x6e.
Lemma json_head v : exists c t, json v = c :: t /\ opens c.
Proof. unfold opens. destruct v; cbn [json]; unfold quote; cbn [app bstr list_byte_of_string]; eexists; eexists; (split; [reflexivity|]); tauto. Qed.
Lemma json_length v : 2 <= List.length (json v).
Proof. destruct v; cbn [json]; unfold quote; rewrite ?app_length; cbn; lia. Qed.
Lemma opens_ws c t : opens c -> skip_ws (c :: t) = c :: t.
Proof. intros [-> | [-> | [-> | ->]]]; reflexivity. Qed.
Lemma skip_json v r : skip_ws (json v ++ r) = json v ++ r.
Proof. destruct (json_head v) as (c & t & -> & H). cbn [app]. now apply opens_ws. Qed.

Definition member (kv : bytes * sval) : bytes := quote (fst kv) ++ bstr ":" ++ json (snd kv).
Lemma json_obj l : json (VMap l) = x7b :: join (bstr ",") (map member l) ++ bstr "}".
Proof. reflexivity. Qed.
Lemma json_struct l : json (VStruct l) = json (VMap l).
Proof. reflexivity. Qed.
Lemma json_seq l : json (VSeq l) = x5b :: join (bstr ",") (map json l) ++ bstr "]".
Proof. reflexivity. Qed.

Definition reads_at (v : sval) : Prop := forall n f r, fits n v -> List.length (json v) <= f ->
  read_value f (S n) (json v ++ r) = Some (erase v, r).

Lemma read_elems_list l : Forall reads_at l ->
  forall n f b r, Forall (fits n) l ->
  let body := join (bstr ",") (map json l) in
  List.length body + 1 <= f ->
  (b = true -> read_elems f (S n) true (body ++ x5d :: r) = Some (map erase l, r))
  /\ (b = false -> l <> [] -> read_elems (S f) (S n) false (x2c :: body ++ x5d :: r) = Some (map erase l, r)).
Proof.
  induction l as [|v l IH]; intros Hr n f b r Hf body Hl.
  - split; [|congruence]. intros _. subst body. cbn [map join app] in *. destruct f; [lia|]. reflexivity.
  - inversion Hr as [|? ? Hv Hr']; subst. inversion Hf as [|? ? Hfv Hf']; subst.
    assert (Tail : forall g t, body = json v ++ t -> List.length t + 1 <= g ->
              read_elems g (S n) false (t ++ x5d :: r) = Some (map erase l, r)).
    { intros g t Ht Hg. subst body. cbn [map] in Ht. destruct l as [|w l].
      - cbn [map join] in Ht. rewrite <- (app_nil_r (json v)) in Ht at 1. apply app_inv_head in Ht. subst t.
        cbn [app]. destruct g; [cbn in Hg; lia|]. reflexivity.
      - assert (t = x2c :: join (bstr ",") (map json (w :: l))).
        { cbn [map] in Ht. change (join (bstr ",") (json v :: json w :: map json l)) with (json v ++ bstr "," ++ join (bstr ",") (json w :: map json l)) in Ht.
          apply app_inv_head in Ht. symmetry. exact Ht. }
        subst t. cbn [List.length] in Hg. destruct g as [|g]; [lia|].
        destruct (IH Hr' n g false r Hf') as [_ H2]; [lia|]. cbn [app]. now apply H2. }
    assert (Eb : exists t, body = json v ++ t).
    { subst body. cbn [map]. destruct l; cbn [map join]; [exists []; now rewrite app_nil_r|eexists; reflexivity]. }
    destruct Eb as [t Eb]. rewrite Eb in *. rewrite app_length in Hl. pose proof (json_length v) as Hjl.
    destruct (json_head v) as (c & u & Ec & Ho).
    assert (Hc : c_is c 93 = false) by (destruct Ho as [-> | [-> | [-> | ->]]]; reflexivity).
    rewrite <- app_assoc.
    assert (Val : forall g, List.length (json v) + List.length t <= g ->
       match read_value g (S n) (json v ++ t ++ x5d :: r) with
       | Some (v0, r0) => match read_elems g (S n) false r0 with Some (l0, r1) => Some (v0 :: l0, r1) | None => None end
       | None => None end = Some (map erase (v :: l), r)).
    { intros g Hg. rewrite (Hv n g (t ++ x5d :: r)) by (assumption || lia). rewrite (Tail g t); [reflexivity|reflexivity|lia]. }
    split; intros _.
    + destruct f as [|f]; [lia|]. cbn [read_elems]. rewrite skip_json. specialize (Val f ltac:(lia)).
      rewrite Ec in *. cbn [app] in *. rewrite Hc. cbn [negb andb]. exact Val.
    + intros _. cbn [read_elems]. change (skip_ws (x2c :: json v ++ t ++ x5d :: r)) with (x2c :: json v ++ t ++ x5d :: r).
      cbv iota beta. change (c_is x2c 93) with false. change (c_is x2c 44) with true. cbv iota. rewrite skip_json.
      specialize (Val f ltac:(lia)). rewrite Ec in *. cbn [app] in *. rewrite Hc. cbn [negb andb]. exact Val.
Qed.

Lemma member_head kv : exists t, member kv = x22 :: t.
Proof. unfold member, quote. cbn [app bstr list_byte_of_string]. eexists. reflexivity. Qed.
Lemma member_length kv : List.length (json (snd kv)) + 3 <= List.length (member kv).
Proof. unfold member, quote. rewrite !app_length. cbn. lia. Qed.
Lemma member_eq kv r : member kv ++ r = x22 :: flat_map esc (fst kv) ++ x22 :: x3a :: json (snd kv) ++ r.
Proof. unfold member. rewrite <- app_assoc, quote_eq. reflexivity. Qed.

Definition erase_kv (kv : bytes * sval) : bytes * jval := (fst kv, erase (snd kv)).
Lemma read_members_list l : Forall (fun kv => reads_at (snd kv)) l ->
  forall n f b r, Forall (fits_kv n) l ->
  let body := join (bstr ",") (map member l) in
  List.length body + 1 <= f ->
  (b = true -> read_members f (S n) true (body ++ x7d :: r) = Some (map erase_kv l, r))
  /\ (b = false -> l <> [] -> read_members (S f) (S n) false (x2c :: body ++ x7d :: r) = Some (map erase_kv l, r)).
Proof.
  induction l as [|kv l IH]; intros Hr n f b r Hf body Hl.
  - split; [|congruence]. intros _. subst body. cbn [map join app] in *. destruct f; [lia|]. reflexivity.
  - inversion Hr as [|? ? Hv Hr']; subst. inversion Hf as [|? ? [Hk Hfv] Hf']; subst.
    assert (Tail : forall g t, body = member kv ++ t -> List.length t + 1 <= g ->
              read_members g (S n) false (t ++ x7d :: r) = Some (map erase_kv l, r)).
    { intros g t Ht Hg. subst body. cbn [map] in Ht. destruct l as [|w l].
      - cbn [map join] in Ht. rewrite <- (app_nil_r (member kv)) in Ht at 1. apply app_inv_head in Ht. subst t.
        cbn [app]. destruct g; [cbn in Hg; lia|]. reflexivity.
      - assert (t = x2c :: join (bstr ",") (map member (w :: l))).
        { cbn [map] in Ht. change (join (bstr ",") (member kv :: member w :: map member l)) with (member kv ++ bstr "," ++ join (bstr ",") (member w :: map member l)) in Ht.
          apply app_inv_head in Ht. symmetry. exact Ht. }
        subst t. cbn [List.length] in Hg. destruct g as [|g]; [lia|].
        destruct (IH Hr' n g false r Hf') as [_ H2]; [lia|]. cbn [app]. now apply H2. }
    assert (Eb : exists t, body = member kv ++ t).
    { subst body. cbn [map]. destruct l; cbn [map join]; [exists []; now rewrite app_nil_r|eexists; reflexivity]. }
    destruct Eb as [t Eb]. rewrite Eb in *. rewrite app_length in Hl. pose proof (member_length kv) as Hml.
    rewrite <- app_assoc, member_eq.
    assert (Val : forall g, List.length (member kv) + List.length t <= g ->
       match read_string (flat_map esc (fst kv) ++ x22 :: x3a :: json (snd kv) ++ t ++ x7d :: r) with
       | Some (k, r) =>
           match skip_ws r with
           | e :: r =>
               if c_is e 58 then
                 match read_value g (S n) r with
                 | Some (v, r) =>
                     match read_members g (S n) false r with Some (l, r) => Some ((k, v) :: l, r) | None => None end
                 | None => None
                 end
               else None
           | [] => None
           end
       | None => None
       end = Some (map erase_kv (kv :: l), r)).
    { intros g Hg. rewrite read_string_esc by assumption.
      change (skip_ws (x3a :: json (snd kv) ++ t ++ x7d :: r)) with (x3a :: json (snd kv) ++ t ++ x7d :: r).
      cbv iota beta. change (c_is x3a 58) with true. cbv iota.
      rewrite (Hv n g (t ++ x7d :: r)) by (assumption || lia). rewrite (Tail g t); [reflexivity|reflexivity|lia]. }
    split; intros _.
    + destruct f as [|f]; [lia|]. cbn [read_members].
      change (skip_ws (x22 :: ?a)) with (x22 :: a). cbv iota beta.
      change (c_is x22 125) with false. change (c_is x22 34) with true. cbv iota. apply Val. lia.
    + intros _. cbn [read_members].
      change (skip_ws (x2c :: ?a)) with (x2c :: a). cbv iota beta.
      change (c_is x2c 125) with false. change (c_is x2c 44) with true. cbv iota.
      change (skip_ws (x22 :: ?a)) with (x22 :: a). cbv iota beta.
      change (c_is x22 34) with true. cbv iota. apply Val. lia.
Qed.

Theorem read_json v : reads_at v.
Proof.
  induction v as [s|l IH|l IH|l IH|] using sval_ind'; intros n f r Hf Hl;
    [| | | |cbn [json] in *; destruct f as [|f]; [cbn in Hl; lia|reflexivity]].
  - cbn [json erase fits] in *. rewrite quote_eq. pose proof (json_length (VStr s)) as H. cbn [json] in H.
    destruct f as [|f]; [lia|]. cbn [read_value]. change (skip_ws (x22 :: ?a)) with (x22 :: a). cbv iota beta.
    change (c_is x22 34) with true. cbv iota. now rewrite read_string_esc.
  - destruct n as [|n]; [contradiction|]. apply fits_seq in Hf. rewrite json_seq in *. cbn [List.length] in Hl.
    rewrite app_length in Hl. change (List.length (bstr "]")) with 1 in Hl. destruct f as [|f]; [lia|].
    cbn [app read_value]. change (skip_ws (x5b :: ?a)) with (x5b :: a). cbv iota beta.
    change (c_is x5b 34) with false. change (c_is x5b 91) with true. cbv iota.
    rewrite <- app_assoc. change (bstr "]" ++ r) with (x5d :: r).
    destruct (read_elems_list l IH n f true r Hf) as [H _]; [lia|]. rewrite H by reflexivity. reflexivity.
  - destruct n as [|n]; [contradiction|]. apply fits_map in Hf. rewrite json_obj in *. cbn [List.length] in Hl.
    rewrite app_length in Hl. change (List.length (bstr "}")) with 1 in Hl. destruct f as [|f]; [lia|].
    cbn [app read_value]. change (skip_ws (x7b :: ?a)) with (x7b :: a). cbv iota beta.
    change (c_is x7b 34) with false. change (c_is x7b 91) with false. change (c_is x7b 123) with true. cbv iota.
    rewrite <- app_assoc. change (bstr "}" ++ r) with (x7d :: r).
    destruct (read_members_list l IH n f true r Hf) as [H _]; [lia|]. rewrite H by reflexivity. reflexivity.
  - destruct n as [|n]; [contradiction|]. apply fits_struct in Hf. rewrite json_struct, json_obj in *. cbn [List.length] in Hl.
    rewrite app_length in Hl. change (List.length (bstr "}")) with 1 in Hl. destruct f as [|f]; [lia|].
    cbn [app read_value]. change (skip_ws (x7b :: ?a)) with (x7b :: a). cbv iota beta.
    change (c_is x7b 34) with false. change (c_is x7b 91) with false. change (c_is x7b 123) with true. cbv iota.
    rewrite <- app_assoc. change (bstr "}" ++ r) with (x7d :: r).
    destruct (read_members_list l IH n f true r Hf) as [H _]; [lia|]. rewrite H by reflexivity. reflexivity.
Qed.
(** different values have different texts, and no text is the beginning of another *)
Theorem json_prefix_free n v1 v2 r1 r2 : fits n v1 -> fits n v2 -> json v1 ++ r1 = json v2 ++ r2 ->
  erase v1 = erase v2 /\ r1 = r2.
Proof.
  intros H1 H2 E. set (f := List.length (json v1) + List.length (json v2)).
  pose proof (read_json v1 n f r1 H1 ltac:(lia)) as A. pose proof (read_json v2 n f r2 H2 ltac:(lia)) as B.
  rewrite E in A. rewrite A in B. injection B as E1 E2. now split.
Qed.
