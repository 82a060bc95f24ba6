(** Attachments: alphabet, uniqueness, messages and truncation. *)
From Coq Require Import ZifyBool ZifyN ZifyNat.
From Verif Require Import Base Base64 Base64Proofs Codes NumFmt Types SpecCodec CodecProofs CodecProofs2 Cesr CesrProofs SpecCesr CesrProofs2 CesrProofs3 SpecCesr2 CesrProofs4 CesrProofs5 Message.
Ltac Zify.zify_post_hook ::= Z.div_mod_to_equations.

Lemma enc6_in n : In (enc6 n) alphabet.
Proof.
  unfold enc6. destruct (le_lt_dec (List.length alphabet) (N.to_nat n)) as [H|H].
  - rewrite nth_overflow by exact H. vm_compute. now left.
  - now apply nth_In.
Qed.
Lemma safe_app a b : url_safe a -> url_safe b -> url_safe (a ++ b).
Proof. intros. now apply Forall_app. Qed.
Lemma safe_encode l : url_safe (b64_encode l).
Proof. induction l as [| a | a b | a b c r IH] using list_ind3; cbn [b64_encode]; repeat (apply Forall_cons; [apply enc6_in|]); try apply Forall_nil; exact IH. Qed.
Lemma safe_digits n : url_safe (two_digits n).
Proof. unfold two_digits. repeat (apply Forall_cons; [apply enc6_in|]). apply Forall_nil. Qed.
Lemma safe_vm t : forallb (fun c => existsb (Byte.eqb c) alphabet) t = true -> url_safe t.
Proof.
  intros H. apply Forall_forall. intros c Hc. rewrite forallb_forall in H. apply H in Hc. apply existsb_exists in Hc as (x & Hx & E).
  apply Byte.byte_dec_bl in E. now subst.
Qed.
Lemma safe_prefix code d : url_safe code -> url_safe (prefix_str code d).
Proof. intros H. unfold prefix_str. destruct d as [|x d]; [apply Forall_nil|]. apply safe_app; [exact H|apply safe_encode]. Qed.
Lemma safe_bp p : url_safe (bp_str p).
Proof. apply safe_prefix, safe_vm. destruct (bp_code p); vm_compute; reflexivity. Qed.
Lemma safe_sap p : url_safe (sap_str p).
Proof. apply safe_prefix, safe_vm. destruct (sap_code p); vm_compute; reflexivity. Qed.
Lemma safe_ssp p : url_safe (ssp_str p).
Proof. apply safe_prefix, safe_vm. destruct (ssp_code p); vm_compute; reflexivity. Qed.
Lemma safe_sig p : url_safe (sig_text p).
Proof.
  unfold sig_text. apply safe_app; [|apply safe_encode]. destruct (ssp_code (asp_sig p)).
  - apply safe_app; [apply safe_vm; reflexivity|]. apply Forall_cons; [apply enc6_in|apply Forall_nil].
  - apply safe_app; [apply safe_vm; reflexivity|]. apply Forall_cons; [apply enc6_in|apply Forall_nil].
  - apply safe_app; [apply safe_vm; reflexivity|apply safe_digits].
Qed.
Lemma safe_group_of code n ts : url_safe (bstr code) -> Forall url_safe ts -> url_safe (group code n (List.concat ts)).
Proof.
  intros Hc H. unfold group. apply safe_app; [exact Hc|]. apply safe_app; [apply safe_digits|].
  induction H; [apply Forall_nil|]. cbn [List.concat]. now apply safe_app.
Qed.
Lemma safe_group {A} code (R : A -> bytes -> Prop) l t : url_safe (bstr code) -> (forall a t, R a t -> url_safe t) ->
  group_spelling code R l t -> url_safe t.
Proof.
  intros Hc HR (_ & ts & F & ->). apply safe_group_of; [exact Hc|]. clear -HR F. induction F; [apply Forall_nil|]. apply Forall_cons; eauto.
Qed.
Lemma safe_sn n t : sn_spelling n t -> url_safe t.
Proof. intros (_ & h & _ & ->). apply safe_app; [apply safe_vm; reflexivity|apply safe_encode]. Qed.
Lemma safe_digest n t : digest_spelling n t -> url_safe t.
Proof. intros (_ & ->). apply safe_sap. Qed.
Lemma safe_id n t : id_spelling n t -> url_safe t.
Proof. destruct n; cbn [id_spelling]; [intros (_ & ->); apply safe_bp|apply safe_digest|contradiction]. Qed.
Lemma safe_sigs l t : sigs_spelling l t -> url_safe t.
Proof. apply safe_group; [apply safe_vm; reflexivity|]. intros a u (_ & ->). apply safe_sig. Qed.
Lemma safe_seal e t : seal_spelling e t -> url_safe t.
Proof. intros (a & b & c & Ha & Hb & Hc & ->). apply safe_app; [eapply safe_id; eauto|]. apply safe_app; [eapply safe_sn; eauto|eapply safe_digest; eauto]. Qed.
Lemma safe_with {A} (R : A -> bytes -> Prop) : (forall a t, R a t -> url_safe t) -> forall x t, with_sigs R x t -> url_safe t.
Proof. intros H x t (a & b & Ha & Hb & ->). apply safe_app; [eauto|eapply safe_sigs; eauto]. Qed.
Lemma Forall2_right {A B} (P : B -> Prop) (l : list A) (ts : list B) : Forall2 (fun _ t => P t) l ts -> Forall P ts.
Proof. induction 1; auto. Qed.
Theorem spells_safe a : forall t, spells a t -> url_safe t.
Proof.
  induction a as [l|l|l|l|l|l IH] using attachment_ind'; intros t H; inversion H as [l' t' G|l' t' G|l' t' G|l' t' G|l' t' G|l' ts k Hk Hl F]; subst.
  - revert G. apply safe_group; [apply safe_vm; reflexivity|]. intros s u (a & b & Ha & Hb & ->). apply safe_app; [eapply safe_sn; eauto|eapply safe_digest; eauto].
  - now apply safe_sigs in G.
  - revert G. apply safe_group; [apply safe_vm; reflexivity|]. intros s u (_ & _ & ->). apply safe_app; [apply safe_bp|apply safe_ssp].
  - revert G. apply safe_group; [apply safe_vm; reflexivity|]. apply safe_with, safe_seal.
  - revert G. apply safe_group; [apply safe_vm; reflexivity|]. apply safe_with, safe_id.
  - apply safe_group_of; [apply safe_vm; reflexivity|]. clear -IH F. induction F; [apply Forall_nil|]. inversion IH; subst. apply Forall_cons; auto.
Qed.
Lemma safe_nopad t : url_safe t -> nopad t.
Proof.
  intros H Hin. unfold url_safe in H. rewrite Forall_forall in H. apply H in Hin.
  assert (E : existsb (Byte.eqb "="%byte) alphabet = true) by (apply existsb_exists; exists "="%byte; split; [exact Hin|reflexivity]).
  vm_compute in E. discriminate E.
Qed.
Theorem att_exact t r a : nopad t -> (attachment (t ++ r) = POk r a <-> spells a t).
Proof.
  intros Hn. split; [|apply att_complete]. intros H. apply att_sound in H as (u & E & S). apply app_inv_tail in E. subst u. now apply S.
Qed.

(** ** One text *)
Lemma F2_fun {A B} (R : A -> B -> Prop) l : (forall a t t', In a l -> R a t -> R a t' -> t = t') ->
  forall ts ts', Forall2 R l ts -> Forall2 R l ts' -> ts = ts'.
Proof.
  induction l as [|a l IH]; intros H ts ts' F F'; inversion F; inversion F'; subst; [reflexivity|]. f_equal.
  - eapply H; eauto. now left.
  - apply IH; auto. intros b t t' Hb. apply H. now right.
Qed.
Lemma group_fun {A} code (R : A -> bytes -> Prop) l : (forall a t t', In a l -> R a t -> R a t' -> t = t') ->
  forall t t', group_spelling code R l t -> group_spelling code R l t' -> t = t'.
Proof. intros H t t' (_ & ts & F & ->) (_ & ts' & F' & ->). do 2 f_equal. exact (F2_fun R l H ts ts' F F'). Qed.
Lemma sigs_fun l t t' : sigs_spelling l t -> sigs_spelling l t' -> t = t'.
Proof. apply group_fun. intros a u u' _ (_ & ->) (_ & ->). reflexivity. Qed.
Lemma id_fun i t t' : id_spelling i t -> id_spelling i t' -> t = t'.
Proof. destruct i; cbn [id_spelling]; [intros (_ & ->) (_ & ->)|intros (_ & ->) (_ & ->)|intros []]; reflexivity. Qed.
Theorem spells_fun a : numberless a -> forall t t', spells a t -> spells a t' -> t = t'.
Proof.
  induction a as [l|l|l|l|l|l IH] using attachment_ind'; intros Hn t u H H'.
  1: assert (K : forall x, spells (SealSourceCouplets l) x -> group_spelling "-G" source_spelling l x) by (intros x Hx; inversion Hx; assumption).
  2: assert (K : forall x, spells (AttachedSignatures l) x -> sigs_spelling l x) by (intros x Hx; inversion Hx; assumption).
  3: assert (K : forall x, spells (ReceiptCouplets l) x -> group_spelling "-C" couplet_spelling l x) by (intros x Hx; inversion Hx; assumption).
  4: assert (K : forall x, spells (SealSignaturesGroups l) x -> group_spelling "-F" (with_sigs seal_spelling) l x) by (intros x Hx; inversion Hx; assumption).
  5: assert (K : forall x, spells (LastEstSignaturesGroups l) x -> group_spelling "-H" (with_sigs id_spelling) l x) by (intros x Hx; inversion Hx; assumption).
  1-5: apply K in H; apply K in H'; clear K.
  - inversion Hn; subst. revert H H'. apply group_fun. intros a t' u' [].
  - eapply sigs_fun; eauto.
  - revert H H'. apply group_fun. intros a t' u' _ (_ & _ & ->) (_ & _ & ->). reflexivity.
  - inversion Hn; subst. revert H H'. apply group_fun. intros a t' u' [].
  - revert H H'. apply group_fun. intros [i s] t' u' _ (a & b & Ha & Hb & ->) (a' & b' & Ha' & Hb' & ->). cbn [fst snd] in *.
    f_equal; [eapply id_fun|eapply sigs_fun]; eauto.
  - inversion H as [| | | | |l' ts k Hk Hl F]; subst. inversion H' as [| | | | |l' ts' k' Hk' Hl' F']; subst. inversion Hn as [| | | | |l' Hn']; subst.
    assert (E : ts = ts'); [|subst ts'; f_equal; lia].
    apply (F2_fun spells l); [|exact F|exact F']. intros a t t' Ha. rewrite Forall_forall in IH, Hn'. now apply IH; [|apply Hn'].
Qed.
Lemma sn_many n (h h' : bytes) : sn_fits n -> List.length h = 8 -> List.length h' = 8 -> h <> h' ->
  exists t t', sn_spelling n t /\ sn_spelling n t' /\ t <> t'.
Proof.
  intros Hn L L' D. exists (bstr "0A" ++ b64_encode (h ++ be_bytes 8 n)), (bstr "0A" ++ b64_encode (h' ++ be_bytes 8 n)).
  split; [split; [exact Hn|now exists h]|]. split; [split; [exact Hn|now exists h']|].
  intros E. apply app_inv_head in E. apply encode_inj, app_inv_tail in E. congruence.
Qed.

(** ** Truncation *)
Lemma firstn_prefix {A} (u v : list A) n : n <= List.length u -> firstn n (u ++ v) = firstn n u /\ skipn n (u ++ v) = skipn n u ++ v.
Proof.
  intros H. rewrite firstn_app, skipn_app. replace (n - List.length u) with 0 by lia. cbn [firstn skipn]. now rewrite app_nil_r.
Qed.
(** a parser that is not undone by more input, and that fails softly *)
Definition extends {A} (f : bytes -> pres A) : Prop := forall u v r a, f u = POk r a -> f (u ++ v) = POk (r ++ v) a.
Definition soft {A} (f : bytes -> pres A) : Prop := forall u, f u = PErr \/ exists r a, f u = POk r a.
Lemma take_extends n : extends (take n).
Proof.
  intros u v r a H. apply take_inv in H as [-> L]. rewrite <- app_assoc. now apply take_app.
Qed.
Lemma take_soft n : soft (take n).
Proof. intros u. destruct (take_kind n u) as [(r & a & ->)| ->]; [right; eauto|now left]. Qed.
Lemma bnd_extends {A B} (x y : pres A) (f : bytes -> A -> pres B) v r b :
  (forall r a, x = POk r a -> y = POk (r ++ v) a) -> (forall r' a, x = POk r' a -> f r' a = POk r b -> f (r' ++ v) a = POk (r ++ v) b) ->
  pbnd x f = POk r b -> pbnd y f = POk (r ++ v) b.
Proof. intros H1 H2 H. apply pbnd_inv in H as (r1 & a & E & H). rewrite (H1 _ _ E). cbn [pbnd]. eapply H2; eauto. Qed.
Lemma index_extends k : extends (p_index k).
Proof.
  intros u v r a H. unfold p_index in *. revert H. apply bnd_extends; [apply take_extends|]. intros r' x _ H.
  destruct (b64_to_num x); cbn [plift] in *; try discriminate. now inversion H.
Qed.
Lemma decode_extends k : extends (p_decode k).
Proof.
  intros u v r a H. unfold p_decode in *. revert H. apply bnd_extends; [apply take_extends|]. intros r' x _ H.
  destruct (decode x); cbn [plift] in *; try discriminate. now inversion H.
Qed.
Lemma decode_calm t : decode t <> Panic.
Proof. unfold decode. destruct (b64_decode t); discriminate. Qed.
Lemma index_soft k : k = 1 \/ k = 2 -> soft (p_index k).
Proof.
  intros Hk u. unfold p_index. destruct (take_soft k u) as [-> |(r & a & E)]; [now left|]. rewrite E. apply take_inv in E as [_ L]. cbn [pbnd].
  destruct (b64_to_num a) as [n| |] eqn:En; cbn [plift]; [right; eauto|now left|]. exfalso.
  destruct Hk as [-> | ->]; destruct a as [|x [|y [|]]]; try discriminate L; revert En; unfold b64_to_num, obind; cbn [List.length];
    (destruct (decode _) as [d| |] eqn:Ed; [|discriminate|now apply decode_calm in Ed]); destruct (rev d) as [|b1 [|b2 ?]]; discriminate.
Qed.
Lemma decode_soft k : soft (p_decode k).
Proof.
  intros u. unfold p_decode. destruct (take_soft k u) as [-> |(r & a & E)]; [now left|]. rewrite E. cbn [pbnd].
  destruct (decode a) as [n| |] eqn:En; cbn [plift]; [right; eauto|now left|now apply decode_calm in En].
Qed.
Lemma sig_extends : extends attached_signature.
Proof.
  intros u v r a H. unfold attached_signature in *. revert H. apply bnd_extends; [apply take_extends|]. intros r1 c _.
  assert (T : forall k m code r1, (let! (r, i) := p_index k r1 in let! (r, sig) := p_decode m r in POk r (mkASP i (mkSSP code sig))) = POk r a ->
    (let! (r, i) := p_index k (r1 ++ v) in let! (r, sig) := p_decode m r in POk r (mkASP i (mkSSP code sig))) = POk (r ++ v) a).
  { intros k m code q. apply bnd_extends; [apply index_extends|]. intros r2 i _. apply bnd_extends; [apply decode_extends|]. intros r3 x _ H. now inversion H. }
  destruct (is c "A"); [apply T|]. destruct (is c "B"); [apply T|]. destruct (is c "0"); [|discriminate].
  apply bnd_extends; [apply take_extends|]. intros r2 c2 _. destruct (is c2 "A"); [apply T|discriminate].
Qed.
Lemma soft_bnd {A B} (f : bytes -> pres A) (g : bytes -> A -> pres B) u : soft f -> (forall r a, g r a = PErr \/ exists r' b, g r a = POk r' b) ->
  pbnd (f u) g = PErr \/ exists r b, pbnd (f u) g = POk r b.
Proof. intros Hf Hg. destruct (Hf u) as [-> |(r & a & ->)]; [now left|]. cbn [pbnd]. apply Hg. Qed.
Lemma sig_soft : soft attached_signature.
Proof.
  intros u. unfold attached_signature. apply soft_bnd; [apply take_soft|]. intros r1 c.
  assert (T : forall k m code r1, k = 1 \/ k = 2 -> (let! (r, i) := p_index k r1 in let! (r, sig) := p_decode m r in POk r (mkASP i (mkSSP code sig))) = PErr \/
    exists r b, (let! (r, i) := p_index k r1 in let! (r, sig) := p_decode m r in POk r (mkASP i (mkSSP code sig))) = POk r b).
  { intros k m code q Hk. apply soft_bnd; [now apply index_soft|]. intros. apply soft_bnd; [apply decode_soft|]. intros. right. eauto. }
  destruct (is c "A"); [apply T; auto|]. destruct (is c "B"); [apply T; auto|]. destruct (is c "0"); [|now left].
  apply soft_bnd; [apply take_soft|]. intros r2 c2. destruct (is c2 "A"); [apply T; auto|now left].
Qed.
Lemma pcount_extends {A} (f : bytes -> pres A) n : extends f -> extends (pcount f n).
Proof.
  intros Hf. induction n as [|n IH]; intros u v r a H; cbn [pcount] in *; [now inversion H|]. revert H.
  apply bnd_extends; [apply Hf|]. intros r1 x _. apply bnd_extends; [apply IH|]. intros r2 l _ H. now inversion H.
Qed.
Lemma pcount_soft {A} (f : bytes -> pres A) n : soft f -> soft (pcount f n).
Proof.
  intros Hf. induction n as [|n IH]; intros u; cbn [pcount]; [right; eauto|]. apply soft_bnd; [exact Hf|]. intros. apply soft_bnd; [exact IH|]. intros. right. eauto.
Qed.
Theorem sigs_cut l t u v : sigs_spelling l t -> t = u ++ v -> v <> [] -> attachment u = PErr.
Proof.
  intros H -> Hv. destruct H as (Hl & ts & F & E). unfold group in E.
  assert (C : pcount attached_signature (List.length l) (List.concat ts) = POk [] l).
  { rewrite <- (app_nil_r (List.concat ts)). now apply (pcount_complete _ sig_spelling); [apply sig_complete|]. }
  set (k := N.of_nat (List.length l)) in *. assert (Hk : (k < 4096)%N) by lia.
  destruct u as [|c1 u]; [reflexivity|]. cbn [app bstr] in E. injection E as E1 E2. subst c1.
  destruct u as [|c2 u]; [reflexivity|]. cbn [app] in E2. injection E2 as E2 E3. subst c2.
  rewrite attachment_eq. change ("-"%byte :: "A"%byte :: u) with (bstr "-A" ++ u). rewrite (att_head _ "-A" MA) by (code_ascii || reflexivity).
  unfold signatures. destruct u as [|c3 u]; [reflexivity|]. unfold two_digits in E3. cbn [app] in E3. injection E3 as E3 E4. subst c3.
  destruct u as [|c4 u]; [reflexivity|]. cbn [app] in E4. injection E4 as E4 E5. subst c4.
  change (enc6 (k / 64) :: enc6 (k mod 64) :: u) with (two_digits k ++ u). rewrite digits_count by exact Hk. cbn [pbnd].
  unfold k. rewrite Nat2N.id.
  destruct (pcount_soft attached_signature (List.length l) sig_soft u) as [-> |(r & b & Hp)]; [reflexivity|]. exfalso.
  apply (pcount_extends _ _ sig_extends u v) in Hp. rewrite E5, C in Hp. injection Hp as Hp _. symmetry in Hp. apply app_eq_nil in Hp as [_ Hp]. contradiction.
Qed.

(** ** Messages *)
Section Msg.
  Context (parse : bytes -> pres EventType).
  Lemma atts_sound n s l r : many0_f attachment n s = POk r l ->
    exists t, s = t ++ r /\ attachment r = PErr /\ (nopad t -> exists ts, t = List.concat ts /\ Forall2 spells l ts).
  Proof.
    revert s l r. induction n as [|n IH]; intros s l r H; [discriminate|]. cbn [many0_f] in H.
    destruct (attachment s) as [r' a| | | |] eqn:E; try discriminate.
    - destruct (List.length r' =? List.length s); [discriminate|]. apply pbnd_inv in H as (r2 & l' & H & H'). inversion H'; subst. clear H'.
      apply att_sound in E as (t & -> & S). apply IH in H as (t' & -> & Hr & S'). exists (t ++ t'). split; [now rewrite <- app_assoc|]. split; [exact Hr|].
      rewrite nopad_app. intros [N1 N2]. destruct (S' N2) as (ts & -> & F). exists (t :: ts). split; [reflexivity|]. apply Forall2_cons; auto.
    - inversion H; subst. exists []. split; [reflexivity|]. split; [exact E|]. intros _. exists []. split; [reflexivity|apply Forall2_nil].
  Qed.
  Lemma atts_complete l ts r n : Forall2 spells l ts -> attachment r = PErr -> List.length (List.concat ts ++ r) < n ->
    many0_f attachment n (List.concat ts ++ r) = POk r l.
  Proof.
    intros F Hr. revert n. induction F as [|a t l ts Ha F IH]; intros n Hn.
    - destruct n; [lia|]. cbn [List.concat app many0_f]. now rewrite Hr.
    - destruct n as [|n]; [lia|]. cbn [List.concat many0_f] in *. rewrite <- app_assoc in *. rewrite (att_complete _ _ _ Ha).
      pose proof (spells_ne a t Ha) as Hne. rewrite !app_length in Hn |- *.
      assert (List.length t <> 0) by (destruct t; [congruence|discriminate]).
      match goal with |- (if ?b then _ else _) = _ => replace b with false by (symmetry; apply Nat.eqb_neq; rewrite ?app_length; lia) end. rewrite IH by (rewrite app_length; lia). reflexivity.
  Qed.
  Theorem msg_sound s r d : signed_message parse s = POk r d ->
    exists body t, parse s = POk body (sed_event d) /\ body = t ++ r /\ attachment r = PErr
      /\ (nopad t -> exists ts, t = List.concat ts /\ Forall2 spells (sed_atts d) ts).
  Proof.
    intros H. unfold signed_message in H. apply pbnd_inv in H as (b & e & E & H). apply pbnd_inv in H as (r2 & l & H2 & H). inversion H; subst. clear H.
    apply atts_sound in H2 as (t & -> & Hr & S). exists (t ++ r), t. cbn [sed_event sed_atts]. auto.
  Qed.
  Theorem msg_complete s r e l ts : parse s = POk (List.concat ts ++ r) e -> Forall2 spells l ts -> attachment r = PErr ->
    signed_message parse s = POk r (mkSED e l).
  Proof.
    intros Hp F Hr. unfold signed_message. rewrite Hp. cbn [pbnd]. unfold many0. rewrite (atts_complete l ts r); auto.
  Qed.
End Msg.
