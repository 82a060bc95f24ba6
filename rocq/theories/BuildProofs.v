(** * BuildProofs: the event builder. *)
From Verif Require Import Base Base64 Codes NumFmt Types KeyConf SpecSig State Db Processor Cesr Message Keri Builder
  Spec SpecProc SpecRules SpecBuild StateProofs LogProofs LogTheorems LogTheorems2 SigProofs ProcProofs ProcProofs2 AcceptProofs.

Definition or_else {A} (d : A) (o : option A) : A := match o with Some a => a | None => d end.

(** ** Settings *)
Lemma setting_field {A} (get : Builder -> A) (f : Setting -> option A) :
  (forall b s, get (set_one b s) = or_else (get b) (f s)) ->
  forall l b, get (fold_left set_one l b) = or_else (get b) (last_said f l).
Proof.
  intros H l; induction l as [|s l IH]; intros b; [reflexivity|]. cbn. rewrite IH, H.
  destruct (last_said f l); reflexivity.
Qed.
Lemma set_type l b : b_type (fold_left set_one l b) = b_type b.
Proof. revert b; induction l as [|s l IH]; intros b; [reflexivity|]. cbn. rewrite IH. now destruct s. Qed.
Lemma set_format l b : b_format (fold_left set_one l b) = b_format b.
Proof. revert b; induction l as [|s l IH]; intros b; [reflexivity|]. cbn. rewrite IH. now destruct s. Qed.
Lemma set_derivation l b : b_derivation (fold_left set_one l b) = b_derivation b.
Proof. revert b; induction l as [|s l IH]; intros b; [reflexivity|]. cbn. rewrite IH. now destruct s. Qed.
Lemma set_tally l b : b_tally (fold_left set_one l b) = b_tally b.
Proof. revert b; induction l as [|s l IH]; intros b; [reflexivity|]. cbn. rewrite IH. now destruct s. Qed.
Lemma set_seals l b : b_data (fold_left set_one l b) = b_data b ++ asked_seals l.
Proof.
  revert b; induction l as [|s l IH]; intros b; [cbn; now rewrite app_nil_r|]. cbn [fold_left]. rewrite IH.
  destruct s; cbn; try reflexivity. now rewrite <- app_assoc.
Qed.

Section WithEnv.
  Context (E : Env) (K : KEnv).

  Lemma build_fields t pk npk l :
    let b := fold_left set_one l (builder_new E t pk npk) in
    b_type b = t /\ b_format b = JSON /\ b_derivation b = Blake3_256 /\ b_tally b = 0%N
    /\ b_data b = asked_seals l /\ b_prefix b = or_else id_default (asked_prefix l)
    /\ b_sn b = or_else 1%N (asked_sn l) /\ b_threshold b = or_else (Simple 1) (asked_threshold l)
    /\ b_next_threshold b = or_else (Simple 1) (asked_next_threshold l)
    /\ b_keys b = or_else [ed_key pk] (asked_keys l) /\ b_next_keys b = or_else [ed_key npk] (asked_next_keys l)
    /\ b_prev b = or_else (derive E Blake3_256 (repeat x00 32)) (asked_previous l)
    /\ b_delegator b = or_else id_default (asked_delegator l)
    /\ b_witnesses b = or_else [] (asked_witnesses l) /\ b_add b = or_else [] (asked_add l)
    /\ b_remove b = or_else [] (asked_remove l).
  Proof.
    cbv zeta. rewrite set_type, set_format, set_derivation, set_tally, set_seals.
    cbn [builder_new b_type b_format b_derivation b_tally b_data app].
    repeat (apply conj; [reflexivity|]).
    repeat apply conj;
      match goal with |- ?g (fold_left _ _ _) = or_else _ (?f _) =>
        unfold f; apply (setting_field g); intros b s; destruct s; reflexivity end.
  Qed.

  (** What [build] makes, by kind *)
  Lemma incept_said data g f m :
    incept_self_addressing E K data g f = Ok m ->
    em_sn m = 0%N /\ em_data m = data /\ em_prefix m = IdSelfAddressing (em_digest m).
  Proof.
    unfold incept_self_addressing. intros H. apply obind_ok in H. destruct H as (b0 & _ & H).
    apply obind_ok in H. destruct H as (b1 & _ & H). destruct (digest_aborts g); [discriminate H|]. injection H as <-. auto.
  Qed.
  Lemma said_message p sn data f g m :
    said_to_message E K p sn data f g = Ok m -> em_sn m = sn /\ em_data m = data /\ em_prefix m = p.
  Proof.
    unfold said_to_message. intros H. apply obind_ok in H. destruct H as (b0 & _ & H).
    apply obind_ok in H. destruct H as (b1 & _ & H). destruct (digest_aborts g); [discriminate H|]. injection H as <-. auto.
  Qed.

  Definition asked_kc (pk npk : bytes) (l : list Setting) : KeyConfig :=
    mkKC (or_else (Simple 1) (asked_threshold l)) (or_else [ed_key pk] (asked_keys l))
      (Some (commitment E Blake3_256 (or_else (Simple 1) (asked_next_threshold l)) (or_else [ed_key npk] (asked_next_keys l)))).

  Lemma build_with_inv t pk npk l m :
    build_with E K t pk npk l = Ok m ->
    kind_of m = t
    /\ match t with
       | TIcp => em_sn m = 0%N
           /\ em_data m = Icp (mkIcp (asked_kc pk npk l) (mkIWC 0 (or_else [] (asked_witnesses l))) [] [])
           /\ em_prefix m = match or_else id_default (asked_prefix l) with
                            | IdBasic k => IdBasic k
                            | IdSelfAddressing g =>
                                if IdentifierPrefix_eq_dec (IdSelfAddressing g) id_default then
                                  match or_else [ed_key pk] (asked_keys l) with
                                  | [k] => IdBasic k | _ => IdSelfAddressing (em_digest m) end
                                else IdSelfAddressing (em_digest m)
                            | x => x
                            end
           /\ (forall x, asked_prefix l <> Some (IdSelfSigning x))
       | TDip => em_sn m = 0%N
           /\ em_data m = Dip (mkDip (mkIcp (asked_kc pk npk l) (mkIWC 0 []) [] []) (or_else id_default (asked_delegator l)))
           /\ em_prefix m = IdSelfAddressing (em_digest m)
       | TRot | TDrt | TIxn => em_sn m = or_else 1%N (asked_sn l)
           /\ em_data m = match t with
                          | TRot => Rot (mkRot (or_else (derive E Blake3_256 (repeat x00 32)) (asked_previous l)) (asked_kc pk npk l)
                                           (mkWC 0 (or_else [] (asked_remove l)) (or_else [] (asked_add l))) (asked_seals l))
                          | TDrt => Drt (mkRot (or_else (derive E Blake3_256 (repeat x00 32)) (asked_previous l)) (asked_kc pk npk l)
                                           (mkWC 0 [] []) (asked_seals l))
                          | _ => Ixn (mkIxn (or_else (derive E Blake3_256 (repeat x00 32)) (asked_previous l)) (asked_seals l))
                          end
           /\ (or_else id_default (asked_prefix l) <> id_default -> em_prefix m = or_else id_default (asked_prefix l))
       | _ => False
       end.
  Proof.
    unfold build_with. destruct (build_fields t pk npk l) as (F1 & F2 & F3 & F4 & F5 & F6 & F7 & F8 & F9 & F10 & F11 & F12 & F13 & F14 & F15 & F16).
    set (b := fold_left set_one l (builder_new E t pk npk)) in *. clearbody b.
    unfold build. rewrite F1, F2, F3, F4, F5, F6, F7, F8, F9, F10, F11, F12, F13, F14, F15, F16. clear.
    rewrite nxt_commitment_xor. fold (commitment E Blake3_256 (or_else (Simple 1) (asked_next_threshold l)) (or_else [ed_key npk] (asked_next_keys l))).
    unfold kc_new. fold (asked_kc pk npk l). cbn [kc_keys]. set (kc := asked_kc pk npk l). intros H.
    apply obind_ok in H. destruct H as (p & Hp & H).
    assert (Hdef : or_else id_default (asked_prefix l) <> id_default -> p = or_else id_default (asked_prefix l)).
    { intros Hn. destruct (IdentifierPrefix_eq_dec _ _); [contradiction|]. now injection Hp as <-. }
    assert (Hnext : forall sn data, event_to_message E K p sn data JSON Blake3_256 = Ok m ->
              match data with Icp _ | Dip _ => False | _ => True end ->
              em_sn m = sn /\ em_data m = data /\ em_prefix m = p).
    { intros sn data Hm Hk. unfold event_to_message in Hm.
      destruct p, data; try contradiction; now apply said_message in Hm. }
    destruct t; try discriminate H.
    - destruct p as [k|g|x]; try discriminate H.
      + cbn in H. apply said_message in H. destruct H as (H1 & H2 & H3).
        split; [unfold kind_of; now rewrite H2|]. split; [exact H1|]. split; [exact H2|]. split.
        * rewrite H3. destruct (IdentifierPrefix_eq_dec (or_else id_default (asked_prefix l)) id_default) as [He|Hn].
          -- rewrite He. change (kc_keys kc) with (or_else [ed_key pk] (asked_keys l)) in Hp.
             unfold id_default. destruct (IdentifierPrefix_eq_dec _ _) as [_|Hc]; [|exfalso; now apply Hc].
             destruct (or_else [ed_key pk] (asked_keys l)) as [|k' [|k2 r]];
               try (apply obind_ok in Hp; destruct Hp as (x & Hx & Hp); apply incept_said in Hx; destruct Hx as (_ & _ & Hx);
                    rewrite Hx in Hp; discriminate Hp).
             now injection Hp as <-.
          -- rewrite <- (Hdef Hn). reflexivity.
        * intros x Hx. rewrite Hx in *. cbn in *. discriminate Hp.
      + apply incept_said in H. destruct H as (H1 & H2 & H3).
        split; [unfold kind_of; now rewrite H2|]. split; [exact H1|]. split; [exact H2|]. split.
        * rewrite H3. destruct (IdentifierPrefix_eq_dec (or_else id_default (asked_prefix l)) id_default) as [He|Hn].
          -- rewrite He. change (kc_keys kc) with (or_else [ed_key pk] (asked_keys l)) in Hp.
             unfold id_default. destruct (IdentifierPrefix_eq_dec _ _) as [_|Hc]; [|exfalso; now apply Hc].
             destruct (or_else [ed_key pk] (asked_keys l)) as [|k' [|k2 r]]; try reflexivity. discriminate Hp.
          -- rewrite <- (Hdef Hn). destruct (IdentifierPrefix_eq_dec _ _) as [Hc|_]; [|reflexivity].
             exfalso. apply Hn. rewrite <- (Hdef Hn). exact Hc.
        * intros x Hx. rewrite Hx in *. cbn in *. discriminate Hp.
    - apply Hnext in H; [|exact I]. destruct H as (H1 & H2 & H3). split; [unfold kind_of; now rewrite H2|].
      split; [exact H1|]. split; [exact H2|]. intros Hn. now rewrite H3, Hdef.
    - apply Hnext in H; [|exact I]. destruct H as (H1 & H2 & H3). split; [unfold kind_of; now rewrite H2|].
      split; [exact H1|]. split; [exact H2|]. intros Hn. now rewrite H3, Hdef.
    - apply incept_said in H. destruct H as (H1 & H2 & H3). split; [unfold kind_of; now rewrite H2|]. auto.
    - apply Hnext in H; [|exact I]. destruct H as (H1 & H2 & H3). split; [unfold kind_of; now rewrite H2|].
      split; [exact H1|]. split; [exact H2|]. intros Hn. now rewrite H3, Hdef.
  Qed.
End WithEnv.
