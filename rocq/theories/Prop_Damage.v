(** * C126, C127: damage to one message of a stream.  A stream is the texts of signed messages one
    after another ([sent], DamageProofs: a JSON object, then attachments as [spells] lists them).
    Damage is one character replaced by a character [c] that stands in no attachment: an ASCII
    character outside base64, such as a blank. *)
From Coq Require Import ZifyBool ZifyN ZifyNat.
From Verif Require Import Base Base64 Base64Proofs Codes NumFmt Types SpecCodec CodecProofs CodecProofs2 State Processor Demo Cesr CesrProofs SpecCesr CesrProofs2 CesrProofs3 SpecCesr2 CesrProofs4 CesrProofs5 CesrProofs6 Message Keri DamageProofs.
From Verif Require Prop_Cesr2 Prop_Keri.

Definition foreign (c : byte) : Prop := ~ In c alphabet /\ c <> "="%byte /\ (b2n c < 128)%N.
Lemma foreign_not c : foreign c -> ~ okc c.
Proof. intros (H1 & H2 & _) [H|H]; contradiction. Qed.

(** What is left of a damaged attachment is never taken for an attachment, whatever follows. *)
Theorem C127_damage_is_noticed :
  forall a u o v c, spells a (u ++ o :: v) -> foreign c ->
  forall after rest a', attachment (u ++ c :: after) <> POk rest a'.
Proof. intros a u o v c Hs Hc after rest a'. exact (noticed c (foreign_not c Hc) a u o v after rest a' Hs). Qed.
Print Assumptions C127_damage_is_noticed.

(** The messages in front of a message that ends in a damaged group of signatures are read, and
    so is that message, without the group; but everything behind it is lost, and the sender is
    told nothing: the node does exactly what it does on the stream cut off before the damage. *)
Theorem C126_signatures_partial :
  forall parse ds dts d t sigs u o v c after,
  Forall2 (sent parse) ds dts -> sent parse d t ->
  spells (AttachedSignatures sigs) (u ++ o :: v) -> foreign c -> List.length u <> 2 -> List.length u <> 3 ->
  parse (u ++ c :: v ++ after) = PErr -> parse [] = PErr ->
  signed_event_stream parse (List.concat dts ++ t ++ u ++ c :: v ++ after) = POk (u ++ c :: v ++ after) (ds ++ [d])
  /\ forall (E : Env) (K : KEnv) (k : Keri), k_parse K = parse ->
     respond E K k (List.concat dts ++ t ++ u ++ c :: v ++ after) = respond E K k (List.concat dts ++ t).
Proof.
  intros parse ds dts d t sigs u o v c after F Hd Hs Hc L2 L3 Hp Hn.
  assert (D : attachment (u ++ c :: v ++ after) = PErr).
  { inversion Hs; subst. eapply sigs_damaged; [apply foreign_not; exact Hc|apply Hc|eassumption|assumption|assumption]. }
  assert (F2 : Forall2 (sent parse) (ds ++ [d]) (dts ++ [t])) by (apply Forall2_app; [exact F|]; apply Forall2_cons; [exact Hd|apply Forall2_nil]).
  assert (Ec : forall s, List.concat dts ++ t ++ s = List.concat (dts ++ [t]) ++ s) by (intros s; rewrite concat_app; cbn [List.concat]; now rewrite app_nil_r, <- app_assoc).
  assert (R : signed_event_stream parse (List.concat dts ++ t ++ u ++ c :: v ++ after) = POk (u ++ c :: v ++ after) (ds ++ [d])).
  { rewrite Ec. now apply stream_stops. }
  assert (R0 : signed_event_stream parse (List.concat dts ++ t) = POk [] (ds ++ [d])).
  { pose proof (Ec []) as E0. rewrite app_nil_r in E0. rewrite E0. now apply stream_stops. }
  split; [exact R|]. intros E K k HK. unfold respond. rewrite HK, R, R0. reflexivity.
Qed.
Print Assumptions C126_signatures_partial.

(** A damaged character in the count of any group of attachments: the whole stream is refused,
    the messages in front included, and the node does not change. *)
Theorem C126_count_refuses_all :
  forall parse ds dts d t a u o v c after,
  Forall2 (sent parse) ds dts -> sent parse d t ->
  spells a (u ++ o :: v) -> foreign c -> List.length u = 2 \/ List.length u = 3 ->
  signed_event_stream parse (List.concat dts ++ t ++ u ++ c :: v ++ after) = PFail
  /\ forall (E : Env) (K : KEnv) (k : Keri), k_parse K = parse ->
     exists e, respond E K k (List.concat dts ++ t ++ u ++ c :: v ++ after) = (k, Err e).
Proof.
  intros parse ds dts d t a u o v c after F Hd Hs Hc L.
  assert (D : attachment (u ++ c :: v ++ after) = PFail) by (eapply count_damaged; [apply foreign_not; exact Hc|exact Hs|exact L]).
  assert (R : signed_event_stream parse (List.concat dts ++ t ++ u ++ c :: v ++ after) = PFail).
  { rewrite (stream_fails parse ds dts d t) by (assumption || now left). now rewrite D. }
  split; [exact R|]. intros E K k HK. exists (EDeserialize "parse"). unfold respond. rewrite HK, R. reflexivity.
Qed.
Print Assumptions C126_count_refuses_all.

(** So with a source seal of a delegated event: anywhere in its number (after the code) or its
    digest. *)
Theorem C126_source_refuses_all :
  forall parse ds dts d t l1 ts1 s u o v l2 ts2 c after,
  Forall2 (sent parse) ds dts -> sent parse d t ->
  Forall2 source_spelling l1 ts1 -> source_spelling s (u ++ o :: v) -> Forall2 source_spelling l2 ts2 ->
  List.length (l1 ++ s :: l2) < 4096 -> foreign c -> 2 <= List.length u ->
  let damaged := group "-G" (List.length (l1 ++ s :: l2)) (List.concat ts1 ++ u ++ c :: v ++ List.concat ts2) in
  signed_event_stream parse (List.concat dts ++ t ++ damaged ++ after) = PFail
  /\ forall (E : Env) (K : KEnv) (k : Keri), k_parse K = parse ->
     exists e, respond E K k (List.concat dts ++ t ++ damaged ++ after) = (k, Err e).
Proof.
  intros parse ds dts d t l1 ts1 s u o v l2 ts2 c after F Hd F1 Hs F2 Hl Hc L damaged.
  assert (D : attachment (damaged ++ after) = PFail) by (eapply source_damaged; [apply foreign_not; exact Hc|apply Hc|exact F1|exact Hs|exact F2|exact Hl|exact L]).
  assert (R : signed_event_stream parse (List.concat dts ++ t ++ damaged ++ after) = PFail).
  { rewrite (stream_fails parse ds dts d t) by (assumption || now left). now rewrite D. }
  split; [exact R|]. intros E K k HK. exists (EDeserialize "parse"). unfold respond. rewrite HK, R. reflexivity.
Qed.
Print Assumptions C126_source_refuses_all.

(** In a frame, damaged signatures abort the process as soon as more characters follow the frame
    than it has; if fewer follow, the whole stream is refused. *)
Theorem C126_frame_panics :
  forall parse ds dts d t l1 ts1 sigs u o v l2 ts2 n c after,
  Forall2 (sent parse) ds dts -> sent parse d t ->
  Forall2 spells l1 ts1 -> spells (AttachedSignatures sigs) (u ++ o :: v) -> Forall2 spells l2 ts2 ->
  List.length (List.concat ts1 ++ (u ++ o :: v) ++ List.concat ts2) = 4 * n -> n < 4096 ->
  foreign c -> List.length u <> 2 -> List.length u <> 3 ->
  let damaged := group "-V" n (List.concat ts1 ++ u ++ c :: v ++ List.concat ts2) in
  forall (E : Env) (K : KEnv) (k : Keri), k_parse K = parse ->
  if List.length after <=? 4 * n
  then exists e, respond E K k (List.concat dts ++ t ++ damaged ++ after) = (k, Err e)
  else respond E K k (List.concat dts ++ t ++ damaged ++ after) = (k, Panic).
Proof.
  intros parse ds dts d t l1 ts1 sigs u o v l2 ts2 n c after F Hd F1 Hs F2 Ln Hn Hc L2 L3 damaged E K k HK.
  assert (D : attachment (damaged ++ after) = if List.length after <=? 4 * n then PInc else PPanic).
  { eapply frame_damaged; [apply foreign_not; exact Hc|apply Hc|exact F1|exact Hs|exact F2|exact Ln|exact Hn|exact L2|exact L3]. }
  assert (R : signed_event_stream parse (List.concat dts ++ t ++ damaged ++ after) = if List.length after <=? 4 * n then PInc else PPanic).
  { rewrite (stream_fails parse ds dts d t); rewrite ?D; [destruct (_ <=? _); reflexivity|exact F|exact Hd|destruct (_ <=? _); tauto]. }
  unfold respond. rewrite HK, R. destruct (_ <=? _); [exists (EDeserialize "parse")|]; reflexivity.
Qed.
Print Assumptions C126_frame_panics.

(** ** A case: two messages, the second with a damaged signature *)
Import Prop_Cesr2.
Definition toy_read (s : bytes) : pres EventType :=
  let! (r, t) := take 7 s in if is t "{""k"":1}" then POk r (KeyEventT a_icp) else PErr.
Definition m_text : bytes := bstr "{""k"":1}" ++ g_sigs.
Definition m_data : SignedEventData := mkSED (KeyEventT a_icp) [AttachedSignatures [s1]].
Definition m_source : SourceSeal := mkSrc 3 d1.
Definition m_source_text : bytes := sn_text 3 ++ sap_str d1.
Example C126_example :
  sent toy_read m_data m_text /\ sent toy_read (mkSED (KeyEventT a_icp) []) (bstr "{""k"":1}")
  /\ foreign " "%byte /\ toy_read [] = PErr
  /\ g_sigs = firstn 50 g_sigs ++ nth 50 g_sigs "A"%byte :: skipn 51 g_sigs
  /\ toy_read (firstn 50 g_sigs ++ " "%byte :: skipn 51 g_sigs ++ m_text) = PErr
  /\ g_sigs = firstn 3 g_sigs ++ nth 3 g_sigs "A"%byte :: skipn 4 g_sigs
  /\ source_spelling m_source m_source_text
  /\ m_source_text = firstn 9 m_source_text ++ nth 9 m_source_text "A"%byte :: skipn 10 m_source_text
  /\ List.length g_sigs = 4 * 23.
Proof.
  apply conj.
  { exists (bstr "{""k"":1}"), [g_sigs]. split; [now exists (bstr "k"":1}")|]. split; [intros rest; unfold toy_read; rewrite take_app by reflexivity; reflexivity|].
    split; [apply Forall2_cons; [exact g_sigs_spelled|apply Forall2_nil]|]. cbn [List.concat]. now rewrite app_nil_r. }
  apply conj.
  { exists (bstr "{""k"":1}"), []. split; [now exists (bstr "k"":1}")|]. split; [intros rest; unfold toy_read; rewrite take_app by reflexivity; reflexivity|].
    split; [apply Forall2_nil|reflexivity]. }
  apply conj.
  { split; [|split; [discriminate|reflexivity]]. intros H. assert (B : existsb (Byte.eqb " "%byte) alphabet = true).
    { apply existsb_exists. exists " "%byte. split; [exact H|reflexivity]. } vm_compute in B. discriminate B. }
  apply conj; [reflexivity|]. apply conj; [vm_compute; reflexivity|]. apply conj; [vm_compute; reflexivity|]. apply conj; [vm_compute; reflexivity|].
  apply conj.
  { exists (sn_text 3), (sap_str d1). split; [split; [unfold sn_fits; vm_compute; discriminate|]|].
    - exists (repeat x00 8). split; vm_compute; reflexivity.
    - split; [split; [split; vm_compute; reflexivity|reflexivity]|reflexivity]. }
  apply conj; vm_compute; reflexivity.
Qed.
