(** * Cesr: attachments and their parser ([src/event_parsing]).

    nom 5 parsers.  A parser result keeps nom's three kinds of failure apart because
    [many0] and [fold_many0] stop on [Error] but propagate [Failure] and [Incomplete].
    The offending input and the size carried by [Incomplete] are not modelled (nothing in
    the modelled code reads them), but the arithmetic that computes that size is, since it
    can underflow.  Integer overflow is a panic, as in a debug build. *)
From Verif Require Import Base Base64 Codes NumFmt Types.

(** crate nom 5 *)
Inductive pres (A : Type) :=
| POk (rest : bytes) (a : A)
| PErr          (* nom::Err::Error *)
| PFail         (* nom::Err::Failure *)
| PInc          (* nom::Err::Incomplete *)
| PPanic.
Arguments POk {A} rest a. Arguments PErr {A}. Arguments PFail {A}. Arguments PInc {A}. Arguments PPanic {A}.

(** the [?] operator on an [IResult] *)
(** crate nom 5 *)
Definition pbnd {A B} (x : pres A) (f : bytes -> A -> pres B) : pres B :=
  match x with
  | POk r a => f r a | PErr => PErr | PFail => PFail | PInc => PInc | PPanic => PPanic
  end.
Notation "'let!' ( r , x ) := e 'in' k" := (pbnd e (fun r x => k))
  (at level 200, r name, x pattern, e at level 100, k at level 200, right associativity).
(** a [Result] inside a parser, its [Err] mapped to [f] *)
(** crate nom 5 *)
Definition plift {A} (x : out A) (fail : pres A) (rest : bytes) : pres A :=
  match x with Ok a => POk rest a | Err _ => fail | Panic => PPanic end.

(** [nom::bytes::complete::take(n)] *)
(** crate nom 5 *)
Definition take (n : nat) (s : bytes) : pres bytes :=
  if n <=? List.length s then POk (skipn n s) (firstn n s) else PErr.
(** [nom::multi::count(f, n)] *)
(** crate nom 5 *)
Fixpoint pcount {A} (f : bytes -> pres A) (n : nat) (s : bytes) : pres (list A) :=
  match n with
  | O => POk s []
  | S n => let! (r, a) := f s in let! (r, l) := pcount f n r in POk r (a :: l)
  end.
(** [nom::multi::many0(f)] and [fold_many0]: [Error] ends the loop, a success that consumes
    nothing is an [Error].  Every round consumes input, so [S (length s)] rounds suffice
    ([fuel]; running out is proved impossible, CesrProofs.many0_fuel). *)
(** crate nom 5 *)
Fixpoint many0_f {A} (f : bytes -> pres A) (fuel : nat) (s : bytes) : pres (list A) :=
  match fuel with
  | O => PErr
  | S n =>
      match f s with
      | PErr => POk s []
      | POk r a =>
          if List.length r =? List.length s then PErr
          else let! (r', l) := many0_f f n r in POk r' (a :: l)
      | PFail => PFail | PInc => PInc | PPanic => PPanic
      end
  end.
(** crate nom 5 *)
Definition many0 {A} (f : bytes -> pres A) (s : bytes) : pres (list A) := many0_f f (S (List.length s)) s.

(** [std::str::from_utf8]: RFC 3629 (no overlong forms, no surrogates, at most U+10FFFF) *)
Definition cont (b : byte) : bool := ((128 <=? b2n b) && (b2n b <? 192))%N.
(** std; event_parsing/prefix.rs:93, 114, 138, attachment.rs:109 *)
Fixpoint valid_utf8 (s : bytes) : bool :=
  match s with
  | [] => true
  | a :: r =>
      let n := b2n a in
      if (n <? 128)%N then valid_utf8 r
      else match r with
      | [] => false
      | b :: r1 =>
          if ((194 <=? n) && (n <? 224))%N then cont b && valid_utf8 r1
          else match r1 with
          | [] => false
          | c :: r2 =>
              if ((224 <=? n) && (n <? 240))%N then
                cont b && cont c && negb ((n =? 224) && (b2n b <? 160))%N
                && negb ((n =? 237) && (160 <=? b2n b))%N && valid_utf8 r2
              else match r2 with
              | [] => false
              | d :: r3 =>
                  ((240 <=? n) && (n <? 245))%N && cont b && cont c && cont d
                  && negb ((n =? 240) && (b2n b <? 144))%N && negb ((n =? 244) && (144 <=? b2n b))%N
                  && valid_utf8 r3
              end
          end
      end
  end.

(** ** Payload types ([payload_size.rs:8-90]); [Z*] stand for [0*] ([OA]..), [I*] for [1AA*] *)
Inductive PayloadType :=
| PA | PB | PC | PD | PE | PF | PG | PH | PI | PJ | PK | PL | PM
| ZA | ZB | ZC | ZD | ZE | ZF | ZG | ZH
| IA | IB | IC | ID | IE | IF | IG
| MA | MB | MC | MD | ME | MF | MG | MH | MU | MV | MW | MX | MY | MZ.
(** payload_size.rs:92-117 [size] *)
Definition pt_size (t : PayloadType) : nat :=
  match t with
  | PA | PB | PC | PD | PE | PF | PG | PH | PI | PJ => 44
  | PK | PL => 76
  | PM => 4
  | ZA => 24
  | ZB | ZC | ZD | ZE | ZF | ZG => 88
  | ZH | IF => 8
  | IA | IB => 48
  | IC | ID => 80
  | IE => 156
  | IG => 36
  | MA | MB => 88
  | _ => 0
  end.
(** payload_size.rs:119-156 [master_code_size]; [ZG], [MH] and the [I*] fall through to 0 *)
Definition master_code_size (t : PayloadType) (qb2 : bool) : nat :=
  match t with
  | PA | PB | PC | PD | PE | PF | PG | PH | PI | PJ | PK | PL | PM => 1
  | ZA | ZB | ZC | ZD | ZE | ZF | ZH => 2
  | MA | MB | MC | MD | ME | MF | MG | MU | MV | MW | MX | MY | MZ => if qb2 then 3 else 4
  | _ => 0
  end.
(** payload_size.rs:160-191 [index_length]; [todo!()] for the others, [MH] included *)
Definition index_length (t : PayloadType) : out nat :=
  match t with
  | PA | PB | PC | PD | PE | PF | PG | PH | PI | PJ | PK | PL | PM => Ok 0
  | ZA | ZB | ZC | ZD | ZE | ZF | ZH => Ok 0
  | MA | MB | MC | MD | ME | MF | MG | MU | MV | MW | MX | MY | MZ => Ok 2
  | _ => Panic
  end.
(** payload_size.rs:261-308 [Display]; [E] is written as ["D"] *)
Definition pt_str (t : PayloadType) : bytes :=
  bstr match t with
  | PA => "A" | PB => "B" | PC => "C" | PD => "D" | PE => "D" | PF => "F" | PG => "G" | PH => "H"
  | PI => "I" | PJ => "J" | PK => "K" | PL => "L" | PM => "M"
  | ZA => "0A" | ZB => "0B" | ZC => "0C" | ZD => "0D" | ZE => "0E" | ZF => "0F" | ZG => "0G" | ZH => "0H"
  | IA => "1AAA" | IB => "1AAB" | IC => "1AAC" | ID => "1AAD" | IE => "1AAE" | IF => "1AAF" | IG => "1AAG"
  | MA => "-A" | MB => "-B" | MC => "-C" | MD => "-D" | ME => "-E" | MF => "-F" | MG => "-G" | MH => "-H"
  | MU => "-U" | MV => "-V" | MW => "-W" | MX => "-X" | MY => "-Y" | MZ => "-Z"
  end.
(** payload_size.rs:210-259 [TryFrom<&str>] *)
Definition pt_table : list (string * PayloadType) :=
  [("A", PA); ("B", PB); ("C", PC); ("D", PD); ("E", PE); ("F", PF); ("G", PG); ("H", PH);
   ("I", PI); ("J", PJ); ("K", PK); ("L", PL); ("M", PM);
   ("0A", ZA); ("0B", ZB); ("0C", ZC); ("0D", ZD); ("0E", ZE); ("0F", ZF); ("0G", ZG); ("0H", ZH);
   ("1AAA", IA); ("1AAB", IB); ("1AAC", IC); ("1AAD", ID); ("1AAE", IE); ("1AAF", IF); ("1AAG", IG);
   ("-A", MA); ("-B", MB); ("-C", MC); ("-D", MD); ("-E", ME); ("-F", MF); ("-G", MG); ("-H", MH);
   ("-U", MU); ("-V", MV); ("-W", MW); ("-X", MX); ("-Y", MY); ("-Z", MZ)]%string.
Fixpoint pt_find (l : list (string * PayloadType)) (s : bytes) : out PayloadType :=
  match l with
  | [] => Err EImproperPrefixType
  | (n, t) :: l => if is s n then Ok t else pt_find l s
  end.
Definition pt_from (s : bytes) : out PayloadType := pt_find pt_table s.
(** payload_size.rs:193-207 [adjust_with_num] *)
Definition adjust_with_num (t : PayloadType) (n : N) : out bytes :=
  let? expected := index_length t in
  if 0 <? expected then
    let i := num_to_b64 n in
    if List.length i <? expected
    then Ok (pt_str t ++ repeat "A"%byte (expected - List.length i) ++ i)
    else Ok (pt_str t ++ i)
  else Ok (pt_str t).

(** ** Attachments ([mod.rs:29-41]) *)
Inductive Attachment :=
| SealSourceCouplets (l : list SourceSeal)
| AttachedSignatures (l : list AttachedSignaturePrefix)
| ReceiptCouplets (l : list (BasicPrefix * SelfSigningPrefix))
| SealSignaturesGroups (l : list (EventSeal * list AttachedSignaturePrefix))
| LastEstSignaturesGroups (l : list (IdentifierPrefix * list AttachedSignaturePrefix))
| Frame (l : list Attachment).

(** [u64::to_be_bytes], [u64::from_be_bytes] *)
(** std; event_parsing/mod.rs:113, prefix.rs:164 *)
Definition u64_be (n : N) : bytes :=
  map (fun i => n2b (n / 256 ^ i)) [7; 6; 5; 4; 3; 2; 1; 0]%N.
(** std; event_parsing/prefix.rs:164 *)
Definition be_value (l : bytes) : N := fold_left (fun a b => (a * 256 + b2n b)%N) l 0%N.
(** mod.rs:111-127 [pack_sn]; the subtraction is 18 - 2 - 8 *)
Definition pack_sn (sn : N) : bytes :=
  let raw := u64_be sn in
  let missing := pt_size ZA / 4 * 3 - master_code_size ZA false - List.length raw in
  pt_str ZA ++ b64_encode (repeat x00 missing ++ raw).

(** [fold("".into(), |acc, x| acc + f x)] where [f] may panic *)
(** event_parsing/mod.rs:40-128 *)
Fixpoint oconcat {A} (f : A -> out bytes) (l : list A) : out bytes :=
  match l with
  | [] => Ok []
  | a :: l => let? x := f a in let? y := oconcat f l in Ok (x ++ y)
  end.
(** [att_len as u16] *)
(** event_parsing/mod.rs:105 *)
Definition as_u16 (n : nat) : N := (N.of_nat n mod 65536)%N.
(** event_parsing/mod.rs:105-108 *)
Definition with_count (t : PayloadType) (n : nat) (body : out bytes) : out bytes :=
  let? b := body in let? c := adjust_with_num t (as_u16 n) in Ok (c ++ b).
(** mod.rs:69-74 *)
Definition sigs_cesr (sigs : list AttachedSignaturePrefix) : out bytes :=
  with_count MA (List.length sigs) (Ok (flat_map asp_str sigs)).
(** mod.rs:43-109 [to_cesr].  A frame is written with the number of its bytes. *)
Fixpoint to_cesr (a : Attachment) : out bytes :=
  match a with
  | SealSourceCouplets l =>
      with_count MG (List.length l) (Ok (flat_map (fun s => pack_sn (src_sn s) ++ sap_str (src_digest s)) l))
  | SealSignaturesGroups l =>
      with_count MF (List.length l)
        (oconcat (fun x : EventSeal * list AttachedSignaturePrefix => let (e, sigs) := x in
                  let? t := sigs_cesr sigs in
                  Ok (id_str (es_prefix e) ++ pack_sn (es_sn e) ++ sap_str (es_digest e) ++ t)) l)
  | AttachedSignatures sigs => sigs_cesr sigs
  | ReceiptCouplets l =>
      with_count MC (List.length l)
        (Ok (flat_map (fun x : BasicPrefix * SelfSigningPrefix => bp_str (fst x) ++ ssp_str (snd x)) l))
  | LastEstSignaturesGroups l =>
      with_count MH (List.length l)
        (oconcat (fun x : IdentifierPrefix * list AttachedSignaturePrefix => let (i, sigs) := x in
                  let? t := sigs_cesr sigs in Ok (id_str i ++ t)) l)
  | Frame l =>
      let body := (fix all (l : list Attachment) : out bytes :=
                     match l with
                     | [] => Ok []
                     | a :: l => let? x := to_cesr a in let? y := all l in Ok (x ++ y)
                     end) l in
      let? b := body in let? c := adjust_with_num MV (as_u16 (List.length b)) in Ok (c ++ b)
  end.

(** ** Prefix parsers ([prefix.rs]) *)
(** prefix.rs:17-81 *)
Definition p_index (k : nat) (s : bytes) : pres N :=
  let! (r, i) := take k s in plift (b64_to_num i) PErr r.
Definition p_decode (k : nat) (s : bytes) : pres bytes :=
  let! (r, t) := take k s in plift (decode t) PErr r.
Definition attached_signature (s : bytes) : pres AttachedSignaturePrefix :=
  let! (more, c) := take 1 s in
  if is c "A" then
    let! (r, i) := p_index 1 more in let! (r, sig) := p_decode 86 r in
    POk r (mkASP i (mkSSP Ed25519Sha512 sig))
  else if is c "B" then
    let! (r, i) := p_index 1 more in let! (r, sig) := p_decode 86 r in
    POk r (mkASP i (mkSSP ECDSAsecp256k1Sha256 sig))
  else if is c "0" then
    let! (r, c2) := take 1 more in
    if is c2 "A" then
      let! (r, i) := p_index 2 r in let! (r, sig) := p_decode 152 r in
      POk r (mkASP i (mkSSP Ed448Sig sig))
    else PErr
  else PErr.
(** [String::from_utf8(code)?.parse()?] with every error a [Failure] *)
Definition p_code {A} (parse : bytes -> out A) (code : bytes) (rest : bytes) : pres A :=
  if valid_utf8 code then plift (parse code) PFail rest else PFail.
(** prefix.rs:83-103 *)
Definition basic_prefix (s : bytes) : pres BasicPrefix :=
  let! (_r, c) := take 1 s in
  let! (rest, code_str) := take (if is c "1" then 4 else 1) s in
  let! (rest, code) := p_code basic_code_from code_str rest in
  let! (extra, b) := take (basic_b64_len code) rest in
  let! (extra, k) := plift (decode b) PErr extra in
  POk extra (mkBP code k).
(** prefix.rs:105-126 *)
Definition self_addressing_prefix (s : bytes) : pres SelfAddressingPrefix :=
  let! (_r, c) := take 1 s in
  let! (rest, code_str) := take (if is c "0" then 2 else 1) s in
  let! (rest, code) := p_code sa_code_from code_str rest in
  let! (extra, b) := take (sa_b64_len code) rest in
  p_code sap_from (code_str ++ b) extra.
(** prefix.rs:128-148 *)
Definition self_signing_prefix (s : bytes) : pres SelfSigningPrefix :=
  let! (_r, c) := take 1 s in
  let! (rest, code_str) := take (if is c "1" then 4 else 2) s in
  let! (rest, code) := p_code ss_code_from code_str rest in
  let! (extra, b) := take (ss_b64_len code) rest in
  let! (extra, sig) := plift (decode b) PErr extra in
  POk extra (mkSSP code sig).
(** prefix.rs:150-171; [&b64decode[8..]] and [copy_from_slice] panic unless 16 bytes *)
Definition attached_sn (s : bytes) : pres N :=
  let! (more, c) := take 2 s in
  if is c "0A" then
    let! (rest, t) := take 22 more in
    let! (rest, d) := plift (decode t) PFail rest in
    if List.length d =? 16 then POk rest (be_value (skipn 8 d)) else PPanic
  else PErr.
(** prefix.rs:173-183; self-signing identifiers are not tried *)
Definition prefix (s : bytes) : pres IdentifierPrefix :=
  match self_addressing_prefix s with
  | POk r p => POk r (IdSelfAddressing p)
  | PPanic => PPanic
  | _ => let! (r, p) := basic_prefix s in POk r (IdBasic p)
  end.

(** ** Attachment parsers ([attachment.rs]) *)
(** attachment.rs:57-63 [b64_count] *)
Definition b64_count (s : bytes) : pres N :=
  let! (rest, t) := take 2 s in plift (b64_to_num t) PFail rest.
(** attachment.rs:27-41 *)
Definition source_seal1 (s : bytes) : pres SourceSeal :=
  let! (r, sn) := attached_sn s in let! (r, d) := self_addressing_prefix r in POk r (mkSrc sn d).
Definition source_seal (s : bytes) : pres (list SourceSeal) :=
  let! (rest, sc) := b64_count s in pcount source_seal1 (N.to_nat sc) rest.
(** attachment.rs:43-55 *)
Definition event_seal (s : bytes) : pres EventSeal :=
  let! (r, i) := prefix s in let! (r, sn) := attached_sn r in
  let! (r, d) := self_addressing_prefix r in POk r (mkES i sn d).
(** attachment.rs:65-68 *)
Definition signatures (s : bytes) : pres (list AttachedSignaturePrefix) :=
  let! (rest, sc) := b64_count s in pcount attached_signature (N.to_nat sc) rest.
(** attachment.rs:70-77 *)
Definition couplet (s : bytes) : pres (BasicPrefix * SelfSigningPrefix) :=
  let! (r, b) := basic_prefix s in let! (r, p) := self_signing_prefix r in POk r (b, p).
Definition couplets (s : bytes) : pres (list (BasicPrefix * SelfSigningPrefix)) :=
  let! (rest, sc) := b64_count s in pcount couplet (N.to_nat sc) rest.
Section Rec.
  Context (att : bytes -> pres Attachment).
  (** attachment.rs:79-84 *)
  Definition indexed_signatures (s : bytes) : pres (list AttachedSignaturePrefix) :=
    let! (r, a) := att s in match a with AttachedSignatures sigs => POk r sigs | _ => PErr end.
  (** attachment.rs:86-94 *)
  Definition id_sigs (s : bytes) : pres (IdentifierPrefix * list AttachedSignaturePrefix) :=
    let! (r, i) := prefix s in let! (r, l) := indexed_signatures r in POk r (i, l).
  (** attachment.rs:96-104 *)
  Definition seal_sigs (s : bytes) : pres (EventSeal * list AttachedSignaturePrefix) :=
    let! (r, e) := event_seal s in let! (r, l) := indexed_signatures r in POk r (e, l).
  (** attachment.rs:106-158 [attachment]; [sc * 4] cannot overflow a [u16] since a count of
      two characters is at most 4095 (CesrProofs.b64_count_bound) *)
  Definition attachment_body (s : bytes) : pres Attachment :=
    let! (rest, t) := take 2 s in
    if negb (valid_utf8 t) then PFail else
    match pt_from t with
    | Err _ => PErr
    | Panic => PPanic
    | Ok MG => let! (r, l) := source_seal rest in POk r (SealSourceCouplets l)
    | Ok MF =>
        let! (r, sc) := b64_count rest in
        let! (r, l) := pcount seal_sigs (N.to_nat sc) r in POk r (SealSignaturesGroups l)
    | Ok MA => let! (r, l) := signatures rest in POk r (AttachedSignatures l)
    | Ok MC => let! (r, l) := couplets rest in POk r (ReceiptCouplets l)
    | Ok MH =>
        let! (r, sc) := b64_count rest in
        let! (r, l) := pcount id_sigs (N.to_nat sc) r in POk r (LastEstSignaturesGroups l)
    | Ok MV =>
        let! (r, sc) := b64_count rest in
        let n := 4 * N.to_nat sc in
        match take n r with
        | POk r total =>
            let! (extra, atts) := many0 att total in
            match extra with
            | [] => POk r (Frame atts)
            | _ => if List.length r <=? n then PInc else PPanic  (* (sc * 4) - rest.len() *)
            end
        | PErr => PInc
        | PFail => PFail | PInc => PInc | PPanic => PPanic
        end
    | Ok _ => PPanic  (* todo!() *)
    end.
End Rec.
(** the recursion: every recursive call is on a shorter input, so [S (length s)] levels
    suffice (CesrProofs.attachment_eq); exhaustion of the Rust stack is not modelled *)
Fixpoint attachment_f (fuel : nat) (s : bytes) : pres Attachment :=
  match fuel with O => PErr | S n => attachment_body (attachment_f n) s end.
Definition attachment (s : bytes) : pres Attachment := attachment_f (S (List.length s)) s.
