(** * Async: the connection handler of the [async] feature (processor/async_processing.rs).

    One step of the model is one pass through the head of the outer loop or through the body of
    the inner loop; the future is polled again whenever it is pending, so a pending reader only
    delays a step and is left out.  [async_std]'s [BufReader] is modelled by its contract:
    [fill_buf] returns the buffer as it is when it is not empty and otherwise makes one read of
    the connection; [consume(amt)] of the whole buffer empties it; the buffer holds at most
    [buffer_cap] bytes.  The channel [respond_to] always accepts. *)
From Verif Require Import Base Base64 Codes NumFmt Types KeyConf Version Cesr Message State Db Processor Keri Json JsonRead.

(** async-std 1: [DEFAULT_CAPACITY] of [BufReader] *)
(** used by processor/async_processing.rs [process] *)
Definition buffer_cap : N := 8192.
(** what the writer does with a write: [None] pending, [Some n] takes [n] bytes *)
(** [poll_write], processor/async_processing.rs:146, 158 *)
Definition write_answer := option nat.
(** the state of the future of processor/async_processing.rs *)
Record Conn := mkConn {
  cn_keri : Keri;                              (* the shared controller *)
  cn_reads : list bytes;                       (* what the connection will deliver, read by read *)
  cn_writes : list write_answer;               (* what the writer will do; everything is taken when empty *)
  cn_buf : bytes;                              (* bytes in the buffer that are not consumed *)
  cn_done : nat;                               (* async_processing.rs:44 [processed] *)
  cn_in : bool;                                (* inside the loop of line 86 *)
  cn_out : list bytes;                         (* the bytes taken by the writer, write by write *)
  cn_sent : list (IdentifierPrefix * bytes) }. (* sent through [respond_to] *)
Inductive ARes := AGo (c : Conn) | AEnd (c : Conn) (r : out unit).

(** the last three bits of a byte ([bitpat!(_ _ _ _ _ a b c)]) *)
(** processor/async_processing.rs [bitpat!] *)
Definition bits3 (b : byte) : N := N.land (b2n b) 7.
(** async_processing.rs:59-64 *)
Definition first_ok (b : byte) : bool := existsb (N.eqb (bits3 b)) [4; 3; 5; 6]%N.
(** [&buffer[a..b]] *)
Definition slice (a b : nat) (s : bytes) : out bytes :=
  if (a <=? b)%nat && (b <=? List.length s)%nat then Ok (firstn (b - a) (skipn a s)) else Panic.
(** async_processing.rs:189-191 [slice_to_string] *)
Definition slice_to_string (s : bytes) : out bytes := if valid_utf8 s then Ok s else Err (EDeserialize "utf8").

Section WithEnv.
  Context (E : Env) (K : KEnv).
  (** [cbor_version], [mgpk_version] (message.rs:127-141), external; [message::<KeyEvent>] *)
  Context (bv : bytes -> pres SerializationInfo) (km : bytes -> pres EventMessage).
  (** the shared controller's receipts are serialized by [k_ser_rct] *)
  Definition ser_type (t : EventType) : out bytes :=
    match t with ReceiptT r => k_ser_rct K r | KeyEventT m => e_ser_event E m | _ => Err ESerialization end.

  (** message.rs:117-123 [json_version]: a JSON string and nothing else *)
  Definition json_version (s : bytes) : pres SerializationInfo :=
    match skip_ws s with
    | c :: r => if c_is c 34 then
                  match read_string r with
                  | Some (x, r) => match si_from x with
                                   | Ok v => match skip_ws r with [] => POk s v | _ => PErr end
                                   | Err _ => PErr
                                   | Panic => PPanic
                                   end
                  | None => PErr
                  end
                else PErr
    | [] => PErr
    end.
  (** message.rs:143-146 [version] *)
  Definition version (s : bytes) : pres SerializationInfo := palt json_version bv s.

  (** async_processing.rs:103-129: the stated length and, when more has arrived, the length of an
      attachment group; [first] is the first byte of the connection *)
  Definition framed (first : byte) (buf : bytes) (len : nat) : out nat :=
    if (len <? List.length buf)%nat then
      let? b := match nth_error buf (len + 1) with Some b => Ok b | None => Panic end in
      if (bits3 b =? 1)%N || (bits3 b =? 2)%N then
        let? two := slice len (len + 2) buf in
        let? two := slice_to_string two in
        let? code := pt_from two in
        let? m := slice len (len + master_code_size code false) buf in
        let? m := slice_to_string m in
        match b64_count m with
        | POk _ n => Ok (len + (N.to_nat n * pt_size code + master_code_size code false))
        | PPanic => Panic
        | _ => Err (EDeserialize "count")
        end
      else if (bits3 first =? 7)%N then Panic (* [binary_attachments_len]: todo!() *)
      else Ok len
    else Ok len.

  (** async_processing.rs:141-156: the answer *)
  Definition answer (k : Keri) (msg response : bytes) : Keri * out bytes :=
    match km msg with
    | POk _ m =>
        match make_ntr E K k m with
        | (k, Ok rct) => (k, sed_cesr ser_type (sed_of_ntr rct))
        | (k, Err _) => (k, Ok response)
        | (k, Panic) => (k, Panic)
        end
    | _ => (k, Panic)
    end.

  (** async_processing.rs:53-172 [poll], one step *)
  Definition astep (first : byte) (c : Conn) : ARes :=
    let '(mkConn k reads writes buf done inner out sent) := c in
    if negb (first_ok first) then AEnd c (Err (EDeserialize "triplet"))
    else if negb inner then
      let '(buf, reads) := match buf with
                           | [] => match reads with [] => ([], []) | r :: rs => (r, rs) end
                           | _ => (buf, reads)
                           end in
      match buf with
      | [] => AEnd (mkConn k reads writes buf done false out sent) (Ok tt)
      | _ => if (List.length buf <? 24)%nat then AGo (mkConn k reads writes buf done false out sent)
             else AGo (mkConn k reads writes buf done true out sent)
      end
    else if (done <? List.length buf)%nat then
      match slice (done + 5) (done + 5 + 19) buf with
      | Ok v =>
          match version v with
          | POk _ info =>
              let len := N.to_nat (si_size info) in
              if (List.length buf <? len)%nat then AGo c
              else
                match (let? n := framed first buf len in let? m := slice done (done + n) buf in Ok (n, m)) with
                | Ok (n, msg) =>
                    match respond_single E K k msg with
                    | (k, Ok (id, resp)) =>
                        match answer k msg resp with
                        | (k, Ok b) =>
                            match writes with
                            | None :: ws => AGo (mkConn k reads ws buf done false out sent)
                            | w :: ws => AGo (mkConn k reads ws buf (done + n) true
                                                (out ++ [match w with Some i => firstn i b | None => b end]) (sent ++ [(id, msg)]))
                            | [] => AGo (mkConn k reads [] buf (done + n) true (out ++ [b]) (sent ++ [(id, msg)]))
                            end
                        | (k, Err e) => AEnd (mkConn k reads writes buf done true out sent) (Err e)
                        | (k, Panic) => AEnd (mkConn k reads writes buf done true out sent) Panic
                        end
                    | (k, Err e) => AEnd (mkConn k reads writes buf done true out sent) (Err e)
                    | (k, Panic) => AEnd (mkConn k reads writes buf done true out sent) Panic
                    end
                | Err e => AEnd c (Err e)
                | Panic => AEnd c Panic
                end
          | PPanic => AEnd c Panic
          | _ => AEnd c (Err (EDeserialize "not KERI message"))
          end
      | _ => AEnd c Panic (* [array_ref!] out of bounds *)
      end
    else AGo (mkConn k reads writes [] 0 false out sent).
  (** processor/async_processing.rs: the loop *)
  Fixpoint arun (first : byte) (n : nat) (c : Conn) : ARes :=
    match n with
    | O => AGo c
    | S n => match astep first c with AGo c => arun first n c | x => x end
    end.
  (** a new connection *)
  (** processor/async_processing.rs *)
  Definition connect (k : Keri) (reads : list bytes) (writes : list write_answer) : Conn := mkConn k reads writes [] 0 false [] [].
End WithEnv.
