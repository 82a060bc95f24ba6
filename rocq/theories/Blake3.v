(** * Blake3: the hash function itself.

    derivation/self_addressing.rs:117-119 [blake3_256_digest], 137-143 [blake3_512_digest] call the
    crate blake3 (not in /repo).  This is the published function (hash mode, no key), so that
    the digests of the real test data can be computed in the model; it is used only by
    [Replay.v] and what follows it.  Words are 32 bit, in [N]. *)
From Verif Require Import Base Base64 Codes NumFmt Types.
Local Open Scope N_scope.

Definition w32 (x : N) : N := N.land x 4294967295.
Definition rotr (n x : N) : N := N.lor (N.shiftr x n) (w32 (N.shiftl x (32 - n))).
Definition IV : list N :=
  [0x6A09E667; 0xBB67AE85; 0x3C6EF372; 0xA54FF53A; 0x510E527F; 0x9B05688C; 0x1F83D9AB; 0x5BE0CD19].
Definition at_ (l : list N) (i : nat) : N := nth i l 0.
Fixpoint put (l : list N) (i : nat) (x : N) : list N :=
  match l, i with
  | [], _ => []
  | _ :: r, O => x :: r
  | y :: r, S i => y :: put r i x
  end.
(** the quarter round *)
Definition mix (v : list N) (a b c d : nat) (mx my : N) : list N :=
  let va := w32 (at_ v a + at_ v b + mx) in
  let vd := rotr 16 (N.lxor (at_ v d) va) in
  let vc := w32 (at_ v c + vd) in
  let vb := rotr 12 (N.lxor (at_ v b) vc) in
  let va := w32 (va + vb + my) in
  let vd := rotr 8 (N.lxor vd va) in
  let vc := w32 (vc + vd) in
  let vb := rotr 7 (N.lxor vb vc) in
  put (put (put (put v a va) b vb) c vc) d vd.
Definition round (v m : list N) : list N :=
  let v := mix v 0 4 8 12 (at_ m 0) (at_ m 1) in
  let v := mix v 1 5 9 13 (at_ m 2) (at_ m 3) in
  let v := mix v 2 6 10 14 (at_ m 4) (at_ m 5) in
  let v := mix v 3 7 11 15 (at_ m 6) (at_ m 7) in
  let v := mix v 0 5 10 15 (at_ m 8) (at_ m 9) in
  let v := mix v 1 6 11 12 (at_ m 10) (at_ m 11) in
  let v := mix v 2 7 8 13 (at_ m 12) (at_ m 13) in
  mix v 3 4 9 14 (at_ m 14) (at_ m 15).
Definition permute (m : list N) : list N :=
  map (at_ m) [2; 6; 3; 10; 7; 0; 4; 13; 1; 11; 12; 5; 9; 14; 15; 8]%nat.
Fixpoint rounds (n : nat) (v m : list N) : list N :=
  match n with O => v | S n => rounds n (round v m) (permute m) end.
(** compression of one block of 16 words; [cv]: chaining value of 8 words *)
Definition compress (cv m : list N) (counter len flags : N) : list N :=
  let v := rounds 7 (cv ++ firstn 4 IV ++ [w32 counter; w32 (N.shiftr counter 32); len; flags]) m in
  map (fun i => N.lxor (at_ v i) (at_ v (i + 8))) (seq 0 8)
  ++ map (fun i => N.lxor (at_ v (i + 8)) (at_ cv i)) (seq 0 8).

(** little endian words, a short block filled with zeros *)
Definition word_of (b : bytes) : N :=
  match b with b0 :: b1 :: b2 :: b3 :: _ => b2n b0 + 256 * b2n b1 + 65536 * b2n b2 + 16777216 * b2n b3 | _ => 0 end.
Fixpoint words (n : nat) (b : bytes) : list N :=
  match n with O => [] | S n => word_of (firstn 4 (b ++ repeat x00 4)) :: words n (skipn 4 b) end.
Definition byte_of (x : N) : byte := n2b (N.land x 255).
Definition le_bytes (w : N) : bytes := [byte_of w; byte_of (N.shiftr w 8); byte_of (N.shiftr w 16); byte_of (N.shiftr w 24)].

Definition CHUNK_START := 1. Definition CHUNK_END := 2. Definition PARENT := 4. Definition ROOT := 8.
(** what is left to compress last: chaining value, block, counter, length, flags *)
Record Node := mkNode { n_cv : list N; n_block : list N; n_counter : N; n_len : N; n_flags : N }.
Definition chaining (n : Node) : list N := firstn 8 (compress (n_cv n) (n_block n) (n_counter n) (n_len n) (n_flags n)).
(** a chunk of at most 1024 bytes: blocks of 64, the last one kept back; [fuel] blocks at most *)
Fixpoint chunk (fuel : nat) (cv : list N) (flags : N) (counter : N) (b : bytes) : Node :=
  let blk := firstn 64 b in
  match fuel, skipn 64 b with
  | S fuel, (_ :: _) as r => chunk fuel (firstn 8 (compress cv (words 16 blk) counter 64 flags)) 0 counter r
  | _, _ => mkNode cv (words 16 blk) counter (N.of_nat (List.length blk)) (N.lor flags CHUNK_END)
  end.
(** the largest power of two of chunks that leaves something for the right side *)
Fixpoint left_chunks (fuel : nat) (l total : N) : N :=
  match fuel with O => l | S f => if 2 * l <? total then left_chunks f (2 * l) total else l end.
Fixpoint tree (fuel : nat) (counter : N) (b : bytes) : Node :=
  let len := N.of_nat (List.length b) in
  match fuel with
  | S f =>
      if len <=? 1024 then chunk 16 IV CHUNK_START counter b
      else
        let total := (len + 1023) / 1024 in
        let l := left_chunks f 1 total in
        let n := N.to_nat (l * 1024) in
        mkNode IV (chaining (tree f counter (firstn n b)) ++ chaining (tree f (counter + l) (skipn n b))) 0 64 PARENT
  | O => chunk 16 IV CHUNK_START counter b
  end.
(** the first 64 bytes of the output of the root *)
Definition root_bytes (b : bytes) : bytes :=
  let n := tree (List.length b) 0 b in
  let out := compress (n_cv n) (n_block n) 0 (n_len n) (N.lor (n_flags n) ROOT) in
  flat_map (fun i => le_bytes (at_ out i)) (seq 0 16).
Definition blake3_256 (b : bytes) : bytes := firstn 32 (root_bytes b).
Definition blake3_512 (b : bytes) : bytes := root_bytes b.

Lemma root_length b : List.length (root_bytes b) = 64%nat.
Proof. reflexivity. Qed.
Theorem blake3_256_length b : List.length (blake3_256 b) = 32%nat.
Proof. unfold blake3_256. now rewrite firstn_length, root_length. Qed.
Theorem blake3_512_length b : List.length (blake3_512 b) = 64%nat.
Proof. apply root_length. Qed.
