(** src/aes_riscv64.rs.  An AesBlock is a pair of u64 (repr(C)); RISC-V is little-endian. *)
From Verif Require Import Word Interface Isa_riscv.
Open Scope N_scope.

(* aes_riscv64.rs:21-24 struct AesBlock(u64, u64). *)
Record w2 : Type := W2 { d_0 : N; d_1 : N }.

(** aes_riscv64.rs:26-31, 71-73: transmute of 16 bytes to two little-endian u64 *)
Definition r64_new (value : list N) : outcome w2 :=
  Ret (W2 (of_le (firstn 8 value)) (of_le (firstn 8 (skipn 8 value)))).
(** memory image of a block *)
Definition r64_bytes (s : w2) : list N := to_le 8 (d_0 s) ++ to_le 8 (d_1 s).
(** aes_riscv64.rs:76-81 *)
Definition r64_store_to (s : w2) : writer :=
  w_then (w_assert_len 16) (w_step (fun dst => raw_write dst (r64_bytes s))).

(** aes_riscv64.rs:33-67 *)
Definition r64_map2 (f : N -> N -> N) (a b : w2) : w2 := W2 (f (d_0 a) (d_0 b)) (f (d_1 a) (d_1 b)).
Definition r64_and := r64_map2 N.land.
Definition r64_or := r64_map2 N.lor.
Definition r64_xor := r64_map2 N.lxor.
Definition r64_not (a : w2) : w2 := W2 (bnot 64 (d_0 a)) (bnot 64 (d_1 a)).
(** aes_riscv64.rs:84-92, 21 (derived equality) *)
Definition r64_zero : w2 := W2 0 0.
Definition r64_is_zero (a : w2) : bool := N.lor (d_0 a) (d_1 a) =? 0.
Definition r64_eq (a b : w2) : bool := (d_0 a =? d_0 b) && (d_1 a =? d_1 b).

(** aes_riscv64.rs:96-136 *)
Definition r64_round (f : N -> N -> N) (s k : w2) : w2 :=
  W2 (N.lxor (f (d_0 s) (d_1 s)) (d_0 k)) (N.lxor (f (d_1 s) (d_0 s)) (d_1 k)).
Definition r64_enc := r64_round aes64esm.
Definition r64_dec := r64_round aes64dsm.
Definition r64_enc_last := r64_round aes64es.
Definition r64_dec_last := r64_round aes64ds.
(** aes_riscv64.rs:140-145 *)
Definition r64_mc (s : w2) : w2 :=
  let tmp0 := aes64ds (d_0 s) (d_1 s) in
  let tmp1 := aes64ds (d_1 s) (d_0 s) in
  W2 (aes64esm tmp0 tmp1) (aes64esm tmp1 tmp0).
(** aes_riscv64.rs:149-151 *)
Definition r64_imc (s : w2) : w2 := W2 (aes64im (d_0 s)) (aes64im (d_1 s)).

(** aes_riscv64.rs:155-158 *)
Definition r64_keyexp_128 (rnum : N) (prev : w2) : w2 :=
  let tmp := aes64ks2 (aes64ks1i (d_1 prev) rnum) (d_0 prev) in
  W2 tmp (aes64ks2 tmp (d_1 prev)).
(** aes_riscv64.rs:161-166 *)
Definition r64_keyexp_192 (rnum : N) (s : N * N * N) : N * N * N :=
  let '(s0, s1, s2) := s in
  let s0 := aes64ks2 (aes64ks1i s2 rnum) s0 in
  let s1 := aes64ks2 s0 s1 in
  let s2 := aes64ks2 s1 s2 in
  (s0, s1, s2).
(** aes_riscv64.rs:169-172 *)
Definition r64_keyexp_256_1 (rnum : N) (prev0 prev1 : w2) : w2 :=
  let tmp := aes64ks2 (aes64ks1i (d_1 prev1) rnum) (d_0 prev0) in
  W2 tmp (aes64ks2 tmp (d_1 prev0)).
(** aes_riscv64.rs:175-178 *)
Definition r64_keyexp_256_2 (prev0 prev1 : w2) : w2 :=
  let tmp := aes64ks2 (aes64ks1i (d_1 prev1) 10) (d_0 prev0) in
  W2 tmp (aes64ks2 tmp (d_1 prev0)).

(** aes_riscv64.rs:180-198 *)
Definition r64_keygen_128 (key : list N) : outcome (list w2) :=
  key0 <- r64_new key ;;
  let key1 := r64_keyexp_128 0 key0 in
  let key2 := r64_keyexp_128 1 key1 in
  let key3 := r64_keyexp_128 2 key2 in
  let key4 := r64_keyexp_128 3 key3 in
  let key5 := r64_keyexp_128 4 key4 in
  let key6 := r64_keyexp_128 5 key5 in
  let key7 := r64_keyexp_128 6 key6 in
  let key8 := r64_keyexp_128 7 key7 in
  let key9 := r64_keyexp_128 8 key8 in
  let key10 := r64_keyexp_128 9 key9 in
  Ret [key0; key1; key2; key3; key4; key5; key6; key7; key8; key9; key10].

(** aes_riscv64.rs:200-223.  The final [mem::transmute] of a nested tuple to [AesBlock; 13] is
    modelled with the fields in declaration order; Rust leaves the layout of tuples unspecified,
    so this order is an assumption about the compiler (DESIGN.md, trusted base). *)
Definition u64_at (key : list N) (off : nat) : outcome N :=
  s <- slice_to key (off + 8) ;; s <- slice_from s off ;; Ret (of_le s).
Definition r64_keygen_192 (key : list N) : outcome (list w2) :=
  a <- u64_at key 0 ;; b <- u64_at key 8 ;; c <- u64_at key 16 ;;
  let '(a0, b0, c0) := (a, b, c) in
  let '(a1, b1, c1) := r64_keyexp_192 0 (a0, b0, c0) in
  let '(a2, b2, c2) := r64_keyexp_192 1 (a1, b1, c1) in
  let '(a3, b3, c3) := r64_keyexp_192 2 (a2, b2, c2) in
  let '(a4, b4, c4) := r64_keyexp_192 3 (a3, b3, c3) in
  let '(a5, b5, c5) := r64_keyexp_192 4 (a4, b4, c4) in
  let '(a6, b6, c6) := r64_keyexp_192 5 (a5, b5, c5) in
  let '(a7, b7, c7) := r64_keyexp_192 6 (a6, b6, c6) in
  let state24 := aes64ks2 (aes64ks1i c7 7) a7 in
  let state25 := aes64ks2 state24 b7 in
  Ret [W2 a0 b0; W2 c0 a1; W2 b1 c1; W2 a2 b2; W2 c2 a3; W2 b3 c3; W2 a4 b4; W2 c4 a5; W2 b5 c5;
       W2 a6 b6; W2 c6 a7; W2 b7 c7; W2 state24 state25].

(** aes_riscv64.rs:225-249 *)
Definition r64_keygen_256 (dbg : bool) (key : list N) : outcome (list w2) :=
  lo <- slice_to key 16 ;; r0 <- try_from_slice dbg 16 r64_new lo ;; key0 <- unwrap r0 ;;
  hi <- slice_from key 16 ;; r1 <- try_from_slice dbg 16 r64_new hi ;; key1 <- unwrap r1 ;;
  let key2 := r64_keyexp_256_1 0 key0 key1 in
  let key3 := r64_keyexp_256_2 key1 key2 in
  let key4 := r64_keyexp_256_1 1 key2 key3 in
  let key5 := r64_keyexp_256_2 key3 key4 in
  let key6 := r64_keyexp_256_1 2 key4 key5 in
  let key7 := r64_keyexp_256_2 key5 key6 in
  let key8 := r64_keyexp_256_1 3 key6 key7 in
  let key9 := r64_keyexp_256_2 key7 key8 in
  let key10 := r64_keyexp_256_1 4 key8 key9 in
  let key11 := r64_keyexp_256_2 key9 key10 in
  let key12 := r64_keyexp_256_1 5 key10 key11 in
  let key13 := r64_keyexp_256_2 key11 key12 in
  let key14 := r64_keyexp_256_1 6 key12 key13 in
  Ret [key0; key1; key2; key3; key4; key5; key6; key7; key8; key9; key10; key11; key12; key13; key14].

(* aes_riscv64.rs:26-138. *)
Definition rv64_ops : ops w2 :=
  Ops 16 r64_new r64_new r64_store_to r64_and r64_or r64_xor r64_not r64_zero r64_is_zero r64_eq
      r64_enc r64_dec r64_enc_last r64_dec_last.
(* aes_riscv64.rs:139-249. *)
Definition rv64_ext (dbg : bool) : block_ext w2 :=
  Ext r64_mc r64_imc r64_keygen_128 r64_keygen_192 (r64_keygen_256 dbg) None.
