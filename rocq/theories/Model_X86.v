(** src/aes_x86.rs.  An AesBlock is an __m128i, here the list of its 16 bytes ([Isa_x86]). *)
From Verif Require Import Word Interface Isa_x86.
Open Scope N_scope.

(** aes_x86.rs:21-26 From<[u8;16]>; 66-69 new (transmute) *)
Definition x86_from (value : list N) : outcome (list N) := mm_loadu value.
Definition x86_new (value : list N) : outcome (list N) := Ret value.
(** aes_x86.rs:72-75 *)
Definition x86_store_to (s : list N) : writer := w_then (w_assert_len 16) (mm_storeu s).
(** aes_x86.rs:55-62 *)
Definition x86_not (s : list N) : list N := mm_xor s (mm_set1_m1 16).
(** aes_x86.rs:84-86, 12-17 *)
Definition x86_is_zero (s : list N) : bool := mm_testz s s =? 1.
Definition x86_eq (s t : list N) : bool := x86_is_zero (mm_xor s t).
(** aes_x86.rs:114-121 *)
Definition x86_mc (s : list N) : list N := mm_aesenc (mm_aesdeclast s (mm_setzero 16)) (mm_setzero 16).
(** aes_x86.rs:125-127 *)
Definition x86_imc (s : list N) : list N := mm_aesimc s.

(** aes_x86.rs:131-134 *)
Definition x86_mix (v : list N) : list N :=
  let temp := mm_xor v (mm_bslli 4 v) in
  mm_xor temp (mm_bslli 8 temp).
(** aes_x86.rs:138-145 *)
Definition x86_keyexp_128 (rc : N) (prev : list N) : list N :=
  mm_xor (x86_mix prev) (mm_shuffle_epi32 0xff (mm_aeskeygenassist rc prev)).
(** aes_x86.rs:151-158 *)
Definition x86_fwd (rc : N) (s : list N * list N) : list N * list N :=
  let '(state1, state2) := s in
  let state1 := mm_xor (x86_mix state1) (mm_shuffle_epi32 0x55 (mm_aeskeygenassist rc state2)) in
  let state2 := mm_xor state2 (mm_bslli 4 state2) in
  let state2 := mm_xor state2 (mm_shuffle_epi32 0xff state1) in
  (state1, state2).
(** aes_x86.rs:147-171; returns the new state and the three keys *)
Definition x86_keyexp_192 (rc1 rc2 : N) (s : list N * list N)
  : (list N * list N) * (list N * list N * list N) :=
  let prev_state := snd s in
  let s := x86_fwd rc1 s in
  let key1 := mm_unpacklo_epi64 prev_state (fst s) in
  let key2 := mm_alignr_epi8 8 (snd s) (fst s) in
  let s := x86_fwd rc2 s in
  (s, (key1, key2, fst s)).
(** aes_x86.rs:173-180 *)
Definition x86_keyexp_256_1 (rc : N) (prev0 prev1 : list N) : list N :=
  mm_xor (x86_mix prev0) (mm_shuffle_epi32 0xff (mm_aeskeygenassist rc prev1)).
(** aes_x86.rs:182-189 *)
Definition x86_keyexp_256_2 (prev0 prev1 : list N) : list N :=
  mm_xor (x86_mix prev0) (mm_shuffle_epi32 0xaa (mm_aeskeygenassist 0 prev1)).

(** aes_x86.rs:191-207 *)
Definition x86_keygen_128 (key : list N) : outcome (list (list N)) :=
  key0 <- x86_from key ;;
  let key1 := x86_keyexp_128 0x01 key0 in
  let key2 := x86_keyexp_128 0x02 key1 in
  let key3 := x86_keyexp_128 0x04 key2 in
  let key4 := x86_keyexp_128 0x08 key3 in
  let key5 := x86_keyexp_128 0x10 key4 in
  let key6 := x86_keyexp_128 0x20 key5 in
  let key7 := x86_keyexp_128 0x40 key6 in
  let key8 := x86_keyexp_128 0x80 key7 in
  let key9 := x86_keyexp_128 0x1b key8 in
  let key10 := x86_keyexp_128 0x36 key9 in
  Ret [key0; key1; key2; key3; key4; key5; key6; key7; key8; key9; key10].

(** aes_x86.rs:209-225 (copy_from_slice of key[16..] into key_block[..8], both of length 8) *)
Definition x86_keygen_192 (dbg : bool) (key : list N) : outcome (list (list N)) :=
  lo <- slice_to key 16 ;; r0 <- try_from_slice dbg 16 x86_from lo ;; key0 <- unwrap r0 ;;
  src <- slice_from key 16 ;;
  _ <- rust_assert (Nat.eqb (length src) 8) ;;
  key_block <- with_to (repeat 0 16) 8 (fun _ => Ret src) ;;
  key_block <- with_from key_block 8 (fun s => Ret (repeat 0 (length s))) ;;
  b <- x86_from key_block ;;
  let state := (key0, b) in
  let '(state, (key1, key2, key3)) := x86_keyexp_192 0x01 0x02 state in
  let '(state, (key4, key5, key6)) := x86_keyexp_192 0x04 0x08 state in
  let '(state, (key7, key8, key9)) := x86_keyexp_192 0x10 0x20 state in
  let '(state, (key10, key11, key12)) := x86_keyexp_192 0x40 0x80 state in
  Ret [key0; key1; key2; key3; key4; key5; key6; key7; key8; key9; key10; key11; key12].

(** aes_x86.rs:227-249 *)
Definition x86_keygen_256 (dbg : bool) (key : list N) : outcome (list (list N)) :=
  lo <- slice_to key 16 ;; r0 <- try_from_slice dbg 16 x86_from lo ;; key0 <- unwrap r0 ;;
  hi <- slice_from key 16 ;; r1 <- try_from_slice dbg 16 x86_from hi ;; key1 <- unwrap r1 ;;
  let key2 := x86_keyexp_256_1 0x01 key0 key1 in
  let key3 := x86_keyexp_256_2 key1 key2 in
  let key4 := x86_keyexp_256_1 0x02 key2 key3 in
  let key5 := x86_keyexp_256_2 key3 key4 in
  let key6 := x86_keyexp_256_1 0x04 key4 key5 in
  let key7 := x86_keyexp_256_2 key5 key6 in
  let key8 := x86_keyexp_256_1 0x08 key6 key7 in
  let key9 := x86_keyexp_256_2 key7 key8 in
  let key10 := x86_keyexp_256_1 0x10 key8 key9 in
  let key11 := x86_keyexp_256_2 key9 key10 in
  let key12 := x86_keyexp_256_1 0x20 key10 key11 in
  let key13 := x86_keyexp_256_2 key11 key12 in
  let key14 := x86_keyexp_256_1 0x40 key12 key13 in
  Ret [key0; key1; key2; key3; key4; key5; key6; key7; key8; key9; key10; key11; key12; key13; key14].

(** aes_x86.rs:28-53 operators, 78-80 zero, 90-110 rounds *)
Definition x86_ops : ops (list N) :=
  Ops 16 x86_new x86_from x86_store_to mm_and mm_or mm_xor x86_not (mm_setzero 16)
      x86_is_zero x86_eq mm_aesenc mm_aesdec mm_aesenclast mm_aesdeclast.
Definition x86_ext (dbg : bool) : block_ext (list N) :=
  Ext x86_mc x86_imc x86_keygen_128 (x86_keygen_192 dbg) (x86_keygen_256 dbg) None.
