(** src/aes_table_based.rs *)
From Verif Require Import Word Interface Tables.
Open Scope N_scope.

(** aes_table_based.rs:355-384, macro declare!: [x as u8 as usize] indexes a 256-entry table.
    Indexing is total here ([nth] with default 0); that the index is always in range is
    theorem [C26_table_index_in_range] (Props_Total.v). *)
Definition lut (t : list N) (x : N) : N := nth (N.to_nat (as_u8 x)) t 0.
Definition te0 := lut TE0. Definition te1 := lut TE1.
Definition te2 := lut TE2. Definition te3 := lut TE3.
Definition td0 := lut TD0. Definition td1 := lut TD1.
Definition td2 := lut TD2. Definition td3 := lut TD3.
Definition te4_0 x := N.land (lut TE4 x) 0xff000000.
Definition te4_1 x := N.land (lut TE4 x) 0xff0000.
Definition te4_2 x := N.land (lut TE4 x) 0xff00.
Definition te4_3 x := N.land (lut TE4 x) 0xff.
Definition td4_0 x := N.land (lut TD4 x) 0xff000000.
Definition td4_1 x := N.land (lut TD4 x) 0xff0000.
Definition td4_2 x := N.land (lut TD4 x) 0xff00.
Definition td4_3 x := N.land (lut TD4 x) 0xff.

(** aes_table_based.rs:9-15 *)
Definition load_u32_be (slice : list N) (offset : nat) : outcome N :=
  b0 <- get slice (offset + 0) ;; b1 <- get slice (offset + 1) ;;
  b2 <- get slice (offset + 2) ;; b3 <- get slice (offset + 3) ;;
  Ret (N.lor (N.lor (N.lor (shl 32 b0 24) (shl 32 b1 16)) (shl 32 b2 8)) b3).

(** aes_table_based.rs:17-23 *)
Definition store_u32_be (num : N) : writer :=
  w_then (w_step (fun s => set s 0 (as_u8 (shr num 24))))
  (w_then (w_step (fun s => set s 1 (as_u8 (shr num 16))))
  (w_then (w_step (fun s => set s 2 (as_u8 (shr num 8))))
          (w_step (fun s => set s 3 (as_u8 num))))).

(** aes_table_based.rs:85-92 (and From, 25-30) *)
Definition tb_new (value : list N) : outcome w4 :=
  a <- load_u32_be value 0 ;; b <- load_u32_be value 4 ;;
  c <- load_u32_be value 8 ;; d <- load_u32_be value 12 ;;
  Ret (W4 a b c d).

(** aes_table_based.rs:95-101 *)
Definition tb_store_to (s : w4) : writer :=
  w_then (w_assert_len 16)
  (w_then (store_u32_be (w_0 s))
  (w_then (w_from 4 (store_u32_be (w_1 s)))
  (w_then (w_from 8 (store_u32_be (w_2 s)))
          (w_from 12 (store_u32_be (w_3 s)))))).

(* [a ^ b ^ c ^ d ^ e], as in aes_table_based.rs:116-124, 154-162. *)
Definition xor5 (a b c d e : N) : N := N.lxor (N.lxor (N.lxor (N.lxor a b) c) d) e.
(* [a ^ b ^ c ^ d], as in aes_table_based.rs:192-236. *)
Definition xor4 (a b c d : N) : N := N.lxor (N.lxor (N.lxor a b) c) d.

(** aes_table_based.rs:116-123 *)
Definition tb_enc (s k : w4) : w4 := W4
  (xor5 (te0 (shr (w_0 s) 24)) (te1 (shr (w_1 s) 16)) (te2 (shr (w_2 s) 8)) (te3 (w_3 s)) (w_0 k))
  (xor5 (te0 (shr (w_1 s) 24)) (te1 (shr (w_2 s) 16)) (te2 (shr (w_3 s) 8)) (te3 (w_0 s)) (w_1 k))
  (xor5 (te0 (shr (w_2 s) 24)) (te1 (shr (w_3 s) 16)) (te2 (shr (w_0 s) 8)) (te3 (w_1 s)) (w_2 k))
  (xor5 (te0 (shr (w_3 s) 24)) (te1 (shr (w_0 s) 16)) (te2 (shr (w_1 s) 8)) (te3 (w_2 s)) (w_3 k)).

(** aes_table_based.rs:127-150 *)
Definition tb_enc_last (s k : w4) : w4 := W4
  (xor5 (te4_0 (shr (w_0 s) 24)) (te4_1 (shr (w_1 s) 16)) (te4_2 (shr (w_2 s) 8)) (te4_3 (w_3 s)) (w_0 k))
  (xor5 (te4_0 (shr (w_1 s) 24)) (te4_1 (shr (w_2 s) 16)) (te4_2 (shr (w_3 s) 8)) (te4_3 (w_0 s)) (w_1 k))
  (xor5 (te4_0 (shr (w_2 s) 24)) (te4_1 (shr (w_3 s) 16)) (te4_2 (shr (w_0 s) 8)) (te4_3 (w_1 s)) (w_2 k))
  (xor5 (te4_0 (shr (w_3 s) 24)) (te4_1 (shr (w_0 s) 16)) (te4_2 (shr (w_1 s) 8)) (te4_3 (w_2 s)) (w_3 k)).

(** aes_table_based.rs:154-161 *)
Definition tb_dec (s k : w4) : w4 := W4
  (xor5 (td0 (shr (w_0 s) 24)) (td1 (shr (w_3 s) 16)) (td2 (shr (w_2 s) 8)) (td3 (w_1 s)) (w_0 k))
  (xor5 (td0 (shr (w_1 s) 24)) (td1 (shr (w_0 s) 16)) (td2 (shr (w_3 s) 8)) (td3 (w_2 s)) (w_1 k))
  (xor5 (td0 (shr (w_2 s) 24)) (td1 (shr (w_1 s) 16)) (td2 (shr (w_0 s) 8)) (td3 (w_3 s)) (w_2 k))
  (xor5 (td0 (shr (w_3 s) 24)) (td1 (shr (w_2 s) 16)) (td2 (shr (w_1 s) 8)) (td3 (w_0 s)) (w_3 k)).

(** aes_table_based.rs:165-188 *)
Definition tb_dec_last (s k : w4) : w4 := W4
  (xor5 (td4_0 (shr (w_0 s) 24)) (td4_1 (shr (w_3 s) 16)) (td4_2 (shr (w_2 s) 8)) (td4_3 (w_1 s)) (w_0 k))
  (xor5 (td4_0 (shr (w_1 s) 24)) (td4_1 (shr (w_0 s) 16)) (td4_2 (shr (w_3 s) 8)) (td4_3 (w_2 s)) (w_1 k))
  (xor5 (td4_0 (shr (w_2 s) 24)) (td4_1 (shr (w_1 s) 16)) (td4_2 (shr (w_0 s) 8)) (td4_3 (w_3 s)) (w_2 k))
  (xor5 (td4_0 (shr (w_3 s) 24)) (td4_1 (shr (w_2 s) 16)) (td4_2 (shr (w_1 s) 8)) (td4_3 (w_0 s)) (w_3 k)).

(** aes_table_based.rs:192-211, one column *)
Definition mc_word (x : N) : N :=
  xor4 (te0 (td4_3 (shr x 24))) (te1 (td4_3 (shr x 16))) (te2 (td4_3 (shr x 8))) (te3 (td4_3 x)).
Definition tb_mc (s : w4) : w4 := W4 (mc_word (w_0 s)) (mc_word (w_1 s)) (mc_word (w_2 s)) (mc_word (w_3 s)).

(** aes_table_based.rs:215-234, one column *)
Definition imc_word (x : N) : N :=
  xor4 (td0 (te4_3 (shr x 24))) (td1 (te4_3 (shr x 16))) (td2 (te4_3 (shr x 8))) (td3 (te4_3 x)).
Definition tb_imc (s : w4) : w4 := W4 (imc_word (w_0 s)) (imc_word (w_1 s)) (imc_word (w_2 s)) (imc_word (w_3 s)).

(** aes_table_based.rs:237-240 (the rotation is folded into the byte positions) *)
Definition tb_sub_word (x : N) : N :=
  N.lor (N.lor (N.lor (te4_0 (shr x 16)) (te4_1 (shr x 8))) (te4_2 x)) (te4_3 (shr x 24)).

(** aes_table_based.rs:242-248 *)
Definition tb_keyexp_128 (rcon : N) (p : w4) : w4 :=
  let k0 := N.lxor (N.lxor (w_0 p) (tb_sub_word (w_3 p))) rcon in
  let k1 := N.lxor (w_1 p) k0 in
  let k2 := N.lxor (w_2 p) k1 in
  let k3 := N.lxor (w_3 p) k2 in
  W4 k0 k1 k2 k3.

(** aes_table_based.rs:250-259; [u32; 6] as six values *)
Record w6 : Type := W6 { v_0 : N; v_1 : N; v_2 : N; v_3 : N; v_4 : N; v_5 : N }.
Definition tb_keyexp_192 (rcon : N) (p : w6) : w6 :=
  let k0 := N.lxor (N.lxor (v_0 p) (tb_sub_word (v_5 p))) rcon in
  let k1 := N.lxor (v_1 p) k0 in
  let k2 := N.lxor (v_2 p) k1 in
  let k3 := N.lxor (v_3 p) k2 in
  let k4 := N.lxor (v_4 p) k3 in
  let k5 := N.lxor (v_5 p) k4 in
  W6 k0 k1 k2 k3 k4 k5.

(** aes_table_based.rs:261-267 *)
Definition tb_keyexp_256_1 (rcon : N) (prev0 prev1 : w4) : w4 :=
  let k0 := N.lxor (N.lxor (w_0 prev0) (tb_sub_word (w_3 prev1))) rcon in
  let k1 := N.lxor (w_1 prev0) k0 in
  let k2 := N.lxor (w_2 prev0) k1 in
  let k3 := N.lxor (w_3 prev0) k2 in
  W4 k0 k1 k2 k3.

(** aes_table_based.rs:269-275 *)
Definition tb_keyexp_256_2 (prev0 prev1 : w4) : w4 :=
  let k0 := N.lxor (w_0 prev0) (tb_sub_word (rotr 32 (w_3 prev1) 8)) in
  let k1 := N.lxor (w_1 prev0) k0 in
  let k2 := N.lxor (w_2 prev0) k1 in
  let k3 := N.lxor (w_3 prev0) k2 in
  W4 k0 k1 k2 k3.

(** aes_table_based.rs:277-293 *)
Definition tb_keygen_128 (key : list N) : outcome (list w4) :=
  key0 <- tb_new key ;;
  let key1 := tb_keyexp_128 0x01000000 key0 in
  let key2 := tb_keyexp_128 0x02000000 key1 in
  let key3 := tb_keyexp_128 0x04000000 key2 in
  let key4 := tb_keyexp_128 0x08000000 key3 in
  let key5 := tb_keyexp_128 0x10000000 key4 in
  let key6 := tb_keyexp_128 0x20000000 key5 in
  let key7 := tb_keyexp_128 0x40000000 key6 in
  let key8 := tb_keyexp_128 0x80000000 key7 in
  let key9 := tb_keyexp_128 0x1b000000 key8 in
  let key10 := tb_keyexp_128 0x36000000 key9 in
  Ret [key0; key1; key2; key3; key4; key5; key6; key7; key8; key9; key10].

(** aes_table_based.rs:295-329 *)
Definition tb_keygen_192 (key : list N) : outcome (list w4) :=
  a0 <- load_u32_be key 0 ;; a1 <- load_u32_be key 4 ;; a2 <- load_u32_be key 8 ;;
  a3 <- load_u32_be key 12 ;; a4 <- load_u32_be key 16 ;; a5 <- load_u32_be key 20 ;;
  let k := W6 a0 a1 a2 a3 a4 a5 in
  let key0 := W4 (v_0 k) (v_1 k) (v_2 k) (v_3 k) in
  let p := tb_keyexp_192 0x01000000 k in
  let key1 := W4 (v_4 k) (v_5 k) (v_0 p) (v_1 p) in
  let key2 := W4 (v_2 p) (v_3 p) (v_4 p) (v_5 p) in
  let k := tb_keyexp_192 0x02000000 p in
  let key3 := W4 (v_0 k) (v_1 k) (v_2 k) (v_3 k) in
  let p := tb_keyexp_192 0x04000000 k in
  let key4 := W4 (v_4 k) (v_5 k) (v_0 p) (v_1 p) in
  let key5 := W4 (v_2 p) (v_3 p) (v_4 p) (v_5 p) in
  let k := tb_keyexp_192 0x08000000 p in
  let key6 := W4 (v_0 k) (v_1 k) (v_2 k) (v_3 k) in
  let p := tb_keyexp_192 0x10000000 k in
  let key7 := W4 (v_4 k) (v_5 k) (v_0 p) (v_1 p) in
  let key8 := W4 (v_2 p) (v_3 p) (v_4 p) (v_5 p) in
  let k := tb_keyexp_192 0x20000000 p in
  let key9 := W4 (v_0 k) (v_1 k) (v_2 k) (v_3 k) in
  let p := tb_keyexp_192 0x40000000 k in
  let key10 := W4 (v_4 k) (v_5 k) (v_0 p) (v_1 p) in
  let key11 := W4 (v_2 p) (v_3 p) (v_4 p) (v_5 p) in
  let k := tb_keyexp_192 0x80000000 p in
  let key12 := W4 (v_0 k) (v_1 k) (v_2 k) (v_3 k) in
  Ret [key0; key1; key2; key3; key4; key5; key6; key7; key8; key9; key10; key11; key12].

(** aes_table_based.rs:331-353 *)
Definition tb_keygen_256 (dbg : bool) (key : list N) : outcome (list w4) :=
  lo <- slice_to key 16 ;; r0 <- try_from_slice dbg 16 tb_new lo ;; key0 <- unwrap r0 ;;
  hi <- slice_from key 16 ;; r1 <- try_from_slice dbg 16 tb_new hi ;; key1 <- unwrap r1 ;;
  let key2 := tb_keyexp_256_1 0x01000000 key0 key1 in
  let key3 := tb_keyexp_256_2 key1 key2 in
  let key4 := tb_keyexp_256_1 0x02000000 key2 key3 in
  let key5 := tb_keyexp_256_2 key3 key4 in
  let key6 := tb_keyexp_256_1 0x04000000 key4 key5 in
  let key7 := tb_keyexp_256_2 key5 key6 in
  let key8 := tb_keyexp_256_1 0x08000000 key6 key7 in
  let key9 := tb_keyexp_256_2 key7 key8 in
  let key10 := tb_keyexp_256_1 0x10000000 key8 key9 in
  let key11 := tb_keyexp_256_2 key9 key10 in
  let key12 := tb_keyexp_256_1 0x20000000 key10 key11 in
  let key13 := tb_keyexp_256_2 key11 key12 in
  let key14 := tb_keyexp_256_1 0x40000000 key12 key13 in
  Ret [key0; key1; key2; key3; key4; key5; key6; key7; key8; key9; key10; key11; key12; key13; key14].

(* aes_table_based.rs:25-189. *)
Definition table_ops : ops w4 :=
  Ops 16 tb_new tb_new tb_store_to w4_and w4_or w4_xor w4_not w4_zero w4_is_zero w4_eq
      tb_enc tb_dec tb_enc_last tb_dec_last.
(* aes_table_based.rs:191-353. *)
Definition table_ext (dbg : bool) : block_ext w4 :=
  Ext tb_mc tb_imc tb_keygen_128 tb_keygen_192 (tb_keygen_256 dbg) None.
