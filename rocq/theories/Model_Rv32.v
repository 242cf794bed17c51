(** src/aes_riscv32.rs.  An AesBlock is four u32 (repr(C)); RISC-V is little-endian. *)
From Verif Require Import Word Interface Isa_riscv Model_Columns.
Open Scope N_scope.

(** aes_riscv32.rs:42-47, 102-104 *)
Definition r32_of_bytes (value : list N) : w4 :=
  match map of_le (chunks 4 4 value) with
  | [a; b; c; d] => W4 a b c d
  | _ => W4 0 0 0 0
  end.
Definition r32_new (value : list N) : outcome w4 := Ret (r32_of_bytes value).
Definition r32_bytes (s : w4) : list N :=
  to_le 4 (w_0 s) ++ to_le 4 (w_1 s) ++ to_le 4 (w_2 s) ++ to_le 4 (w_3 s).
(** aes_riscv32.rs:107-112 *)
Definition r32_store_to (s : w4) : writer :=
  w_then (w_assert_len 16) (w_step (fun dst => raw_write dst (r32_bytes s))).

(** aes_riscv32.rs:20-40 macro outer! *)
Definition r32_inner (f : N -> N -> N -> N) (t0 t1 t2 t3 rk : N) : N :=
  let value := rk in
  let value := f value t0 0 in
  let value := f value t1 1 in
  let value := f value t2 2 in
  f value t3 3.
Definition r32_outer (f : N -> N -> N -> N) (m k : w4) : w4 :=
  W4 (r32_inner f (w_0 m) (w_1 m) (w_2 m) (w_3 m) (w_0 k))
     (r32_inner f (w_1 m) (w_2 m) (w_3 m) (w_0 m) (w_1 k))
     (r32_inner f (w_2 m) (w_3 m) (w_0 m) (w_1 m) (w_2 k))
     (r32_inner f (w_3 m) (w_0 m) (w_1 m) (w_2 m) (w_3 k)).

(** aes_riscv32.rs:125-167 *)
Definition r32_pre_enc := r32_outer aes32esmi.
Definition r32_pre_enc_last := r32_outer aes32esi.
Definition r32_pre_dec := r32_outer aes32dsmi.
Definition r32_pre_dec_last := r32_outer aes32dsi.
Definition r32_enc (s k : w4) : w4 := w4_xor (r32_pre_enc s w4_zero) k.
Definition r32_enc_last (s k : w4) : w4 := w4_xor (r32_pre_enc_last s w4_zero) k.
Definition r32_dec (s k : w4) : w4 := w4_xor (r32_pre_dec s w4_zero) k.
Definition r32_dec_last (s k : w4) : w4 := w4_xor (r32_pre_dec_last s w4_zero) k.
(** aes_riscv32.rs:171-173, 177-179 *)
Definition r32_mc (s : w4) : w4 := r32_enc (r32_pre_dec_last s w4_zero) w4_zero.
Definition r32_imc (s : w4) : w4 := r32_dec (r32_pre_enc_last s w4_zero) w4_zero.

(** aes_riscv32.rs:185-194 *)
Definition r32_sub_word (xor word : N) : N :=
  let value := xor in
  let value := aes32esi value word 0 in
  let value := aes32esi value word 1 in
  let value := aes32esi value word 2 in
  aes32esi value word 3.

(** aes_riscv32.rs:207, 227, 235, 264: [sub_word(old ^ RCON, word)], no rotation *)
Definition r32_first (old word rc : N) : N := r32_sub_word (N.lxor old rc) word.
(** aes_riscv32.rs:254: [sub_word(old ^ RCON, word.rotate_right(8))] *)
Definition r32_first_rot (old word rc : N) : N := r32_sub_word (N.lxor old rc) (rotr 32 word 8).
(** aes_riscv32.rs:258 *)
Definition r32_mid (old word : N) : N := r32_sub_word old word.

(** aes_riscv32.rs:196-214, 216-241, 243-270 *)
Definition r32_keygen (n : nat) (cols : outcome (list N)) : outcome (list w4) :=
  cols <- cols ;; Ret (map r32_of_bytes (col_blocks false n cols)).
Definition r32_keygen_128 (key : list N) : outcome (list w4) :=
  r32_keygen 11 (col_keygen_128 false r32_first key).
Definition r32_keygen_192 (key : list N) : outcome (list w4) :=
  r32_keygen 13 (col_keygen_192 false r32_first key).
Definition r32_keygen_256 (key : list N) : outcome (list w4) :=
  r32_keygen 15 (col_keygen_256 false r32_first_rot r32_first r32_mid key).

(* aes_riscv32.rs:42-168. *)
Definition rv32_ops : ops w4 :=
  Ops 16 r32_new r32_new r32_store_to w4_and w4_or w4_xor w4_not w4_zero w4_is_zero w4_eq
      r32_enc r32_dec r32_enc_last r32_dec_last.
(* aes_riscv32.rs:126-270. *)
Definition rv32_ext : block_ext w4 :=
  Ext r32_mc r32_imc r32_keygen_128 r32_keygen_192 r32_keygen_256 (Some (r32_pre_enc, r32_pre_dec)).
