(** The defects of C30 - C32 as edits of the source.  [impl_with e c] is the crate with the edits switched on in [e]; with
    none of them it is the code as it is ([C56_no_edit_is_the_code]).  The lines cited are the lines an edit replaces. *)
From Verif Require Import Word Interface Isa_riscv Isa_x86 Isa_arm Model_Columns Model_Rv32 Model_Bitslice Model_X86 Model_Vaes Model_Arm Model_Rv64 Model_Table Model_Wide Model_Cfg.
Open Scope N_scope.

(** What each edit does:
    [ed_order]   aes_riscv32.rs:20-40: for decryption [outer!] takes the words of the state in the order of InvShiftRows;
    [ed_pre]     aes_riscv32.rs:126-128, 149-151: [pre_enc], [pre_dec] add the round key before the round, as lib.rs:348-426 expects;
    [ed_rot128], [ed_rot192], [ed_rot256]  aes_riscv32.rs:207; 227 and 235; 264: [word.rotate_right(8)];
    [ed_be_rot]  aes_bitslice.rs:349, 367, 375, 392, 402: [rotate_left(8)] on big-endian targets;
    [ed_be_rcon] aes_bitslice.rs:338: the constants in the most significant byte on big-endian targets;
    [ed_chain]   lib.rs:334-342: [target_endian = "little"], as at lib.rs:54-63. *)
(* The line numbers are in the comment above: aes_riscv32.rs:20-264, aes_bitslice.rs:338-402, lib.rs:334-342. *)
Record edits := Edits { ed_order : bool; ed_pre : bool; ed_rot128 : bool; ed_rot192 : bool; ed_rot256 : bool; ed_be_rot : bool; ed_be_rcon : bool; ed_chain : bool }.
(* No edit: the repository as it is, aes_riscv32.rs:1-270, aes_bitslice.rs:1-435, lib.rs:334-347. *)
Definition no_edits : edits := Edits false false false false false false false false.
(* All of them. Replaces aes_riscv32.rs:20-264, aes_bitslice.rs:338-402, lib.rs:334-342. *)
Definition all_edits : edits := Edits true true true true true true true true.

Section Edited.
Context (e : edits).

(** aes_riscv32.rs:20-40 *)
Definition rx_outer_dec (f : N -> N -> N -> N) (m k : w4) : w4 :=
  if ed_order e then
    W4 (r32_inner f (w_0 m) (w_3 m) (w_2 m) (w_1 m) (w_0 k))
       (r32_inner f (w_1 m) (w_0 m) (w_3 m) (w_2 m) (w_1 k))
       (r32_inner f (w_2 m) (w_1 m) (w_0 m) (w_3 m) (w_2 k))
       (r32_inner f (w_3 m) (w_2 m) (w_1 m) (w_0 m) (w_3 k))
  else r32_outer f m k.
(** aes_riscv32.rs:125-167 *)
Definition rx_pre_enc (s k : w4) : w4 := if ed_pre e then r32_outer aes32esmi (w4_xor s k) w4_zero else r32_outer aes32esmi s k.
Definition rx_pre_dec (s k : w4) : w4 := if ed_pre e then rx_outer_dec aes32dsmi (w4_xor s k) w4_zero else rx_outer_dec aes32dsmi s k.
Definition rx_pre_dec_last (s k : w4) : w4 := rx_outer_dec aes32dsi s k.
Definition rx_enc (s k : w4) : w4 := w4_xor (rx_pre_enc s w4_zero) k.
Definition rx_dec (s k : w4) : w4 := w4_xor (rx_pre_dec s w4_zero) k.
Definition rx_dec_last (s k : w4) : w4 := w4_xor (rx_pre_dec_last s w4_zero) k.
(** aes_riscv32.rs:171-173, 177-179 *)
Definition rx_mc (s : w4) : w4 := rx_enc (rx_pre_dec_last s w4_zero) w4_zero.
Definition rx_imc (s : w4) : w4 := rx_dec (r32_pre_enc_last s w4_zero) w4_zero.
(** aes_riscv32.rs:196-214, 216-241, 243-270 *)
Definition rx_first (fixed : bool) : N -> N -> N -> N := if fixed then r32_first_rot else r32_first.
Definition rx_keygen_128 (key : list N) : outcome (list w4) := r32_keygen 11 (col_keygen_128 false (rx_first (ed_rot128 e)) key).
Definition rx_keygen_192 (key : list N) : outcome (list w4) := r32_keygen 13 (col_keygen_192 false (rx_first (ed_rot192 e)) key).
Definition rx_keygen_256 (key : list N) : outcome (list w4) :=
  r32_keygen 15 (col_keygen_256 false r32_first_rot (rx_first (ed_rot256 e)) r32_mid key).
(* aes_riscv32.rs:42-168. *)
Definition rx_ops : ops w4 :=
  Ops 16 r32_new r32_new r32_store_to w4_and w4_or w4_xor w4_not w4_zero w4_is_zero w4_eq rx_enc rx_dec r32_enc_last rx_dec_last.
(* aes_riscv32.rs:126-270. *)
Definition rx_ext : block_ext w4 := Ext rx_mc rx_imc rx_keygen_128 rx_keygen_192 rx_keygen_256 (Some (rx_pre_enc, rx_pre_dec)).

(** aes_bitslice.rs:338, 349, 367, 375, 392, 402 *)
Definition bx_first (be : bool) (old word rc : N) : N :=
  N.lxor (N.lxor old (rotr 32 (bs_sub_word word) (if be && ed_be_rot e then 24 else 8))) (if be && ed_be_rcon e then shl 32 rc 24 else rc).
(** aes_bitslice.rs:340-408 *)
Definition bx_keygen_128 (be : bool) (key : list N) : outcome (list N) := bs_keygen be 11 (col_keygen_128 be (bx_first be) key).
Definition bx_keygen_192 (be : bool) (key : list N) : outcome (list N) := bs_keygen be 13 (col_keygen_192 be (bx_first be) key).
Definition bx_keygen_256 (be : bool) (key : list N) : outcome (list N) :=
  bs_keygen be 15 (col_keygen_256 be (bx_first be) (bx_first be) (sub_mid bs_sub_word) key).
(* aes_bitslice.rs:326-406. *)
Definition bx_ext (be : bool) : block_ext N := Ext (mixcolumns be) (invmixcolumns be) (bx_keygen_128 be) (bx_keygen_192 be) (bx_keygen_256 be) None.

(** lib.rs:334-347 *)
Definition select_pre_with (c : cfg) : bool :=
  (is_neon_arch c && c_aes c && (negb (ed_chain e) || negb (c_be c))) || (c_nightly c && is_arch Riscv32 c && c_zkne c && c_zknd c).
(** lib.rs:44-121 with the choice of lib.rs:333-426, as [impl_of] *)
Definition impl_with (c : cfg) : option impl :=
  let dbg := c_dbg c in
  let pre := select_pre_with c in
  match select_x2 c, select_x4 c, select_block c with
  | WDefault, WDefault, BX86 => default_impl dbg x86_ops (x86_ext dbg) pre
  | WDefault, WDefault, BNeon => default_impl dbg (arm_ops (is_arch Arm c)) arm_ext pre
  | WDefault, WDefault, BRv64 => default_impl dbg rv64_ops (rv64_ext dbg) pre
  | WDefault, WDefault, BRv32 => default_impl dbg rx_ops rx_ext pre
  | WDefault, WDefault, BBitslice => default_impl dbg (bitslice_ops (c_be c)) (bx_ext (c_be c)) pre
  | WDefault, WDefault, BTable => default_impl dbg table_ops (table_ext dbg) pre
  | WVaes, WDefault, BX86 => if pre then None else Some (vaes2_impl dbg)
  | WVaes, WVaes, BX86 => if pre then None else Some (vaes4_impl dbg)
  | _, _, _ => None
  end.
End Edited.

Lemma no_edit c : impl_with no_edits c = impl_of c.
Proof.
  unfold impl_with, impl_of. replace (select_pre_with no_edits c) with (select_pre_chain c).
  2:{ unfold select_pre_with, select_pre_chain. cbn [no_edits ed_chain negb orb]. now rewrite andb_true_r. }
  destruct (c_be c); reflexivity.
Qed.
