(** src/aes_arm.rs.  An AesBlock is a uint8x16_t, as the list of its lanes ([Isa_arm]).
    [arm32] is [cfg(target_arch = "arm")]; targets are little-endian (lib.rs:60). *)
From Verif Require Import Word Interface Isa_arm Model_Columns Model_Bitslice.
Open Scope N_scope.

(** aes_arm.rs:22-27, 67-70 *)
Definition arm_from (value : list N) : outcome (list N) := vld1q_u8 value.
Definition arm_new (value : list N) : outcome (list N) := Ret value.
(** aes_arm.rs:73-76 *)
Definition arm_store_to (s : list N) : writer := w_then (w_assert_len 16) (vst1q_u8 s).
(** aes_arm.rs:79-81 *)
Definition arm_zero : list N := vdupq_n_u8 0.
(** aes_arm.rs:85-100, 13-18 *)
Definition arm_is_zero (arm32 : bool) (s : list N) : bool :=
  if arm32 then
    let a := vreinterpretq_u32_u8 s in
    N.lor (N.lor (N.lor (vgetq_lane 0 a) (vgetq_lane 1 a)) (vgetq_lane 2 a)) (vgetq_lane 3 a) =? 0
  else
    let a := vreinterpretq_u64_u8 s in
    N.lor (vgetq_lane 0 a) (vgetq_lane 1 a) =? 0.
Definition arm_eq (arm32 : bool) (s t : list N) : bool := arm_is_zero arm32 (veorq_u8 s t).

(** aes_arm.rs:148-150, 154-156 *)
Definition arm_mc (s : list N) : list N := vaesmcq_u8 s.
Definition arm_imc (s : list N) : list N := vaesimcq_u8 s.
(** aes_arm.rs:102-105, 107-110 *)
Definition arm_pre_enc (s k : list N) : list N := arm_mc (vaeseq_u8 s k).
(** aes_arm.rs:118-121, 123-126 *)
Definition arm_pre_dec (s k : list N) : list N := arm_imc (vaesdq_u8 s k).
(** aes_arm.rs:114-116, 130-132, 136-138, 142-144 *)
Definition arm_enc (s k : list N) : list N := veorq_u8 (arm_pre_enc s arm_zero) k.
Definition arm_dec (s k : list N) : list N := veorq_u8 (arm_pre_dec s arm_zero) k.
Definition arm_enc_last (s k : list N) : list N := veorq_u8 (vaeseq_u8 s arm_zero) k.
Definition arm_dec_last (s k : list N) : list N := veorq_u8 (vaesdq_u8 s arm_zero) k.

(** aes_arm.rs:160-167 *)
Definition arm_sub_word (input : N) : N :=
  let input := vreinterpretq_u8_u32 (vdupq_n_u32 input) in
  let sub_input := vaeseq_u8 input (vdupq_n_u8 0) in
  vgetq_lane 0 (vreinterpretq_u32_u8 sub_input).

(** aes_arm.rs:171-192, 194-222, 224-254 *)
Definition arm_keygen (n : nat) (cols : outcome (list N)) : outcome (list (list N)) :=
  cols <- cols ;; Ret (col_blocks false n cols).
Definition arm_keygen_128 (key : list N) : outcome (list (list N)) :=
  arm_keygen 11 (col_keygen_128 false (rot_first arm_sub_word) key).
Definition arm_keygen_192 (key : list N) : outcome (list (list N)) :=
  arm_keygen 13 (col_keygen_192 false (rot_first arm_sub_word) key).
Definition arm_keygen_256 (key : list N) : outcome (list (list N)) :=
  arm_keygen 15 (col_keygen_256 false (rot_first arm_sub_word) (rot_first arm_sub_word)
                                (sub_mid arm_sub_word) key).

(** aes_arm.rs:29-63 operators *)
Definition arm_ops (arm32 : bool) : ops (list N) :=
  Ops 16 arm_new arm_from arm_store_to vandq_u8 vorrq_u8 veorq_u8 vmvnq_u8 arm_zero
      (arm_is_zero arm32) (arm_eq arm32) arm_enc arm_dec arm_enc_last arm_dec_last.
Definition arm_ext : block_ext (list N) :=
  Ext arm_mc arm_imc arm_keygen_128 arm_keygen_192 arm_keygen_256 (Some (arm_pre_enc, arm_pre_dec)).
