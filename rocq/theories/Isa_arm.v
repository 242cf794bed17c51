(** TRUSTED.  Meaning of the Arm NEON / Cryptographic Extension intrinsics used by src/aes_arm.rs,
    from the Arm ARM and ACLE.  A [uint8x16_t] is the list of its 16 lanes, lane 0 first (which is
    also memory order; the backend is only selected on little-endian targets, lib.rs:53-61). *)
From Verif Require Import Word Fips197.
Open Scope N_scope.

Definition vld1q_u8 (mem : list N) : outcome (list N) := raw_read mem 0 16.
Definition vst1q_u8 (x : list N) : writer := w_step (fun mem => raw_write mem x).
Definition vandq_u8 (a b : list N) : list N := map2 N.land a b.
Definition vorrq_u8 (a b : list N) : list N := map2 N.lor a b.
Definition veorq_u8 (a b : list N) : list N := map2 N.lxor a b.
Definition vmvnq_u8 (a : list N) : list N := map (bnot 8) a.
Definition vdupq_n_u8 (x : N) : list N := repeat x 16.

(** Reinterpretations: 32-/64-bit lanes of the same register. *)
Definition vreinterpretq_u32_u8 (a : list N) : list N := map of_le (chunks 4 4 a).
Definition vreinterpretq_u64_u8 (a : list N) : list N := map of_le (chunks 8 2 a).
Definition vreinterpretq_u8_u32 (a : list N) : list N := concat (map (to_le 4) a).
Definition vdupq_n_u32 (x : N) : list N := repeat x 4.
Definition vgetq_lane (i : nat) (a : list N) : N := nth i a 0.

(** AESE: AddRoundKey, then ShiftRows and SubBytes; AESD likewise inverse; AESMC; AESIMC. *)
Definition vaeseq_u8 (data key : list N) : list N := sub_bytes (shift_rows (veorq_u8 data key)).
Definition vaesdq_u8 (data key : list N) : list N := inv_sub_bytes (inv_shift_rows (veorq_u8 data key)).
Definition vaesmcq_u8 (data : list N) : list N := mix_columns data.
Definition vaesimcq_u8 (data : list N) : list N := inv_mix_columns data.
