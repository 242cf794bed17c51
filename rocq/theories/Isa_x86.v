(** TRUSTED.  Meaning of the x86 intrinsics used by src/aes_x86.rs, src/aesni_x2.rs and
    src/aesni_x4.rs, written from the Intel SDM / Intrinsics Guide.
    A vector register is the list of its bytes, byte 0 = bits 7:0 (= lowest address in memory,
    x86 being little-endian).  The AES-NI instructions are defined by the SDM in terms of the
    FIPS-197 ShiftRows, SubBytes, MixColumns functions, hence the use of [Fips197]. *)
From Verif Require Import Word Fips197.
Open Scope N_scope.

(** Dword [i] and qword [i] of a register (as byte groups / numbers). *)
Definition dword (x : list N) (i : nat) : list N := firstn 4 (skipn (4 * i) x).
Definition qwords (n : nat) (x : list N) : list N := map of_le (chunks 8 n x).

(** ** SSE2 / SSSE3 / SSE4.1 *)

(** _mm_loadu_si128 from an array of 16 bytes; _mm_storeu_si128 = [raw_write]. *)
Definition mm_loadu (mem : list N) : outcome (list N) := raw_read mem 0 16.
Definition mm_storeu (x : list N) : writer := w_step (fun mem => raw_write mem x).

(** PAND / POR / PXOR, any width. *)
Definition mm_and (a b : list N) : list N := map2 N.land a b.
Definition mm_or (a b : list N) : list N := map2 N.lor a b.
Definition mm_xor (a b : list N) : list N := map2 N.lxor a b.

Definition mm_setzero (n : nat) : list N := repeat 0 n.
(** _mm_set1_epi64x(-1) and its wider versions: all ones. *)
Definition mm_set1_m1 (n : nat) : list N := repeat 255 n.

(** PTEST-based _mm_testz_si128 / _mm256_testz_si256: 1 iff [a AND b] is zero. *)
Definition mm_testz (a b : list N) : N :=
  if forallb (fun x => x =? 0) (mm_and a b) then 1 else 0.

(** PSLLDQ: shift the 128-bit register left by [k] bytes. *)
Definition mm_bslli (k : nat) (a : list N) : list N := firstn 16 (repeat 0 k ++ a).

(** PSHUFD imm: result dword [i] is source dword [imm[2i+1:2i]]. *)
Definition mm_shuffle_epi32 (imm : N) (a : list N) : list N :=
  let sel i := N.to_nat (N.land (N.shiftr imm (2 * i)) 3) in
  dword a (sel 0) ++ dword a (sel 1) ++ dword a (sel 2) ++ dword a (sel 3).

(** PUNPCKLQDQ: low qword of [a], then low qword of [b]. *)
Definition mm_unpacklo_epi64 (a b : list N) : list N := firstn 8 a ++ firstn 8 b.

(** PALIGNR: concatenate [a:b] ([a] high), shift right by [k] bytes, keep the low 16. *)
Definition mm_alignr_epi8 (k : nat) (a b : list N) : list N := firstn 16 (skipn k (b ++ a)).

(** ** AES-NI *)
Definition mm_aesenc (s k : list N) : list N := mm_xor (mix_columns (sub_bytes (shift_rows s))) k.
Definition mm_aesenclast (s k : list N) : list N := mm_xor (sub_bytes (shift_rows s)) k.
Definition mm_aesdec (s k : list N) : list N := mm_xor (inv_mix_columns (inv_sub_bytes (inv_shift_rows s))) k.
Definition mm_aesdeclast (s k : list N) : list N := mm_xor (inv_sub_bytes (inv_shift_rows s)) k.
Definition mm_aesimc (s : list N) : list N := inv_mix_columns s.

(** AESKEYGENASSIST: with X3..X0 the source dwords,
    result = [RotWord(SubWord(X3)) ^ RCON, SubWord(X3), RotWord(SubWord(X1)) ^ RCON, SubWord(X1)],
    most significant dword first; RCON is the zero-extended immediate byte. *)
Definition mm_aeskeygenassist (imm : N) (a : list N) : list N :=
  let x1 := sub_word (dword a 1) in
  let x3 := sub_word (dword a 3) in
  let r := [imm; 0; 0; 0] in
  x1 ++ xor_word (rot_word x1) r ++ x3 ++ xor_word (rot_word x3) r.

(** ** AVX2 / VAES, 256 bits *)
Definition mm256_setr_m128i (lo hi : list N) : list N := lo ++ hi.
Definition mm256_broadcastsi128 (a : list N) : list N := a ++ a.
Definition mm256_extracti128 (imm : nat) (a : list N) : list N := firstn 16 (skipn (16 * imm) a).
(** _mm256_inserti128_si256::<1>: replace the high half. *)
Definition mm256_inserti128_1 (a b : list N) : list N := firstn 16 a ++ b.
(** _mm256_castsi128_si256: the upper half is undefined; [g] stands for whatever is there. *)
Definition mm256_castsi128 (g a : list N) : list N := a ++ g.

(** VAESENC etc. on [n] 128-bit lanes. *)
Definition lanewise (n : nat) (f : list N -> list N -> list N) (a b : list N) : list N :=
  concat (map2 f (chunks 16 n a) (chunks 16 n b)).

(** ** AVX-512F, 512 bits *)
Definition mm512_castsi256 (g a : list N) : list N := a ++ g.
Definition mm512_inserti64x4_1 (a b : list N) : list N := firstn 32 a ++ b.
Definition mm512_broadcast_i32x4 (a : list N) : list N := a ++ a ++ a ++ a.
Definition mm512_broadcast_i64x4 (a : list N) : list N := a ++ a.
Definition mm512_extracti32x4 (imm : nat) (a : list N) : list N := firstn 16 (skipn (16 * imm) a).
Definition mm512_extracti64x4 (imm : nat) (a : list N) : list N := firstn 32 (skipn (32 * imm) a).

(** Mask registers: bit [i] for lane [i]. *)
Fixpoint mask_of (l : list bool) : N :=
  match l with [] => 0 | b :: l' => N.b2n b + 2 * mask_of l' end.
(** VPTESTMQ: bit i set iff (a AND b) qword i is nonzero.  VPCMPEQQ: iff qwords i are equal. *)
Definition mm512_test_epi64_mask (a b : list N) : N :=
  mask_of (map (fun q => negb (q =? 0)) (qwords 8 (mm_and a b))).
Definition mm512_cmpeq_epi64_mask (a b : list N) : N :=
  mask_of (map2 N.eqb (qwords 8 a) (qwords 8 b)).
