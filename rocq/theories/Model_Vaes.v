(** src/aesni_x2.rs and src/aesni_x4.rs.  AesBlockX2 / X4 are __m256i / __m512i, as byte lists. *)
From Verif Require Import Word Interface Isa_x86.
Open Scope N_scope.

(** ** aesni_x2.rs *)

(** aesni_x2.rs:23-28 From<[u8;32]>, 93-95 new *)
Definition v2_from (value : list N) : outcome (list N) := raw_read value 0 32.
Definition v2_new (value : list N) : outcome (list N) := Ret value.
(** aesni_x2.rs:98-101 *)
Definition v2_store_to (s : list N) : writer := w_then (w_assert_len 32) (mm_storeu s).
(** aesni_x2.rs:82-89, 110-112, 14-19 *)
Definition v2_not (s : list N) : list N := mm_xor s (mm_set1_m1 32).
Definition v2_is_zero (s : list N) : bool := mm_testz s s =? 1.
Definition v2_eq (s t : list N) : bool := v2_is_zero (mm_xor s t).
(** aesni_x2.rs:30-35, 37-42, 44-54 *)
Definition v2_of_pair (p : list N * list N) : list N := mm256_setr_m128i (fst p) (snd p).
Definition v2_of_block (a : list N) : list N := mm256_broadcastsi128 a.
Definition v2_to_pair (s : list N) : list N * list N := (mm256_extracti128 0 s, mm256_extracti128 1 s).

(** aesni_x2.rs:56-80 operators, 104-106 zero, 116-136 rounds *)
Definition vaes2_ops : ops (list N) :=
  Ops 32 v2_new v2_from v2_store_to mm_and mm_or mm_xor v2_not (mm_setzero 32)
      v2_is_zero v2_eq
      (lanewise 2 mm_aesenc) (lanewise 2 mm_aesdec) (lanewise 2 mm_aesenclast) (lanewise 2 mm_aesdeclast).

(** ** aesni_x4.rs *)

(** aesni_x4.rs:24-29, 129-131 *)
Definition v4_from (value : list N) : outcome (list N) := raw_read value 0 64.
Definition v4_new (value : list N) : outcome (list N) := Ret value.
(** aesni_x4.rs:134-137 *)
Definition v4_store_to (s : list N) : writer := w_then (w_assert_len 64) (mm_storeu s).
(** aesni_x4.rs:118-125, 146-148, 15-20 *)
Definition v4_not (s : list N) : list N := mm_xor s (mm_set1_m1 64).
Definition v4_is_zero (s : list N) : bool := mm512_test_epi64_mask s s =? 0.
Definition v4_eq (s t : list N) : bool := mm512_cmpeq_epi64_mask s t =? 0xff.

(** aesni_x4.rs:31-42.  [g1], [g2], [g3] are the undefined upper halves produced by the cast
    intrinsics; [v4_of_quad] fixes them to zeros, and theorem [v4_casts_undefined_irrelevant]
    shows that any other choice gives the same result. *)
Definition v4_of_quad_g (g1 g2 g3 : list N) (q : list N * list N * list N * list N) : list N :=
  let '(a, b, c, d) := q in
  let p := mm256_inserti128_1 (mm256_castsi128 g1 a) b in
  let q := mm256_inserti128_1 (mm256_castsi128 g2 c) d in
  mm512_inserti64x4_1 (mm512_castsi256 g3 p) q.
Definition v4_of_quad := v4_of_quad_g (repeat 0 16) (repeat 0 16) (repeat 0 32).
(** aesni_x4.rs:65-70 *)
Definition v4_of_pair_g (g : list N) (p : list N * list N) : list N :=
  mm512_inserti64x4_1 (mm512_castsi256 g (fst p)) (snd p).
Definition v4_of_pair := v4_of_pair_g (repeat 0 32).
(** aesni_x4.rs:44-49, 72-77 *)
Definition v4_of_block (a : list N) : list N := mm512_broadcast_i32x4 a.
Definition v4_of_x2 (a : list N) : list N := mm512_broadcast_i64x4 a.
(** aesni_x4.rs:51-63, 79-89 *)
Definition v4_to_quad (s : list N) : list N * list N * list N * list N :=
  (mm512_extracti32x4 0 s, mm512_extracti32x4 1 s, mm512_extracti32x4 2 s, mm512_extracti32x4 3 s).
Definition v4_to_pair (s : list N) : list N * list N := (mm512_extracti64x4 0 s, mm512_extracti64x4 1 s).

(** aesni_x4.rs:91-116 operators, 140-142 zero, 152-172 rounds *)
Definition vaes4_ops : ops (list N) :=
  Ops 64 v4_new v4_from v4_store_to mm_and mm_or mm_xor v4_not (mm_setzero 64)
      v4_is_zero v4_eq
      (lanewise 4 mm_aesenc) (lanewise 4 mm_aesdec) (lanewise 4 mm_aesenclast) (lanewise 4 mm_aesdeclast).
