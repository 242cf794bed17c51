(** SPECIFICATION for C37: which special instructions a program contains, and which target features promise
    that the CPU has them (README "Warning": wrong flags crash the binary with an unknown instruction). *)
From Coq Require Import List.
From Verif Require Import Word Spec_Leak Model_Cfg.

Inductive insn := I1 (i : insn1) | I2 (i : insn2).
(** All instructions in the text of a program - a superset of those executed. *)
Fixpoint insns_exp (e : exp) : list insn :=
  match e with
  | Var _ | Ctr _ | Lit _ | Len _ => []
  | Un o a => match o with Cpu1 i => [I1 i] | _ => [] end ++ insns_exp a
  | Bin o a b => match o with Cpu2 i => [I2 i] | _ => [] end ++ insns_exp a ++ insns_exp b
  | Index _ i | Static _ _ i => insns_exp i
  | Let _ a b | Call _ a b => insns_exp a ++ insns_exp b
  | Call2 _ a _ b c => insns_exp a ++ insns_exp b ++ insns_exp c
  end.
Fixpoint insns (s : stmt) : list insn :=
  match s with
  | Skip | Zeroed _ _ | View _ _ _ _ => []
  | Seq s t => insns s ++ insns t
  | Assign _ e => insns_exp e
  | Store _ i e => insns_exp i ++ insns_exp e
  | If c s t => insns_exp c ++ insns s ++ insns t
  | For _ _ _ _ body => insns body
  end.

(** The feature each instruction belongs to. *)
Inductive feature := SSE2 | SSSE3 | AESNI | AVX2 | AVX512F | VAES | NEON | ARM_AES | ZKNE | ZKND | ZKN_either | RV32 | RV64.
(** Intel SDM vol. 2, Arm ARM, RISC-V scalar cryptography: the CPUID flags / extensions of the instruction. *)
Definition vector_features (n : nat) : list feature :=
  match n with 1%nat => [AESNI] | 2%nat => [VAES; AVX2] | _ => [VAES; AVX512F] end.
Definition needs (i : insn) : list feature :=
  match i with
  | I1 Aesimc | I1 (Aeskeygenassist _) => [AESNI]
  | I1 (Pshufd _) | I1 (Pslldq _) | I2 Punpcklqdq => [SSE2]
  | I2 (Palignr _) => [SSSE3]
  | I1 (Vbroadcast n) => match n with 2%nat => [AVX2] | _ => [AVX512F] end
  | I2 (Aesenc n) | I2 (Aesenclast n) | I2 (Aesdec n) | I2 (Aesdeclast n) => vector_features n
  | I1 Arm_aesmc | I1 Arm_aesimc | I2 Arm_aese | I2 Arm_aesd => [ARM_AES]
  | I1 Arm_dup => [NEON]
  | I2 Aes64es | I2 Aes64esm => [RV64; ZKNE]
  | I2 Aes64ds | I2 Aes64dsm | I1 Aes64im => [RV64; ZKND]
  | I1 (Aes64ks1i _) | I2 Aes64ks2 => [RV64; ZKN_either]
  | I2 (Aes32esi _) | I2 (Aes32esmi _) => [RV32; ZKNE]
  | I2 (Aes32dsi _) | I2 (Aes32dsmi _) => [RV32; ZKND]
  end.
(** Which features a build configuration promises.  rustc's target features imply one another: sse4.1 implies
    ssse3 and sse2 (and every x86_64 has sse2), avx512f implies avx2, vaes implies avx2; on Arm, aes implies neon and every
    AArch64 target has neon. *)
Definition promises (c : cfg) (f : feature) : bool :=
  let arm := is_arch Aarch64 c || is_arch Arm64ec c || is_arch Arm c in
  match f with
  | SSE2 => is_arch X86_64 c || (is_x86 c && c_sse41 c)
  | SSSE3 => is_x86 c && c_sse41 c
  | AESNI => is_x86 c && c_aes c
  | AVX2 => is_x86 c && (c_vaes c || c_avx512f c)
  | AVX512F => is_x86 c && c_avx512f c
  | VAES => is_x86 c && c_vaes c
  | NEON => is_arch Aarch64 c || is_arch Arm64ec c || (is_arch Arm c && c_aes c)
  | ARM_AES => arm && c_aes c
  | ZKNE => c_zkne c
  | ZKND => c_zknd c
  | ZKN_either => c_zkne c || c_zknd c
  | RV32 => is_arch Riscv32 c
  | RV64 => is_arch Riscv64 c
  end.
(** The CPU the build is for has the instruction. *)
Definition available (c : cfg) (i : insn) : bool := forallb (promises c) (needs i).
(** The instruction can be encoded: its immediate fits the field (an imm8 on x86; RISC-V scalar cryptography: byte select 0..3, and
    round numbers above 10 are reserved), and a vector instruction works on one, two or four blocks. *)
Definition encodable (i : insn) : bool :=
  let blocks n := existsb (Nat.eqb n) [1; 2; 4]%nat in
  match i with
  | I1 (Aeskeygenassist imm) | I1 (Pshufd imm) => (imm <? 256)%N
  | I1 (Pslldq imm) | I2 (Palignr imm) => Nat.ltb imm 256
  | I1 (Vbroadcast n) => blocks n && negb (Nat.eqb n 1)
  | I2 (Aesenc n) | I2 (Aesenclast n) | I2 (Aesdec n) | I2 (Aesdeclast n) => blocks n
  | I1 (Aes64ks1i rnum) => (rnum <=? 10)%N
  | I2 (Aes32esi bs) | I2 (Aes32esmi bs) | I2 (Aes32dsi bs) | I2 (Aes32dsmi bs) => (bs <? 4)%N
  | _ => true
  end.
