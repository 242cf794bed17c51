(** Tests of the trusted instruction semantics: the examples of Intel's "Advanced Encryption Standard (AES) New Instructions"
    white paper (register values printed most significant byte first), and the instruction sequences the RISC-V and Arm
    documentation gives for whole AES rounds, run on FIPS 197 data (Appendix B, round 1). *)
From Verif Require Import Word Fips197 Isa_x86 Isa_arm Isa_riscv.
Open Scope N_scope.

Definition xmm (v : N) : list N := to_le 16 v.
Definition state := xmm 0x7b5b54657374566563746f725d53475d.
Definition rkey := xmm 0x48692853686179295b477565726f6e5d.
Example intel_aesenc : mm_aesenc state rkey = xmm 0xa8311c2f9fdba3c58b104b58ded7e595. Proof. vm_compute. reflexivity. Qed.
Example intel_aesenclast : mm_aesenclast state rkey = xmm 0xc7fb881e938c5964177ec42553fdc611. Proof. vm_compute. reflexivity. Qed.
Example intel_aesdec : mm_aesdec state rkey = xmm 0x138ac342faea2787b58eb95eb730392a. Proof. vm_compute. reflexivity. Qed.
Example intel_aesdeclast : mm_aesdeclast state rkey = xmm 0xc5a391ef6b317f95d410637b72a593d0. Proof. vm_compute. reflexivity. Qed.
Example intel_aesimc : mm_aesimc state = xmm 0x627a6f6644b109c82b18330a81c3b3e5. Proof. vm_compute. reflexivity. Qed.
Example intel_aeskeygenassist : mm_aeskeygenassist 1 (xmm 0x3c4fcf098815f7aba6d2ae2816157e2b) = xmm 0x01eb848beb848a013424b5e524b5e434.
Proof. vm_compute. reflexivity. Qed.

(** FIPS 197 Appendix B, start of round 1 and of round 2, and the first round key. *)
Definition r1 := to_be 16 0x193de3bea0f4e22b9ac68d2ae9f84808.
Definition k1 := to_be 16 0xa0fafe1788542cb123a339392a6c7605.
Definition r2 := to_be 16 0xa49c7ff2689f352b6b5bea43026a5049.
Definition xor16 := map2 N.lxor.
Example x86_round : mm_aesenc r1 k1 = r2. Proof. vm_compute. reflexivity. Qed.
(** Arm: AESE with a zero key, AESMC, then the key. *)
Example arm_round : xor16 (vaesmcq_u8 (vaeseq_u8 r1 (repeat 0 16))) k1 = r2. Proof. vm_compute. reflexivity. Qed.
Example arm_inverse : vaesdq_u8 (vaesimcq_u8 (xor16 r2 k1)) (repeat 0 16) = r1. Proof. vm_compute. reflexivity. Qed.
(** RV64: the two halves of the state; aes64esm lo, hi gives the low half, aes64esm hi, lo the high half. *)
Definition lo (s : list N) := of_le (firstn 8 s).
Definition hi (s : list N) := of_le (skipn 8 s).
Definition join (l h : N) := to_le 8 l ++ to_le 8 h.
Example rv64_round : xor16 (join (aes64esm (lo r1) (hi r1)) (aes64esm (hi r1) (lo r1))) k1 = r2. Proof. vm_compute. reflexivity. Qed.
Example rv64_inverse : let s := xor16 r2 k1 in let l := aes64im (lo s) in let h := aes64im (hi s) in join (aes64ds l h) (aes64ds h l) = r1.
Proof. vm_compute. reflexivity. Qed.
(** RV64 key schedule: aes64ks1i on the high half of the key, aes64ks2 for each half (FIPS 197 A.1). *)
Definition k0 := to_be 16 0x2b7e151628aed2a6abf7158809cf4f3c.
Example rv64_schedule : let t := aes64ks1i (hi k0) 0 in let l := aes64ks2 t (lo k0) in join l (aes64ks2 l (hi k0)) = k1. Proof. vm_compute. reflexivity. Qed.
(** RV32: aes32esmi rd, rs, bs four times for each column, columns in ShiftRows order; aes32dsi in InvShiftRows order. *)
Definition col (s : list N) (j : nat) := of_le (firstn 4 (skipn (4 * Nat.modulo j 4) s)).
Definition four (f : N -> N -> N -> N) (k a b c d : N) := f (f (f (f k a 0) b 1) c 2) d 3.
Definition cols (f : nat -> N) := concat (map (fun j => to_le 4 (f j)) [0; 1; 2; 3]%nat).
Example rv32_round : cols (fun j => four aes32esmi (col k1 j) (col r1 j) (col r1 (j + 1)%nat) (col r1 (j + 2)%nat) (col r1 (j + 3)%nat)) = r2.
Proof. vm_compute. reflexivity. Qed.
Example rv32_inverse : let s := inv_mix_columns (xor16 r2 k1) in
  cols (fun j => four aes32dsi 0 (col s j) (col s (j + 3)%nat) (col s (j + 2)%nat) (col s (j + 1)%nat)) = r1.
Proof. vm_compute. reflexivity. Qed.
