(** SPECIFICATION.  Groups of build configurations named in the properties, in terms of the target and
    the features (not of the selection logic of lib.rs). *)
From Verif Require Import Word Model_Cfg.

(** RISC-V RV32 with the scalar AES extensions on a nightly build: the accelerated RV32 backend. *)
Definition rv32_zk (c : cfg) : bool := c_nightly c && is_arch Riscv32 c && c_zkne c && c_zknd c.
(** The constant-time feature on a big-endian target (no accelerated backend supports big-endian). *)
Definition be_constant_time (c : cfg) : bool := c_be c && c_ct c.
(** Everything else: the configurations C01 etc. speak about. *)
Definition conforming (c : cfg) : bool := negb (rv32_zk c) && negb (be_constant_time c).

(** Sample configurations, one for each backend. *)
Definition base_cfg (a : arch) : cfg := Cfg a false false false false false false false false false false true.
Definition c_soft : cfg := base_cfg OtherArch.
Definition c_soft_be : cfg := Cfg OtherArch true false false false false false false false false false true.
Definition c_ct_le : cfg := Cfg OtherArch false false true false false false false false false false true.
Definition c_ct_be : cfg := Cfg OtherArch true false true false false false false false false false true.
Definition c_x86 : cfg := Cfg X86_64 false false false true true false false false false false true.
Definition c_vaes256 : cfg := Cfg X86_64 false true false true true true false false false false false.
Definition c_vaes512 : cfg := Cfg X86_64 false true false true true true true false false false true.
Definition c_neon : cfg := Cfg Aarch64 false false false false true false false false false false true.
Definition c_arm32 : cfg := Cfg Arm false true false false true false false true false false false.
Definition c_rv64 : cfg := Cfg Riscv64 false true false false false false false false true true true.
Definition c_rv32 : cfg := Cfg Riscv32 false true false false false false false false true true true.

(** ** README.md:9-31, "The implementations and their requirements are" *)
Definition little (c : cfg) : bool := negb (c_be c).
(** "AES-NI (with Vector AES for 2- and 4- blocks) => requires a Nightly Compiler, the `nightly` feature
    to be enabled, and compiling for x86(64) with the `avx512f` and `vaes` target_feature flags set." *)
Definition readme_vaes_4 (c : cfg) : bool := c_nightly c && is_x86 c && c_avx512f c && c_vaes c.
(** "AES-NI (with Vector AES for 2-blocks) => ... nightly ... x86(64) with the `vaes` target_feature flag set" *)
Definition readme_vaes_2 (c : cfg) : bool := c_nightly c && is_x86 c && c_vaes c.
(** "AES-NI => requires compiling for x86(64) with the `sse4.1` and `aes` target_feature flags set." *)
Definition readme_aesni (c : cfg) : bool := is_x86 c && c_sse41 c && c_aes c.
(** "AES-Neon => requires compiling for little-endian AArch64 or ARM64EC or ARM-v8 with the `aes`
    target_feature flag set (ARM-v8 requires a Nightly compiler and the `nightly` feature to be enabled)." *)
Definition readme_neon (c : cfg) : bool :=
  little c && c_aes c && (is_arch Aarch64 c || is_arch Arm64ec c || (is_arch Arm c && c_v8 c && c_nightly c)).
(** "AES-RV => Requires a Nightly compiler, the `nightly` feature to be enabled and compiling for RISC-V
    RV64 or RV32 with the `zkne` and `zknd` target-features enabled" *)
Definition readme_rv64 (c : cfg) : bool := c_nightly c && is_arch Riscv64 c && c_zkne c && c_zknd c.
Definition readme_rv32 (c : cfg) : bool := c_nightly c && is_arch Riscv32 c && c_zkne c && c_zknd c.
(** "... so this only comes into play when no accelerated version is found." *)
Definition readme_accelerated (c : cfg) : bool := readme_aesni c || readme_neon c || readme_rv64 c || readme_rv32 c.
(** What the README promises to a user who picked [c]: (implementation of one block, of two, of four). *)
Inductive promised := P_aesni_vaes4 | P_aesni_vaes2 | P_aesni | P_neon | P_rv64 | P_rv32 | P_constant_time | P_software.
Definition readme (c : cfg) : promised :=
  if readme_vaes_4 c then P_aesni_vaes4 else if readme_vaes_2 c then P_aesni_vaes2 else if readme_aesni c then P_aesni
  else if readme_neon c then P_neon else if readme_rv64 c then P_rv64 else if readme_rv32 c then P_rv32
  else if c_ct c then P_constant_time else P_software.
