(** SPECIFICATION for C55: what the names of the CI jobs say, and what it means that a job exercises the code of a build. *)
From Coq Require Import String.
From Verif Require Import Word Interface Model_Cfg Spec_Cfg Model_Ci.
Open Scope string_scope.

(** The implementation (in the README's terms) a job is named after. *)
Definition named (name : string) : promised :=
  if has ["AES-NI"; "AESNI"] name then P_aesni
  else if has ["AES-NI with VAES"; "AESNI with VAES"] name then P_aesni_vaes2
  else if has ["AES-NI with VAES and AVX-512"; "AESNI with VAES and AVX512F"] name then P_aesni_vaes4
  else if has ["Neon"; "ARMv8"; "Neon on AArch64"; "Neon on ARMv8"] name then P_neon
  else if has ["RV64"; "RiscV-64"] name then P_rv64
  else if has ["RV32"] name then P_rv32
  else if has ["Constant-Time"; "Constant-time Implementation"] name then P_constant_time
  else P_software.

(** The same configuration with debug assertions switched on or off. *)
Definition with_dbg (b : bool) (c : cfg) : cfg :=
  Cfg (c_arch c) (c_be c) (c_nightly c) (c_ct c) (c_sse41 c) (c_aes c) (c_vaes c) (c_avx512f c) (c_v8 c) (c_zkne c) (c_zknd c) b.

(** A job exercises the code of build [c]: apart from debug assertions, the two are the same implementation. *)
Definition exercises (j : job) (c : cfg) : Prop := impl_of (with_dbg (c_dbg c) (job_cfg j)) = impl_of c.
