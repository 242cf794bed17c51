(** The compile-time selection of src/lib.rs: the three [cfg_if!] blocks at lib.rs:44-92, 94-105,
    108-121 and the one at lib.rs:333-426. *)
From Verif Require Import Word Interface.
From Verif Require Import Model_Table Model_Bitslice Model_X86 Model_Vaes Model_Arm Model_Rv64 Model_Rv32 Model_Wide.

(* The values of target_arch lib.rs:44-121, 333-347 distinguishes; all others are OtherArch. *)
Inductive arch := X86 | X86_64 | Aarch64 | Arm64ec | Arm | Riscv32 | Riscv64 | OtherArch.

(** Every cfg predicate lib.rs looks at. *)
Record cfg : Type := Cfg {
  c_arch : arch;
  c_be : bool;              (* target_endian = "big" *)
  c_nightly : bool;         (* feature = "nightly" *)
  c_ct : bool;              (* feature = "constant-time" *)
  c_sse41 : bool; c_aes : bool; c_vaes : bool; c_avx512f : bool;  (* x86 target features; aes also Arm *)
  c_v8 : bool;              (* Arm *)
  c_zkne : bool; c_zknd : bool;   (* RISC-V *)
  c_dbg : bool              (* debug_assertions *)
}.

(* lib.rs:44-50 any(target_arch = "x86", target_arch = "x86_64"). *)
Definition is_x86 (c : cfg) : bool := match c_arch c with X86 | X86_64 => true | _ => false end.
(** lib.rs:55-58, 336-340: any(aarch64, arm64ec, all(nightly, arm, v8)) *)
Definition is_neon_arch (c : cfg) : bool :=
  match c_arch c with
  | Aarch64 | Arm64ec => true
  | Arm => c_nightly c && c_v8 c
  | _ => false
  end.
Definition is_arch (a : arch) (c : cfg) : bool :=
  match a, c_arch c with
  | X86, X86 | X86_64, X86_64 | Aarch64, Aarch64 | Arm64ec, Arm64ec | Arm, Arm
  | Riscv32, Riscv32 | Riscv64, Riscv64 | OtherArch, OtherArch => true
  | _, _ => false
  end.

(* The six modules of lib.rs:44-92. *)
Inductive backend := BX86 | BNeon | BRv64 | BRv32 | BBitslice | BTable.
(* The two choices of lib.rs:94-106 and of lib.rs:108-121. *)
Inductive wide := WVaes | WDefault.

(** lib.rs:44-92 *)
Definition select_block (c : cfg) : backend :=
  if is_x86 c && c_sse41 c && c_aes c then BX86
  else if is_neon_arch c && c_aes c && negb (c_be c) then BNeon
  else if c_nightly c && is_arch Riscv64 c && c_zkne c && c_zknd c then BRv64
  else if c_nightly c && is_arch Riscv32 c && c_zkne c && c_zknd c then BRv32
  else if c_ct c then BBitslice
  else BTable.
(** lib.rs:94-105 *)
Definition select_x2 (c : cfg) : wide :=
  if c_nightly c && is_x86 c && c_vaes c then WVaes else WDefault.
(** lib.rs:108-121 *)
Definition select_x4 (c : cfg) : wide :=
  if c_nightly c && is_x86 c && c_avx512f c && c_vaes c then WVaes else WDefault.
(** lib.rs:334-347: which chain variant is compiled *)
Definition select_pre_chain (c : cfg) : bool :=
  (is_neon_arch c && c_aes c) || (c_nightly c && is_arch Riscv32 c && c_zkne c && c_zknd c).

(** A block backend together with the default X2/X4 (or the VAES ones, which exist only over the
    AES-NI block: aesni_x2.rs:7 [use crate::aes_x86::AesBlock]). [None] = does not compile. *)
Definition default_of {T} (dbg : bool) (o : ops T) (e : block_ext T) (p : option ((T -> T -> T) * (T -> T -> T))) : impl :=
  let o2 := pair_ops dbg 16 o in
  Impl T (T * T) ((T * T) * (T * T)) o o2 (pair_ops dbg 32 o2) e
    d2_of_pair d2_of_block d2_to_pair
    (d4_of_quad d2_of_pair) d4_of_pair (d4_of_block d2_of_block) d4_of_x2
    (d4_to_quad d2_to_pair) d4_to_pair p dbg.
Definition default_impl {T} (dbg : bool) (o : ops T) (e : block_ext T) (pre : bool) : option impl :=
  if pre then match e_pre e with Some p => Some (default_of dbg o e (Some p)) | None => None end
  else Some (default_of dbg o e None).

(* lib.rs:48-52 (aes_x86), 94-101 (aesni_x2), 117-120 (aesdefault_x4). *)
Definition vaes2_impl (dbg : bool) : impl :=
  Impl (list N) (list N) (list N * list N) x86_ops vaes2_ops (pair_ops dbg 32 vaes2_ops) (x86_ext dbg)
    v2_of_pair v2_of_block v2_to_pair
    (d4_of_quad v2_of_pair) d4_of_pair (d4_of_block v2_of_block) d4_of_x2
    (d4_to_quad v2_to_pair) d4_to_pair None dbg.

(* lib.rs:48-52 (aes_x86), 94-101 (aesni_x2), 108-116 (aesni_x4). *)
Definition vaes4_impl (dbg : bool) : impl :=
  Impl (list N) (list N) (list N) x86_ops vaes2_ops vaes4_ops (x86_ext dbg)
    v2_of_pair v2_of_block v2_to_pair
    v4_of_quad v4_of_pair v4_of_block v4_of_x2 v4_to_quad v4_to_pair None dbg.

(* lib.rs:44-121 with the choice of lib.rs:333-426; None: that choice does not compile. *)
Definition impl_of (c : cfg) : option impl :=
  let dbg := c_dbg c in
  let pre := select_pre_chain c in
  match select_x2 c, select_x4 c, select_block c with
  | WDefault, WDefault, BX86 => default_impl dbg x86_ops (x86_ext dbg) pre
  | WDefault, WDefault, BNeon => default_impl dbg (arm_ops (is_arch Arm c)) arm_ext pre
  | WDefault, WDefault, BRv64 => default_impl dbg rv64_ops (rv64_ext dbg) pre
  | WDefault, WDefault, BRv32 => default_impl dbg rv32_ops rv32_ext pre
  | WDefault, WDefault, BBitslice => default_impl dbg (bitslice_ops (c_be c)) (bitslice_ext (c_be c)) pre
  | WDefault, WDefault, BTable => default_impl dbg table_ops (table_ext dbg) pre
  | WVaes, WDefault, BX86 => if pre then None else Some (vaes2_impl dbg)
  | WVaes, WVaes, BX86 => if pre then None else Some (vaes4_impl dbg)
  | _, _, _ => None
  end.

(** Configurations rustc can produce: a target feature belongs to its architecture, rustc's feature
    implications hold (vaes => avx2, aes => sse2; avx2 => sse4.1), x86 and RISC-V targets of rustc
    are little-endian, arm64ec is little-endian. *)
(* No counterpart in the source (facts about rustc's targets); lib.rs:44-121 is compiled only in such configurations. *)
Definition rustc_ok (c : cfg) : bool :=
  let a := c_arch c in
  let x86 := is_x86 c in
  let arm := match a with Aarch64 | Arm64ec | Arm => true | _ => false end in
  let rv := match a with Riscv32 | Riscv64 => true | _ => false end in
  implb (c_sse41 c) x86 && implb (c_vaes c) x86 && implb (c_avx512f c) x86 &&
  implb (c_aes c) (x86 || arm) && implb (c_v8 c) (is_arch Arm c) &&
  implb (c_zkne c) rv && implb (c_zknd c) rv &&
  implb (c_vaes c) (c_aes c && c_sse41 c) && implb (c_avx512f c) (c_sse41 c) &&
  implb (x86 || rv || is_arch Arm64ec c) (negb (c_be c)).

(** lib.rs:3-29: the unstable compiler features the crate asks for. *)
Definition gate_avx512 (c : cfg) : bool := c_nightly c && is_x86 c && c_vaes c.                  (* stdarch_x86_avx512 *)
Definition gate_arm_neon (c : cfg) : bool :=                                                     (* stdarch_arm_neon_intrinsics *)
  c_nightly c && is_arch Arm c && c_v8 c && c_aes c && negb (c_be c).
Definition gate_llvm (c : cfg) : bool :=                                                         (* link_llvm_intrinsics, abi_unadjusted *)
  c_nightly c && (is_arch Riscv32 c || is_arch Riscv64 c) && c_zkne c && c_zknd c.
(** The selected modules that use unstable items: aesni_x2.rs / aesni_x4.rs (256/512-bit intrinsics),
    aes_arm.rs on 32-bit Arm, aes_riscv64.rs:4 / aes_riscv32.rs:9 (extern "unadjusted" llvm.* functions). *)
Definition uses_avx512 (c : cfg) : bool :=
  match select_x2 c with WVaes => true | WDefault => match select_x4 c with WVaes => true | WDefault => false end end.
Definition uses_arm_neon (c : cfg) : bool := match select_block c with BNeon => is_arch Arm c | _ => false end.
Definition uses_llvm (c : cfg) : bool := match select_block c with BRv64 | BRv32 => true | _ => false end.
