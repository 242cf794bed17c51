(** SPECIFICATION for C57: the targets on which the features other crates ask for matter. *)
From Coq Require Import List Bool.
From Verif Require Import Model_Cfg Model_Features.

(** RV32 with the AES instructions. *)
Definition riscv32_zk_target (t : cfg) : bool := is_arch Riscv32 t && c_zkne t && c_zknd t.
(** Big-endian 32-bit Arm v8 with the AES instructions. *)
Definition be_arm_v8_target (t : cfg) : bool := is_arch Arm t && c_be t && c_v8 t && c_aes t.
(** Some crate in the dependency graph asks for the feature. *)
Definition asked (what : features -> bool) (fs : list features) : Prop := exists g, In g fs /\ what g = true.
