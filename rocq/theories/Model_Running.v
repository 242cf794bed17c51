(** Which program of Model_Leak / Model_LeakAccel / Model_LeakSoft is the code of which build: selected by the cfg attributes of lib.rs
    (Model_Cfg.v), not by the README. *)
From Verif Require Import Word Interface Spec_User Spec_Cfg Spec_Leak Model_Cfg Model_Leak Model_LeakAccel Model_LeakSoft.

(* The block counts of AesBlock, AesBlockX2, AesBlockX4 (lib.rs:50-119). *)
Definition group_size (g : group) : nat := match g with One => 1 | Two => 2 | Four => 4 end.
(** The code a build really runs, by what the cfg attributes of lib.rs select for it. *)
Definition running (c : cfg) : option promised :=
  match select_block c, select_x2 c, select_x4 c with
  | BX86, WVaes, WVaes => Some P_aesni_vaes4
  | BX86, WVaes, WDefault => Some P_aesni_vaes2
  | BX86, WDefault, WDefault => Some P_aesni
  | BNeon, WDefault, WDefault => Some P_neon
  | BRv64, WDefault, WDefault => Some P_rv64
  | BRv32, WDefault, WDefault => Some P_rv32
  | BBitslice, WDefault, WDefault => Some P_constant_time
  | BTable, WDefault, WDefault => Some P_software
  | _, _, _ => None
  end.
(** The code of each ... *)
Definition engine_of (p : promised) (be : bool) : option engine :=
  match p with
  | P_aesni_vaes4 | P_aesni_vaes2 | P_aesni => Some x86_engine
  | P_neon => Some arm_engine
  | P_rv64 => Some rv64_engine
  | P_rv32 => Some rv32_engine
  | P_constant_time => Some (bitslice_engine be)
  | P_software => Some table_engine
  end.
(** ... and how it holds one, two or four blocks: [m] vectors of [n] blocks. *)
Definition vectors (p : promised) (g : group) : nat * nat :=
  match p, g with
  | P_aesni_vaes4, g => (group_size g, 1%nat)
  | P_aesni_vaes2, One => (1%nat, 1%nat)
  | P_aesni_vaes2, Two => (2%nat, 1%nat)
  | P_aesni_vaes2, Four => (2%nat, 2%nat)
  | _, g => (1%nat, group_size g)
  end.
Definition vec_n p g := fst (vectors p g).
Definition vec_m p g := snd (vectors p g).
