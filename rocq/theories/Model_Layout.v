(** The types of the crate, and its reinterpretations of memory: [mem::transmute], [mem::zeroed] and slices over arrays of blocks. *)
From Coq Require Import Arith.
From Verif Require Import Word Interface Spec_Cfg Spec_Layout Model_Rv64 Model_Columns.
Open Scope nat_scope.

(** aes_x86.rs:8-10, aes_arm.rs:9-11, aes_riscv64.rs:22-24, aes_riscv32.rs:5-7, aes_bitslice.rs:231-233, aes_table_based.rs:5-7 *)
Definition block_ty (p : promised) : ty :=
  match p with
  | P_aesni_vaes4 | P_aesni_vaes2 | P_aesni => Struct Transparent [Prim M128]
  | P_neon => Struct Transparent [Prim Neon128]
  | P_rv64 => Struct (ReprC 4) [Prim U64; Prim U64]
  | P_rv32 | P_software => Struct (ReprC 4) [Prim U32; Prim U32; Prim U32; Prim U32]
  | P_constant_time => Struct Transparent [Prim U128]
  end.
(** aesni_x2.rs:10-12, aesdefault_x2.rs:6-8 *)
Definition x2_ty (p : promised) : ty :=
  match p with
  | P_aesni_vaes4 | P_aesni_vaes2 => Struct Transparent [Prim M256]
  | _ => Struct (ReprC 5) [block_ty p; block_ty p]
  end.
(** aesni_x4.rs:11-13, aesdefault_x4.rs:6-8 *)
Definition x4_ty (p : promised) : ty :=
  match p with
  | P_aesni_vaes4 => Struct Transparent [Prim M512]
  | _ => Struct (ReprC 5) [x2_ty p; x2_ty p]
  end.
Definition bytes_ty (n : nat) : ty := Array (Prim U8) n.

(** The transmutes of [new]: aes_x86.rs:68, aesni_x2.rs:94, aesni_x4.rs:130, aes_arm.rs:69, aes_riscv64.rs:72, aes_riscv32.rs:103.
    (Table and bitslice code has none; the one of RV64's [keygen_192] is below.) *)
Definition transmutes (p : promised) : list (ty * ty) :=
  match p with
  | P_aesni_vaes4 => [(bytes_ty 16, block_ty p); (bytes_ty 32, x2_ty p); (bytes_ty 64, x4_ty p)]
  | P_aesni_vaes2 => [(bytes_ty 16, block_ty p); (bytes_ty 32, x2_ty p)]
  | P_aesni | P_neon | P_rv64 | P_rv32 => [(bytes_ty 16, block_ty p)]
  | P_constant_time | P_software => []
  end.
(** [slice::from_raw_parts_mut(expanded_keys.as_mut_ptr().cast(), n)]: aes_arm.rs:173-176, 196-199, 226-229,
    aes_riscv32.rs:197-200, 217-220, 244-247, aes_bitslice.rs:341-342, 359-360, 384-385 (variable, element, count) *)
Definition views (p : promised) : list (ty * ty * nat) :=
  match p with
  | P_neon | P_rv32 | P_constant_time =>
      [(Array (block_ty p) 11, Prim U32, 44); (Array (block_ty p) 13, Prim U32, 52); (Array (block_ty p) 15, Prim U32, 60)]
  | _ => []
  end.

(** aes_riscv64.rs:219-221: the tuple [(state0, .., state7, state24, state25)], [state_j : (u64, u64, u64)] *)
Definition state_ty : ty := Tuple [Prim U64; Prim U64; Prim U64].
Definition states_ty : ty := Tuple (repeat state_ty 8 ++ [Prim U64; Prim U64]).
(** aes_riscv64.rs:200-223 with the layout of that tuple left to the compiler.  Model_Rv64 computes the 26 words in the order in which the
    tuple names them and pairs them off; here they are put in the tuple instead, and the tuple is transmuted to [[AesBlock; 13]]. *)
Definition fields64 (s : w2) : list N := [d_0 s; d_1 s].
Fixpoint pairs64 (l : list N) : list w2 := match l with a :: b :: r => W2 a b :: pairs64 r | _ => [] end.
Definition r64_keygen_192_by (L : compiler) (key : list N) : outcome (option (list w2)) :=
  named <- r64_keygen_192 key ;;
  Ret (option_map pairs64 (transmute false L states_ty (Array (block_ty P_rv64) 13) (flat_map fields64 named))).
