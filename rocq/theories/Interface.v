(** The public operations every block type of the crate offers, as records of functions.
    [ops] is shared by AesBlock, AesBlockX2 and AesBlockX4; [impl] is everything lib.rs gets
    from the modules selected by its [cfg_if!] blocks (lib.rs:44-121). *)
From Verif Require Import Word.
Open Scope N_scope.

(* Record of what aes_table_based.rs:25-168 gives for AesBlock, and the same names in aes_bitslice.rs:235-324, aes_x86.rs, aes_arm.rs,
    aes_riscv64.rs:26-138, aes_riscv32.rs:42-168, aesdefault_x2.rs:10-124, aesdefault_x4.rs:10-147, aesni_x2.rs, aesni_x4.rs.
    The record is the model's device for lib.rs's use of whichever module was selected. *)
Record ops (T : Type) : Type := Ops {
  o_size : nat;                               (* 16, 32 or 64 *)
  o_new : list N -> outcome T;                (* const fn new([u8; N]) *)
  o_from : list N -> outcome T;               (* From<[u8; N]> *)
  o_store : T -> writer;                      (* store_to(self, dst: &mut [u8]) *)
  o_and : T -> T -> T;
  o_or : T -> T -> T;
  o_xor : T -> T -> T;
  o_not : T -> T;
  o_zero : T;
  o_is_zero : T -> bool;
  o_eq : T -> T -> bool;                      (* PartialEq *)
  o_enc : T -> T -> T;
  o_dec : T -> T -> T;
  o_enc_last : T -> T -> T;
  o_dec_last : T -> T -> T
}.
Arguments Ops {T}.
Arguments o_size {T}. Arguments o_new {T}. Arguments o_from {T}. Arguments o_store {T}.
Arguments o_and {T}. Arguments o_or {T}. Arguments o_xor {T}. Arguments o_not {T}.
Arguments o_zero {T}. Arguments o_is_zero {T}. Arguments o_eq {T}.
Arguments o_enc {T}. Arguments o_dec {T}. Arguments o_enc_last {T}. Arguments o_dec_last {T}.

(** Operations only the single block has: mc, imc, the key schedules, and (NEON, RV32)
    the crate-private pre_enc / pre_dec. *)
(* aes_table_based.rs:191-351, aes_bitslice.rs:326-406, aes_riscv64.rs:139-249, aes_riscv32.rs:126-270 (and aes_x86.rs, aes_arm.rs). *)
Record block_ext (T : Type) : Type := Ext {
  e_mc : T -> T;
  e_imc : T -> T;
  e_keygen_128 : list N -> outcome (list T);
  e_keygen_192 : list N -> outcome (list T);
  e_keygen_256 : list N -> outcome (list T);
  e_pre : option ((T -> T -> T) * (T -> T -> T))
}.
Arguments Ext {T}.
Arguments e_mc {T}. Arguments e_imc {T}. Arguments e_keygen_128 {T}.
Arguments e_keygen_192 {T}. Arguments e_keygen_256 {T}. Arguments e_pre {T}.

(* What lib.rs:44-121 brings into scope, with the conversions of aesdefault_x2.rs:17-36, aesdefault_x4.rs:17-59 (aesni_x2.rs, aesni_x4.rs). *)
Record impl : Type := Impl {
  T1 : Type; T2 : Type; T4 : Type;            (* AesBlock, AesBlockX2, AesBlockX4 *)
  i_ops1 : ops T1; i_ops2 : ops T2; i_ops4 : ops T4;
  i_ext : block_ext T1;
  x2_of_pair : T1 * T1 -> T2;                 (* From<(AesBlock, AesBlock)> for AesBlockX2 *)
  x2_of_block : T1 -> T2;                     (* From<AesBlock> for AesBlockX2 *)
  x2_to_pair : T2 -> T1 * T1;                 (* From<AesBlockX2> for (AesBlock, AesBlock) *)
  x4_of_quad : T1 * T1 * T1 * T1 -> T4;
  x4_of_pair : T2 * T2 -> T4;
  x4_of_block : T1 -> T4;
  x4_of_x2 : T2 -> T4;
  x4_to_quad : T4 -> T1 * T1 * T1 * T1;
  x4_to_pair : T4 -> T2 * T2;
  i_pre_chain : option ((T1 -> T1 -> T1) * (T1 -> T1 -> T1));
      (* Some (pre_enc, pre_dec): lib.rs:348-394 is compiled; None: lib.rs:396-422 *)
  i_dbg : bool                                (* debug_assertions *)
}.

(** Sub-slice mutation: run [f] on [&mut dst[a..]] / [&mut dst[..b]] and put the result back. *)
(* As in aes_table_based.rs:96-100 [&mut dst[4..]], aesdefault_x2.rs:86-87 [&mut dst[16..]]. *)
Definition with_from (dst : list N) (a : nat) (f : list N -> outcome (list N)) : outcome (list N) :=
  s <- slice_from dst a ;; s' <- f s ;; Ret (firstn a dst ++ s').
(* As in aesdefault_x2.rs:86-87 [&mut dst[..16]]. *)
Definition with_to (dst : list N) (b : nat) (f : list N -> outcome (list N)) : outcome (list N) :=
  s <- slice_to dst b ;; s' <- f s ;; Ret (s' ++ skipn b dst).

(** Rust [Result]. *)
(* core::result::Result, as in lib.rs:127-133, 156-188. *)
Inductive result (A E : Type) : Type := Ok (a : A) | Err (e : E).
Arguments Ok {A E} a.
Arguments Err {A E} e.

(** [.unwrap()] *)
(* Result::unwrap, as in aes_table_based.rs:332-333, aes_x86.rs:210, aes_bitslice.rs:345. *)
Definition unwrap {A E} (r : result A E) : outcome A :=
  match r with Ok a => Ret a | Err _ => Panic end.

(** lib.rs:135-140 array_from_slice: [debug_assert!(value.len() - offset >= N)] when debug
    assertions are on (the subtraction itself panics when offset > len), then an unchecked read. *)
Definition array_from_slice (dbg : bool) (n : nat) (value : list N) (offset : nat) : outcome (list N) :=
  if dbg && negb (Nat.leb (offset + n) (length value)) then Panic
  else raw_read value offset n.

(** lib.rs:126-133 try_from_slice. *)
Definition try_from_slice {T} (dbg : bool) (n : nat) (from : list N -> outcome T) (value : list N)
  : outcome (result T nat) :=
  if Nat.leb n (length value)
  then a <- array_from_slice dbg n value 0 ;; x <- from a ;; Ret (Ok x)
  else Ret (Err (length value)).

(** Four 32-bit words: the layout of AesBlock in aes_table_based.rs:7 and aes_riscv32.rs:7. *)
Record w4 : Type := W4 { w_0 : N; w_1 : N; w_2 : N; w_3 : N }.

(** Bit operators, aes_table_based.rs:32-81 (identical text aes_riscv32.rs:49-98). *)
Definition w4_map2 (f : N -> N -> N) (a b : w4) : w4 :=
  W4 (f (w_0 a) (w_0 b)) (f (w_1 a) (w_1 b)) (f (w_2 a) (w_2 b)) (f (w_3 a) (w_3 b)).
Definition w4_and := w4_map2 N.land.
Definition w4_or := w4_map2 N.lor.
Definition w4_xor := w4_map2 N.lxor.
Definition w4_not (a : w4) : w4 :=
  W4 (bnot 32 (w_0 a)) (bnot 32 (w_1 a)) (bnot 32 (w_2 a)) (bnot 32 (w_3 a)).
(** zero, is_zero: aes_table_based.rs:103-112, aes_riscv32.rs:114-123. *)
Definition w4_zero : w4 := W4 0 0 0 0.
Definition w4_is_zero (a : w4) : bool :=
  N.lor (N.lor (N.lor (w_0 a) (w_1 a)) (w_2 a)) (w_3 a) =? 0.
(** derive(PartialEq): fieldwise. *)
Definition w4_eq (a b : w4) : bool :=
  (w_0 a =? w_0 b) && (w_1 a =? w_1 b) && (w_2 a =? w_2 b) && (w_3 a =? w_3 b).

(** [(0..n).step_by(step)] *)
(* Iterator::step_by, as in aes_bitslice.rs:348, 366, 391, aes_arm.rs:182, 205, 235, aes_riscv32.rs:206, 226, 253. *)
Definition step_by (n step : nat) : list nat :=
  map (fun k => (k * step)%nat) (seq 0 (Nat.div (n + step - 1) step)).
