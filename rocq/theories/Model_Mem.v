(** The code that touches memory through pointers and slices - store_to, From<[u8; N]>, new, TryFrom<&[u8]> - at the
    level of addresses (Spec_Mem.v), for every block type.  Loads and stores of the kind "unaligned" have alignment 1. *)
From Coq Require Import Arith.
From Verif Require Import Word Interface Spec_Mem.
From Verif Require Import Isa_x86 Isa_arm Model_Table Model_Bitslice Model_X86 Model_Vaes Model_Arm Model_Rv64 Model_Rv32 Model_Wide Model_Cfg.
Open Scope N_scope.

(** [la]: the addresses at which the local variables (the [u8; N] arguments) of the call and of the calls it makes live. *)
(* The functions that go through pointers: store_to, new / From<[u8; N]> of every block type (see each instance), lib.rs:127-140. *)
Record ptr_ops (T : Type) : Type := Ptr {
  q_store : T -> mcode;                                   (* store_to *)
  q_from : (nat -> nat) -> list N -> outcome T;           (* From<[u8; N]> *)
  q_new : (nat -> nat) -> list N -> outcome T             (* const fn new *)
}.
Arguments Ptr {T}. Arguments q_store {T}. Arguments q_from {T}. Arguments q_new {T}.

(** aes_x86.rs:72-75 [_mm_storeu_si128(dst.as_mut_ptr().cast(), self.0)]; 24 [_mm_loadu_si128(value.as_ptr().cast())];
    67-68 transmute; aesni_x2.rs:98-101, 26, 93-95 and aesni_x4.rs:134-137, 27, 129-131 with n = 32, 64 *)
Definition vec_ptr (n : nat) : ptr_ops (list N) :=
  Ptr (fun x => m_then (m_assert_len n) (m_ptr_write 1 x)) (fun la v => local_read 1 0 n (la 0%nat) v) (fun _ v => Ret v).
(** aes_arm.rs:73-76 [vst1q_u8(dst.as_mut_ptr(), self.0)]; 25 [vld1q_u8(value.as_ptr())]: elements of one byte *)
Definition arm_ptr : ptr_ops (list N) :=
  Ptr (fun x => m_then (m_assert_len 16) (m_ptr_write 1 x)) (fun la v => local_read 1 0 16 (la 0%nat) v) (fun _ v => Ret v).
(** aes_riscv64.rs:76-81, aes_riscv32.rs:107-112 [dst.as_mut_ptr().cast::<Self>().write_unaligned(self)] *)
Definition r64_ptr : ptr_ops w2 :=
  Ptr (fun x => m_then (m_assert_len 16) (m_ptr_write 1 (r64_bytes x))) (fun _ => r64_new) (fun _ => r64_new).
Definition r32_ptr : ptr_ops w4 :=
  Ptr (fun x => m_then (m_assert_len 16) (m_ptr_write 1 (r32_bytes x))) (fun _ => r32_new) (fun _ => r32_new).
(** aes_bitslice.rs:285-288 [dst[..16].copy_from_slice(..)] *)
Definition bitslice_ptr (be : bool) : ptr_ops N :=
  Ptr (fun x => m_then (m_assert_len 16) (m_to 16 (m_copy (to_ne be 16 x)))) (fun _ => bs_new be) (fun _ => bs_new be).
(** aes_table_based.rs:17-23 *)
Definition m_store_u32_be (num : N) : mcode :=
  m_then (m_index 0 (as_u8 (shr num 24))) (m_then (m_index 1 (as_u8 (shr num 16)))
  (m_then (m_index 2 (as_u8 (shr num 8))) (m_index 3 (as_u8 num)))).
(** aes_table_based.rs:95-101 *)
Definition table_ptr : ptr_ops w4 :=
  Ptr (fun x => m_then (m_assert_len 16) (m_then (m_store_u32_be (w_0 x)) (m_then (m_from 4 (m_store_u32_be (w_1 x)))
                (m_then (m_from 8 (m_store_u32_be (w_2 x))) (m_from 12 (m_store_u32_be (w_3 x)))))))
      (fun _ => tb_new) (fun _ => tb_new).
(** lib.rs:135-140 array_from_slice on a local array: the pointee [[u8; N]] has alignment 1 *)
Definition local_array (dbg : bool) (n : nat) (la : nat) (v : list N) (off : nat) : outcome (list N) :=
  if dbg && negb (Nat.leb (off + n) (length v)) then Panic else local_read 1 off n la v.
(** aesdefault_x2.rs:84-88, 76-81 (10-15), aesdefault_x4.rs:107-111, 99-104 *)
Definition pair_ptr {T} (dbg : bool) (half : nat) (p : ptr_ops T) : ptr_ops (T * T) :=
  let new la v :=
    a <- local_array dbg half (la 0%nat) v 0 ;; x <- q_new p (fun i => la (2 * i + 1)%nat) a ;;
    b <- local_array dbg half (la 0%nat) v half ;; y <- q_new p (fun i => la (2 * i + 2)%nat) b ;;
    Ret (x, y) in
  Ptr (fun s => m_then (m_assert_len (half + half)) (m_then (m_to half (q_store p (fst s))) (m_from half (q_store p (snd s))))) new new.
(** lib.rs:126-140, 172-179 TryFrom<&[u8]> *)
Definition q_try_from {T} (dbg : bool) (n : nat) (p : ptr_ops T) (la : nat -> nat) (m : mem) (s : slice) : outcome (result T nat) :=
  if Nat.leb n (s_len s) then
    a <- (if dbg && negb (Nat.leb n (s_len s)) then Panic else ptr_read 1 0 n m s) ;;
    x <- q_from p la a ;; Ret (Ok x)
  else Ret (Err (s_len s)).

(** Which pointer code belongs to which block type. *)
(* The modules of lib.rs:44-121. *)
Inductive pointer_code : forall T, ops T -> ptr_ops T -> Prop :=
| PC_table : pointer_code _ table_ops table_ptr
| PC_bitslice be : pointer_code _ (bitslice_ops be) (bitslice_ptr be)
| PC_x86 : pointer_code _ x86_ops (vec_ptr 16)
| PC_vaes2 : pointer_code _ vaes2_ops (vec_ptr 32)
| PC_vaes4 : pointer_code _ vaes4_ops (vec_ptr 64)
| PC_arm arm32 : pointer_code _ (arm_ops arm32) arm_ptr
| PC_rv64 : pointer_code _ rv64_ops r64_ptr
| PC_rv32 : pointer_code _ rv32_ops r32_ptr
| PC_pair T dbg half (o : ops T) p : pointer_code T o p -> pointer_code _ (pair_ops dbg half o) (pair_ptr dbg half p).
Arguments pointer_code {T}.
