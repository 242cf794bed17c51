(** SPECIFICATION for C38, key set-up: [&mut [u32]] slices over raw memory (Rust reference, core::slice::from_raw_parts_mut). *)
From Coq Require Import Arith.
From Verif Require Import Word Spec_Mem.
Open Scope N_scope.

(** [columns : &mut [u32]]: where it starts and how many words it has. *)
Record words : Type := Words { w_addr : nat; w_len : nat }.
(** [slice::from_raw_parts_mut(ptr, n)], [ptr : *mut u32] to the start of a variable of [alloc] bytes at [addr], [u32] having alignment
    [align]: undefined behaviour if the slice is longer than the variable or misaligned. *)
Definition raw_parts (align alloc addr n : nat) : outcome words :=
  if Nat.leb (4 * n) alloc && aligned addr align then Ret (Words addr n) else UB.
(** [columns[i]] and [columns[i] = v]: a checked index, then four bytes of memory in the byte order of the machine. *)
Definition word_at (be : bool) (m : mem) (s : words) (i : nat) : outcome N :=
  if Nat.ltb i (w_len s) then Ret (of_ne be (contents m (Slice (w_addr s + 4 * i) 4))) else Panic.
Definition word_put (be : bool) (m : mem) (s : words) (i : nat) (v : N) : outcome mem :=
  if Nat.ltb i (w_len s) then Ret (overwrite m (w_addr s + 4 * i) (to_ne be 4 v)) else Panic.
(** [let x: T = mem::zeroed();] for a variable of [n] bytes that the compiler put at [addr]. *)
Definition zeroed_at (m : mem) (addr n : nat) : mem := overwrite m addr (repeat 0 n).
