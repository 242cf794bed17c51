(** SPECIFICATION for C38: memory at byte addresses, slices anywhere in it, checked accesses (that panic) and
    unchecked ones (that are undefined behaviour outside their slice or at a misaligned address). *)
From Coq Require Import Arith.
From Verif Require Import Word.
Open Scope N_scope.

(** The bytes of the address space; an address is an index. *)
Definition mem : Type := list N.
(** [&[u8]] or [&mut [u8]]: where it starts and how many bytes it has. *)
Record slice : Type := Slice { s_addr : nat; s_len : nat }.
Definition inside (m : mem) (s : slice) : Prop := (s_addr s + s_len s <= length m)%nat.
Definition contents (m : mem) (s : slice) : list N := firstn (s_len s) (skipn (s_addr s) m).
Definition aligned (addr align : nat) : bool := Nat.eqb (Nat.modulo addr align) 0.
(** Memory with [d] at [addr]. *)
Definition overwrite (m : mem) (addr : nat) (d : list N) : mem := firstn addr m ++ d ++ skipn (addr + length d) m.

(** A value of [n] bytes and alignment [align] read through the pointer to the slice plus [off]. *)
Definition ptr_read (align off n : nat) (m : mem) (s : slice) : outcome (list N) :=
  if Nat.leb (off + n) (s_len s) && aligned (s_addr s + off) align then Ret (contents m (Slice (s_addr s + off) n)) else UB.

(** Code that writes to memory through one slice: what happened, and the memory afterwards. *)
Definition mcode : Type := mem -> slice -> outcome unit * mem.
Definition m_then (p q : mcode) : mcode :=
  fun m s => match p m s with (Ret _, m') => q m' s | (Panic, m') => (Panic, m') | (UB, m') => (UB, m') end.
Definition m_assert_len (n : nat) : mcode := fun m s => (rust_assert (Nat.leb n (s_len s)), m).
(** A value with memory image [v] and alignment [align] written through the pointer to the slice. *)
Definition m_ptr_write (align : nat) (v : list N) : mcode := fun m s =>
  if Nat.leb (length v) (s_len s) && aligned (s_addr s) align then (Ret tt, overwrite m (s_addr s) v) else (UB, m).
(** [slice[i] = v], [slice.copy_from_slice(v)], [p(&mut slice[a..])], [p(&mut slice[..b])] *)
Definition m_index (i : nat) (v : N) : mcode := fun m s =>
  if Nat.ltb i (s_len s) then (Ret tt, overwrite m (s_addr s + i) [v]) else (Panic, m).
Definition m_copy (v : list N) : mcode := fun m s =>
  if Nat.eqb (s_len s) (length v) then (Ret tt, overwrite m (s_addr s) v) else (Panic, m).
Definition m_from (a : nat) (p : mcode) : mcode := fun m s =>
  if Nat.leb a (s_len s) then p m (Slice (s_addr s + a) (s_len s - a)) else (Panic, m).
Definition m_to (b : nat) (p : mcode) : mcode := fun m s =>
  if Nat.leb b (s_len s) then p m (Slice (s_addr s) b) else (Panic, m).

(** A local variable [v : [u8; n]] of the code, living at address [la] of the stack, read through a pointer. *)
Definition local_read (align off n la : nat) (v : list N) : outcome (list N) :=
  if Nat.leb (off + n) (length v) && aligned (la + off) align then Ret (firstn n (skipn off v)) else UB.
(** The byte at an address of memory after [n] bytes [b] were put at [addr]. *)
Definition with_bytes (m m' : mem) (addr : nat) (b : list N) : Prop :=
  length m' = length m /\
  forall a, nth a m' 0 = if Nat.leb addr a && Nat.ltb a (addr + length b) then nth (a - addr) b 0 else nth a m 0.
