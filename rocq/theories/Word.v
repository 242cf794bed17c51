(** Machine integers, slices and control outcomes used by the model.

    Conventions.  A Rust [uN] value is an [N] below [2^N]; operations that can leave
    that range wrap explicitly here, as Rust's do.  A Rust array or slice of bytes is a
    [list N].  A function that can panic, or that performs an unchecked ([unsafe]) memory
    access, returns an [outcome]. *)
From Coq Require Export NArith List Bool.
Export ListNotations.
Open Scope N_scope.

(** Result of running Rust code: a value, a panic, or undefined behaviour
    (an out-of-bounds access made through an unchecked pointer). *)
Inductive outcome (A : Type) : Type :=
| Ret (a : A)
| Panic
| UB.
Arguments Ret {A} a.
Arguments Panic {A}.
Arguments UB {A}.

Definition bind {A B} (m : outcome A) (k : A -> outcome B) : outcome B :=
  match m with Ret a => k a | Panic => Panic | UB => UB end.

Notation "x <- m ;; k" := (bind m (fun x => k))
  (at level 61, m at next level, right associativity).
Notation "' p <- m ;; k" := (bind m (fun p => k))
  (at level 61, p pattern, m at next level, right associativity).

Definition omap {A B} (f : A -> B) (m : outcome A) : outcome B :=
  x <- m ;; Ret (f x).

(** [assert!(b)]: panic unless [b]. *)
Definition rust_assert (b : bool) : outcome unit := if b then Ret tt else Panic.

(** Map in the outcome monad, left to right. *)
Fixpoint omapM {A B} (f : A -> outcome B) (l : list A) : outcome (list B) :=
  match l with
  | [] => Ret []
  | a :: l' => b <- f a ;; bs <- omapM f l' ;; Ret (b :: bs)
  end.

(** Left fold in the outcome monad: a [for] loop. *)
Fixpoint ofold {A S} (f : S -> A -> outcome S) (l : list A) (s : S) : outcome S :=
  match l with
  | [] => Ret s
  | a :: l' => s' <- f s a ;; ofold f l' s'
  end.

(** Checked indexing [s[i]] and checked assignment [s[i] = v]: panic when out of range. *)
Definition get {A} (l : list A) (i : nat) : outcome A :=
  match nth_error l i with Some a => Ret a | None => Panic end.

Definition set {A} (l : list A) (i : nat) (v : A) : outcome (list A) :=
  if Nat.ltb i (length l) then Ret (firstn i l ++ v :: skipn (S i) l) else Panic.

(** [&s[a..]], [&s[..b]] : panic when out of range. *)
Definition slice_from {A} (l : list A) (a : nat) : outcome (list A) :=
  if Nat.leb a (length l) then Ret (skipn a l) else Panic.
Definition slice_to {A} (l : list A) (b : nat) : outcome (list A) :=
  if Nat.leb b (length l) then Ret (firstn b l) else Panic.

(** Unchecked access through a raw pointer to the start of a slice plus [off]:
    reading or writing [n] elements is UB unless they lie inside the slice. *)
Definition raw_read {A} (l : list A) (off n : nat) : outcome (list A) :=
  if Nat.leb (off + n) (length l) then Ret (firstn n (skipn off l)) else UB.
Definition raw_write {A} (l v : list A) : outcome (list A) :=
  if Nat.leb (length v) (length l) then Ret (v ++ skipn (length v) l) else UB.

(** Code that writes through a [dst: &mut [u8]]: what happened, and the contents of [dst] afterwards -
    also after a panic, so that partial writes would be visible. *)
Definition writer : Type := list N -> outcome unit * list N.
(** [p; q] *)
Definition w_then (p q : writer) : writer :=
  fun d => match p d with (Ret _, d') => q d' | (Panic, d') => (Panic, d') | (UB, d') => (UB, d') end.
(** [assert!(dst.len() >= n)] *)
Definition w_assert_len (n : nat) : writer := fun d => (rust_assert (Nat.leb n (length d)), d).
(** one elementary write: all or nothing *)
Definition w_step (f : list N -> outcome (list N)) : writer :=
  fun d => match f d with Ret d' => (Ret tt, d') | Panic => (Panic, d) | UB => (UB, d) end.
(** [p(&mut dst[a..])], [p(&mut dst[..b])] *)
Definition w_from (a : nat) (p : writer) : writer :=
  fun d => if Nat.leb a (length d) then let (r, s) := p (skipn a d) in (r, firstn a d ++ s) else (Panic, d).
Definition w_to (b : nat) (p : writer) : writer :=
  fun d => if Nat.leb b (length d) then let (r, s) := p (firstn b d) in (r, s ++ skipn b d) else (Panic, d).
(** [copy_from_slice(src)] *)
Definition w_copy (src : list N) : writer :=
  w_step (fun d => if Nat.eqb (length d) (length src) then Ret src else Panic).

(** [x as u8], [x as u32] ... : truncation. *)
Definition trunc (w x : N) : N := N.land x (N.ones w).
Definition as_u8 (x : N) : N := trunc 8 x.

(** Rust [<<], [>>], [!], [wrapping_sub], [rotate_right] on a [w]-bit unsigned integer
    (shift amounts in the code are constants below [w]). *)
Definition shl (w x k : N) : N := trunc w (N.shiftl x k).
Definition shr (x k : N) : N := N.shiftr x k.
Definition bnot (w x : N) : N := N.lxor x (N.ones w).
Definition wrapping_sub (w x y : N) : N := (x + 2 ^ w - y) mod 2 ^ w.
Definition rotr (w x k : N) : N := N.lor (shr x k) (shl w x (w - k)).

(** [to_le_bytes], [from_le_bytes], [to_be_bytes], [from_be_bytes] of an [n]-byte integer. *)
Fixpoint to_le (n : nat) (x : N) : list N :=
  match n with
  | O => []
  | S n' => x mod 256 :: to_le n' (x / 256)
  end.
Fixpoint of_le (l : list N) : N :=
  match l with
  | [] => 0
  | b :: l' => b + 256 * of_le l'
  end.
Definition to_be (n : nat) (x : N) : list N := rev (to_le n x).
Definition of_be (l : list N) : N := of_le (rev l).

(** [to_ne_bytes] / [from_ne_bytes]: native order, big-endian when [be]. *)
Definition to_ne (be : bool) (n : nat) (x : N) : list N := if be then to_be n x else to_le n x.
Definition of_ne (be : bool) (l : list N) : N := if be then of_be l else of_le l.

(** Pointwise combination of two byte arrays (of equal length in all uses). *)
Fixpoint map2 {A B C} (f : A -> B -> C) (l : list A) (m : list B) : list C :=
  match l, m with
  | a :: l', b :: m' => f a b :: map2 f l' m'
  | _, _ => []
  end.

(** Splitting a byte array into [n] chunks of [k] elements ([chunks_exact], array layout). *)
Fixpoint chunks {A} (k n : nat) (l : list A) : list (list A) :=
  match n with
  | O => []
  | S n' => firstn k l :: chunks k n' (skipn k l)
  end.

(** A Rust [[u8; n]]: exactly [n] bytes, each below 256. *)
Definition is_bytes (n : nat) (l : list N) : Prop :=
  length l = n /\ Forall (fun b => b < 256) l.

(** Boolean version of [is_bytes]. *)
Definition is_bytesb (n : nat) (l : list N) : bool :=
  Nat.eqb (length l) n && forallb (fun b => b <? 256) l.
