(** SPECIFICATION for C43: a call of a block type seen as a function from bytes to bytes, and how much of two values agrees. *)
From Coq Require Import Arith.
From Verif Require Import Word Interface Fips197 Spec_User Model_Lib.
Open Scope N_scope.

(** AesBlock, AesBlockX2 or AesBlockX4. *)
Definition at_width {X : Type} (i : impl) (g : group) (P : forall T, ops T -> X) : X :=
  match g with One => P _ (i_ops1 i) | Two => P _ (i_ops2 i) | Four => P _ (i_ops4 i) end.
(** x.f(y) for the values with the given bytes, as bytes *)
Definition binary_bytes (i : impl) (g : group) (f : forall T, ops T -> T -> T -> T) (a b : list N) : outcome (list N) :=
  at_width i g (fun T o => x <- o_from o a ;; y <- o_from o b ;; to_bytes o (f T o x y)).
Definition unary_bytes (i : impl) (g : group) (f : forall T, ops T -> T -> T) (a : list N) : outcome (list N) :=
  at_width i g (fun T o => x <- o_from o a ;; to_bytes o (f T o x)).
(** A bool as a byte. *)
Definition bool_byte (b : bool) : list N := [if b then 1 else 0].
Definition is_zero_bytes (i : impl) (g : group) (a : list N) : outcome (list N) :=
  at_width i g (fun T o => x <- o_from o a ;; Ret (bool_byte (o_is_zero o x))).
Definition equal_bytes (i : impl) (g : group) (a b : list N) : outcome (list N) :=
  at_width i g (fun T o => x <- o_from o a ;; y <- o_from o b ;; Ret (bool_byte (o_eq o x y))).
(** x.chain_enc(&keys), x.chain_dec(&keys) *)
Definition chain_call_bytes (i : impl) (g : group) (dec : bool) (a : list N) (keys : list (list N)) : outcome (list N) :=
  let go {T} (o : ops T) (chain : T -> list T -> outcome T) := x <- o_from o a ;; ks <- omapM (o_from o) keys ;; y <- chain x ks ;; to_bytes o y in
  match g with
  | One => go (i_ops1 i) (if dec then chain_dec1 i else chain_enc1 i)
  | Two => go (i_ops2 i) (if dec then chain_dec2 i else chain_enc2 i)
  | Four => go (i_ops4 i) (if dec then chain_dec4 i else chain_enc4 i)
  end.

(** Of the first [count] pieces of [size] bytes of a and b, how many agree before the first that differs. *)
Fixpoint agreeing (size count : nat) (a b : list N) : nat :=
  match count with
  | O => O
  | S c => if list_eq_dec N.eq_dec (firstn size a) (firstn size b) then S (agreeing size c (skipn size a) (skipn size b)) else O
  end.
