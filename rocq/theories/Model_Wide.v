(** src/aesdefault_x2.rs and src/aesdefault_x4.rs.  The wide block is a pair of narrower ones.
    The two files are the same text with 16/32 replaced by 32/64, hence one definition. *)
From Verif Require Import Word Interface.
Open Scope N_scope.

Section Pair.
  Context {T : Type} (dbg : bool) (half : nat) (o : ops T).

  (** aesdefault_x2.rs:76-81, aesdefault_x4.rs:99-104 (From: 10-15) *)
  Definition p_new (value : list N) : outcome (T * T) :=
    a <- array_from_slice dbg half value 0 ;; x <- o_new o a ;;
    b <- array_from_slice dbg half value half ;; y <- o_new o b ;;
    Ret (x, y).
  (** aesdefault_x2.rs:84-88, aesdefault_x4.rs:107-111 *)
  Definition p_store_to (s : T * T) : writer :=
    w_then (w_assert_len (half + half))
    (w_then (w_to half (o_store o (fst s))) (w_from half (o_store o (snd s)))).
  (** aesdefault_x2.rs:38-72, 101-123; aesdefault_x4.rs:61-95, 124-146 *)
  Definition p_map2 (f : T -> T -> T) (a b : T * T) : T * T :=
    (f (fst a) (fst b), f (snd a) (snd b)).
  Definition p_not (a : T * T) : T * T := (o_not o (fst a), o_not o (snd a)).
  (** aesdefault_x2.rs:91-99, aesdefault_x4.rs:114-122; line 5: derived equality *)
  Definition p_zero : T * T := (o_zero o, o_zero o).
  Definition p_is_zero (a : T * T) : bool := andb (o_is_zero o (fst a)) (o_is_zero o (snd a)).
  Definition p_eq (a b : T * T) : bool := andb (o_eq o (fst a) (fst b)) (o_eq o (snd a) (snd b)).

  (* aesdefault_x2.rs:10-124 and, over AesBlockX2, aesdefault_x4.rs:10-147. *)
  Definition pair_ops : ops (T * T) :=
    Ops (half + half) p_new p_new p_store_to
        (p_map2 (o_and o)) (p_map2 (o_or o)) (p_map2 (o_xor o)) p_not p_zero p_is_zero p_eq
        (p_map2 (o_enc o)) (p_map2 (o_dec o)) (p_map2 (o_enc_last o)) (p_map2 (o_dec_last o)).
End Pair.

(** aesdefault_x2.rs:17-22, 24-29, 31-36 *)
Definition d2_of_pair {T} (p : T * T) : T * T := let '(hi, lo) := p in (hi, lo).
Definition d2_of_block {T} (a : T) : T * T := (a, a).
Definition d2_to_pair {T} (s : T * T) : T * T := (fst s, snd s).

(** aesdefault_x4.rs:17-22, 24-29, 31-36, 38-43, 45-52, 54-59; generic in the X2 type, which may be
    the VAES one (nightly, vaes without avx512f) *)
Definition d4_of_quad {T U} (of_pair : T * T -> U) (q : T * T * T * T) : U * U :=
  let '(a, b, c, d) := q in (of_pair (a, b), of_pair (c, d)).
Definition d4_of_pair {U} (p : U * U) : U * U := let '(hi, lo) := p in (hi, lo).
Definition d4_of_block {T U} (of_block : T -> U) (a : T) : U * U := (of_block a, of_block a).
Definition d4_of_x2 {U} (a : U) : U * U := (a, a).
Definition d4_to_quad {T U} (to_pair : U -> T * T) (s : U * U) : T * T * T * T :=
  let '(a, b) := to_pair (fst s) in
  let '(c, d) := to_pair (snd s) in (a, b, c, d).
Definition d4_to_pair {U} (s : U * U) : U * U := (fst s, snd s).
