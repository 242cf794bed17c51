(** SPECIFICATION.  The AES of FIPS 197 (upd1), written from the standard.
    This file does not mention the code under verification.

    A byte is an [N] below 256, read as the polynomial with its bits as coefficients.
    A block or State is the list of its 16 bytes in input order: element [s r c]
    (row [r], column [c]) is byte number [r + 4*c]  (FIPS 197 eq. 3.6). *)
From Verif Require Import Word.
Open Scope N_scope.

(** ** GF(2^8), section 4 *)

(** XTIMES (eq. 4.5): multiplication by x modulo x^8+x^4+x^3+x+1. *)
Definition xtimes (b : N) : N :=
  if N.testbit b 7 then N.lxor (N.land (N.shiftl b 1) 255) 0x1b
  else N.land (N.shiftl b 1) 255.

(** Multiplication: the sum of [b * x^i] over the bits [i] of [a] (section 4.2). *)
Fixpoint gmul_bits (n : nat) (a b : N) : N :=
  match n with
  | O => 0
  | S n' => N.lxor (if N.odd a then b else 0) (gmul_bits n' (N.div2 a) (xtimes b))
  end.
Definition gmul (a b : N) : N := gmul_bits 8 a b.

(** Multiplicative inverse as the 254th power (section 4.4), 0 going to 0. *)
Definition gsq (a : N) : N := gmul a a.
Definition ginv (a : N) : N :=
  let a2 := gsq a in let a4 := gsq a2 in let a8 := gsq a4 in
  let a16 := gsq a8 in let a32 := gsq a16 in let a64 := gsq a32 in
  let a128 := gsq a64 in
  gmul a2 (gmul a4 (gmul a8 (gmul a16 (gmul a32 (gmul a64 a128))))).

(** ** S-box, section 5.1.1 and 5.3.2 *)

(** Byte from its eight bits, bit 0 first. *)
Definition of_bits (f : N -> bool) : N :=
  fold_right (fun i acc => N.b2n (f i) + 2 * acc) 0 [0;1;2;3;4;5;6;7].

(** Affine transformation (eq. 5.3), c = 01100011. *)
Definition affine (b : N) : N :=
  let bit i := N.testbit b (i mod 8) in
  of_bits (fun i => xorb (bit i) (xorb (bit (i+4)) (xorb (bit (i+5))
                   (xorb (bit (i+6)) (xorb (bit (i+7)) (N.testbit 0x63 i)))))).
(** Its inverse: b'_i = b_(i+2) + b_(i+5) + b_(i+7) + d_i, d = 00000101. *)
Definition inv_affine (b : N) : N :=
  let bit i := N.testbit b (i mod 8) in
  of_bits (fun i => xorb (bit (i+2)) (xorb (bit (i+5)) (xorb (bit (i+7)) (N.testbit 0x05 i)))).

Definition sbox (b : N) : N := affine (ginv b).
Definition inv_sbox (b : N) : N := ginv (inv_affine b).

(** ** State transformations, sections 5.1 and 5.3 *)

Definition st (s : list N) (r c : nat) : N := nth (r + 4 * c) s 0.
Definition mk_state (f : nat -> nat -> N) : list N :=
  map (fun k => f (Nat.modulo k 4) (Nat.div k 4)) (seq 0 16).

Definition sub_bytes (s : list N) : list N := map sbox s.
Definition inv_sub_bytes (s : list N) : list N := map inv_sbox s.

(** Row [r] is rotated left by [r] columns (eq. 5.5) / right (eq. 5.12). *)
Definition shift_rows (s : list N) : list N :=
  mk_state (fun r c => st s r (Nat.modulo (c + r) 4)).
Definition inv_shift_rows (s : list N) : list N :=
  mk_state (fun r c => st s r (Nat.modulo (c + 4 - r) 4)).

(** Column times the circulant matrix with first row [02 03 01 01] (eq. 5.8)
    resp. [0e 0b 0d 09] (eq. 5.14). *)
Definition mix_with (m0 m1 m2 m3 : N) (s : list N) : list N :=
  mk_state (fun r c =>
    let x k := st s (Nat.modulo (r + k) 4) c in
    N.lxor (N.lxor (gmul m0 (x 0%nat)) (gmul m1 (x 1%nat)))
           (N.lxor (gmul m2 (x 2%nat)) (gmul m3 (x 3%nat)))).
Definition mix_columns (s : list N) : list N := mix_with 2 3 1 1 s.
Definition inv_mix_columns (s : list N) : list N := mix_with 0xe 0xb 0xd 9 s.

Definition add_round_key (s k : list N) : list N := map2 N.lxor s k.

(** ** Key expansion, section 5.2 (Algorithm 2).  A word is a list of 4 bytes. *)

Definition rot_word (w : list N) : list N :=
  match w with [a; b; c; d] => [b; c; d; a] | _ => w end.
Definition sub_word (w : list N) : list N := map sbox w.
Definition xor_word (u v : list N) : list N := map2 N.lxor u v.

(** Rcon[j] = [x^(j-1), 0, 0, 0], j >= 1. *)
Definition rcon (j : nat) : list N := [Nat.iter (j - 1) xtimes 1; 0; 0; 0].

(** One pass through the while loop for index [i], appending w[i]. *)
Definition expand_step (nk : nat) (w : list (list N)) (i : nat) : list (list N) :=
  let temp := nth (i - 1) w [] in
  let temp' :=
    if Nat.eqb (Nat.modulo i nk) 0 then xor_word (sub_word (rot_word temp)) (rcon (Nat.div i nk))
    else if Nat.ltb 6 nk && Nat.eqb (Nat.modulo i nk) 4 then sub_word temp
    else temp in
  w ++ [xor_word (nth (i - nk) w []) temp'].

Definition key_expansion (nk nr : nat) (key : list N) : list (list N) :=
  fold_left (expand_step nk) (seq nk (4 * (nr + 1) - nk)) (chunks 4 nk key).

(** Round key [i]: words 4i .. 4i+3. *)
Definition round_key (w : list (list N)) (i : nat) : list N :=
  concat (firstn 4 (skipn (4 * i) w)).

(** ** Cipher (Algorithm 1) and inverse cipher (Algorithm 3) *)

Definition cipher (nr : nat) (w : list (list N)) (inp : list N) : list N :=
  let s0 := add_round_key inp (round_key w 0) in
  let s := fold_left
             (fun s i => add_round_key (mix_columns (shift_rows (sub_bytes s))) (round_key w i))
             (seq 1 (nr - 1)) s0 in
  add_round_key (shift_rows (sub_bytes s)) (round_key w nr).

Definition inv_cipher (nr : nat) (w : list (list N)) (inp : list N) : list N :=
  let s0 := add_round_key inp (round_key w nr) in
  let s := fold_left
             (fun s i => inv_mix_columns
                (add_round_key (inv_sub_bytes (inv_shift_rows s)) (round_key w i)))
             (rev (seq 1 (nr - 1))) s0 in
  add_round_key (inv_sub_bytes (inv_shift_rows s)) (round_key w 0).

(** ** The three ciphers: AES-128, AES-192, AES-256 (section 5, Table 3: Nk and Nr) *)

Inductive key_size := K128 | K192 | K256.
Definition nk_of (k : key_size) : nat := match k with K128 => 4 | K192 => 6 | K256 => 8 end.
Definition nr_of (k : key_size) : nat := match k with K128 => 10 | K192 => 12 | K256 => 14 end.
Definition key_len (k : key_size) : nat := (4 * nk_of k)%nat.

Definition aes_encrypt (k : key_size) (key inp : list N) : list N :=
  cipher (nr_of k) (key_expansion (nk_of k) (nr_of k) key) inp.
Definition aes_decrypt (k : key_size) (key inp : list N) : list N :=
  inv_cipher (nr_of k) (key_expansion (nk_of k) (nr_of k) key) inp.

(** The round keys of a key, in order. *)
Definition round_keys (k : key_size) (key : list N) : list (list N) :=
  map (round_key (key_expansion (nk_of k) (nr_of k) key)) (seq 0 (nr_of k + 1)).
