(** src/aes_bitslice.rs.  An AesBlock is a u128; [be] is [cfg!(target_endian = "big")]. *)
From Verif Require Import Word Interface Model_Columns.
Open Scope N_scope.

(** The S-box code works on all 16 bytes of a u128 at once.  It is written here for a word of [n]
    bytes; the Rust code is the instance [n = 16] (the proofs compare it with the instance [n = 1]).
    [LET x := e IN k] is Rust's [let x = e; k] (a named constant instead of Coq's [let], so that
    proofs keep the sharing). *)
(* Every [let] of aes_bitslice.rs:20-230. *)
Definition let_in {A B : Type} (a : A) (k : A -> B) : B := k a.
Notation "'LET' x ':=' e 'IN' k" := (let_in e (fun x => k))
  (at level 200, x name, e at level 200, k at level 200, right associativity).

Section Lanes.
Context (n : nat).

(** aes_bitslice.rs:5-7 (byte-symmetric, so the same on both endiannesses) *)
Definition rep (x : N) : N := of_le (repeat x n).
(** aes_bitslice.rs:10-12 *)
Definition ror1 (x : N) : N := N.lor (shr (N.land x (rep 0xfe)) 1) (shl (8 * N.of_nat n) (N.land x (rep 0x01)) 7).
(** aes_bitslice.rs:15-17 *)
Definition swap2 (x : N) : N := N.lor (shr (N.land x (rep 0xcc)) 2) (shl (8 * N.of_nat n) (N.land x (rep 0x33)) 2).
(** aes_bitslice.rs:20-23 *)
Definition step_a (a b mask : N) : N :=
  LET x := N.land a b IN
  N.lxor (N.lxor x (shr (N.land x mask) 1))
         (N.land (N.lxor (N.land (shl (8 * N.of_nat n) a 1) b) (N.land (shl (8 * N.of_nat n) b 1) a)) mask).
(** aes_bitslice.rs:26-29 *)
Definition step_b (a mask : N) : N :=
  LET x := N.land a mask IN
  N.lxor (N.lor x (shr x 1)) (N.land (shl (8 * N.of_nat n) a 1) mask).

(** aes_bitslice.rs:51-80 (and, text for text, 115-144): inversion in the tower field *)
Definition bs_invert (x : N) : N :=
  LET a1 := N.lxor x (shr (N.land x (rep 0xf0)) 4) IN
  LET a2 := swap2 x IN
  LET a3 := step_a x a1 (rep 0xaa) IN
  LET a4 := step_a a1 a2 (rep 0xaa) IN
  LET a5 := shr (N.land a3 (rep 0xcc)) 2 IN
  LET a3 := N.lxor a3 (N.land (N.lxor (shl (8 * N.of_nat n) a4 2) a4) (rep 0xcc)) IN
  LET a4 := step_b a5 (rep 0x22) IN
  LET a3 := N.lxor a3 a4 IN
  LET a5 := step_b a3 (rep 0xa0) IN
  LET a4 := N.land a5 (rep 0xc0) IN
  LET a6 := shr a4 2 IN
  LET a4 := N.lxor a4 (N.land (shl (8 * N.of_nat n) a5 2) (rep 0xc0)) IN
  LET a5 := step_b a6 (rep 0x20) IN
  LET a4 := N.lor a4 a5 IN
  LET a3 := N.land (N.lxor a3 (shr a4 4)) (rep 0x0f) IN
  LET a2 := N.lxor a3 (shr (N.land a3 (rep 0x0c)) 2) IN
  LET a4 := step_a a2 a3 (rep 0x0a) IN
  LET a5 := step_b a4 (rep 0x08) IN
  LET a4 := N.land (N.lxor a4 (shr a5 2)) (rep 0x03) IN
  LET a4 := N.lxor a4 (shr (N.land a4 (rep 0x02)) 1) IN
  LET a4 := N.lor a4 (shl (8 * N.of_nat n) a4 2) IN
  LET a3 := step_a a2 a4 (rep 0x0a) IN
  LET a3 := N.lor a3 (shl (8 * N.of_nat n) a3 4) IN
  LET a2 := swap2 a1 IN
  LET x := step_a a1 a3 (rep 0xaa) IN
  LET a4 := step_a a2 a3 (rep 0xaa) IN
  LET a5 := shr (N.land x (rep 0xcc)) 2 IN
  LET x := N.lxor x (N.land (N.lxor (shl (8 * N.of_nat n) a4 2) a4) (rep 0xcc)) IN
  LET a4 := step_b a5 (rep 0x22) IN
  N.lxor x a4.

(** aes_bitslice.rs:38-49: change of basis before the inversion *)
Definition bs_basis_in (x : N) : N :=
  LET y := ror1 x IN
  LET x := N.lxor (N.land x (rep 0xdd)) (N.land y (rep 0x57)) IN
  LET y := ror1 y IN
  LET x := N.lxor x (N.land y (rep 0x1c)) IN
  LET y := ror1 y IN
  LET x := N.lxor x (N.land y (rep 0x4a)) IN
  LET y := ror1 y IN
  LET x := N.lxor x (N.land y (rep 0x42)) IN
  LET y := ror1 y IN
  LET x := N.lxor x (N.land y (rep 0x64)) IN
  LET y := ror1 y IN
  N.lxor x (N.land y (rep 0xe0)).

(** aes_bitslice.rs:82-95: change of basis back, composed with the affine map *)
Definition bs_basis_out (x : N) : N :=
  LET y := ror1 x IN
  LET x := N.lxor (N.land x (rep 0x39)) (N.land y (rep 0x3f)) IN
  LET y := N.lor (shr (N.land y (rep 0xfc)) 2) (shl (8 * N.of_nat n) (N.land y (rep 0x03)) 6) IN
  LET x := N.lxor x (N.land y (rep 0x97)) IN
  LET y := ror1 y IN
  LET x := N.lxor x (N.land y (rep 0x9b)) IN
  LET y := ror1 y IN
  LET x := N.lxor x (N.land y (rep 0x3c)) IN
  LET y := ror1 y IN
  LET x := N.lxor x (N.land y (rep 0xdd)) IN
  LET y := ror1 y IN
  LET x := N.lxor x (N.land y (rep 0x72)) IN
  N.lxor x (rep 0x63).

(** aes_bitslice.rs:37-96 *)
Definition subbytes (x : N) : N := bs_basis_out (bs_invert (bs_basis_in x)).

(** aes_bitslice.rs:99-113 *)
Definition bs_inv_basis_in (x : N) : N :=
  LET x := N.lxor x (rep 0x63) IN
  LET y := ror1 x IN
  LET x := N.lxor (N.land x (rep 0xfd)) (N.land y (rep 0x5e)) IN
  LET y := ror1 y IN
  LET x := N.lxor x (N.land y (rep 0xf3)) IN
  LET y := ror1 y IN
  LET x := N.lxor x (N.land y (rep 0xf5)) IN
  LET y := ror1 y IN
  LET x := N.lxor x (N.land y (rep 0x78)) IN
  LET y := ror1 y IN
  LET x := N.lxor x (N.land y (rep 0x77)) IN
  LET y := ror1 y IN
  LET x := N.lxor x (N.land y (rep 0x15)) IN
  LET y := ror1 y IN
  N.lxor x (N.land y (rep 0xa5)).

(** aes_bitslice.rs:146-160 *)
Definition bs_inv_basis_out (x : N) : N :=
  LET y := ror1 x IN
  LET x := N.lxor (N.land x (rep 0xb5)) (N.land y (rep 0x40)) IN
  LET y := ror1 y IN
  LET x := N.lxor x (N.land y (rep 0x80)) IN
  LET y := ror1 y IN
  LET x := N.lxor x (N.land y (rep 0x16)) IN
  LET y := ror1 y IN
  LET x := N.lxor x (N.land y (rep 0xeb)) IN
  LET y := ror1 y IN
  LET x := N.lxor x (N.land y (rep 0x97)) IN
  LET y := ror1 y IN
  LET x := N.lxor x (N.land y (rep 0xfb)) IN
  LET y := ror1 y IN
  N.lxor x (N.land y (rep 0x7d)).

(** aes_bitslice.rs:98-161 *)
Definition invsubbytes (x : N) : N := bs_inv_basis_out (bs_invert (bs_inv_basis_in x)).

End Lanes.

(** aes_bitslice.rs:32-35 *)
Definition bs_sub_word (x : N) : N := trunc 32 (subbytes 16 x).

(** aes_bitslice.rs:163-168, 170-175 (constant indices into a [u8; 16]) *)
Definition shiftrows (be : bool) (s : list N) : N :=
  of_ne be (map (fun i => nth i s 0) [0; 5; 10; 15; 4; 9; 14; 3; 8; 13; 2; 7; 12; 1; 6; 11]%nat).
Definition invshiftrows (be : bool) (s : list N) : N :=
  of_ne be (map (fun i => nth i s 0) [0; 13; 10; 7; 4; 1; 14; 11; 8; 5; 2; 15; 12; 9; 6; 3]%nat).

(** aes_bitslice.rs:178-183 *)
Definition xtime (a : N) : N :=
  let b := N.land a (rep 16 0x80) in
  let a := N.lxor a b in
  let b := N.land (wrapping_sub 128 b (shr b 7)) (rep 16 0x1b) in
  N.lxor b (shl 128 a 1).

(** aes_bitslice.rs:186-189 *)
Definition swap16 (x : N) : N :=
  N.lor (shr (N.land x 0xffff0000ffff0000ffff0000ffff0000) 16)
        (shl 128 (N.land x 0x0000ffff0000ffff0000ffff0000ffff) 16).
(** aes_bitslice.rs:192-195 *)
Definition swap8 (x : N) : N :=
  N.lor (shr (N.land x 0xff00ff00ff00ff00ff00ff00ff00ff00) 8)
        (shl 128 (N.land x 0x00ff00ff00ff00ff00ff00ff00ff00ff) 8).
(** aes_bitslice.rs:198-206 *)
Definition ror8_32 (be : bool) (x : N) : N :=
  if be then
    N.lor (shl 128 (N.land x 0x00ffffff00ffffff00ffffff00ffffff) 8)
          (shr (N.land x 0xff000000ff000000ff000000ff000000) 24)
  else
    N.lxor (shr (N.land x 0xffffff00ffffff00ffffff00ffffff00) 8)
           (shl 128 (N.land x 0x000000ff000000ff000000ff000000ff) 24).

(** aes_bitslice.rs:208-214 *)
Definition mixcolumns (be : bool) (state : N) : N :=
  let s := N.lxor state (swap16 state) in
  let s := N.lxor (N.lxor s (swap8 s)) state in
  let t := xtime state in
  N.lxor (N.lxor s t) (ror8_32 be t).

(** aes_bitslice.rs:216-228 *)
Definition invmixcolumns (be : bool) (state : N) : N :=
  let s := N.lxor state (swap16 state) in
  let s := N.lxor (N.lxor s (swap8 s)) state in
  let t := xtime state in
  let s := N.lxor (N.lxor s t) (ror8_32 be t) in
  let t := xtime t in
  let t := N.lxor t (swap16 t) in
  let s := N.lxor s t in
  let t := xtime t in
  N.lxor (N.lxor s t) (swap8 t).

(** aes_bitslice.rs:235-240, 280-282 *)
Definition bs_new (be : bool) (value : list N) : outcome N := Ret (of_ne be value).
(** aes_bitslice.rs:285-288 *)
Definition bs_store_to (be : bool) (s : N) : writer :=
  w_then (w_assert_len 16) (w_to 16 (w_copy (to_ne be 16 s))).

(** aes_bitslice.rs:303-305, 309-311, 315-317, 321-323 *)
Definition bs_enc (be : bool) (s k : N) : N :=
  N.lxor (mixcolumns be (subbytes 16 (shiftrows be (to_ne be 16 s)))) k.
Definition bs_dec (be : bool) (s k : N) : N :=
  N.lxor (invmixcolumns be (invsubbytes 16 (invshiftrows be (to_ne be 16 s)))) k.
Definition bs_enc_last (be : bool) (s k : N) : N := N.lxor (subbytes 16 (shiftrows be (to_ne be 16 s))) k.
Definition bs_dec_last (be : bool) (s k : N) : N := N.lxor (invsubbytes 16 (invshiftrows be (to_ne be 16 s))) k.

(** aes_bitslice.rs:242-276 operators, 230 derived equality, 291-299 zero / is_zero,
    327-335 mc / imc *)
Definition bitslice_ops (be : bool) : ops N :=
  Ops 16 (bs_new be) (bs_new be) (bs_store_to be) N.land N.lor N.lxor (bnot 128)
      0 (fun x => x =? 0) N.eqb
      (bs_enc be) (bs_dec be) (bs_enc_last be) (bs_dec_last be).

(** aes_bitslice.rs:349, 367, 375, 392, 402: [old ^ sub_word(word).rotate_right(8) ^ RCON] *)
Definition rot_first (sub : N -> N) (old word rc : N) : N :=
  N.lxor (N.lxor old (rotr 32 (sub word) 8)) rc.
(** aes_bitslice.rs:396: [old ^ sub_word(word)] *)
Definition sub_mid (sub : N -> N) (old word : N) : N := N.lxor old (sub word).

(** aes_bitslice.rs:340-408 *)
Definition bs_keygen (be : bool) (n : nat) (cols : outcome (list N)) : outcome (list N) :=
  cols <- cols ;; Ret (map (of_ne be) (col_blocks be n cols)).
Definition bs_keygen_128 (be : bool) (key : list N) : outcome (list N) :=
  bs_keygen be 11 (col_keygen_128 be (rot_first bs_sub_word) key).
Definition bs_keygen_192 (be : bool) (key : list N) : outcome (list N) :=
  bs_keygen be 13 (col_keygen_192 be (rot_first bs_sub_word) key).
Definition bs_keygen_256 (be : bool) (key : list N) : outcome (list N) :=
  bs_keygen be 15 (col_keygen_256 be (rot_first bs_sub_word) (rot_first bs_sub_word)
                                  (sub_mid bs_sub_word) key).

(* aes_bitslice.rs:326-406 mc, imc, keygen_128, keygen_192, keygen_256. *)
Definition bitslice_ext (be : bool) : block_ext N :=
  Ext (mixcolumns be) (invmixcolumns be) (bs_keygen_128 be) (bs_keygen_192 be) (bs_keygen_256 be) None.
