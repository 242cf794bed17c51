(** The bitslice backend (src/aes_bitslice.rs) and the parts of src/lib.rs around it as programs of the
    language of Spec_Leak.v, for reasoning about what their execution shows.  The bodies of [x_subbytes]
    and [x_invsubbytes] are the Rust text, line by line; Proof_Leak.v shows that these programs compute
    what the model of Model_Bitslice.v / Model_Lib.v computes. *)
From Coq Require Import String.
From Coq Require Import List.
From Verif Require Import Word Fips197 Spec_Leak Model_Bitslice Model_Columns.
Open Scope string_scope.
Open Scope list_scope.
Open Scope N_scope.

Declare Scope leak_scope.
Delimit Scope leak_scope with leak.
Notation "$ x" := (Var x) (at level 0, x at level 0, format "$ x") : leak_scope.
Notation "a ':&:' b" := (Bin And a b) (at level 40, left associativity) : leak_scope.
Notation "a ':|:' b" := (Bin Or a b) (at level 50, left associativity) : leak_scope.
Notation "a ':^:' b" := (Bin Xor a b) (at level 45, left associativity) : leak_scope.
Notation "a ':+:' b" := (Bin Plus a (Lit b)) (at level 36, left associativity) : leak_scope.
Notation "a ':/:' b" := (Bin Divide a (Lit b)) (at level 36, left associativity) : leak_scope.
(** shifts of a u128 *)
Notation "a ':<<:' k" := (Un (Shl 128 k) a) (at level 36, left associativity) : leak_scope.
Notation "a ':>>:' k" := (Un (Shr k) a) (at level 36, left associativity) : leak_scope.
Notation "x ::= a ;;; b" := (Let x a b) (at level 60, a at next level, right associativity) : leak_scope.
Open Scope leak_scope.

(** aes_bitslice.rs:5-7: a constant *)
Definition x_rep (c : N) : exp := Lit (rep 16 c).
(** aes_bitslice.rs:9-12, 14-17 *)
Definition x_ror1 (e : exp) : exp :=
  Call "x" e ((($"x" :&: x_rep 0xfe) :>>: 1) :|: (($"x" :&: x_rep 0x01) :<<: 7)).
Definition x_swap2 (e : exp) : exp :=
  Call "x" e ((($"x" :&: x_rep 0xcc) :>>: 2) :|: (($"x" :&: x_rep 0x33) :<<: 2)).
(** aes_bitslice.rs:19-23, 25-29; [mask] is a constant at every call *)
Definition x_step_a (a b mask : exp) : exp :=
  Call2 "a" a "b" b
  ("x" ::= $"a" :&: $"b" ;;;
   $"x" :^: (($"x" :&: mask) :>>: 1) :^: (((($"a" :<<: 1) :&: $"b") :^: (($"b" :<<: 1) :&: $"a")) :&: mask)).
Definition x_step_b (a mask : exp) : exp :=
  Call "a" a
  ("x" ::= $"a" :&: mask ;;;
   ($"x" :|: ($"x" :>>: 1)) :^: (($"a" :<<: 1) :&: mask)).

(** aes_bitslice.rs:37-96 *)
Definition x_subbytes_body : exp :=
  "y" ::= (x_ror1 $"x") ;;;
  "x" ::= ($"x" :&: (x_rep 0xdd)) :^: ($"y" :&: (x_rep 0x57)) ;;;
  "y" ::= (x_ror1 $"y") ;;;
  "x" ::= $"x" :^: ($"y" :&: (x_rep 0x1c)) ;;;
  "y" ::= (x_ror1 $"y") ;;;
  "x" ::= $"x" :^: ($"y" :&: (x_rep 0x4a)) ;;;
  "y" ::= (x_ror1 $"y") ;;;
  "x" ::= $"x" :^: ($"y" :&: (x_rep 0x42)) ;;;
  "y" ::= (x_ror1 $"y") ;;;
  "x" ::= $"x" :^: ($"y" :&: (x_rep 0x64)) ;;;
  "y" ::= (x_ror1 $"y") ;;;
  "x" ::= $"x" :^: ($"y" :&: (x_rep 0xe0)) ;;;
  "a1" ::= $"x" :^: (($"x" :&: (x_rep 0xf0)) :>>: 4) ;;;
  "a2" ::= (x_swap2 $"x") ;;;
  "a3" ::= (x_step_a $"x" $"a1" (x_rep 0xaa)) ;;;
  "a4" ::= (x_step_a $"a1" $"a2" (x_rep 0xaa)) ;;;
  "a5" ::= ($"a3" :&: (x_rep 0xcc)) :>>: 2 ;;;
  "a3" ::= $"a3" :^: ((($"a4" :<<: 2) :^: $"a4") :&: (x_rep 0xcc)) ;;;
  "a4" ::= (x_step_b $"a5" (x_rep 0x22)) ;;;
  "a3" ::= $"a3" :^: $"a4" ;;;
  "a5" ::= (x_step_b $"a3" (x_rep 0xa0)) ;;;
  "a4" ::= $"a5" :&: (x_rep 0xc0) ;;;
  "a6" ::= $"a4" :>>: 2 ;;;
  "a4" ::= $"a4" :^: (($"a5" :<<: 2) :&: (x_rep 0xc0)) ;;;
  "a5" ::= (x_step_b $"a6" (x_rep 0x20)) ;;;
  "a4" ::= $"a4" :|: $"a5" ;;;
  "a3" ::= ($"a3" :^: ($"a4" :>>: 4)) :&: (x_rep 0x0f) ;;;
  "a2" ::= $"a3" :^: (($"a3" :&: (x_rep 0x0c)) :>>: 2) ;;;
  "a4" ::= (x_step_a $"a2" $"a3" (x_rep 0x0a)) ;;;
  "a5" ::= (x_step_b $"a4" (x_rep 0x08)) ;;;
  "a4" ::= ($"a4" :^: ($"a5" :>>: 2)) :&: (x_rep 0x03) ;;;
  "a4" ::= $"a4" :^: (($"a4" :&: (x_rep 0x02)) :>>: 1) ;;;
  "a4" ::= $"a4" :|: ($"a4" :<<: 2) ;;;
  "a3" ::= (x_step_a $"a2" $"a4" (x_rep 0x0a)) ;;;
  "a3" ::= $"a3" :|: ($"a3" :<<: 4) ;;;
  "a2" ::= (x_swap2 $"a1") ;;;
  "x" ::= (x_step_a $"a1" $"a3" (x_rep 0xaa)) ;;;
  "a4" ::= (x_step_a $"a2" $"a3" (x_rep 0xaa)) ;;;
  "a5" ::= ($"x" :&: (x_rep 0xcc)) :>>: 2 ;;;
  "x" ::= $"x" :^: ((($"a4" :<<: 2) :^: $"a4") :&: (x_rep 0xcc)) ;;;
  "a4" ::= (x_step_b $"a5" (x_rep 0x22)) ;;;
  "x" ::= $"x" :^: $"a4" ;;;
  "y" ::= (x_ror1 $"x") ;;;
  "x" ::= ($"x" :&: (x_rep 0x39)) :^: ($"y" :&: (x_rep 0x3f)) ;;;
  "y" ::= (($"y" :&: (x_rep 0xfc)) :>>: 2) :|: (($"y" :&: (x_rep 0x03)) :<<: 6) ;;;
  "x" ::= $"x" :^: ($"y" :&: (x_rep 0x97)) ;;;
  "y" ::= (x_ror1 $"y") ;;;
  "x" ::= $"x" :^: ($"y" :&: (x_rep 0x9b)) ;;;
  "y" ::= (x_ror1 $"y") ;;;
  "x" ::= $"x" :^: ($"y" :&: (x_rep 0x3c)) ;;;
  "y" ::= (x_ror1 $"y") ;;;
  "x" ::= $"x" :^: ($"y" :&: (x_rep 0xdd)) ;;;
  "y" ::= (x_ror1 $"y") ;;;
  "x" ::= $"x" :^: ($"y" :&: (x_rep 0x72)) ;;;
  $"x" :^: (x_rep 0x63).
Definition x_subbytes (e : exp) : exp := Call "x" e x_subbytes_body.

(** aes_bitslice.rs:98-161 *)
Definition x_invsubbytes_body : exp :=
  "x" ::= $"x" :^: (x_rep 0x63) ;;;
  "y" ::= (x_ror1 $"x") ;;;
  "x" ::= ($"x" :&: (x_rep 0xfd)) :^: ($"y" :&: (x_rep 0x5e)) ;;;
  "y" ::= (x_ror1 $"y") ;;;
  "x" ::= $"x" :^: ($"y" :&: (x_rep 0xf3)) ;;;
  "y" ::= (x_ror1 $"y") ;;;
  "x" ::= $"x" :^: ($"y" :&: (x_rep 0xf5)) ;;;
  "y" ::= (x_ror1 $"y") ;;;
  "x" ::= $"x" :^: ($"y" :&: (x_rep 0x78)) ;;;
  "y" ::= (x_ror1 $"y") ;;;
  "x" ::= $"x" :^: ($"y" :&: (x_rep 0x77)) ;;;
  "y" ::= (x_ror1 $"y") ;;;
  "x" ::= $"x" :^: ($"y" :&: (x_rep 0x15)) ;;;
  "y" ::= (x_ror1 $"y") ;;;
  "x" ::= $"x" :^: ($"y" :&: (x_rep 0xa5)) ;;;
  "a1" ::= $"x" :^: (($"x" :&: (x_rep 0xf0)) :>>: 4) ;;;
  "a2" ::= (x_swap2 $"x") ;;;
  "a3" ::= (x_step_a $"x" $"a1" (x_rep 0xaa)) ;;;
  "a4" ::= (x_step_a $"a1" $"a2" (x_rep 0xaa)) ;;;
  "a5" ::= ($"a3" :&: (x_rep 0xcc)) :>>: 2 ;;;
  "a3" ::= $"a3" :^: ((($"a4" :<<: 2) :^: $"a4") :&: (x_rep 0xcc)) ;;;
  "a4" ::= (x_step_b $"a5" (x_rep 0x22)) ;;;
  "a3" ::= $"a3" :^: $"a4" ;;;
  "a5" ::= (x_step_b $"a3" (x_rep 0xa0)) ;;;
  "a4" ::= $"a5" :&: (x_rep 0xc0) ;;;
  "a6" ::= $"a4" :>>: 2 ;;;
  "a4" ::= $"a4" :^: (($"a5" :<<: 2) :&: (x_rep 0xc0)) ;;;
  "a5" ::= (x_step_b $"a6" (x_rep 0x20)) ;;;
  "a4" ::= $"a4" :|: $"a5" ;;;
  "a3" ::= ($"a3" :^: ($"a4" :>>: 4)) :&: (x_rep 0x0f) ;;;
  "a2" ::= $"a3" :^: (($"a3" :&: (x_rep 0x0c)) :>>: 2) ;;;
  "a4" ::= (x_step_a $"a2" $"a3" (x_rep 0x0a)) ;;;
  "a5" ::= (x_step_b $"a4" (x_rep 0x08)) ;;;
  "a4" ::= ($"a4" :^: ($"a5" :>>: 2)) :&: (x_rep 0x03) ;;;
  "a4" ::= $"a4" :^: (($"a4" :&: (x_rep 0x02)) :>>: 1) ;;;
  "a4" ::= $"a4" :|: ($"a4" :<<: 2) ;;;
  "a3" ::= (x_step_a $"a2" $"a4" (x_rep 0x0a)) ;;;
  "a3" ::= $"a3" :|: ($"a3" :<<: 4) ;;;
  "a2" ::= (x_swap2 $"a1") ;;;
  "x" ::= (x_step_a $"a1" $"a3" (x_rep 0xaa)) ;;;
  "a4" ::= (x_step_a $"a2" $"a3" (x_rep 0xaa)) ;;;
  "a5" ::= ($"x" :&: (x_rep 0xcc)) :>>: 2 ;;;
  "x" ::= $"x" :^: ((($"a4" :<<: 2) :^: $"a4") :&: (x_rep 0xcc)) ;;;
  "a4" ::= (x_step_b $"a5" (x_rep 0x22)) ;;;
  "x" ::= $"x" :^: $"a4" ;;;
  "y" ::= (x_ror1 $"x") ;;;
  "x" ::= ($"x" :&: (x_rep 0xb5)) :^: ($"y" :&: (x_rep 0x40)) ;;;
  "y" ::= (x_ror1 $"y") ;;;
  "x" ::= $"x" :^: ($"y" :&: (x_rep 0x80)) ;;;
  "y" ::= (x_ror1 $"y") ;;;
  "x" ::= $"x" :^: ($"y" :&: (x_rep 0x16)) ;;;
  "y" ::= (x_ror1 $"y") ;;;
  "x" ::= $"x" :^: ($"y" :&: (x_rep 0xeb)) ;;;
  "y" ::= (x_ror1 $"y") ;;;
  "x" ::= $"x" :^: ($"y" :&: (x_rep 0x97)) ;;;
  "y" ::= (x_ror1 $"y") ;;;
  "x" ::= $"x" :^: ($"y" :&: (x_rep 0xfb)) ;;;
  "y" ::= (x_ror1 $"y") ;;;
  $"x" :^: ($"y" :&: (x_rep 0x7d)).
Definition x_invsubbytes (e : exp) : exp := Call "x" e x_invsubbytes_body.

(** aes_bitslice.rs:31-35 *)
Definition x_sub_word (e : exp) : exp := Un (As 32) (x_subbytes e).

(** [from_ne_bytes([e0, e1, ...])] *)
(* aes_bitslice.rs:281 (u128), 345 (u32). *)
Definition x_from_ne (be : bool) (es : list exp) : exp :=
  fold_right (fun e acc => Bin Pack e acc) (Lit 0) (if be then rev es else es).
(** aes_bitslice.rs:163-168, 170-175 applied to [self.0.to_ne_bytes()] *)
Definition x_shiftrows (be : bool) (e : exp) : exp :=
  Call "state" e (x_from_ne be (map (fun i => Un (Byte be 16 i) $"state")
    [0; 5; 10; 15; 4; 9; 14; 3; 8; 13; 2; 7; 12; 1; 6; 11]%nat)).
Definition x_invshiftrows (be : bool) (e : exp) : exp :=
  Call "state" e (x_from_ne be (map (fun i => Un (Byte be 16 i) $"state")
    [0; 13; 10; 7; 4; 1; 14; 11; 8; 5; 2; 15; 12; 9; 6; 3]%nat)).

(** aes_bitslice.rs:177-183 *)
Definition x_xtime (e : exp) : exp :=
  Call "a" e
  ("b" ::= $"a" :&: x_rep 0x80 ;;;
   "a" ::= $"a" :^: $"b" ;;;
   "b" ::= Bin (WrappingSub 128) $"b" ($"b" :>>: 7) :&: x_rep 0x1b ;;;
   $"b" :^: ($"a" :<<: 1)).
(** aes_bitslice.rs:185-189, 191-195, 197-206 *)
Definition x_swap16 (e : exp) : exp :=
  Call "x" e ((($"x" :&: Lit 0xffff0000ffff0000ffff0000ffff0000) :>>: 16) :|:
              (($"x" :&: Lit 0x0000ffff0000ffff0000ffff0000ffff) :<<: 16)).
Definition x_swap8 (e : exp) : exp :=
  Call "x" e ((($"x" :&: Lit 0xff00ff00ff00ff00ff00ff00ff00ff00) :>>: 8) :|:
              (($"x" :&: Lit 0x00ff00ff00ff00ff00ff00ff00ff00ff) :<<: 8)).
Definition x_ror8_32 (be : bool) (e : exp) : exp :=
  Call "x" e
  (if be then (($"x" :&: Lit 0x00ffffff00ffffff00ffffff00ffffff) :<<: 8) :|:
              (($"x" :&: Lit 0xff000000ff000000ff000000ff000000) :>>: 24)
   else (($"x" :&: Lit 0xffffff00ffffff00ffffff00ffffff00) :>>: 8) :^:
        (($"x" :&: Lit 0x000000ff000000ff000000ff000000ff) :<<: 24)).
(** aes_bitslice.rs:208-214 *)
Definition x_mixcolumns (be : bool) (e : exp) : exp :=
  Call "state" e
  ("s" ::= $"state" :^: x_swap16 $"state" ;;;
   "s" ::= $"s" :^: x_swap8 $"s" :^: $"state" ;;;
   "t" ::= x_xtime $"state" ;;;
   $"s" :^: $"t" :^: x_ror8_32 be $"t").
(** aes_bitslice.rs:216-228 *)
Definition x_invmixcolumns (be : bool) (e : exp) : exp :=
  Call "state" e
  ("s" ::= $"state" :^: x_swap16 $"state" ;;;
   "s" ::= $"s" :^: x_swap8 $"s" :^: $"state" ;;;
   "t" ::= x_xtime $"state" ;;;
   "s" ::= $"s" :^: $"t" :^: x_ror8_32 be $"t" ;;;
   "t" ::= x_xtime $"t" ;;;
   "t" ::= $"t" :^: x_swap16 $"t" ;;;
   "s" ::= $"s" :^: $"t" ;;;
   "t" ::= x_xtime $"t" ;;;
   $"s" :^: $"t" :^: x_swap8 $"t").
(** aes_bitslice.rs:301-323 *)
Definition x_enc (be : bool) (self rk : exp) : exp := x_mixcolumns be (x_subbytes (x_shiftrows be self)) :^: rk.
Definition x_dec (be : bool) (self rk : exp) : exp := x_invmixcolumns be (x_invsubbytes (x_invshiftrows be self)) :^: rk.
Definition x_enc_last (be : bool) (self rk : exp) : exp := x_subbytes (x_shiftrows be self) :^: rk.
Definition x_dec_last (be : bool) (self rk : exp) : exp := x_invsubbytes (x_invshiftrows be self) :^: rk.

(** ** Key schedules: aes_bitslice.rs:338-408 *)
Definition block (l : list stmt) : stmt := fold_right Seq Skip l.
Definition columns (e : exp) : exp := Index "columns" e.
Definition i_ (k : N) : exp := Ctr "i" :+: k.
(** [columns[k] = columns[a] ^ columns[b]] *)
Definition s_xor (k a b : exp) : stmt := Store "columns" k (columns a :^: columns b).
(** The step with RCON, [columns[k] = first(columns[a], columns[b], RCON[r])], and the middle step of AES-256,
    [columns[k] = mid(columns[a], columns[b])]; aes_arm.rs and aes_riscv32.rs have the same loops with other
    [first] and [mid]. *)
Definition s_first (first : exp -> exp -> exp -> exp) (k a b r : exp) : stmt :=
  Store "columns" k (first (columns a) (columns b) (Index "RCON" r)).
Definition s_mid (mid : exp -> exp -> exp) (k a b : exp) : stmt := Store "columns" k (mid (columns a) (columns b)).
(** aes_bitslice.rs:349, 367, 375, 392, 402: [old ^ sub_word(word).rotate_right(8) ^ rcon]; 396: [old ^ sub_word(word)] *)
Definition x_first (old word rcon : exp) : exp := old :^: Un (Rotr 32 8) (x_sub_word word) :^: rcon.
Definition x_mid (old word : exp) : exp := old :^: x_sub_word word.
(** lines 341-346: zeroed memory, then [columns[i] = u32::from_ne_bytes(key[4i..4i+4])] *)
Definition s_load (be : bool) (n nk : nat) : stmt :=
  Seq (Zeroed "columns" n)
      (For "i" 0 1 nk (Store "columns" (Ctr "i")
         (x_from_ne be (map (fun j => Index "key" (Bin Times (Lit 4) (Ctr "i") :+: j)) [0; 1; 2; 3])))).
Definition s_keygen_128 (be : bool) (first : exp -> exp -> exp -> exp) : stmt :=
  block [s_load be 44 4;
         For "i" 0 4 10 (block
           [s_first first (i_ 4) (i_ 0) (i_ 3) (Ctr "i" :/: 4);
            s_xor (i_ 5) (i_ 1) (i_ 4); s_xor (i_ 6) (i_ 2) (i_ 5); s_xor (i_ 7) (i_ 3) (i_ 6)]);
         View "keys" be 11 "columns"].
Definition s_keygen_192 (be : bool) (first : exp -> exp -> exp -> exp) : stmt :=
  block [s_load be 52 6;
         For "i" 0 6 7 (block
           [s_first first (i_ 6) (i_ 0) (i_ 5) (Ctr "i" :/: 6);
            s_xor (i_ 7) (i_ 1) (i_ 6); s_xor (i_ 8) (i_ 2) (i_ 7); s_xor (i_ 9) (i_ 3) (i_ 8);
            s_xor (i_ 10) (i_ 4) (i_ 9); s_xor (i_ 11) (i_ 5) (i_ 10)]);
         s_first first (Lit 48) (Lit 42) (Lit 47) (Lit 7);
         s_xor (Lit 49) (Lit 43) (Lit 48); s_xor (Lit 50) (Lit 44) (Lit 49); s_xor (Lit 51) (Lit 45) (Lit 50);
         View "keys" be 13 "columns"].
Definition s_keygen_256 (be : bool) (first first_last : exp -> exp -> exp -> exp) (mid : exp -> exp -> exp) : stmt :=
  block [s_load be 60 8;
         For "i" 0 8 6 (block
           [s_first first (i_ 8) (i_ 0) (i_ 7) (Ctr "i" :/: 8);
            s_xor (i_ 9) (i_ 1) (i_ 8); s_xor (i_ 10) (i_ 2) (i_ 9); s_xor (i_ 11) (i_ 3) (i_ 10);
            s_mid mid (i_ 12) (i_ 4) (i_ 11);
            s_xor (i_ 13) (i_ 5) (i_ 12); s_xor (i_ 14) (i_ 6) (i_ 13); s_xor (i_ 15) (i_ 7) (i_ 14)]);
         s_first first_last (Lit 56) (Lit 48) (Lit 55) (Lit 6);
         s_xor (Lit 57) (Lit 49) (Lit 56); s_xor (Lit 58) (Lit 50) (Lit 57); s_xor (Lit 59) (Lit 51) (Lit 58);
         View "keys" be 15 "columns"].
(** ** lib.rs around the backend *)
(** lib.rs:311-320 dec_round_keys, from array [src] to array [dst]; lib.rs:322-331 enc_round_keys with mc *)
Definition s_swap_keys (f : exp -> exp) (src dst : string) (n : nat) : stmt :=
  block [Zeroed dst n;
         Store dst (Lit 0) (Index src (Lit (N.of_nat (n - 1))));
         For "i" 1 1 (n - 1 - 1) (Store dst (Ctr "i") (f (Index src (Bin (WrappingSub 64) (Lit (N.of_nat (n - 1))) (Ctr "i")))));
         Store dst (Lit (N.of_nat (n - 1))) (Index src (Lit 0))].
(** A backend: how it computes on one vector register or variable of [n] blocks (n = 1 unless the build has
    vector AES), given the expressions of its operands. *)
Record engine := Engine {
  g_be : bool;                                              (* target_endian = "big" *)
  g_enc : nat -> exp -> exp -> exp; g_enc_last : nat -> exp -> exp -> exp;
  g_dec : nat -> exp -> exp -> exp; g_dec_last : nat -> exp -> exp -> exp;
  g_wide : nat -> exp -> exp;                               (* a round key in each of the [n] blocks *)
  g_mc : exp -> exp; g_imc : exp -> exp;
  g_pre : option ((exp -> exp -> exp) * (exp -> exp -> exp)); (* pre_enc, pre_dec: lib.rs:334-347 *)
  g_keygen : key_size -> stmt                               (* from array "key" to array "keys" *)
}.
(** The variables of a group of [m] vectors of [n] blocks (aesdefault_x2.rs, aesdefault_x4.rs: the wide types
    are structs of narrower ones and every operation acts on each field). *)
Definition lane_names : list string := ["x0"; "x1"; "x2"; "x3"].
Definition s_lanes (m : nat) (f : string -> exp) : stmt := block (map (fun x => Assign x (f x)) (firstn m lane_names)).
(** From<[u8; w*m]>, [w] = 16 n bytes in a variable *)
Definition s_input (be : bool) (w m : nat) : stmt :=
  block (map (fun jx => Assign (snd jx) (x_from_ne be (map (fun t => Index "in" (Lit (N.of_nat (w * fst jx + t)))) (seq 0 w))))
             (combine (seq 0 m) (firstn m lane_names))).
(** chain_enc / chain_dec over [round_keys[..nr]] (lib.rs:396-422, with [pre]: 367-393), then the last round
    (lib.rs:467-471 ...).  The array of widened round keys (lib.rs:474, 481: [round_keys.map(Into::into)])
    is not built: each key is widened where it is used. *)
Definition s_run (pre : option (exp -> exp -> exp)) (round last : exp -> exp -> exp) (wide : exp -> exp) (keys : string) (nr m : nat) : stmt :=
  let key i := wide (Index keys i) in
  block [If (Len keys)
           (match pre with
            | None => block [s_lanes m (fun x => $x :^: key (Lit 0));
                             For "i" 1 1 (nr - 1) (s_lanes m (fun x => round $x (key (Ctr "i"))))]
            | Some p => block [For "i" 0 1 (nr - 1) (s_lanes m (fun x => p $x (key (Ctr "i"))));
                               s_lanes m (fun x => $x :^: key (Lit (N.of_nat (nr - 1))))]
            end)
           Skip;
         s_lanes m (fun x => last $x (key (Lit (N.of_nat nr))))].
(** Into<[u8; w*m]>: store_to a zeroed array *)
Definition s_output (be : bool) (w m : nat) : stmt :=
  Seq (Zeroed "out" (w * m))
      (block (map (fun jx => block (map (fun t => Store "out" (Lit (N.of_nat (w * fst jx + t))) (Un (Byte be w t) $(snd jx))) (seq 0 w)))
                  (combine (seq 0 m) (firstn m lane_names)))).

(** Whole programs: key set-up from "key", then "in" to "out", for a group of [m] vectors of [n] blocks. *)
Section Programs.
  Context (g : engine) (k : key_size) (n m : nat).
  (* lib.rs:467-486, 497-516 (through the chains of lib.rs:366-426). *)
  Definition s_crypt (dec : bool) (keys : string) : stmt :=
    block [s_input (g_be g) (16 * n) m;
           s_run (option_map (fun p => if dec then snd p else fst p) (g_pre g))
                 (if dec then g_dec g n else g_enc g n) (if dec then g_dec_last g n else g_enc_last g n) (g_wide g n) keys (nr_of k) m;
           s_output (g_be g) (16 * n) m].
  (** Aes*Enc::from(key), encrypt *)
  (* lib.rs:437-443 and 467-486. *)
  Definition encrypt_program : stmt := block [g_keygen g k; s_crypt false "keys"].
  (** Aes*Dec::from(key), decrypt *)
  (* lib.rs:311-320, 452-456 and 497-516. *)
  Definition decrypt_program : stmt :=
    block [g_keygen g k; s_swap_keys (g_imc g) "keys" "drk" (nr_of k + 1); s_crypt true "drk"].
  (** Aes*Dec::from(key).encrypter(), encrypt *)
  (* lib.rs:311-331, 452-456, 491-495, 467-486. *)
  Definition convert_program : stmt :=
    block [g_keygen g k; s_swap_keys (g_imc g) "keys" "drk" (nr_of k + 1);
           s_swap_keys (g_mc g) "drk" "erk" (nr_of k + 1); s_crypt false "erk"].
End Programs.
(** The state in which a program is started: key, message, constant tables; everything else empty. *)
(* No counterpart in the source: the memory the caller of lib.rs:430-522 provides. *)
Definition start (key msg : list N) : state :=
  State (fun _ => 0) (fun _ => 0)
        (fun a => if String.eqb a "key" then key else if String.eqb a "in" then msg
                  else if String.eqb a "RCON" then RCON else []).

(** The bitslice backend. *)
(** lib.rs:437-443, 520-522: Aes*Enc::from(key) *)
Definition s_keygen (be : bool) (k : key_size) : stmt :=
  match k with K128 => s_keygen_128 be x_first | K192 => s_keygen_192 be x_first | K256 => s_keygen_256 be x_first x_first x_mid end.
Definition bitslice_engine (be : bool) : engine :=
  Engine be (fun _ => x_enc be) (fun _ => x_enc_last be) (fun _ => x_dec be) (fun _ => x_dec_last be) (fun _ e => e)
         (x_mixcolumns be) (x_invmixcolumns be) None (s_keygen be).
