(** The table-based backend (src/aes_table_based.rs) as programs of the language of Spec_Leak.v.  A block is the number whose
    big-endian bytes are its 16 bytes, so its four u32 fields, which the source loads and stores big-endian, are parts of that number.
    [load_u32_be] and [store_u32_be] are written byte by byte at the ends of the programs (Model_Leak.v: s_input, s_output). *)
From Coq Require Import String.
From Coq Require Import List.
From Verif Require Import Word Fips197 Spec_Leak Tables Model_Leak Model_LeakAccel.
Open Scope string_scope.
Open Scope list_scope.
Open Scope N_scope.
Open Scope leak_scope.

(* [self.j], aes_table_based.rs:7. *)
Definition f_ (j : N) (e : exp) : exp := Un (As 32) (Un (Shr (96 - 32 * j)) e).
(* [Self(a, b, c, d)], aes_table_based.rs:7. *)
Definition fields (a b c d : exp) : exp := (a :<<: 96) :|: (b :<<: 64) :|: (c :<<: 32) :|: d.
(** aes_table_based.rs:355-384, macro declare!: [TABLE[x as u8 as usize]] *)
Definition x_lut (name : string) (t : list N) (e : exp) : exp := Static name t (Un (As 8) e).
(* aes_table_based.rs:374-383: te0 .. te3, td0 .. td3 *)
Definition x_te0 := x_lut "TE0" TE0. Definition x_te1 := x_lut "TE1" TE1.
Definition x_te2 := x_lut "TE2" TE2. Definition x_te3 := x_lut "TE3" TE3.
Definition x_td0 := x_lut "TD0" TD0. Definition x_td1 := x_lut "TD1" TD1.
Definition x_td2 := x_lut "TD2" TD2. Definition x_td3 := x_lut "TD3" TD3.
(* aes_table_based.rs:356-365, 384: te4_0 .. te4_3, td4_0 .. td4_3 *)
Definition x_te4 (mask : N) (e : exp) : exp := x_lut "TE4" TE4 e :&: Lit mask.
Definition x_td4 (mask : N) (e : exp) : exp := x_lut "TD4" TD4 e :&: Lit mask.

(** aes_table_based.rs:116-123 and 127-150: one field from the fields a, b, c, d *)
Definition xt_enc (a b c d k : exp) : exp := x_te0 (a :>>: 24) :^: x_te1 (b :>>: 16) :^: x_te2 (c :>>: 8) :^: x_te3 d :^: k.
Definition xt_enc_last (a b c d k : exp) : exp :=
  x_te4 0xff000000 (a :>>: 24) :^: x_te4 0xff0000 (b :>>: 16) :^: x_te4 0xff00 (c :>>: 8) :^: x_te4 0xff d :^: k.
(** aes_table_based.rs:154-161 and 165-188 *)
Definition xt_dec (a b c d k : exp) : exp := x_td0 (a :>>: 24) :^: x_td1 (b :>>: 16) :^: x_td2 (c :>>: 8) :^: x_td3 d :^: k.
Definition xt_dec_last (a b c d k : exp) : exp :=
  x_td4 0xff000000 (a :>>: 24) :^: x_td4 0xff0000 (b :>>: 16) :^: x_td4 0xff00 (c :>>: 8) :^: x_td4 0xff d :^: k.
(* aes_table_based.rs:116-150: the four fields of enc, enc_last *)
Definition xt_forward (f : exp -> exp -> exp -> exp -> exp -> exp) (self rk : exp) : exp :=
  Call2 "self" self "rk" rk
  (let s j := f_ j $"self" in let k j := f_ j $"rk" in
   fields (f (s 0) (s 1) (s 2) (s 3) (k 0)) (f (s 1) (s 2) (s 3) (s 0) (k 1))
          (f (s 2) (s 3) (s 0) (s 1) (k 2)) (f (s 3) (s 0) (s 1) (s 2) (k 3))).
(* aes_table_based.rs:154-188: the four fields of dec, dec_last *)
Definition xt_backward (f : exp -> exp -> exp -> exp -> exp -> exp) (self rk : exp) : exp :=
  Call2 "self" self "rk" rk
  (let s j := f_ j $"self" in let k j := f_ j $"rk" in
   fields (f (s 0) (s 3) (s 2) (s 1) (k 0)) (f (s 1) (s 0) (s 3) (s 2) (k 1))
          (f (s 2) (s 1) (s 0) (s 3) (k 2)) (f (s 3) (s 2) (s 1) (s 0) (k 3))).
(** aes_table_based.rs:192-211, 215-234 *)
Definition xt_mc_word (x : exp) : exp :=
  x_te0 (x_td4 0xff (x :>>: 24)) :^: x_te1 (x_td4 0xff (x :>>: 16)) :^: x_te2 (x_td4 0xff (x :>>: 8)) :^: x_te3 (x_td4 0xff x).
Definition xt_imc_word (x : exp) : exp :=
  x_td0 (x_te4 0xff (x :>>: 24)) :^: x_td1 (x_te4 0xff (x :>>: 16)) :^: x_td2 (x_te4 0xff (x :>>: 8)) :^: x_td3 (x_te4 0xff x).
Definition xt_mix (f : exp -> exp) (self : exp) : exp :=
  Call "self" self (let s j := f_ j $"self" in fields (f (s 0)) (f (s 1)) (f (s 2)) (f (s 3))).

(** aes_table_based.rs:237-240 *)
Definition xt_sub_word (x : exp) : exp :=
  Call "x" x (x_te4 0xff000000 ($"x" :>>: 16) :|: x_te4 0xff0000 ($"x" :>>: 8) :|: x_te4 0xff00 $"x" :|: x_te4 0xff ($"x" :>>: 24)).
(** aes_table_based.rs:242-248 *)
Definition xt_keyexp_128 (rcon : N) (prev : exp) : exp :=
  Call "prev" prev
  ("k0" ::= f_ 0 $"prev" :^: xt_sub_word (f_ 3 $"prev") :^: Lit rcon ;;;
   "k1" ::= f_ 1 $"prev" :^: $"k0" ;;;
   "k2" ::= f_ 2 $"prev" :^: $"k1" ;;;
   "k3" ::= f_ 3 $"prev" :^: $"k2" ;;;
   fields $"k0" $"k1" $"k2" $"k3").
(** aes_table_based.rs:261-267, 269-275 *)
Definition xt_keyexp_256_1 (rcon : N) (prev0 prev1 : exp) : exp :=
  Call2 "prev0" prev0 "prev1" prev1
  ("k0" ::= f_ 0 $"prev0" :^: xt_sub_word (f_ 3 $"prev1") :^: Lit rcon ;;;
   "k1" ::= f_ 1 $"prev0" :^: $"k0" ;;;
   "k2" ::= f_ 2 $"prev0" :^: $"k1" ;;;
   "k3" ::= f_ 3 $"prev0" :^: $"k2" ;;;
   fields $"k0" $"k1" $"k2" $"k3").
Definition xt_keyexp_256_2 (prev0 prev1 : exp) : exp :=
  Call2 "prev0" prev0 "prev1" prev1
  ("k0" ::= f_ 0 $"prev0" :^: xt_sub_word (Un (Rotr 32 8) (f_ 3 $"prev1")) ;;;
   "k1" ::= f_ 1 $"prev0" :^: $"k0" ;;;
   "k2" ::= f_ 2 $"prev0" :^: $"k1" ;;;
   "k3" ::= f_ 3 $"prev0" :^: $"k2" ;;;
   fields $"k0" $"k1" $"k2" $"k3").
(** bytes [off .. off + n] of the key as a big-endian number: aes_table_based.rs:9-15, 85-92 *)
Definition xt_load (off n : nat) : exp := x_from_ne true (map (fun t => Index "key" (Lit (N.of_nat (off + t)))) (seq 0 n)).
(** aes_table_based.rs:277-293 *)
Definition st_keygen_128 : stmt :=
  block ([Assign "key0" (xt_load 0 16)] ++
         map (fun jr => Assign (key_name (fst jr)) (xt_keyexp_128 (snd jr) $(key_name (fst jr - 1))))
             (combine (seq 1 10) [0x01000000; 0x02000000; 0x04000000; 0x08000000; 0x10000000; 0x20000000; 0x40000000; 0x80000000; 0x1b000000; 0x36000000]) ++
         [s_return_keys 11]).
(* The arrays [k] and [p] of aes_table_based.rs:295-329, one variable for each u32. *)
Definition k_names : list string := ["k0"; "k1"; "k2"; "k3"; "k4"; "k5"].
Definition p_names : list string := ["p0"; "p1"; "p2"; "p3"; "p4"; "p5"].
Definition at6 (names : list string) (j : nat) : exp := Var (nth j names "").
(** aes_table_based.rs:250-259: dst = keyexp_192::<rcon>(src) *)
Definition st_keyexp_192 (rcon : N) (src dst : list string) : list stmt :=
  Assign (nth 0 dst "") (at6 src 0 :^: xt_sub_word (at6 src 5) :^: Lit rcon) ::
  map (fun j => Assign (nth j dst "") (at6 src j :^: at6 dst (j - 1))) [1; 2; 3; 4; 5]%nat.
(** aes_table_based.rs:305-307 and the like: three round keys from k and the next six words p *)
Definition st_keys_192 (rcon : N) (j : nat) : list stmt :=
  let k := at6 k_names in let p := at6 p_names in
  [Assign (key_name j) (fields (k 0) (k 1) (k 2) (k 3))]%nat ++ st_keyexp_192 rcon k_names p_names ++
  [Assign (key_name (j + 1)) (fields (k 4) (k 5) (p 0) (p 1)); Assign (key_name (j + 2)) (fields (p 2) (p 3) (p 4) (p 5))]%nat.
(** aes_table_based.rs:295-329 *)
Definition st_keygen_192 : stmt :=
  block (map (fun j => Assign (nth j k_names "") (xt_load (4 * j) 4)) (seq 0 6) ++
         st_keys_192 0x01000000 0 ++ st_keyexp_192 0x02000000 p_names k_names ++
         st_keys_192 0x04000000 3 ++ st_keyexp_192 0x08000000 p_names k_names ++
         st_keys_192 0x10000000 6 ++ st_keyexp_192 0x20000000 p_names k_names ++
         st_keys_192 0x40000000 9 ++ st_keyexp_192 0x80000000 p_names k_names ++
         [Assign (key_name 12) (fields (at6 k_names 0) (at6 k_names 1) (at6 k_names 2) (at6 k_names 3)); s_return_keys 13]).
(** aes_table_based.rs:331-353 *)
Definition st_keygen_256 : stmt :=
  block ([Assign "key0" (xt_load 0 16); Assign "key1" (xt_load 16 16)] ++
         map (fun jr => Assign (key_name (fst jr))
               (match snd jr with
                | Some rc => xt_keyexp_256_1 rc $(key_name (fst jr - 2)) $(key_name (fst jr - 1))
                | None => xt_keyexp_256_2 $(key_name (fst jr - 2)) $(key_name (fst jr - 1)) end))
             (combine (seq 2 13) [Some 0x01000000; None; Some 0x02000000; None; Some 0x04000000; None; Some 0x08000000; None; Some 0x10000000; None; Some 0x20000000; None; Some 0x40000000]) ++
         [s_return_keys 15]).
(** aes_table_based.rs:116-235, 277-353.  [g_be] is how the bytes of a block make up the number, on any target. *)
Definition table_engine : engine :=
  Engine true (fun _ => xt_forward xt_enc) (fun _ => xt_forward xt_enc_last) (fun _ => xt_backward xt_dec) (fun _ => xt_backward xt_dec_last)
    (fun _ e => e) (xt_mix xt_mc_word) (xt_mix xt_imc_word) None
    (fun k => match k with K128 => st_keygen_128 | K192 => st_keygen_192 | K256 => st_keygen_256 end).
