(** The accelerated backends (src/aes_x86.rs, aesni_x2.rs, aesni_x4.rs, aes_arm.rs, aes_riscv64.rs,
    aes_riscv32.rs) as programs of the language of Spec_Leak.v, for reasoning about what their execution shows.
    A block, an __m128i, a uint8x16_t, a struct of u64s or of u32s is the number whose little-endian bytes are
    its memory image, and so is a vector of 2 or 4 blocks; the fields of a struct are parts of that number.
    Checks of slice lengths ([try_into().unwrap()] and the like) depend on lengths only and are left out. *)
From Coq Require Import String.
From Coq Require Import List.
From Verif Require Import Word Fips197 Spec_Leak Model_Columns Model_Leak.
Open Scope string_scope.
Open Scope list_scope.
Open Scope N_scope.
Open Scope leak_scope.

(* One unary intrinsic call (aes_x86.rs, aes_arm.rs, aes_riscv64.rs:5-19). *)
Definition cpu1 (i : insn1) (a : exp) : exp := Un (Cpu1 i) a.
(* One binary intrinsic call (aes_x86.rs, aes_arm.rs, aes_riscv64.rs:5-19, aes_riscv32.rs:9-18). *)
Definition cpu2 (i : insn2) (a b : exp) : exp := Bin (Cpu2 i) a b.
(** bytes [off .. off + n] of the key, loaded as a little-endian number, zero-extended to [n + z] bytes *)
(* As in aes_x86.rs:192, 210-213, aes_riscv64.rs:204-206. *)
Definition x_load (off n z : nat) : exp :=
  x_from_ne false (map (fun t => Index "key" (Lit (N.of_nat (off + t)))) (seq 0 n) ++ repeat (Lit 0) z).
(** [e0, e1, ...]: the array of round keys *)
(* The array expression that ends keygen_* in aes_x86.rs:191-249 and aes_riscv64.rs:180-249. *)
Definition s_keys_array (es : list exp) : stmt :=
  Seq (Zeroed "keys" (length es))
      (block (map (fun je => Store "keys" (Lit (N.of_nat (fst je))) (snd je)) (combine (seq 0 (length es)) es))).
(* The local variables key0 .. key14 of aes_x86.rs:191-249, aes_riscv64.rs:180-249. *)
Definition key_names : list string :=
  ["key0"; "key1"; "key2"; "key3"; "key4"; "key5"; "key6"; "key7"; "key8"; "key9"; "key10"; "key11"; "key12"; "key13"; "key14"].
(* The local variables key0 .. key14 of aes_x86.rs:191-249, aes_riscv64.rs:180-249. *)
Definition key_name (j : nat) : string := nth j key_names "".
(* [[key0, key1, ...]], the end of keygen_* in aes_x86.rs:191-249, aes_riscv64.rs:180-249. *)
Definition s_return_keys (n : nat) : stmt := s_keys_array (map Var (firstn n key_names)).

(** ** x86 *)
(** aes_x86.rs:131-134 *)
Definition xx_mix (e : exp) : exp :=
  Call "v" e
  ("temp" ::= $"v" :^: cpu1 (Pslldq 4) $"v" ;;;
   $"temp" :^: cpu1 (Pslldq 8) $"temp").
(** aes_x86.rs:138-145 *)
Definition xx_keyexp_128 (rc : N) (prev : exp) : exp :=
  Call "prev" prev (xx_mix $"prev" :^: cpu1 (Pshufd 0xff) (cpu1 (Aeskeygenassist rc) $"prev")).
(** aes_x86.rs:173-180, 182-189 *)
Definition xx_keyexp_256_1 (rc : N) (prev0 prev1 : exp) : exp :=
  Call2 "prev0" prev0 "prev1" prev1 (xx_mix $"prev0" :^: cpu1 (Pshufd 0xff) (cpu1 (Aeskeygenassist rc) $"prev1")).
Definition xx_keyexp_256_2 (prev0 prev1 : exp) : exp :=
  Call2 "prev0" prev0 "prev1" prev1 (xx_mix $"prev0" :^: cpu1 (Pshufd 0xaa) (cpu1 (Aeskeygenassist 0) $"prev1")).
(** aes_x86.rs:151-158, the state in variables state1, state2 *)
Definition ss_fwd (rc : N) : list stmt :=
  [Assign "state1" (xx_mix $"state1" :^: cpu1 (Pshufd 0x55) (cpu1 (Aeskeygenassist rc) $"state2"));
   Assign "state2" ($"state2" :^: cpu1 (Pslldq 4) $"state2");
   Assign "state2" ($"state2" :^: cpu1 (Pshufd 0xff) $"state1")].
(** aes_x86.rs:147-171, giving round keys [j], [j + 1], [j + 2] *)
Definition ss_keyexp_192 (rc1 rc2 : N) (j : nat) : list stmt :=
  [Assign "prev_state" $"state2"] ++ ss_fwd rc1 ++
  [Assign (key_name j) (cpu2 Punpcklqdq $"prev_state" $"state1");
   Assign (key_name (j + 1)) (cpu2 (Palignr 8) $"state2" $"state1")] ++ ss_fwd rc2 ++
  [Assign (key_name (j + 2)) $"state1"].
(** aes_x86.rs:191-207 *)
Definition sx_keygen_128 : stmt :=
  block ([Assign "key0" (x_load 0 16 0)] ++
         map (fun jr => Assign (key_name (fst jr)) (xx_keyexp_128 (snd jr) $(key_name (fst jr - 1))))
             (combine (seq 1 10) [0x01; 0x02; 0x04; 0x08; 0x10; 0x20; 0x40; 0x80; 0x1b; 0x36]) ++
         [s_return_keys 11]).
(** aes_x86.rs:209-225 *)
Definition sx_keygen_192 : stmt :=
  block ([Assign "key0" (x_load 0 16 0); Assign "state1" $"key0"; Assign "state2" (x_load 16 8 8)] ++
         ss_keyexp_192 0x01 0x02 1 ++ ss_keyexp_192 0x04 0x08 4 ++ ss_keyexp_192 0x10 0x20 7 ++ ss_keyexp_192 0x40 0x80 10 ++
         [s_return_keys 13]).
(** aes_x86.rs:227-249 *)
Definition sx_keygen_256 : stmt :=
  block ([Assign "key0" (x_load 0 16 0); Assign "key1" (x_load 16 16 0)] ++
         map (fun jr => Assign (key_name (fst jr))
               (match snd jr with
                | Some rc => xx_keyexp_256_1 rc $(key_name (fst jr - 2)) $(key_name (fst jr - 1))
                | None => xx_keyexp_256_2 $(key_name (fst jr - 2)) $(key_name (fst jr - 1)) end))
             (combine (seq 2 13) [Some 0x01; None; Some 0x02; None; Some 0x04; None; Some 0x08; None; Some 0x10; None; Some 0x20; None; Some 0x40]) ++
         [s_return_keys 15]).
(** aes_x86.rs:90-110; aesni_x2.rs:116-136 and 37-42 with n = 2; aesni_x4.rs:152-172 and 44-49 with n = 4;
    aes_x86.rs:114-121 mc, 125-127 imc *)
Definition x86_engine : engine :=
  Engine false (fun n => cpu2 (Aesenc n)) (fun n => cpu2 (Aesenclast n)) (fun n => cpu2 (Aesdec n)) (fun n => cpu2 (Aesdeclast n))
    (fun n e => if Nat.eqb n 1 then e else cpu1 (Vbroadcast n) e)
    (fun e => cpu2 (Aesenc 1) (cpu2 (Aesdeclast 1) e (Lit 0)) (Lit 0)) (cpu1 Aesimc)
    None
    (fun k => match k with K128 => sx_keygen_128 | K192 => sx_keygen_192 | K256 => sx_keygen_256 end).

(** ** Arm *)
(** aes_arm.rs:160-167 *)
Definition xa_sub_word (e : exp) : exp := Un (As 32) (cpu2 Arm_aese (cpu1 Arm_dup e) (Lit 0)).
(** aes_arm.rs:171-254: the formulas inside the loops *)
Definition xa_first (old word rcon : exp) : exp := old :^: Un (Rotr 32 8) (xa_sub_word word) :^: rcon.
Definition xa_mid (old word : exp) : exp := old :^: xa_sub_word word.
(** aes_arm.rs:102-110, 118-126 *)
Definition xa_pre_enc (s k : exp) : exp := cpu1 Arm_aesmc (cpu2 Arm_aese s k).
Definition xa_pre_dec (s k : exp) : exp := cpu1 Arm_aesimc (cpu2 Arm_aesd s k).
(** aes_arm.rs:114-156 *)
Definition arm_engine : engine :=
  Engine false (fun _ s k => xa_pre_enc s (Lit 0) :^: k) (fun _ s k => cpu2 Arm_aese s (Lit 0) :^: k)
               (fun _ s k => xa_pre_dec s (Lit 0) :^: k) (fun _ s k => cpu2 Arm_aesd s (Lit 0) :^: k)
    (fun _ e => e) (cpu1 Arm_aesmc) (cpu1 Arm_aesimc)
    (Some (xa_pre_enc, xa_pre_dec))
    (fun k => match k with
              | K128 => s_keygen_128 false xa_first
              | K192 => s_keygen_192 false xa_first
              | K256 => s_keygen_256 false xa_first xa_first xa_mid
              end).

(** ** RV64: struct of two u64 *)
(* [self.0], aes_riscv64.rs:24. *)
Definition u64_0 (e : exp) : exp := Un (As 64) e.
(* [self.1], aes_riscv64.rs:24. *)
Definition u64_1 (e : exp) : exp := Un (Shr 64) e.
(* [Self(a, b)], aes_riscv64.rs:24. *)
Definition u64s (a b : exp) : exp := a :|: (b :<<: 64).
(** aes_riscv64.rs:96-136 *)
Definition xr_round (i : insn2) (s k : exp) : exp :=
  Call2 "s" s "k" k
  (u64s (cpu2 i (u64_0 $"s") (u64_1 $"s") :^: u64_0 $"k") (cpu2 i (u64_1 $"s") (u64_0 $"s") :^: u64_1 $"k")).
(** aes_riscv64.rs:140-145, 149-151 *)
Definition xr_mc (s : exp) : exp :=
  Call "s" s
  ("tmp0" ::= cpu2 Aes64ds (u64_0 $"s") (u64_1 $"s") ;;;
   "tmp1" ::= cpu2 Aes64ds (u64_1 $"s") (u64_0 $"s") ;;;
   u64s (cpu2 Aes64esm $"tmp0" $"tmp1") (cpu2 Aes64esm $"tmp1" $"tmp0")).
Definition xr_imc (s : exp) : exp := Call "s" s (u64s (cpu1 Aes64im (u64_0 $"s")) (cpu1 Aes64im (u64_1 $"s"))).
(** aes_riscv64.rs:155-158; 169-172 and, with rnum = 10, 175-178 *)
Definition xr_keyexp_128 (rnum : N) (prev : exp) : exp :=
  Call "prev" prev
  ("tmp" ::= cpu2 Aes64ks2 (cpu1 (Aes64ks1i rnum) (u64_1 $"prev")) (u64_0 $"prev") ;;;
   u64s $"tmp" (cpu2 Aes64ks2 $"tmp" (u64_1 $"prev"))).
Definition xr_keyexp_256 (rnum : N) (prev0 prev1 : exp) : exp :=
  Call2 "prev0" prev0 "prev1" prev1
  ("tmp" ::= cpu2 Aes64ks2 (cpu1 (Aes64ks1i rnum) (u64_1 $"prev1")) (u64_0 $"prev0") ;;;
   u64s $"tmp" (cpu2 Aes64ks2 $"tmp" (u64_1 $"prev0"))).
(** aes_riscv64.rs:180-198 *)
Definition sr_keygen_128 : stmt :=
  block ([Assign "key0" (x_load 0 16 0)] ++
         map (fun j => Assign (key_name j) (xr_keyexp_128 (N.of_nat (j - 1)) $(key_name (j - 1)))) (seq 1 10) ++
         [s_return_keys 11]).
(** aes_riscv64.rs:161-166 from (a_j, b_j, c_j) to (a_(j+1), b_(j+1), c_(j+1)) *)
Definition a_names : list string := ["a0"; "a1"; "a2"; "a3"; "a4"; "a5"; "a6"; "a7"].
Definition b_names : list string := ["b0"; "b1"; "b2"; "b3"; "b4"; "b5"; "b6"; "b7"].
Definition c_names : list string := ["c0"; "c1"; "c2"; "c3"; "c4"; "c5"; "c6"; "c7"].
Definition a_ (j : nat) : exp := Var (nth j a_names "").
Definition b_ (j : nat) : exp := Var (nth j b_names "").
Definition c_ (j : nat) : exp := Var (nth j c_names "").
Definition sr_keyexp_192 (j : nat) : list stmt :=
  [Assign (nth (S j) a_names "") (cpu2 Aes64ks2 (cpu1 (Aes64ks1i (N.of_nat j)) (c_ j)) (a_ j));
   Assign (nth (S j) b_names "") (cpu2 Aes64ks2 (a_ (S j)) (b_ j));
   Assign (nth (S j) c_names "") (cpu2 Aes64ks2 (b_ (S j)) (c_ j))].
(** aes_riscv64.rs:200-223 *)
Definition sr_keygen_192 : stmt :=
  block ([Assign "a0" (x_load 0 8 0); Assign "b0" (x_load 8 8 0); Assign "c0" (x_load 16 8 0)] ++
         sr_keyexp_192 0 ++ sr_keyexp_192 1 ++ sr_keyexp_192 2 ++ sr_keyexp_192 3 ++ sr_keyexp_192 4 ++ sr_keyexp_192 5 ++ sr_keyexp_192 6 ++
         [Assign "state24" (cpu2 Aes64ks2 (cpu1 (Aes64ks1i 7) (c_ 7)) (a_ 7));
          Assign "state25" (cpu2 Aes64ks2 $"state24" (b_ 7));
          s_keys_array [u64s (a_ 0) (b_ 0); u64s (c_ 0) (a_ 1); u64s (b_ 1) (c_ 1); u64s (a_ 2) (b_ 2); u64s (c_ 2) (a_ 3);
                        u64s (b_ 3) (c_ 3); u64s (a_ 4) (b_ 4); u64s (c_ 4) (a_ 5); u64s (b_ 5) (c_ 5); u64s (a_ 6) (b_ 6);
                        u64s (c_ 6) (a_ 7); u64s (b_ 7) (c_ 7); u64s $"state24" $"state25"]]).
(** aes_riscv64.rs:225-249 *)
Definition sr_keygen_256 : stmt :=
  block ([Assign "key0" (x_load 0 16 0); Assign "key1" (x_load 16 16 0)] ++
         map (fun jr => Assign (key_name (fst jr)) (xr_keyexp_256 (snd jr) $(key_name (fst jr - 2)) $(key_name (fst jr - 1))))
             (combine (seq 2 13) [0; 10; 1; 10; 2; 10; 3; 10; 4; 10; 5; 10; 6]) ++
         [s_return_keys 15]).
Definition rv64_engine : engine :=
  Engine false (fun _ => xr_round Aes64esm) (fun _ => xr_round Aes64es) (fun _ => xr_round Aes64dsm) (fun _ => xr_round Aes64ds)
    (fun _ e => e) xr_mc xr_imc None
    (fun k => match k with K128 => sr_keygen_128 | K192 => sr_keygen_192 | K256 => sr_keygen_256 end).

(** ** RV32: struct of four u32 *)
(* [self.i], aes_riscv32.rs:7. *)
Definition u32_ (i : N) (e : exp) : exp := Un (As 32) (Un (Shr (32 * i)) e).
(* [Self(a, b, c, d)], aes_riscv32.rs:7. *)
Definition u32s (a b c d : exp) : exp := a :|: (b :<<: 32) :|: (c :<<: 64) :|: (d :<<: 96).
(** aes_riscv32.rs:20-40 macro outer! *)
Definition xv_inner (i : N -> insn2) (t0 t1 t2 t3 rk : exp) : exp := cpu2 (i 3) (cpu2 (i 2) (cpu2 (i 1) (cpu2 (i 0) rk t0) t1) t2) t3.
Definition xv_outer (i : N -> insn2) (m k : exp) : exp :=
  Call2 "m" m "k" k
  (let m_ j := u32_ j $"m" in let k_ j := u32_ j $"k" in
   u32s (xv_inner i (m_ 0) (m_ 1) (m_ 2) (m_ 3) (k_ 0)) (xv_inner i (m_ 1) (m_ 2) (m_ 3) (m_ 0) (k_ 1))
        (xv_inner i (m_ 2) (m_ 3) (m_ 0) (m_ 1) (k_ 2)) (xv_inner i (m_ 3) (m_ 0) (m_ 1) (m_ 2) (k_ 3))).
(** aes_riscv32.rs:125-167 *)
Definition xv_round (i : N -> insn2) (s k : exp) : exp := xv_outer i s (Lit 0) :^: k.
(** aes_riscv32.rs:171-173, 177-179 *)
Definition xv_mc (s : exp) : exp := xv_round Aes32esmi (xv_outer Aes32dsi s (Lit 0)) (Lit 0).
Definition xv_imc (s : exp) : exp := xv_round Aes32dsmi (xv_outer Aes32esi s (Lit 0)) (Lit 0).
(** aes_riscv32.rs:185-194 *)
Definition xv_sub_word (xor word : exp) : exp :=
  Call2 "xor" xor "word" word
  (cpu2 (Aes32esi 3) (cpu2 (Aes32esi 2) (cpu2 (Aes32esi 1) (cpu2 (Aes32esi 0) $"xor" $"word") $"word") $"word") $"word").
(** aes_riscv32.rs:207, 227, 235, 264; 254; 258 *)
Definition xv_first (old word rcon : exp) : exp := xv_sub_word (old :^: rcon) word.
Definition xv_first_rot (old word rcon : exp) : exp := xv_sub_word (old :^: rcon) (Un (Rotr 32 8) word).
Definition xv_mid (old word : exp) : exp := xv_sub_word old word.
Definition rv32_engine : engine :=
  Engine false (fun _ => xv_round Aes32esmi) (fun _ => xv_round Aes32esi) (fun _ => xv_round Aes32dsmi) (fun _ => xv_round Aes32dsi)
    (fun _ e => e) xv_mc xv_imc
    (Some (xv_outer Aes32esmi, xv_outer Aes32dsmi))
    (fun k => match k with
              | K128 => s_keygen_128 false xv_first
              | K192 => s_keygen_192 false xv_first
              | K256 => s_keygen_256 false xv_first_rot xv_first xv_mid
              end).
