(** The calls of the block types themselves (AesBlock, AesBlockX2, AesBlockX4: rounds, bit operators, mc, imc, chains, is_zero, ==)
    as programs of the language of Spec_Leak.v, for every backend.  As in Model_Leak.v a value is held in [m] variables of [n]
    blocks each; the first operand comes from array "in", the others (second block, keys of a chain) from array "key".  A struct of
    words (aes_table_based.rs, aes_riscv64.rs, aes_riscv32.rs) is one variable here; bitwise operations on it are written as one. *)
From Coq Require Import String.
From Coq Require Import List.
From Verif Require Import Word Fips197 Spec_Cfg Spec_Leak Model_Bitslice Model_Columns Model_Leak Model_Running.
Open Scope string_scope.
Open Scope list_scope.
Open Scope N_scope.
Open Scope leak_scope.

(* No counterpart in the source: registers holding the operand of a block function (lib.rs:127-210). *)
Definition key_names : list string := ["k0"; "k1"; "k2"; "k3"].
(** The other operand: [w * m] bytes of array "key" from position [at_]. *)
(* As a by-value argument [rhs] or [round_key], e.g. aes_bitslice.rs:242-324. *)
Definition s_operand (be : bool) (w m : nat) (at_ : exp) : stmt :=
  block (map (fun jx => Assign (snd jx) (x_from_ne be (map (fun t => Index "key" (at_ :+: N.of_nat (w * fst jx + t))) (seq 0 w))))
             (combine (seq 0 m) (firstn m key_names))).
(** An operation on each pair of fields (aesdefault_x2.rs, aesdefault_x4.rs). *)
Definition s_pairs (m : nat) (f : exp -> exp -> exp) : stmt :=
  block (map (fun xk => Assign (fst xk) (f $(fst xk) $(snd xk))) (combine (firstn m lane_names) (firstn m key_names))).

Section Block_programs.
  Context (be : bool) (n m : nat).
  (* 16, 32 or 64 bytes: aes_bitslice.rs:233, aesni_x2.rs, aesni_x4.rs. *)
  Definition w : nat := (16 * n)%nat.
  (** x.f(y) *)
  (* The functions of two blocks, e.g. aes_bitslice.rs:242-267, 302-324, aesdefault_x2.rs:38-63, 102-124. *)
  Definition binary_program (f : exp -> exp -> exp) : stmt :=
    block [s_input be w m; s_operand be w m (Lit 0); s_pairs m f; s_output be w m].
  (** x.f() *)
  (* The functions of one block, e.g. aes_bitslice.rs:269-276, 326-336, aesdefault_x2.rs:65-72. *)
  Definition unary_program (f : exp -> exp) : stmt :=
    block [s_input be w m; s_lanes m (fun x => f $x); s_output be w m].
  (** The rounds; &, |, ^ (aes_x86.rs:28-62, aes_arm.rs:29-63, aes_bitslice.rs:242-276, aes_riscv64.rs:33-67, aes_riscv32.rs:49-98,
      aes_table_based.rs:32-81, aesni_x2.rs:56-89, aesni_x4.rs:91-125, aesdefault_x2.rs:38-72, aesdefault_x4.rs:61-95); ! as xor with ones *)
  Definition x_not (e : exp) : exp := e :^: Lit (N.ones (8 * N.of_nat w)).
  (** lib.rs:368-394, 396-422: key number [i] of the slice starts at byte [16 n m i] *)
  Definition key_at (i : exp) : exp := Bin Times (Lit (N.of_nat (w * m))) i.
  Definition s_step (i : exp) (f : exp -> exp -> exp) : stmt := Seq (s_operand be w m (key_at i)) (s_pairs m f).
  Definition chain_program (pre : option (exp -> exp -> exp)) (round : exp -> exp -> exp) (keys : nat) : stmt :=
    block [s_input be w m;
           If (Len "key")                                                   (* assert_ne!(keys.len(), 0) *)
             (match pre with
              | None => block [s_step (Lit 0) (Bin Xor); For "i" 1 1 (keys - 1) (s_step (Ctr "i") round)]
              | Some p => block [For "i" 0 1 (keys - 1) (s_step (Ctr "i") p); s_step (Lit (N.of_nat (keys - 1))) (Bin Xor)]
              end)
             Skip;
           s_output be w m].

  (** is_zero: aes_x86.rs:84-86, aes_arm.rs:85-96, aes_bitslice.rs:297-299, aes_riscv64.rs:90-92, aes_riscv32.rs:121-123,
      aes_table_based.rs:110-112, aesni_x2.rs:110-112, aesni_x4.rs:146-148: one test; aesdefault_x2.rs:97-99, aesdefault_x4.rs:120-122:
      [self.0.is_zero() & self.1.is_zero()].  The bool is written to "out". *)
  Definition x_is_zero : exp :=
    let z x := Un IsZero $x in
    match m with
    | 1%nat => z "x0"
    | 2%nat => z "x0" :&: z "x1"
    | _ => (z "x0" :&: z "x1") :&: (z "x2" :&: z "x3")
    end.
  Definition is_zero_program : stmt :=
    block [s_input be w m; Assign "r" x_is_zero; Zeroed "out" 1; Store "out" (Lit 0) $"r"].

  (** [==]: a tree of comparisons; [a && b] evaluates and branches on [a] first *)
  (* derive(PartialEq) at aes_table_based.rs:4, aes_riscv64.rs:21, aes_riscv32.rs:4, aesdefault_x2.rs:5, aesdefault_x4.rs:5;
      the impls in aes_bitslice.rs, aes_x86.rs, aes_arm.rs. *)
  Inductive comparison := Field (e : exp) | All (a b : comparison).
  (* Same places: aes_table_based.rs:4, aes_riscv64.rs:21, aes_riscv32.rs:4, aesdefault_x2.rs:5, aesdefault_x4.rs:5. *)
  Fixpoint s_compare (c : comparison) : stmt :=
    match c with
    | Field e => Assign "r" e
    | All a b => Seq (s_compare a) (If $"r" (s_compare b) Skip)
    end.
  (** [fields] words of [bits] bits in a struct, #[derive(PartialEq)]: self.0 == other.0 && self.1 == other.1 && ... *)
  (* [self.k]: aes_table_based.rs:7 (the first field is the high end of the number), aes_riscv64.rs:24, aes_riscv32.rs:7. *)
  Definition x_field (fields : nat) (bits : N) (k : nat) (e : exp) : exp :=
    Un (As bits) (Un (Shr (N.of_nat (if be then fields - 1 - k else k) * bits)) e).
  (* [self.k == other.k]: aes_table_based.rs:4, aes_riscv64.rs:21, aes_riscv32.rs:4. *)
  Definition x_same (fields : nat) (bits : N) (k : nat) (x y : string) : exp := Un IsZero (x_field fields bits k $x :^: x_field fields bits k $y).
  (* The derived [eq] of one block: aes_table_based.rs:4, aes_riscv64.rs:21, aes_riscv32.rs:4. *)
  Definition vector_compare (fields : nat) (x y : string) : comparison :=
    let bits := 8 * N.of_nat w / N.of_nat fields in
    fold_left (fun acc k => All acc (Field (x_same fields bits k x y))) (seq 1 (fields - 1)) (Field (x_same fields bits 0 x y)).
  (** The wide structs of the default implementation derive PartialEq from two halves (aesdefault_x2.rs:5, aesdefault_x4.rs:5). *)
  Definition compare (fields : nat) : comparison :=
    let v x y := vector_compare fields x y in
    match m with
    | 1%nat => v "x0" "k0"
    | 2%nat => All (v "x0" "k0") (v "x1" "k1")
    | _ => All (All (v "x0" "k0") (v "x1" "k1")) (All (v "x2" "k2") (v "x3" "k3"))
    end.
  Definition equal_program (fields : nat) : stmt :=
    block [s_input be w m; s_operand be w m (Lit 0); s_compare (compare fields); Zeroed "out" 1; Store "out" (Lit 0) $"r"].
End Block_programs.

(** How many fields a vector's comparison has: aes_x86.rs:12-17, aes_arm.rs:13-18, aesni_x2.rs:14-19, aesni_x4.rs:15-20 compare whole
    registers, aes_bitslice.rs:230-233 derives from one u128; aes_riscv64.rs:21-24 from two u64s; aes_riscv32.rs:4-7 and
    aes_table_based.rs:4-7 from four u32s. *)
Definition eq_fields (p : promised) : nat :=
  match p with P_rv64 => 2%nat | P_rv32 | P_software => 4%nat | _ => 1%nat end.
(** The byte order in which a block's bytes make up the variable: aes_table_based.rs:9-15 loads big-endian words, aes_bitslice.rs:281
    has [from_ne_bytes]; registers and the words of the RISC-V backends are little-endian. *)
Definition block_be (p : promised) (be : bool) : bool := match p with P_constant_time => be | P_software => true | _ => false end.
