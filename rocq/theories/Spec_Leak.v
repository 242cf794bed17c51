(** SPECIFICATION of "constant time": a small imperative language over machine words and arrays, its
    values and what its execution lets an observer of timing and caches see.

    An observer sees every array or table index (of a constant table too: [Lookup]), every branch and loop decision and the operands of
    multiplications and divisions (their timing may depend on them).  The AES instructions of the CPU, bitwise operations, shifts and
    rotations by a constant, additions and subtractions, and reading a local variable show nothing.
    The programs of Model_Leak.v are written in this language line by line from the Rust source. *)
From Coq Require String.
From Verif Require Import Word Isa_x86 Isa_arm Isa_riscv.
Notation string := String.string.
Open Scope N_scope.

(** CPU instructions whose timing, the manuals say, does not depend on the data: Intel's DOIT list, AMD's
    equivalent, Arm's DIT list, RISC-V's Zkt list.  Immediate operands are constants of the program.  A
    vector register is the number whose little-endian bytes it holds. *)
Inductive insn1 :=
| Aesimc | Aeskeygenassist (imm : N) | Pshufd (imm : N) | Pslldq (imm : nat)     (* x86 *)
| Vbroadcast (n : nat)                          (* vbroadcasti128, vbroadcasti32x4: n = 2, 4 *)
| Arm_aesmc | Arm_aesimc | Arm_dup              (* dup vN.4s, wM *)
| Aes64im | Aes64ks1i (rnum : N).               (* RV64 *)
Inductive insn2 :=
| Aesenc (n : nat) | Aesenclast (n : nat) | Aesdec (n : nat) | Aesdeclast (n : nat)   (* n = 1; VAES: 2, 4 *)
| Punpcklqdq | Palignr (imm : nat)
| Arm_aese | Arm_aesd
| Aes64es | Aes64esm | Aes64ds | Aes64dsm | Aes64ks2
| Aes32esi (bs : N) | Aes32esmi (bs : N) | Aes32dsi (bs : N) | Aes32dsmi (bs : N).    (* RV32 *)

Inductive op2 := And | Or | Xor | WrappingSub (w : N) | Plus
  | Pack                                        (* low byte, rest: from_ne_bytes is a nest of these *)
  | Times | Divide
  | Cpu2 (i : insn2).
Inductive op1 := Shl (w k : N) | Shr (k : N) | Rotr (w k : N) | As (w : N)
  | IsZero                                      (* == 0 as a bool, no branch: setcc, seqz, ptest *)
  | Byte (be : bool) (n k : nat)                (* to_ne_bytes()[k] of an n-byte integer, constant k *)
  | Cpu1 (i : insn1).
Inductive exp :=
| Var (x : string)                              (* local variable holding data *)
| Ctr (x : string)                              (* loop counter *)
| Lit (n : N)
| Un (o : op1) (a : exp)
| Bin (o : op2) (a b : exp)
| Len (arr : string)
| Index (arr : string) (i : exp)                (* arr[i], array or table *)
| Static (name : string) (t : list N) (i : exp) (* T[i] for a constant table: const T: [u32; 256] = t *)
| Let (x : string) (a b : exp)                  (* let x = a; b *)
| Call (x : string) (a body : exp)              (* f(a) with fn f(x) { body } *)
| Call2 (x : string) (a : exp) (y : string) (b body : exp).
Inductive stmt :=
| Skip
| Seq (s t : stmt)
| Assign (x : string) (e : exp)
| Store (arr : string) (i e : exp)              (* arr[i] = e *)
| Zeroed (arr : string) (n : nat)               (* let mut arr = [0; n] *)
| View (dst : string) (be : bool) (n : nat) (src : string)
                                                (* the u32 array src seen as n u128s: same memory *)
| If (c : exp) (s t : stmt)                     (* if c != 0 *)
| For (i : string) (start step : N) (n : nat) (body : stmt).

Definition upd {A} (f : string -> A) (x : string) (v : A) : string -> A := fun y => if String.eqb x y then v else f y.
Record state := State { vars : string -> N; ctrs : string -> N; arrs : string -> list N }.

(** What the instructions compute: Isa_x86.v, Isa_arm.v, Isa_riscv.v on the bytes of the registers. *)
Definition on_reg (f : list N -> list N) (a : N) : N := of_le (f (to_le 16 a)).
Definition on_regs (n : nat) (f : list N -> list N -> list N) (a b : N) : N := of_le (f (to_le n a) (to_le n b)).
Definition ival1 (i : insn1) (a : N) : N :=
  match i with
  | Aesimc => on_reg mm_aesimc a
  | Aeskeygenassist imm => on_reg (mm_aeskeygenassist imm) a
  | Pshufd imm => on_reg (mm_shuffle_epi32 imm) a
  | Pslldq imm => on_reg (mm_bslli imm) a
  | Vbroadcast n => on_reg (fun x => List.concat (repeat x n)) a
  | Arm_aesmc => on_reg vaesmcq_u8 a
  | Arm_aesimc => on_reg vaesimcq_u8 a
  | Arm_dup => of_le (vreinterpretq_u8_u32 (vdupq_n_u32 a))
  | Aes64im => aes64im a
  | Aes64ks1i rnum => aes64ks1i a rnum
  end.
Definition ival2 (i : insn2) (a b : N) : N :=
  match i with
  | Aesenc n => on_regs (16 * n) (lanewise n mm_aesenc) a b
  | Aesenclast n => on_regs (16 * n) (lanewise n mm_aesenclast) a b
  | Aesdec n => on_regs (16 * n) (lanewise n mm_aesdec) a b
  | Aesdeclast n => on_regs (16 * n) (lanewise n mm_aesdeclast) a b
  | Punpcklqdq => on_regs 16 mm_unpacklo_epi64 a b
  | Palignr imm => on_regs 16 (mm_alignr_epi8 imm) a b
  | Arm_aese => on_regs 16 vaeseq_u8 a b
  | Arm_aesd => on_regs 16 vaesdq_u8 a b
  | Aes64es => aes64es a b | Aes64esm => aes64esm a b | Aes64ds => aes64ds a b | Aes64dsm => aes64dsm a b
  | Aes64ks2 => aes64ks2 a b
  | Aes32esi bs => aes32esi a b bs | Aes32esmi bs => aes32esmi a b bs
  | Aes32dsi bs => aes32dsi a b bs | Aes32dsmi bs => aes32dsmi a b bs
  end.
Definition val1 (o : op1) (a : N) : N :=
  match o with
  | Shl w k => shl w a k | Shr k => shr a k | Rotr w k => rotr w a k | As w => trunc w a
  | IsZero => if a =? 0 then 1 else 0
  | Byte be n k => nth k (to_ne be n a) 0
  | Cpu1 i => ival1 i a
  end.
Definition val2 (o : op2) (a b : N) : N :=
  match o with
  | And => N.land a b | Or => N.lor a b | Xor => N.lxor a b | WrappingSub w => wrapping_sub w a b
  | Plus => a + b | Pack => a + 256 * b | Times => a * b | Divide => a / b
  | Cpu2 i => ival2 i a b
  end.

Section Exp.
  Context (ctr : string -> N) (arr : string -> list N).
  (** The value of an expression.  An index out of range reads 0; Model_Leak's programs are shown to
      compute what the panic-aware model computes, so this never matters there. *)
  Fixpoint val (var : string -> N) (e : exp) : N :=
    match e with
    | Var x => var x
    | Ctr x => ctr x
    | Lit n => n
    | Un o a => val1 o (val var a)
    | Bin o a b => val2 o (val var a) (val var b)
    | Len a => N.of_nat (length (arr a))
    | Index a i => nth (N.to_nat (val var i)) (arr a) 0
    | Static _ t i => nth (N.to_nat (val var i)) t 0
    | Let x a b => val (upd var x (val var a)) b
    | Call x a body => val (upd (fun _ => 0) x (val var a)) body
    | Call2 x a y b body => val (upd (upd (fun _ => 0) x (val var a)) y (val var b)) body
    end.

  (** What the observer sees. *)
  Inductive event := Access (arr : string) (i : N) | Branch (taken : bool) | Arith (a b : N) | Lookup (table : string) (i : N).
  Definition slow (o : op2) : bool := match o with Times | Divide => true | _ => false end.
  Fixpoint seen (var : string -> N) (e : exp) : list event :=
    match e with
    | Var _ | Ctr _ | Lit _ | Len _ => []
    | Un _ a => seen var a
    | Bin o a b => seen var a ++ seen var b ++ (if slow o then [Arith (val var a) (val var b)] else [])
    | Index a i => seen var i ++ [Access a (val var i)]
    | Static t _ i => seen var i ++ [Lookup t (val var i)]
    | Let x a b => seen var a ++ seen (upd var x (val var a)) b
    | Call x a body => seen var a ++ seen (upd (fun _ => 0) x (val var a)) body
    | Call2 x a y b body => seen var a ++ seen var b ++ seen (upd (upd (fun _ => 0) x (val var a)) y (val var b)) body
    end.
End Exp.

Definition write (l : list N) (i : nat) (v : N) : list N :=
  if Nat.ltb i (length l) then firstn i l ++ v :: skipn (S i) l else l.
(** Memory of [n] u128s laid over an array of u32s, native byte order. *)
Definition view (be : bool) (n : nat) (src : list N) : list N :=
  map (of_ne be) (chunks 16 n (List.concat (map (to_ne be 4) src))).

Definition value (st : state) (e : exp) : N := val (ctrs st) (arrs st) (vars st) e.
Definition leak (st : state) (e : exp) : list event := seen (ctrs st) (arrs st) (vars st) e.
Definition set_var (st : state) x v : state := State (upd (vars st) x v) (ctrs st) (arrs st).
Definition set_ctr (st : state) x v : state := State (vars st) (upd (ctrs st) x v) (arrs st).
Definition set_arr (st : state) x v : state := State (vars st) (ctrs st) (upd (arrs st) x v).

(** Final state and trace of a statement. *)
Fixpoint exec (s : stmt) (st : state) : state * list event :=
  match s with
  | Skip => (st, [])
  | Seq s t => let (st1, l1) := exec s st in let (st2, l2) := exec t st1 in (st2, l1 ++ l2)
  | Assign x e => (set_var st x (value st e), leak st e)
  | Store a i e => (set_arr st a (write (arrs st a) (N.to_nat (value st i)) (value st e)),
                    leak st i ++ leak st e ++ [Access a (value st i)])
  | Zeroed a n => (set_arr st a (repeat 0 n), [])
  | View d be n a => (set_arr st d (view be n (arrs st a)), [])
  | If c s t =>
      let taken := negb (value st c =? 0) in
      let (st1, l1) := if taken then exec s st else exec t st in (st1, leak st c ++ Branch taken :: l1)
  | For i start step n body =>
      (fix loop (n : nat) (start : N) (st : state) : state * list event :=
         match n with
         | O => (st, [Branch false])
         | S n' =>
             let (st1, l1) := exec body (set_ctr st i start) in
             let (st2, l2) := loop n' (start + step) st1 in (st2, Branch true :: l1 ++ l2)
         end) n start st
  end.
Definition final (s : stmt) (st : state) : state := fst (exec s st).
Definition trace (s : stmt) (st : state) : list event := snd (exec s st).

(** Two states the observer cannot tell apart beforehand: same counters, same array lengths. *)
Definition low_equal (a b : state) : Prop :=
  (forall x, ctrs a x = ctrs b x) /\ (forall x, length (arrs a x) = length (arrs b x)).
(** Constant time: the trace is a function of what is public. *)
Definition constant_time (s : stmt) : Prop := forall a b, low_equal a b -> trace s a = trace s b.

(** Constant time but for table look-ups: the trace is, once the indices into constant tables are hidden. *)
Definition hide (e : event) : event := match e with Lookup t _ => Lookup t 0 | e => e end.
Definition constant_time_but_lookups (s : stmt) : Prop := forall a b, low_equal a b -> map hide (trace s a) = map hide (trace s b).
(** Both at once: an observer who sees the indices of table look-ups ([tables]) or not. *)
Definition veil (tables : bool) (e : event) : event := if tables then e else hide e.

(** ** A checker for it *)
(** Made of counters, literals and lengths only. *)
Fixpoint public (e : exp) : bool :=
  match e with
  | Ctr _ | Lit _ | Len _ => true
  | Un _ a => public a
  | Bin _ a b => public a && public b
  | _ => false
  end.
Section Checker.
  Context (tables : bool).
  Fixpoint quiet (e : exp) : bool :=
    match e with
    | Var _ | Ctr _ | Lit _ | Len _ => true
    | Un _ a => quiet a
    | Bin o a b => quiet a && quiet b && (negb (slow o) || public a && public b)
    | Index _ i => quiet i && public i
    | Static _ _ i => quiet i && (negb tables || public i)
    | Let _ a b => quiet a && quiet b
    | Call _ a b => quiet a && quiet b
    | Call2 _ a _ b c => quiet a && quiet b && quiet c
    end.
  Fixpoint quiet_stmt (s : stmt) : bool :=
    match s with
    | Skip | Zeroed _ _ | View _ _ _ _ => true
    | Seq s t => quiet_stmt s && quiet_stmt t
    | Assign _ e => quiet e
    | Store _ i e => quiet i && public i && quiet e
    | If c s t => quiet c && public c && quiet_stmt s && quiet_stmt t
    | For _ _ _ _ b => quiet_stmt b
    end.
End Checker.
