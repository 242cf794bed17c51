(** SPECIFICATION for C49: which of the CPU's special instructions an execution runs, in which order, and how many AES instructions
    the calls of the API should take on each kind of build.

    One use of an intrinsic in the source is one instruction here.  (What a compiler makes of it - it may merge or hoist equal ones - is
    outside the model.) *)
From Coq Require Import List Arith String.
From Verif Require Import Word Fips197 Spec_User Spec_Cfg Spec_Leak Spec_LeakSoft Spec_Insn Model_Running.
Open Scope list_scope.
Open Scope nat_scope.

(** ** What an execution runs *)
(** Evaluating an expression: operands first. Expressions have no branches. *)
Fixpoint ran (e : exp) : list insn :=
  match e with
  | Var _ | Ctr _ | Lit _ | Len _ => []
  | Un o a => ran a ++ match o with Cpu1 i => [I1 i] | _ => [] end
  | Bin o a b => ran a ++ ran b ++ match o with Cpu2 i => [I2 i] | _ => [] end
  | Index _ i | Static _ _ i => ran i
  | Let _ a b | Call _ a b => ran a ++ ran b
  | Call2 _ a _ b c => ran a ++ ran b ++ ran c
  end.
(** Executing a statement from a state: the branch taken, every turn of a loop. *)
Fixpoint executed (s : stmt) (st : state) : list insn :=
  match s with
  | Skip | Zeroed _ _ | View _ _ _ _ => []
  | Seq s t => executed s st ++ executed t (final s st)
  | Assign _ e => ran e
  | Store _ i e => ran i ++ ran e
  | If c s t => ran c ++ (if N.eqb (value st c) 0 then executed t st else executed s st)
  | For i start step n body =>
      (fix loop (n : nat) (start : N) (st : state) : list insn :=
         match n with
         | O => []
         | S n' => executed body (set_ctr st i start) ++ loop n' (start + step)%N (final body (set_ctr st i start))
         end) n start st
  end.

(** ** AES instructions: without their immediates, but with the number of blocks of a vector instruction *)
Inductive aes :=
| AESENC (blocks : nat) | AESENCLAST (blocks : nat) | AESDEC (blocks : nat) | AESDECLAST (blocks : nat) | AESIMC | AESKEYGENASSIST
| AESE | AESD | AESMC | AESIMC_ARM
| AES64ES | AES64ESM | AES64DS | AES64DSM | AES64IM | AES64KS1I | AES64KS2
| AES32ESI | AES32ESMI | AES32DSI | AES32DSMI.
Definition aes_of (i : insn) : option aes :=
  match i with
  | I2 (Aesenc n) => Some (AESENC n) | I2 (Aesenclast n) => Some (AESENCLAST n)
  | I2 (Aesdec n) => Some (AESDEC n) | I2 (Aesdeclast n) => Some (AESDECLAST n)
  | I1 Aesimc => Some AESIMC | I1 (Aeskeygenassist _) => Some AESKEYGENASSIST
  | I2 Arm_aese => Some AESE | I2 Arm_aesd => Some AESD | I1 Arm_aesmc => Some AESMC | I1 Arm_aesimc => Some AESIMC_ARM
  | I2 Aes64es => Some AES64ES | I2 Aes64esm => Some AES64ESM | I2 Aes64ds => Some AES64DS | I2 Aes64dsm => Some AES64DSM
  | I1 Aes64im => Some AES64IM | I1 (Aes64ks1i _) => Some AES64KS1I | I2 Aes64ks2 => Some AES64KS2
  | I2 (Aes32esi _) => Some AES32ESI | I2 (Aes32esmi _) => Some AES32ESMI
  | I2 (Aes32dsi _) => Some AES32DSI | I2 (Aes32dsmi _) => Some AES32DSMI
  | I1 (Pshufd _) | I1 (Pslldq _) | I1 (Vbroadcast _) | I1 Arm_dup | I2 Punpcklqdq | I2 (Palignr _) => None   (* these only move data *)
  end.
Definition aes_eq_dec (a b : aes) : {a = b} + {a <> b}. Proof. decide equality; apply Nat.eq_dec. Defined.
(** The AES instructions of an execution, and how often one occurs. *)
Definition aes_run (l : list insn) : list aes := flat_map (fun i => match aes_of i with Some a => [a] | None => [] end) l.
Definition times (a : aes) (l : list aes) : nat := count_occ aes_eq_dec l a.

(** ** The bill: how many of each, a list of instructions and numbers *)
Definition bill := list (aes * nat).
Definition on_bill (a : aes) (b : bill) : nat := list_sum (map (fun x => if aes_eq_dec (fst x) a then snd x else 0) b).
Definition bill_total (b : bill) : nat := list_sum (map snd b).

(** Key set-up: the CPU's help for SubWord, once for each (FIPS-197, 5.2), and on RV64 one instruction for each pair of words of the
    key schedule after the key. *)
Definition setup_bill (p : promised) (k : key_size) : bill :=
  match p with
  | P_aesni | P_aesni_vaes2 | P_aesni_vaes4 => [(AESKEYGENASSIST, subwords k)]
  | P_neon => [(AESE, subwords k)]
  | P_rv64 => [(AES64KS1I, subwords k); (AES64KS2, (4 * (nr_of k + 1) - nk_of k) / 2)]
  | P_rv32 => [(AES32ESI, 4 * subwords k)]
  | P_constant_time | P_software => []
  end.
(** One round of encryption or decryption of a vector of [n] blocks; the same for its last round. *)
Definition round_bill (p : promised) (dec : bool) (n : nat) : bill :=
  match p with
  | P_aesni | P_aesni_vaes2 | P_aesni_vaes4 => [(if dec then AESDEC n else AESENC n, 1)]
  | P_neon => [(if dec then AESD else AESE, 1); (if dec then AESIMC_ARM else AESMC, 1)]
  | P_rv64 => [(if dec then AES64DSM else AES64ESM, 2)]
  | P_rv32 => [(if dec then AES32DSMI else AES32ESMI, 16)]
  | P_constant_time | P_software => []
  end.
Definition last_bill (p : promised) (dec : bool) (n : nat) : bill :=
  match p with
  | P_aesni | P_aesni_vaes2 | P_aesni_vaes4 => [(if dec then AESDECLAST n else AESENCLAST n, 1)]
  | P_neon => [(if dec then AESD else AESE, 1)]
  | P_rv64 => [(if dec then AES64DS else AES64ES, 2)]
  | P_rv32 => [(if dec then AES32DSI else AES32ESI, 16)]
  | P_constant_time | P_software => []
  end.
(** InvMixColumns and MixColumns of one round key (the latter needs a round trip through the S-box where the CPU has no instruction
    for it; RV32 has neither). *)
Definition imc_bill (p : promised) : bill :=
  match p with
  | P_aesni | P_aesni_vaes2 | P_aesni_vaes4 => [(AESIMC, 1)]
  | P_neon => [(AESIMC_ARM, 1)]
  | P_rv64 => [(AES64IM, 2)]
  | P_rv32 => [(AES32ESI, 16); (AES32DSMI, 16)]
  | P_constant_time | P_software => []
  end.
Definition mc_bill (p : promised) : bill :=
  match p with
  | P_aesni | P_aesni_vaes2 | P_aesni_vaes4 => [(AESDECLAST 1, 1); (AESENC 1, 1)]
  | P_neon => [(AESMC, 1)]
  | P_rv64 => [(AES64DS, 2); (AES64ESM, 2)]
  | P_rv32 => [(AES32DSI, 16); (AES32ESMI, 16)]
  | P_constant_time | P_software => []
  end.
Definition scale (n : nat) (b : bill) : bill := map (fun x => (fst x, n * snd x)) b.
(** Nr - 1 rounds and the last one, for each of the vectors a group of blocks is held in. *)
Definition crypt_bill (p : promised) (dec : bool) (k : key_size) (g : group) : bill :=
  let n := vec_n p g in scale (vec_m p g) (scale (nr_of k - 1) (round_bill p dec n) ++ last_bill p dec n).
