(** The key generators that write through a [u32] slice laid over the array of round keys - aes_bitslice.rs:340-408,
    aes_arm.rs:171-254, aes_riscv32.rs:196-270 - at the level of bytes of memory.  (Model_Columns has them over a list of columns.) *)
From Coq Require Import Arith.
From Verif Require Import Word Interface Fips197 Spec_Cfg Spec_Layout Spec_Mem Spec_MemKey Model_Layout Model_Columns Model_Bitslice Model_Arm Model_Rv32.
Open Scope N_scope.

(** [columns[k] = columns[a] ^ columns[b]] (aes_bitslice.rs:350-352, aes_arm.rs:185-187, aes_riscv32.rs:208-210) *)
Definition m_xor (be : bool) (s : words) (m : mem) (k a b : nat) : outcome mem :=
  x <- word_at be m s a ;; y <- word_at be m s b ;; word_put be m s k (N.lxor x y).
(** The first column of a group (aes_bitslice.rs:349, aes_arm.rs:183-184, aes_riscv32.rs:207) *)
Definition m_first (be : bool) (f : N -> N -> N -> N) (s : words) (m : mem) (k a b r : nat) : outcome mem :=
  x <- word_at be m s a ;; y <- word_at be m s b ;; c <- get RCON r ;; word_put be m s k (f x y c).
(** The middle column of AES-256 (aes_bitslice.rs:396, aes_arm.rs:241, aes_riscv32.rs:258) *)
Definition m_mid (be : bool) (g : N -> N -> N) (s : words) (m : mem) (k a b : nat) : outcome mem :=
  x <- word_at be m s a ;; y <- word_at be m s b ;; word_put be m s k (g x y).
(** [for (i, chunk) in key.chunks_exact(4).enumerate() { columns[i] = u32::from_ne_bytes(chunk.try_into().unwrap()) }]
    (aes_bitslice.rs:344-346, aes_arm.rs:178-180, aes_riscv32.rs:202-204; the key is a local array, read by safe code) *)
Definition m_load (be : bool) (s : words) (key : list N) (m : mem) : outcome mem :=
  ofold (fun m ic => word_put be m s (fst ic) (of_ne be (snd ic)))
        (combine (seq 0 (Nat.div (length key) 4)) (chunks 4 (Nat.div (length key) 4) key)) m.

(** aes_bitslice.rs:344-356, aes_arm.rs:178-192, aes_riscv32.rs:202-214 *)
Definition m_keygen_128 (be : bool) (f : N -> N -> N -> N) (s : words) (key : list N) (m : mem) : outcome mem :=
  m <- m_load be s key m ;;
  ofold (fun m i =>
    m <- m_first be f s m (i + 4) (i + 0) (i + 3) (Nat.div i 4) ;;
    m <- m_xor be s m (i + 5) (i + 1) (i + 4) ;;
    m <- m_xor be s m (i + 6) (i + 2) (i + 5) ;;
    m_xor be s m (i + 7) (i + 3) (i + 6)) (step_by 40 4) m.
(** aes_bitslice.rs:362-381, aes_arm.rs:201-222, aes_riscv32.rs:222-241 *)
Definition m_keygen_192 (be : bool) (f : N -> N -> N -> N) (s : words) (key : list N) (m : mem) : outcome mem :=
  m <- m_load be s key m ;;
  m <- ofold (fun m i =>
    m <- m_first be f s m (i + 6) (i + 0) (i + 5) (Nat.div i 6) ;;
    m <- m_xor be s m (i + 7) (i + 1) (i + 6) ;;
    m <- m_xor be s m (i + 8) (i + 2) (i + 7) ;;
    m <- m_xor be s m (i + 9) (i + 3) (i + 8) ;;
    m <- m_xor be s m (i + 10) (i + 4) (i + 9) ;;
    m_xor be s m (i + 11) (i + 5) (i + 10)) (step_by 42 6) m ;;
  m <- m_first be f s m 48 42 47 7 ;;
  m <- m_xor be s m 49 43 48 ;;
  m <- m_xor be s m 50 44 49 ;;
  m_xor be s m 51 45 50.
(** aes_bitslice.rs:387-408, aes_arm.rs:231-254, aes_riscv32.rs:249-270 *)
Definition m_keygen_256 (be : bool) (f f' : N -> N -> N -> N) (g : N -> N -> N) (s : words) (key : list N) (m : mem) : outcome mem :=
  m <- m_load be s key m ;;
  m <- ofold (fun m i =>
    m <- m_first be f s m (i + 8) (i + 0) (i + 7) (Nat.div i 8) ;;
    m <- m_xor be s m (i + 9) (i + 1) (i + 8) ;;
    m <- m_xor be s m (i + 10) (i + 2) (i + 9) ;;
    m <- m_xor be s m (i + 11) (i + 3) (i + 10) ;;
    m <- m_mid be g s m (i + 12) (i + 4) (i + 11) ;;
    m <- m_xor be s m (i + 13) (i + 5) (i + 12) ;;
    m <- m_xor be s m (i + 14) (i + 6) (i + 13) ;;
    m_xor be s m (i + 15) (i + 7) (i + 14)) (step_by 48 8) m ;;
  m <- m_first be f' s m 56 48 55 6 ;;
  m <- m_xor be s m 57 49 56 ;;
  m <- m_xor be s m 58 50 57 ;;
  m_xor be s m 59 51 58.

(** What the three files write in those places: first column of AES-128 and AES-192, of AES-256 in and after the loop, middle column. *)
Record formulas : Type := Formulas { fo_12 : N -> N -> N -> N; fo_loop : N -> N -> N -> N; fo_last : N -> N -> N -> N; fo_mid : N -> N -> N }.
(* aes_arm.rs:160-167, 183-184, 237-241; aes_bitslice.rs:349, 392, 396; aes_riscv32.rs:207, 254, 258, 264 *)
Definition formulas_of (p : promised) : option formulas :=
  match p with
  | P_neon => Some (Formulas (rot_first arm_sub_word) (rot_first arm_sub_word) (rot_first arm_sub_word) (sub_mid arm_sub_word))
  | P_constant_time => Some (Formulas (rot_first bs_sub_word) (rot_first bs_sub_word) (rot_first bs_sub_word) (sub_mid bs_sub_word))
  | P_rv32 => Some (Formulas r32_first r32_first_rot r32_first r32_mid)
  | _ => None                                                        (* x86, RV64, table: no pointers in key set-up *)
  end.
(** [let mut expanded_keys: [AesBlock; n] = mem::zeroed(); let columns = slice::from_raw_parts_mut(expanded_keys.as_mut_ptr().cast(), 4 n); ..]
    (aes_bitslice.rs:341-342, 359-360, 384-385; aes_arm.rs:173-176, 196-199, 226-229; aes_riscv32.rs:197-200, 217-220, 244-247):
    [addr] is where the compiler, whose layouts are [L], put [expanded_keys]; the memory afterwards, [expanded_keys] still at [addr]. *)
Definition m_keygen (L : compiler) (p : promised) (be : bool) (fo : formulas) (k : key_size) (key : list N) (addr : nat) (m : mem) : outcome mem :=
  match k with
  | K128 => let n := size (L (Array (block_ty p) 11)) in
            s <- raw_parts (align (L (Prim U32))) n addr 44 ;; m_keygen_128 be (fo_12 fo) s key (zeroed_at m addr n)
  | K192 => let n := size (L (Array (block_ty p) 13)) in
            s <- raw_parts (align (L (Prim U32))) n addr 52 ;; m_keygen_192 be (fo_12 fo) s key (zeroed_at m addr n)
  | K256 => let n := size (L (Array (block_ty p) 15)) in
            s <- raw_parts (align (L (Prim U32))) n addr 60 ;; m_keygen_256 be (fo_loop fo) (fo_last fo) (fo_mid fo) s key (zeroed_at m addr n)
  end.
