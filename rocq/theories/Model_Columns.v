(** The array-style key schedules shared, text for text, by src/aes_bitslice.rs:338-408,
    src/aes_arm.rs:169-254 (file-relative lines) and, with a different first-column formula,
    src/aes_riscv32.rs:182-270.
    [expanded_keys] is zero-initialised and reinterpreted as a slice [columns] of u32; the loops
    index that slice with bounds checks.  The formula for the first column of each group is the
    parameter [f old word rcon], the one for the middle column of AES-256 is [g old word]. *)
From Verif Require Import Word Interface.
Open Scope N_scope.

(** aes_bitslice.rs:338, aes_arm.rs:169, aes_riscv32.rs:182 *)
Definition RCON : list N := [0x01; 0x02; 0x04; 0x08; 0x10; 0x20; 0x40; 0x80; 0x1b; 0x36].

(** [columns[k] = columns[a] ^ columns[b]] *)
(* As in aes_bitslice.rs:350-352, 368-372; aes_arm.rs:185-187; aes_riscv32.rs:208-210. *)
Definition col_xor (cols : list N) (k a b : nat) : outcome (list N) :=
  x <- get cols a ;; y <- get cols b ;; set cols k (N.lxor x y).

(** [columns[k] = f(columns[a], columns[b], RCON[r])] *)
(* As in aes_bitslice.rs:349; aes_arm.rs:183-184; aes_riscv32.rs:207. *)
Definition col_first (f : N -> N -> N -> N) (cols : list N) (k a b r : nat) : outcome (list N) :=
  x <- get cols a ;; y <- get cols b ;; c <- get RCON r ;; set cols k (f x y c).

(** [columns[k] = g(columns[a], columns[b])] *)
(* As in aes_bitslice.rs:396; aes_arm.rs:241; aes_riscv32.rs:258. *)
Definition col_mid (g : N -> N -> N) (cols : list N) (k a b : nat) : outcome (list N) :=
  x <- get cols a ;; y <- get cols b ;; set cols k (g x y).

(** The loading loop: aes_bitslice.rs:344-346 (chunks_exact(4), enumerate, from_ne_bytes). *)
Definition col_load (be : bool) (n : nat) (key : list N) : outcome (list N) :=
  ofold (fun cols ic => set cols (fst ic) (of_ne be (snd ic)))
        (combine (seq 0 (Nat.div (length key) 4)) (chunks 4 (Nat.div (length key) 4) key))
        (repeat 0 n).

(** aes_bitslice.rs:340-356 keygen_128 *)
Definition col_keygen_128 (be : bool) (f : N -> N -> N -> N) (key : list N) : outcome (list N) :=
  cols <- col_load be 44 key ;;
  ofold (fun cols i =>
    cols <- col_first f cols (i + 4) (i + 0) (i + 3) (Nat.div i 4) ;;
    cols <- col_xor cols (i + 5) (i + 1) (i + 4) ;;
    cols <- col_xor cols (i + 6) (i + 2) (i + 5) ;;
    col_xor cols (i + 7) (i + 3) (i + 6)) (step_by 40 4) cols.

(** aes_bitslice.rs:358-381 keygen_192 *)
Definition col_keygen_192 (be : bool) (f : N -> N -> N -> N) (key : list N) : outcome (list N) :=
  cols <- col_load be 52 key ;;
  cols <- ofold (fun cols i =>
    cols <- col_first f cols (i + 6) (i + 0) (i + 5) (Nat.div i 6) ;;
    cols <- col_xor cols (i + 7) (i + 1) (i + 6) ;;
    cols <- col_xor cols (i + 8) (i + 2) (i + 7) ;;
    cols <- col_xor cols (i + 9) (i + 3) (i + 8) ;;
    cols <- col_xor cols (i + 10) (i + 4) (i + 9) ;;
    col_xor cols (i + 11) (i + 5) (i + 10)) (step_by 42 6) cols ;;
  cols <- col_first f cols 48 42 47 7 ;;
  cols <- col_xor cols 49 43 48 ;;
  cols <- col_xor cols 50 44 49 ;;
  col_xor cols 51 45 50.

(** aes_bitslice.rs:383-408 keygen_256; [f'] is the formula of the line after the loop. *)
Definition col_keygen_256 (be : bool) (f f' : N -> N -> N -> N) (g : N -> N -> N) (key : list N)
  : outcome (list N) :=
  cols <- col_load be 60 key ;;
  cols <- ofold (fun cols i =>
    cols <- col_first f cols (i + 8) (i + 0) (i + 7) (Nat.div i 8) ;;
    cols <- col_xor cols (i + 9) (i + 1) (i + 8) ;;
    cols <- col_xor cols (i + 10) (i + 2) (i + 9) ;;
    cols <- col_xor cols (i + 11) (i + 3) (i + 10) ;;
    cols <- col_mid g cols (i + 12) (i + 4) (i + 11) ;;
    cols <- col_xor cols (i + 13) (i + 5) (i + 12) ;;
    cols <- col_xor cols (i + 14) (i + 6) (i + 13) ;;
    col_xor cols (i + 15) (i + 7) (i + 14)) (step_by 48 8) cols ;;
  cols <- col_first f' cols 56 48 55 6 ;;
  cols <- col_xor cols 57 49 56 ;;
  cols <- col_xor cols 58 50 57 ;;
  col_xor cols 59 51 58.

(** Reading the column array back as [n] blocks: the 16-byte memory images of the blocks. *)
(* The column array is the memory of the array of blocks (slice::from_raw_parts_mut) in keygen_*: aes_bitslice.rs:340-410, aes_arm.rs:171-254, aes_riscv32.rs:196-270. *)
Definition col_blocks (be : bool) (n : nat) (cols : list N) : list (list N) :=
  chunks 16 n (concat (map (to_ne be 4) cols)).
