(** SPECIFICATION for C53: FIPS 197 (update 1), section 5.3.5: the key schedule and the algorithm of the equivalent inverse cipher. *)
From Coq Require Import Arith.
From Verif Require Import Word Fips197.
Open Scope nat_scope.

(** KEYEXPANSIONEIC (Algorithm 5): "dw <- w; for round from 1 to Nr - 1: dw[4*round..4*round+3] <- INVMIXCOLUMNS(dw[4*round..4*round+3])", by rounds *)
Definition eic_round_key (k : key_size) (key : list N) (round : nat) : list N :=
  let w := round_key (key_expansion (nk_of k) (nr_of k) key) round in
  if (1 <=? round) && (round <=? nr_of k - 1) then inv_mix_columns w else w.

(** CIPHER (Algorithm 1) and EQINVCIPHER (Algorithm 4) under any round keys *)
Definition run_cipher (nr : nat) (rk : nat -> list N) (inp : list N) : list N :=
  let s := fold_left (fun s round => add_round_key (mix_columns (shift_rows (sub_bytes s))) (rk round)) (seq 1 (nr - 1)) (add_round_key inp (rk 0)) in
  add_round_key (shift_rows (sub_bytes s)) (rk nr).
Definition run_eq_inv_cipher (nr : nat) (dk : nat -> list N) (inp : list N) : list N :=
  let s := fold_left (fun s round => add_round_key (inv_mix_columns (inv_shift_rows (inv_sub_bytes s))) (dk round)) (rev (seq 1 (nr - 1))) (add_round_key inp (dk nr)) in
  add_round_key (inv_shift_rows (inv_sub_bytes s)) (dk 0).
