(** SPECIFICATION.  What the two non-conforming builds (RV32 with Zkne/Zknd; the constant-time feature on a
    big-endian target) compute instead of AES, written with the operations of [Fips197] only.  The theorems
    in Props_Actual.v say that this is exactly what they compute. *)
From Verif Require Import Word Fips197.
Open Scope N_scope.

(** ** Key schedules that differ from KeyExpansion in the step for w[i], i a multiple of Nk *)
(** FIPS 197 Algorithm 2 with [SubWord(RotWord(temp)) xor Rcon[i/Nk]] replaced by [first (i/Nk) temp]. *)
Definition expand_step_with (first : nat -> list N -> list N) (nk : nat) (w : list (list N)) (i : nat) : list (list N) :=
  let temp := nth (i - 1) w [] in
  let temp' :=
    if Nat.eqb (Nat.modulo i nk) 0 then first (Nat.div i nk) temp
    else if Nat.ltb 6 nk && Nat.eqb (Nat.modulo i nk) 4 then sub_word temp
    else temp in
  w ++ [xor_word (nth (i - nk) w []) temp'].
Definition key_expansion_with (first : nat -> list N -> list N) (nk nr : nat) (key : list N) : list (list N) :=
  fold_left (expand_step_with first nk) (seq nk (4 * (nr + 1) - nk)) (chunks 4 nk key).
Definition round_keys_with (first : nat -> list N -> list N) (k : key_size) (key : list N) : list (list N) :=
  map (round_key (key_expansion_with first (nk_of k) (nr_of k) key)) (seq 0 (nr_of k + 1)).

(** The standard one. *)
Definition std_first (j : nat) (temp : list N) : list N := xor_word (sub_word (rot_word temp)) (rcon j).
(** RV32: RotWord is missing, for AES-256 only in the seventh (last) step. *)
Definition rv32_rotates (k : key_size) (j : nat) : bool := match k with K256 => negb (Nat.eqb j 7) | _ => false end.
Definition rv32_first (k : key_size) (j : nat) (temp : list N) : list N :=
  if rv32_rotates k j then std_first j temp else xor_word (sub_word temp) (rcon j).
Definition rv32_round_keys (k : key_size) (key : list N) : list (list N) := round_keys_with (rv32_first k) k key.
(** Big-endian constant-time: the word is rotated the other way and Rcon goes into its last byte. *)
Definition rot_word_back (w : list N) : list N := match w with [a; b; c; d] => [d; a; b; c] | _ => w end.
Definition be_first (j : nat) (temp : list N) : list N := xor_word (sub_word (rot_word_back temp)) (rev (rcon j)).
Definition be_round_keys (k : key_size) (key : list N) : list (list N) := round_keys_with be_first k key.

(** CIPHER and INVCIPHER on a list of round keys. *)
Definition cipher_with (k : key_size) (rks : list (list N)) (inp : list N) : list N :=
  cipher (nr_of k) (concat (map (chunks 4 4) rks)) inp.
Definition inv_cipher_with (k : key_size) (rks : list (list N)) (inp : list N) : list N :=
  inv_cipher (nr_of k) (concat (map (chunks 4 4) rks)) inp.

(** ** RV32 rounds: decryption shifts the rows in the encryption direction *)
Definition rv32_dec (s k : list N) : list N := add_round_key (inv_mix_columns (inv_sub_bytes (shift_rows s))) k.
Definition rv32_dec_last (s k : list N) : list N := add_round_key (inv_sub_bytes (shift_rows s)) k.
Definition rv32_mc (s : list N) : list N := mix_columns (shift_rows (shift_rows s)).
Definition rv32_imc (s : list N) : list N := inv_mix_columns (shift_rows (shift_rows s)).
(** RV32 chains: each key is added after its round and the last one is only added:
    x.round(keys[0])...round(keys[n-2]) ^ keys[n-1]. *)
Definition rv32_chain (round : list N -> list N -> list N) (x : list N) (keys : list (list N)) : list N :=
  add_round_key (fold_left round (removelast keys) x) (last keys []).
(** RV32 encryption of a block under round keys k_0 ... k_nr: CIPHER with the round keys
    0, k_0, ..., k_(nr-3), k_(nr-2) xor k_(nr-1), k_nr. *)
Definition rv32_effective (rks : list (list N)) : list (list N) :=
  let nr := (length rks - 1)%nat in
  repeat 0 16 :: firstn (nr - 2) rks ++ [xor_word (nth (nr - 2) rks []) (nth (nr - 1) rks []); nth nr rks []].
Definition rv32_encrypt (k : key_size) (rks : list (list N)) (x : list N) : list N := cipher_with k (rv32_effective rks) x.
(** RV32 decryption objects: the reversed list, [rv32_imc] applied to the inner keys; decryption of a block. *)
Definition rv32_dec_keys (rks : list (list N)) : list (list N) :=
  match rev rks with
  | [] => []
  | k0 :: r => k0 :: map rv32_imc (removelast r) ++ [last r []]
  end.
Definition rv32_decrypt (k : key_size) (dks : list (list N)) (x : list N) : list N :=
  rv32_dec_last (rv32_chain rv32_dec x (firstn (nr_of k) dks)) (nth (nr_of k) dks []).
