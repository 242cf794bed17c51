(** Block encryption with the table-based backend (src/aes_table_based.rs) as a program of the language
    of Spec_Leak.v: what its table look-ups show.  The key object is given ("rk" holds its round keys);
    key set-up is not part of this program. *)
From Coq Require Import String.
From Coq Require Import List.
From Verif Require Import Word Fips197 Spec_Leak Tables Model_Leak.
Open Scope string_scope.
Open Scope list_scope.
Open Scope N_scope.
Open Scope leak_scope.

(** aes_table_based.rs:355-384, macro declare!: [$table[x as u8 as usize]] *)
Definition x_lut (t : string) (e : exp) : exp := Index t (Un (As 8) e).
(** aes_table_based.rs:9-15, load_u32_be(&value, offset) *)
Definition x_load (offset : N) : exp :=
  Un (Shl 32 24) (Index "in" (Lit (offset + 0))) :|: Un (Shl 32 16) (Index "in" (Lit (offset + 1)))
  :|: Un (Shl 32 8) (Index "in" (Lit (offset + 2))) :|: Index "in" (Lit (offset + 3)).
(** field [j] of round key [i]: a fixed offset in the key object *)
Definition x_rk (i : exp) (j : N) : exp := Index "rk" (Bin Times (Lit 4) i :+: j).
(** one component of enc (aes_table_based.rs:116-123) and of enc_last (127-150) *)
Definition x_te (a b c d : string) (rk : exp) : exp :=
  x_lut "TE0" ($a :>>: 24) :^: x_lut "TE1" ($b :>>: 16) :^: x_lut "TE2" ($c :>>: 8) :^: x_lut "TE3" $d :^: rk.
Definition x_te4 (a b c d : string) (rk : exp) : exp :=
  (x_lut "TE4" ($a :>>: 24) :&: Lit 0xff000000) :^: (x_lut "TE4" ($b :>>: 16) :&: Lit 0xff0000)
  :^: (x_lut "TE4" ($c :>>: 8) :&: Lit 0xff00) :^: (x_lut "TE4" $d :&: Lit 0xff) :^: rk.
(** self = Self(...): the four components are computed from the old ones *)
Definition s_round (f : string -> string -> string -> string -> exp -> exp) (i : exp) : stmt :=
  block [Assign "t0" (f "s0" "s1" "s2" "s3" (x_rk i 0)); Assign "t1" (f "s1" "s2" "s3" "s0" (x_rk i 1));
         Assign "t2" (f "s2" "s3" "s0" "s1" (x_rk i 2)); Assign "t3" (f "s3" "s0" "s1" "s2" (x_rk i 3));
         Assign "s0" $"t0"; Assign "s1" $"t1"; Assign "s2" $"t2"; Assign "s3" $"t3"].
(** aes_table_based.rs:85-92 *)
Definition t_input : stmt :=
  block [Assign "s0" (x_load 0); Assign "s1" (x_load 4); Assign "s2" (x_load 8); Assign "s3" (x_load 12)].
(** [self ^ keys[0]], lib.rs:396-422 with aes_table_based.rs:60-72 *)
Definition t_whiten : stmt :=
  block [Assign "s0" ($"s0" :^: x_rk (Lit 0) 0); Assign "s1" ($"s1" :^: x_rk (Lit 0) 1);
         Assign "s2" ($"s2" :^: x_rk (Lit 0) 2); Assign "s3" ($"s3" :^: x_rk (Lit 0) 3)].
(** aes_table_based.rs:17-23, 95-101 into a zeroed array *)
Definition t_store (x : string) (off : N) : list stmt :=
  [Store "out" (Lit (off + 0)) (Un (As 8) ($x :>>: 24)); Store "out" (Lit (off + 1)) (Un (As 8) ($x :>>: 16));
   Store "out" (Lit (off + 2)) (Un (As 8) ($x :>>: 8)); Store "out" (Lit (off + 3)) (Un (As 8) $x)].
Definition t_output : stmt :=
  block (Zeroed "out" 16 :: t_store "s0" 0 ++ t_store "s1" 4 ++ t_store "s2" 8 ++ t_store "s3" 12).
(** lib.rs:467-471, instantiated at lib.rs:520-522: encrypt_block, bytes to bytes *)
Definition table_encrypt (k : key_size) : stmt :=
  block [t_input; t_whiten; For "i" 1 1 (nr_of k - 1) (s_round x_te (Ctr "i"));
         s_round x_te4 (Lit (N.of_nat (nr_of k))); t_output].

(** The words of the key object with round keys [rks] (lists of 16 bytes), big-endian words. *)
(* The memory of [AesBlock; N] with AesBlock(u32, u32, u32, u32), aes_table_based.rs:7, 85-92. *)
Definition key_words (rks : list (list N)) : list N := List.concat (map (fun b => map of_be (chunks 4 4 b)) rks).
(* No counterpart in the source: the memory the caller of lib.rs:467-516 provides, and the tables aes_table_based.rs:373-734. *)
Definition start_table (rks : list (list N)) (msg : list N) : state :=
  State (fun _ => 0) (fun _ => 0)
        (fun a => if String.eqb a "in" then msg else if String.eqb a "rk" then key_words rks
                  else if String.eqb a "TE0" then TE0 else if String.eqb a "TE1" then TE1
                  else if String.eqb a "TE2" then TE2 else if String.eqb a "TE3" then TE3
                  else if String.eqb a "TE4" then TE4 else []).
