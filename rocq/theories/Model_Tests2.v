(** Tests, not proofs, of the later claims (C33 - C49); see Model_Tests.v. *)
From Coq Require Import String Arith.
From Verif Require Import Word Interface Fips197 Spec_Api Spec_User Spec_Cfg Spec_Fmt Spec_Leak Spec_Actual Spec_Insn Spec_Mem Spec_MemUser Spec_Algebra Spec_Client Spec_ClientActual Spec_Threads Spec_Assemble Spec_Modes Spec_Cost Spec_Aegis Spec_Eic Spec_Layout Spec_Sink Spec_LeakBlock Spec_LeakClient Spec_LeakSoft Tables.
From Verif Require Import Model_Lib Model_Cfg Model_Fmt Model_Leak Model_LeakAccel Model_LeakSoft Model_Running Model_LeakTable Model_LeakBlock Model_Mem Model_Client Model_LeakClient Model_Layout Model_Sink.
From Verif Require Import Model_Table Model_Bitslice Model_X86 Model_Vaes Model_Arm Model_Rv64 Model_Rv32 Model_Wide Model_Tests.
Open Scope string_scope.
Open Scope N_scope.
Open Scope list_scope.

Definition with_impl (c : cfg) (f : impl -> bool) : bool := match impl_of c with Some i => f i | None => false end.
(** C33, C34 *)
Definition t33 : bool := with_impl c_rv32 (fun i => key_sizes (fun k key => let rks := rv32_round_keys k key in
  is lleqb (key_bytes i k key) rks && forallb (fun p =>
    is leqb (encrypt_bytes i k key p) (rv32_encrypt k rks p) &&
    is leqb (decrypt_bytes i k key p) (rv32_decrypt k (rv32_dec_keys rks) p) &&
    is leqb (decrypt_bytes_via_enc i k key p) (rv32_decrypt k (rv32_dec_keys rks) p)) [blkA; blkC]) &&
  forallb (fun ab => is leqb (op2_bytes i (o_dec (i_ops1 i)) (fst ab) (snd ab)) (rv32_dec (fst ab) (snd ab)) &&
                     is leqb (op2_bytes i (o_dec_last (i_ops1 i)) (fst ab) (snd ab)) (rv32_dec_last (fst ab) (snd ab))) (pairs blks) &&
  forallb (fun a => is leqb (op1_bytes i (e_mc (i_ext i)) a) (rv32_mc a) && is leqb (op1_bytes i (e_imc (i_ext i)) a) (rv32_imc a)) blks).
Definition t34 : bool := with_impl c_ct_be (fun i => key_sizes (fun k key => let rks := be_round_keys k key in
  is lleqb (key_bytes i k key) rks && forallb (fun p =>
    is leqb (encrypt_bytes i k key p) (cipher_with k rks p) &&
    is leqb (decrypt_bytes i k key p) (inv_cipher_with k rks p) &&
    is leqb (decrypt_bytes_via_enc i k key p) (inv_cipher_with k rks p)) [blkA; blkC])).
(** C35: keys that differ in one byte give schedules that differ, and in every window of adjacent round keys. *)
Definition other_key (j : nat) (key : list N) : list N := firstn j key ++ N.lxor (nth j key 0) 1 :: skipn (S j) key.
Definition t_window (k : key_size) : nat := match k with K128 => 1%nat | _ => 2%nat end.
Definition t35 (i : impl) : bool := key_sizes (fun k key => forallb (fun j =>
  match key_bytes i k key, key_bytes i k (other_key j key) with
  | Ret a, Ret b => forallb (fun r => negb (lleqb (firstn (t_window k) (skipn r a)) (firstn (t_window k) (skipn r b)))) (seq 0 (nr_of k + 2 - t_window k))
  | _, _ => true end) [0; 7; key_len k - 1]%nat).
(** C37 *)
Definition t37_one (c : cfg) : bool :=
  implb (rustc_ok c) match running c with
  | None => false
  | Some p => match engine_of p (c_be c) with
    | None => true
    | Some e => forallb (fun k => forallb (fun g => forallb (fun program : engine -> key_size -> nat -> nat -> stmt =>
        forallb (available c) (insns (program e k (vec_n p g) (vec_m p g)))) [encrypt_program; decrypt_program; convert_program]) [One; Two; Four]) [K128; K256]
    end end.
(** every architecture and feature set, one endianness and no debug assertions *)
Definition some_cfg (f : cfg -> bool) : bool :=
  forallb (fun a => forallb (fun ct => forallb (fun s41 => forallb (fun aes => forallb (fun vaes => forallb (fun avx => forallb (fun v8 => forallb (fun zkne => forallb (fun zknd =>
    f (Cfg a false true ct s41 aes vaes avx v8 zkne zknd false)) bools) bools) bools) bools) bools) bools) bools) [false])
  [X86_64; Aarch64; Arm; Riscv32; Riscv64].
(** C38: the pointer code at odd addresses, in buffers of every interesting length. *)
Definition t_mem : mem := map N.of_nat (seq 1 150).
Definition mem_eqb : mem -> mem -> bool := leqb.
Definition t38_one {T} (o : ops T) (p : ptr_ops T) (n : nat) (l : list (list N)) : bool :=
  forallb (fun b => match o_from o b with Ret x =>
    forallb (fun al => let s := Slice (fst al) (snd al) in
      let '(r, m) := q_store p x t_mem s in
      if Nat.ltb (snd al) n then panics r && mem_eqb m t_mem else okr r && mem_eqb m (overwrite t_mem (fst al) b))
    [(0, n); (1, n); (3, n + 5); (7, n - 1); (5, 0); (150 - n, n)]%nat | _ => false end) l &&
  forallb (fun dbg => forallb (fun al => let s := Slice (fst al) (snd al) in
      match q_try_from dbg n p (fun j => (8 * j + 1)%nat) t_mem s with
      | Ret (Err e) => Nat.ltb (snd al) n && Nat.eqb e (snd al)
      | Ret (Ok x) => negb (Nat.ltb (snd al) n) && shows_b o x (firstn n (skipn (fst al) t_mem))
      | _ => false end) [(0, n); (1, n); (3, n + 5); (7, n - 1); (5, 0); (150 - n, n)]%nat) bools.
Definition t38 : list (string * bool) :=
  [("C38:table", t38_one table_ops table_ptr 16 blks); ("C38:bitslice", t38_one (bitslice_ops false) (bitslice_ptr false) 16 blks);
   ("C38:bitslice_be", t38_one (bitslice_ops true) (bitslice_ptr true) 16 blks); ("C38:x86", t38_one x86_ops (vec_ptr 16) 16 blks);
   ("C38:vaes2", t38_one vaes2_ops (vec_ptr 32) 32 wide2); ("C38:vaes4", t38_one vaes4_ops (vec_ptr 64) 64 wide4);
   ("C38:arm", t38_one (arm_ops false) arm_ptr 16 blks); ("C38:arm32", t38_one (arm_ops true) arm_ptr 16 blks);
   ("C38:rv64", t38_one rv64_ops r64_ptr 16 blks); ("C38:rv32", t38_one rv32_ops r32_ptr 16 blks);
   ("C38:x2", forallb (fun dbg => t38_one (pair_ops dbg 16 rv64_ops) (pair_ptr dbg 16 r64_ptr) 32 wide2) bools);
   ("C38:x4", forallb (fun dbg => t38_one (pair_ops dbg 32 (pair_ops dbg 16 table_ops)) (pair_ptr dbg 32 (pair_ptr dbg 16 table_ptr)) 64 wide4 &&
                                  t38_one (pair_ops dbg 32 vaes2_ops) (pair_ptr dbg 32 (vec_ptr 32)) 64 wide4) bools)].
(** C39 *)
Definition t_added {T} (o : ops T) (wth : list N -> (T -> bool) -> bool) (ws : list (list N)) : bool :=
  wth (nth 0 ws []) (fun x => wth (nth 1 ws []) (fun a => wth (nth 5 ws []) (fun b =>
    same o (o_enc o x (o_xor o a b)) (o_xor o (o_enc o x a) b) && same o (o_dec o x (o_xor o a b)) (o_xor o (o_dec o x a) b) &&
    same o (o_enc_last o x (o_xor o a b)) (o_xor o (o_enc_last o x a) b) && same o (o_dec_last o x (o_xor o a b)) (o_xor o (o_dec_last o x a) b)))).
Definition t39 (i : impl) : bool :=
  t_added (i_ops1 i) (with1 i) blks && t_added (i_ops2 i) (with2 i) wide2 && t_added (i_ops4 i) (with4 i) wide4 &&
  forallb (fun ab => with1 i (fst ab) (fun x => with1 i (snd ab) (fun y => let o := i_ops1 i in
    same o (e_mc (i_ext i) (o_xor o x y)) (o_xor o (e_mc (i_ext i) x) (e_mc (i_ext i) y)) &&
    same o (e_imc (i_ext i) (o_xor o x y)) (o_xor o (e_imc (i_ext i) x) (e_imc (i_ext i) y))))) (pairs blks) &&
  forallb (fun j => match op2_bytes i (o_enc (i_ops1 i)) blkA blkB, op2_bytes i (o_enc (i_ops1 i)) (other_key j blkA) blkB with
    | Ret a, Ret b => leqb (map N.of_nat (differing 16 a b)) (map N.of_nat (column (Nat.modulo (j / 4 + 4 - Nat.modulo j 4) 4))) | _, _ => false end) (seq 0 16).

(** C40 *)
Definition answer_eqb (a b : answer) : bool :=
  match a, b with
  | Made m, Made n | Too_short m, Too_short n => Nat.eqb m n
  | Bytes x, Bytes y => leqb x y
  | Buffer p x, Buffer q y => Bool.eqb p q && leqb x y
  | Number x, Number y => x =? y
  | Truth x, Truth y => Bool.eqb x y
  | Text x, Text y => String.eqb x y
  | Panics, Panics | Undefined, Undefined | Ill_typed, Ill_typed => true
  | _, _ => false
  end.
Fixpoint answers_eqb (a b : list answer) : bool := match a, b with [], [] => true | x :: a, y :: b => answer_eqb x y && answers_eqb a b | _, _ => false end.
Definition t40_on (i : impl) (l : list call) : bool := answers_eqb (map snd (play (crate i) [] (straight l))) (map snd (play ideal [] (straight l))).
(** every function of one width, then everything is looked at *)
Definition show_all (g : group) (xs : list nat) : list call := flat_map (fun x => [On g (To_array x); On g (Debug true None x); On g (Is_zero x)]) xs.
Definition enc_part (g : group) (w : nat -> list N) : list call :=
  [On g (New (w 0%nat)); On g (From_array (w 1%nat)); On g (From_ref (w 2%nat)); On g (Try_from (w 0%nat ++ [7])); On g Zero; On g Default;   (* 0-5 *)
   On g (And 0 1); On g (Or 0 1); On g (Xor 0 1); On g (Not 0);                                                                              (* 6-9 *)
   On g (Enc 0 1); On g (Enc_last 0 1); On g (Chain_enc 0 [1%nat]); On g (Chain_dec 1 [2%nat]); Copy 2;                                       (* 10-14 *)
   On g (Try_from [1; 2]); On g (Chain_enc 0 []); On g (Chain_dec 0 []);
   On g (And_assign 14 1); On g (To_array 14); On g (Or_assign 14 0); On g (To_array 14); On g (Xor_assign 14 2); On g (To_array 2);
   On g (Store_to 0 [1; 2; 3]); On g (Store_to 0 (map N.of_nat (seq 1 70))); On g (Equal 0 1); On g (Equal 0 3); On g (Equal 4 5); On g (Debug false (Some 70%nat) 0)] ++
  show_all g (seq 0 15).
Definition dec_part (g : group) (w : nat -> list N) : list call :=
  [On g (New (w 0%nat)); On g (New (w 1%nat)); On g (New (w 5%nat));
   On g (Dec 0 1); On g (Dec_last 0 1); On g (Chain_enc 0 [1; 2; 0]%nat); On g (Chain_dec 0 [1; 2; 0]%nat); On g (Chain_enc 0 [2; 1]%nat); On g (Chain_dec 0 [2; 1]%nat)] ++ show_all g (seq 0 9).
Definition conv_part : list call :=
  [On One (New blkA); On One (New blkB); On One (New blkC); On One (New blkD);                             (* 0-3 *)
   From_u128 0x000102030405060708090a0b0c0d0eff; X2_from_pair 0 1; X2_from_block 2; X2_into_pair 5;         (* 4-8 *)
   X4_from_quad 0 1 2 3; X4_from_pair 6 5; X4_from_block 3; X4_from_x2 5; X4_into_quad 9; X4_into_pair 10;  (* 9-12, 13-16, 17-18 *)
   To_u128 0; To_u128 4; Print LowerHex true None 0; Print UpperHex true None 2; Print Binary true (Some 3%nat) 0; Print Display true None 2; Print Display false None 2] ++
  show_all One [4; 7; 8; 13; 14; 15; 16]%nat ++ show_all Two [5; 6; 17; 18]%nat ++ show_all Four [9; 10; 11; 12]%nat ++ [On One (To_array 5); On Two (Equal 0 5)].
Definition key_part (k : key_size) : list call :=
  [Enc_from k (t_key' k); Dec_from k (t_key k); Decrypter 0; Encrypter 1; Decrypter 3; Encrypter 2;         (* 0-5 *)
   On One (New blkA); On Two (New (blkA ++ blkB)); On Four (New (abcd))] ++                                 (* 6-8 *)
  flat_map (fun e => [On One (Encrypt e 6); On Two (Encrypt e 7); On Four (Encrypt e 8)]) [0; 3; 5]%nat ++  (* 9-17 *)
  flat_map (fun d => [On One (Decrypt d 6); On Two (Decrypt d 7); On Four (Decrypt d 8)]) [1; 2; 4]%nat ++  (* 18-26 *)
  flat_map (fun x => [On One (To_array x); On Two (To_array (S x)); On Four (To_array (S (S x)))]) [9; 12; 15; 18; 21; 24]%nat ++
  map (Debug_key true None) (seq 0 7) ++ [Debug_key false None 0; Debug_key false (Some 4%nat) 1; Copy 2; Debug_key false None 27; Decrypter 1; Encrypter 0; On One (Encrypt 1 6)].
Definition mc_part : list call := [On One (New blkC); Mc 0; Imc 0; Imc 1; On One (Equal 0 3); On One (To_array 1); On One (To_array 2)].
Definition w1 j := nth j blks []. Definition w2' j := nth j wide2 []. Definition w4' j := nth j wide4 [].
(** each part only where C40 promises it *)
Definition t40 (nc : string * cfg) : list (string * bool) :=
  match impl_of (snd nc) with
  | None => [("C40:none", false)]
  | Some i =>
      [("C40:enc:" ++ fst nc, t40_on i (enc_part One w1) && t40_on i (enc_part Two w2') && t40_on i (enc_part Four w4'))%string; ("C40:conv:" ++ fst nc, t40_on i conv_part)%string] ++
      (if rv32_zk (snd nc) then [] else
        [("C40:dec:" ++ fst nc, t40_on i (dec_part One w1) && t40_on i (dec_part Two w2') && t40_on i (dec_part Four w4') && t40_on i mc_part)%string]) ++
      (if conforming (snd nc) then [("C40:key:" ++ fst nc, t40_on i (key_part K128) && t40_on i (key_part K192) && t40_on i (key_part K256))%string] else [])
  end.

(** C41: every part on every build, against the library of its flavour *)
Definition t41_on (i : impl) (fl : flavour) (l : list call) : bool := answers_eqb (map snd (play (crate i) [] (straight l))) (map snd (play (library fl) [] (straight l))).
Definition t41_parts : list (list call) :=
  [enc_part One w1; enc_part Two w2'; enc_part Four w4'; dec_part One w1; dec_part Two w2'; dec_part Four w4'; conv_part; mc_part; key_part K128; key_part K192; key_part K256].
Definition t41 (c : cfg) : bool := with_impl c (fun i => forallb (t41_on i (flavour_of c)) t41_parts).
(** C42: three threads over shared objects, round-robin and in bursts *)
Definition t42_setup : list call := [Enc_from K128 (t_key K128); Dec_from K256 (t_key K256); On One (New blkA); On Two (New (blkA ++ blkC)); On Four (New abcd)].
Definition t42_threads : list (list call) :=
  [[On One (Encrypt 0 2); On One (To_array 5); Decrypter 0; On One (Decrypt 6 5); On One (Equal 2 7); On One (Xor_assign 2 5); On One (To_array 2)];
   [On Two (Decrypt 1 3); Copy 5; On Two (Xor_assign 6 3); On Two (To_array 6); On Two (Store_to 3 (repeat 0 33)); On Two (Enc 3 5); On Two (To_array 7)];
   [On Four (Encrypt 0 4); On Four (Chain_dec 4 [5; 4]%nat); On Four (To_array 6); X4_into_quad 4; On One (And_assign 7 2); On One (To_array 7); Debug_key false None 0; Print LowerHex false None 2]].
Definition t42_schedules : list (list nat) := [List.concat (repeat [0; 1; 2]%nat 120); List.concat (repeat [2; 2; 0; 1; 1; 1; 0]%nat 60); repeat 1%nat 120 ++ repeat 0%nat 120 ++ repeat 2%nat 120].
Definition t42_seen (i : impl) (schedule : list nat) : list (list answer) :=
  let shared := final (crate i) [] (straight t42_setup) in
  map (fun th => map snd (seen th)) (threads (interleave (crate i) (List.length shared) (launch shared (map straight t42_threads)) schedule)).
Definition t42_solo (fl : flavour) : list (list answer) :=
  let shared := final (library fl) [] (straight t42_setup) in
  map (fun l => map snd (play (sharing (library fl) (List.length shared)) shared (straight l))) t42_threads.
Fixpoint prefix_of (a b : list answer) : bool := match a, b with [], _ => true | x :: a, y :: b => answer_eqb x y && prefix_of a b | _, _ => false end.
Fixpoint prefixes (a b : list (list answer)) : bool := match a, b with [], [] => true | x :: a, y :: b => prefix_of x y && prefixes a b | _, _ => false end.
Definition t42 (c : cfg) : bool := with_impl c (fun i => forallb (fun s => prefixes (t42_seen i s) (t42_solo (flavour_of c))) t42_schedules).
(** all threads have finished *)
Definition t42_all (c : cfg) : bool := with_impl c (fun i => forallb (fun s => match t42_seen i s with [a; b; d] => Nat.eqb (List.length a) 7 && Nat.eqb (List.length b) 7 && Nat.eqb (List.length d) 8 | _ => false end) t42_schedules).

(** C43: every program of the block types against the API, and traces: all equal, except for ==, where they are equal as [agreeing] says *)
Definition t43_ops (g : group) : list (list N) := match g with One => [blkA; blkB] | Two => [blkA ++ blkC; blkC ++ blkD] | Four => [abcd; rev abcd] end.
Definition t43_pairs (g : group) : list (list N * list N) :=
  match g with
  | One => [(blkA, blkA); (blkA, blkB); (blkA, firstn 12 blkA ++ skipn 12 blkB); (blkA, firstn 8 blkA ++ skipn 8 blkB); (blkA, firstn 4 blkA ++ skipn 4 blkB)]
  | Two => [(blkA ++ blkC, blkA ++ blkC); (blkA ++ blkC, blkB ++ blkC); (blkA ++ blkC, blkA ++ blkD); (blkA ++ blkC, firstn 8 blkA ++ skipn 8 blkB ++ blkC)]
  | Four => [(abcd, abcd); (abcd, rev abcd); (abcd, blkA ++ blkB ++ blkC ++ blkC); (abcd, blkA ++ blkC ++ blkC ++ blkD); (abcd, blkA ++ blkB ++ blkD ++ blkD)]
  end.
Definition t43_run (p : stmt) (key a : list N) : list N := arrs (Spec_Leak.final p (start key a)) "out".
Definition t43_quiet (tables : bool) (p : stmt) (g : group) (key key' : list N) : bool :=
  match t43_ops g with a :: b :: _ => trace_eqb (map (veil tables) (trace p (start key a))) (map (veil tables) (trace p (start key' b))) | _ => false end.
Definition t43_binary (tables : bool) (i : impl) (be : bool) (n m : nat) (g : group) (f : forall T, ops T -> T -> T -> T) (e : exp -> exp -> exp) : bool :=
  match t43_ops g with a :: b :: _ => is leqb (binary_bytes i g f a b) (t43_run (binary_program be n m e) b a) && t43_quiet tables (binary_program be n m e) g a b | _ => false end.
Definition t43_data (c : cfg) (i : impl) (p : promised) (g : group) : bool :=
  let be := block_be p (c_be c) in let n := vec_n p g in let m := vec_m p g in
  t43_binary true i be n m g (fun T o => o_and o) (Bin Spec_Leak.And) && t43_binary true i be n m g (fun T o => o_or o) (Bin Spec_Leak.Or) && t43_binary true i be n m g (fun T o => o_xor o) (Bin Spec_Leak.Xor) &&
  forallb (fun a => is leqb (unary_bytes i g (fun T o => o_not o) a) (t43_run (unary_program be n m (x_not n)) a a)) (t43_ops g) && t43_quiet true (unary_program be n m (x_not n)) g [] [] &&
  forallb (fun a => is leqb (is_zero_bytes i g a) (t43_run (is_zero_program be n m) a a)) (repeat 0 (group_len g) :: (repeat 0 (group_len g - 1) ++ [1]) :: t43_ops g) && t43_quiet true (is_zero_program be n m) g [] [] &&
  forallb (fun ab => is leqb (equal_bytes i g (fst ab) (snd ab)) (t43_run (equal_program be n m (eq_fields p)) (snd ab) (fst ab))) (t43_pairs g) &&
  let fields := (m * eq_fields p)%nat in let size := (group_len g / fields)%nat in
  let shown ab := trace (equal_program be n m (eq_fields p)) (start (snd ab) (fst ab)) in
  forallb (fun x => forallb (fun y => Bool.eqb (trace_eqb (shown x) (shown y)) (Nat.eqb (agreeing size (fields - 1) (fst x) (snd x)) (agreeing size (fields - 1) (fst y) (snd y)))) (t43_pairs g)) (t43_pairs g).
(* the default software implementation looks data up in tables: Spec_LeakClient.v *)
Definition sees_all (p : promised) : bool := match p with P_software => false | _ => true end.
Definition t43_engine (i : impl) (e : engine) (p : promised) (g : group) : bool :=
  let be := g_be e in let tables := sees_all p in let n := vec_n p g in let m := vec_m p g in
  t43_binary tables i be n m g (fun T o => o_enc o) (g_enc e n) && t43_binary tables i be n m g (fun T o => o_enc_last o) (g_enc_last e n) &&
  t43_binary tables i be n m g (fun T o => o_dec o) (g_dec e n) && t43_binary tables i be n m g (fun T o => o_dec_last o) (g_dec_last e n) &&
  forallb (fun dec : bool => let prog := chain_program be n m (option_map (if dec then snd else fst) (g_pre e)) (if dec then g_dec e n else g_enc e n) 2 in
    forallb (fun a => is leqb (chain_call_bytes i g dec a (t43_ops g)) (t43_run prog (concat (t43_ops g)) a)) (t43_ops g) && t43_quiet tables prog g (concat (t43_ops g)) (rev (concat (t43_ops g)))) [false; true].
Definition t43_mix (i : impl) (e : engine) : bool :=
  forallb (fun a => is leqb (x <- o_from (i_ops1 i) a ;; to_bytes (i_ops1 i) (e_mc (i_ext i) x)) (t43_run (unary_program (g_be e) 1 1 (g_mc e)) [] a) &&
                    is leqb (x <- o_from (i_ops1 i) a ;; to_bytes (i_ops1 i) (e_imc (i_ext i) x)) (t43_run (unary_program (g_be e) 1 1 (g_imc e)) [] a)) (t43_ops One).
Definition t43 (c : cfg) : bool := with_impl c (fun i => match running c with
  | None => false
  | Some p => forallb (t43_data c i p) [One; Two; Four] && match engine_of p (c_be c) with None => true | Some e => forallb (t43_engine i e p) [One; Two] && (Nat.eqb (vec_m p Four) 4 || t43_binary (sees_all p) i (g_be e) (vec_n p Four) (vec_m p Four) Four (fun T o => o_dec o) (g_dec e (vec_n p Four))) && t43_mix i e end end).

(** C44: every silent call at least once, in two variants with other bytes. *)
Definition t44_calls (flip : bool) : list call :=
  let b (x y : list N) := if flip then y else x in
  [On One (New (b blkA blkB)); On Two (From_array (b (blkA ++ blkC) (blkD ++ blkB))); On Four (From_ref (b abcd (rev abcd))); On One (Try_from (b (blkA ++ [1%N]) (blkB ++ [2%N])));
   On Two (Try_from (b blkA blkB)); On One Zero; On Four Default; On One (Spec_Client.And 0 3); On Two (Spec_Client.Or 1 1); On Four (Spec_Client.Xor 2 5); On One (Spec_Client.Not 0);
   On One (And_assign 0 9); On Four (Or_assign 2 5); On Two (Xor_assign 1 1); On One (Enc 0 3); On Two (Dec 1 1); On Four (Enc_last 2 2); On One (Dec_last 3 0);
   On Two (Chain_enc 1 [1; 7]%nat); On One (Chain_dec 0 [3; 0]%nat); On One (Chain_enc 0 []); On Four (To_array 2);
   On Two (Store_to 1 (b (repeat 9%N 33) (repeat 8%N 33))); On One (Store_to 0 (b (repeat 9%N 15) (repeat 8%N 15))); On Four (Is_zero 5); On One (Equal 0 3); On Two (Equal 1 7); On Four (Equal 2 5);
   From_u128 (if flip then 12345678901234567890123 else 5)%N; To_u128 0; Mc 0; Imc 3;
   X2_from_pair 0 3; X2_from_block 3; X2_into_pair 1; X4_from_quad 0 3 0 3; X4_from_pair 1 7; X4_from_block 0; X4_from_x2 7; X4_into_quad 2; X4_into_pair 2; Copy 1]%nat.
Definition t44_keys (flip : bool) : list call :=
  let b (x y : list N) := if flip then y else x in
  [Enc_from K128 (b blkA blkB); Dec_from K192 (b (firstn 24 abcd) (rev (firstn 24 abcd))); Dec_from K256 (b (firstn 32 abcd) (rev (firstn 32 abcd))); On One (New (b blkA blkD)); On Two (New (b (blkA ++ blkC) (blkD ++ blkB)));
   On One (Encrypt 0 3); On Two (Decrypt 1 4); On One (Decrypt 2 3); Decrypter 0; Encrypter 1; On One (Decrypt 8 3); On Two (Encrypt 9 4); Copy 8; On One (Decrypt 10 3)]%nat.
Definition t44_lists (tables : bool) (p : promised) (flip : bool) : list (list call) := map (filter (silent tables p)) [t44_calls flip; t44_keys flip].
Fixpoint traces_eqb (a b : list (list event)) : bool :=
  match a, b with [], [] => true | x :: a, y :: b => trace_eqb x y && traces_eqb a b | _, _ => false end.
Definition t44_with (tables : bool) (c : cfg) : bool := with_impl c (fun i => match running c with
  | None => false
  | Some p => let step := timed p (c_be c) in
      forallb (fun ll => traces_eqb (map (map (veil tables)) (watch step [] (straight (fst ll)))) (map (map (veil tables)) (watch step [] (straight (snd ll))))) (combine (t44_lists tables p true) (t44_lists tables p false)) end).
Definition t44 (c : cfg) : bool := t44_with true c && with_impl c (fun i => match running c with
  | None => false
  | Some p => let step := timed p (c_be c) in
      forallb (fun l => answers_eqb (map snd (play (heard step) [] (straight l))) (map snd (play (crate i) [] (straight l)))) [t44_calls true; t44_keys true] end).
Definition t44_counts (c : cfg) : nat := match running c with Some p => List.length (concat (t44_lists true p true)) | None => 0%nat end.
(** C45: the same calls, without what is seen of tables; and how many entries are read by the default software implementation. *)
Definition t45 (c : cfg) : bool := t44_with false c.
Definition t45_counts : bool :=
  forallb (fun kg => let '(k, g) := kg in let n := match g with One => 1 | Two => 2 | Four => 4 end%nat in let key := firstn (key_len k) abcd in let msg := firstn (group_len g) abcd in
    let t (program : engine -> key_size -> nat -> nat -> stmt) := trace (program table_engine k 1%nat n) (start key msg) in
    let small l := forallb (fun e => match e with Lookup _ i => i <? 256 | _ => true end)%N l in
    let crypt := (16 * nr_of k * n)%nat in let mixed := (32 * (nr_of k - 1))%nat in
    Nat.eqb (lookups (t encrypt_program)) (4 * subwords k + crypt) && Nat.eqb (lookups (t decrypt_program)) (4 * subwords k + mixed + crypt) &&
    Nat.eqb (lookups (t convert_program)) (4 * subwords k + mixed + mixed + crypt) && small (t encrypt_program) && small (t decrypt_program) && small (t convert_program))
    [(K128, One); (K192, One); (K256, Two)] &&
  forallb (fun t => Nat.eqb (List.length t) 256) [TE0; TE1; TE2; TE3; TE4; TD0; TD1; TD2; TD3; TD4].
(** C46: keys, messages, blocks that differ in one byte are told apart by the look-ups of one call of the default software
    implementation; second operands of rounds are not. *)
Definition t46 : bool :=
  let seen l := last (watch (timed P_software false) [] (straight l)) [] in
  let differ a b := negb (traces_eqb [seen a] [seen b]) in
  let flip j (l : list N) := firstn j l ++ match skipn j l with x :: r => N.lxor x 128 :: r | [] => [] end in
  forallb (fun k => let key := firstn (key_len k) abcd in let msg := firstn 32 abcd in
    forallb (fun j => let key' := flip j key in
      differ [Enc_from k key] [Enc_from k key'] && differ [Dec_from k key] [Dec_from k key'] &&
      differ [Enc_from k key; Decrypter 0] [Enc_from k key'; Decrypter 0] && differ [Dec_from k key; Encrypter 0] [Dec_from k key'; Encrypter 0] &&
      differ [Enc_from k key; On Two (New msg); On Two (Encrypt 0 1)] [Enc_from k key'; On Two (New msg); On Two (Encrypt 0 1)]) [0; 7; key_len k - 1]%nat &&
    forallb (fun j => let msg' := flip j msg in
      differ [Enc_from k key; On Two (New msg); On Two (Encrypt 0 1)] [Enc_from k key; On Two (New msg'); On Two (Encrypt 0 1)] &&
      differ [Dec_from k key; On Two (New msg); On Two (Decrypt 0 1)] [Dec_from k key; On Two (New msg'); On Two (Decrypt 0 1)]) [0; 31]%nat) [K128; K192; K256] &&
  forallb (fun j => let a := firstn 16 abcd in let a' := flip j a in
    differ [On One (New a); Mc 0] [On One (New a'); Mc 0] && differ [On One (New a); Imc 0] [On One (New a'); Imc 0] &&
    forallb (fun round : nat -> nat -> wcall => differ [On One (New a); On One (New a); On One (round 0%nat 1%nat)] [On One (New a'); On One (New a); On One (round 0%nat 1%nat)] &&
      negb (differ [On One (New a); On One (New a); On One (round 0%nat 1%nat)] [On One (New a); On One (New a'); On One (round 0%nat 1%nat)])) [Enc; Dec; Enc_last; Dec_last]) (seq 0 16).

(** C47: AES assembled from rounds; decryption and the chains where RV32's Zkne/Zknd code is not used. *)
Definition t47 (c : cfg) : bool := with_impl c (fun i => key_sizes (fun k key =>
  let msg := firstn 48 abcd in
  is leqb (assembled_encrypt_message i k key [Two; One] msg) (each_block (aes_encrypt k key) msg) &&
  (rv32_zk c || (is leqb (assembled_decrypt_message i k key [Two; One] msg) (each_block (aes_decrypt k key) msg) &&
                 is leqb (chained_encrypt_block i k key (firstn 16 msg)) (aes_encrypt k key (firstn 16 msg)) &&
                 is leqb (chained_decrypt_block i k key (firstn 16 msg)) (aes_decrypt k key (firstn 16 msg)))))).

(** C48: lengths around the block and four-block boundaries, counters around the wrap; CBC of 1 to 9 blocks. *)
Definition t48 (c : cfg) : bool := with_impl c (fun i => let k := K192 in let key := firstn (key_len k) abcd in let text := abcd ++ abcd ++ abcd in
  forallb (fun nt => let '(n, t) := nt in
    match ctr_crypt i k true key t (firstn n text) with
    | Ret out => is leqb (ctr_crypt i k false key t out) (firstn n text) && (negb (conforming c) || leqb out (ctr (aes_encrypt k key) t (firstn n text)))
    | _ => false end) [(0%nat, 7); (1%nat, 2 ^ 128 - 1); (70%nat, 2 ^ 128 - 2)] &&
  (rv32_zk c || forallb (fun n => let p := firstn (16 * n) text in let iv := firstn 16 (rev abcd) in
    match cbc_encrypt_message i k key iv p with
    | Ret out => is leqb (cbc_decrypt_message i k key iv out) p && (negb (conforming c) || leqb out (concat (cbc_encrypt (aes_encrypt k key) iv (chunks 16 n p))))
    | _ => false end) [0; 5]%nat)).

(** C49: AES instructions executed by one call of each kind, counted. *)
Definition t49_bill (l : list aes) (b : bill) : bool :=
  forallb (fun x => Nat.eqb (times (fst x) l) (on_bill (fst x) b)) b && Nat.eqb (List.length l) (bill_total b).
Definition t49 (c : cfg) : bool := match running c with
  | None => false
  | Some p => match engine_of p (c_be c) with
    | None => false
    | Some e => let k := K128 in let key := firstn 16 abcd in
        let run (program : engine -> key_size -> nat -> nat -> stmt) g := aes_run (executed (program e k (vec_n p g) (vec_m p g)) (start key (firstn (group_len g) abcd))) in
        t49_bill (run encrypt_program Two) (setup_bill p k ++ crypt_bill p false k Two) &&
        t49_bill (run decrypt_program One) (setup_bill p k ++ scale 9 (imc_bill p) ++ crypt_bill p true k One) &&
        t49_bill (run convert_program One) (setup_bill p k ++ scale 9 (imc_bill p) ++ scale 9 (mc_bill p) ++ crypt_bill p false k One) &&
        t49_bill (aes_run (executed (binary_program (g_be e) (vec_n p Four) (vec_m p Four) (g_dec_last e (vec_n p Four))) (start abcd abcd))) (scale (vec_m p Four) (last_bill p true (vec_n p Four)))
    end end.

(** C50: AEGIS-128L with narrow and wide rounds, sealed and opened, with a full and a partial piece. *)
Definition t50 (c : cfg) : bool := with_impl c (fun i => let key := firstn 16 abcd in let nonce := firstn 16 (rev abcd) in let ad := firstn 5 abcd in let msg := firstn 41 abcd in
  let '(ct, tag) := aegis_seal key nonce ad msg in
  forallb (fun step => is (fun a b => leqb (fst a) (fst b) && leqb (snd a) (snd b)) (seal_prog i step key nonce ad msg) (ct, tag)) [update_blocks i; update_wide i] &&
  match open_prog i (update_wide i) key nonce ad ct tag, open_prog i (update_blocks i) key nonce ad ct (match tag with [] => [] | x :: r => N.lxor x 128 :: r end) with Ret (Some m), Ret None => leqb m msg | _, _ => false end).

(** C53: the keys of a decrypter, and what objects do with their keys. *)
Definition t53 (c : cfg) : bool := rv32_zk c || with_impl c (fun i => key_sizes (fun k key =>
  let shown (l : list (T1 i)) := map (fun x => match to_bytes (i_ops1 i) x with Ret b => b | _ => [] end) l in
  match enc_new i k key, dec_new i k key, o_from (i_ops1 i) (firstn 16 abcd) with
  | Ret e, Ret d, Ret x =>
      (negb (conforming c) || leqb (concat (shown (dec_keys d))) (concat (map (eic_round_key k key) (rev (seq 0 (nr_of k + 1)))))) &&
      is leqb (y <- encrypt_block i k e x ;; to_bytes (i_ops1 i) y) (run_cipher (nr_of k) (fun r => nth r (shown (enc_keys e)) []) (firstn 16 abcd)) &&
      is leqb (y <- decrypt_block i k d x ;; to_bytes (i_ops1 i) y) (run_eq_inv_cipher (nr_of k) (fun r => nth (nr_of k - r) (shown (dec_keys d)) []) (firstn 16 abcd))
  | _, _, _ => false
  end)).

(** C54: a sink that logs every call and refuses the [n]-th only; and the text of all calls. *)
Definition moody (n : nat) : sink := Sink (list piece) (fun l p => (l ++ [p], negb (Nat.eqb (List.length l) n)))%list.
Definition patient : sink := Sink (list piece) (fun l p => (l ++ [p], true))%list.
Definition obeys (p : printer) (t : outcome string) : bool :=
  match p patient [], t with
  | Ret (ps, true), Ret s => String.eqb (text ps) s && forallb (fun n => match p (moody n) [] with Ret (qs, ok) => Bool.eqb ok (Nat.leb (List.length ps) n) && String.eqb (text qs) (text (firstn (S n) ps)) && Nat.eqb (List.length qs) (Nat.min (S n) (List.length ps)) | _ => false end) [0; 1; 2; 3; 5; 11; 32; 33; 34; 35; 40; 41; 43; 77]%nat
  | _, _ => false
  end.
Definition t54 (c : cfg) : bool := with_impl c (fun i =>
  match o_from (i_ops1 i) (firstn 16 abcd), o_from (i_ops2 i) (firstn 32 abcd), o_from (i_ops4 i) abcd, enc_new i K128 (firstn 16 abcd), dec_new i K192 (firstn 24 abcd) with
  | Ret x, Ret x2, Ret x4, Ret e, Ret d => forallb (fun f =>
      obeys (put_binary i x f) (fmt_binary i x f) && obeys (put_lower_hex i x f) (fmt_lower_hex i x f) && obeys (put_upper_hex i x f) (fmt_upper_hex i x f) &&
      obeys (put_display i x f) (fmt_display i x f) && obeys (put_debug i x f) (fmt_debug i x f) && obeys (put_debug_x2 i x2 f) (fmt_debug_x2 i x2 f) && obeys (put_debug_x4 i x4 f) (fmt_debug_x4 i x4 f) &&
      obeys (put_debug_enc i K128 e f) (fmt_debug_enc i K128 e f) && obeys (put_debug_dec i K192 d f) (fmt_debug_dec i K192 d f)) [FOpts false None; FOpts true (Some 7%nat)]
  | _, _, _, _, _ => false
  end).

Definition failing (l : list (string * bool)) : list string := map fst (filter (fun c => negb (snd c)) l).
Definition failing_in2 (nc : string * cfg) : list string :=
  match impl_of (snd nc) with
  | None => [(fst nc ++ ":none")%string]
  | Some i => failing ([("C35:" ++ fst nc, t35 i)%string; ("C39:" ++ fst nc, t39 i)%string; ("C41:" ++ fst nc, t41 (snd nc))%string; ("C42:" ++ fst nc, t42 (snd nc) && t42_all (snd nc))%string; ("C43:" ++ fst nc, t43 (snd nc))%string; ("C44:" ++ fst nc, t44 (snd nc))%string; ("C45:" ++ fst nc, t45 (snd nc))%string; ("C47:" ++ fst nc, t47 (snd nc))%string; ("C48:" ++ fst nc, t48 (snd nc))%string; ("C49:" ++ fst nc, t49 (snd nc))%string; ("C50:" ++ fst nc, t50 (snd nc))%string; ("C53:" ++ fst nc, t53 (snd nc))%string; ("C54:" ++ fst nc, t54 (snd nc))%string] ++ t40 nc)
  end.
(** Sizes, parts and reinterpretations with two compilers; RV64's tuple with the one that keeps the order *)
Definition t51 : bool :=
  forallb (fun back => let L := compile back in forallb (fun p =>
    forallb (fun tn => let '(t, n) := tn in Nat.eqb (size (L t)) n && forallb (fun j => existsb (within j) (parts L t)) (seq 0 n))
      [(block_ty p, 16%nat); (x2_ty p, 32%nat); (x4_ty p, 64%nat); (Array (block_ty p) 3, 48%nat)] &&
    forallb (fun st => Nat.eqb (size (L (fst st))) (size (L (snd st)))) (transmutes p) &&
    forallb (fun v => let '(t, u, n) := v in Nat.eqb (size (L (Array u n))) (size (L t)) && Nat.eqb (Nat.modulo (align (L t)) (align (L u))) 0) (views p))
  [P_aesni_vaes4; P_aesni_vaes2; P_aesni; P_neon; P_rv64; P_rv32; P_constant_time; P_software]) [true; false].
Definition t52 : bool :=
  let right L key := match r64_keygen_192_by L key with Ret (Some b) => lleqb (map r64_bytes b) (round_keys K192 key) | _ => false end in
  right (compile false) (firstn 24 abcd) && negb (right (compile true) (map N.of_nat (seq 0 24))).
Definition failing_rest2 : list string := failing ([("C51", t51); ("C52", t52); ("C33", t33); ("C34", t34); ("C45", t45_counts); ("C46", t46)] ++ t38).
(** [failing_in_all]: both files *)
Definition failing_in_all (nc : string * cfg) : list string := failing_in nc ++ failing_in2 nc.
Definition failing_insn : list string := failing [("C37", some_cfg t37_one)].
