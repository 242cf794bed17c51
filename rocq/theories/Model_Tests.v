(** Tests, not proofs: each claim evaluated on a few literals in one configuration of each backend.
    They do not use any proof, so they run even when an edit of the model breaks the proofs; the
    mutation harness in seeded/ uses [failing_in] and [failing_rest] to see which claims an edit really falsifies. *)
From Coq Require Import String Arith.
From Verif Require Import Word Interface Fips197 Spec_Api Spec_User Spec_Cfg Spec_Fmt Spec_Leak Model_Lib Model_Cfg Model_Fmt Model_Leak Model_LeakAccel Model_LeakTable.
Open Scope string_scope.
Open Scope N_scope.
Open Scope list_scope.

Definition t_key (k : key_size) : list N := map N.of_nat (seq 0 (key_len k)).
Definition t_key' (k : key_size) : list N := firstn (key_len k) (to_be 32 0x2b7e151628aed2a6abf7158809cf4f3c603deb1015ca71be8d9f0a3f7e55d1c2).
Definition blkA : list N := map (fun j => 17 * N.of_nat j) (seq 0 16).
Definition blkB : list N := to_be 16 0x3243f6a8885a308d313198a2e0370734.
Definition blkC : list N := to_be 16 0x80ff017fe20000feab1c5d9c00ff8001.
Definition blkD : list N := to_be 16 0x00000000000000000000000000000001.
Definition blkE : list N := to_be 16 0xf34481ec3cc627bacd5dc3fb08f273e6.
Definition blks : list (list N) := [blkA; blkB; blkC; blkD; blkE; repeat 0 16; repeat 255 16].
Definition wide2 := [blkA ++ blkB; blkC ++ blkC; blkD ++ repeat 0 16; repeat 0 16 ++ blkD; repeat 0 32; blkE ++ blkA].
Definition wide4 := [blkA ++ blkB ++ blkC ++ blkD; repeat 0 64; repeat 0 48 ++ blkD; blkD ++ repeat 0 48; repeat 0 16 ++ blkD ++ repeat 0 32; blkE ++ blkE ++ blkB ++ blkA].

Fixpoint leqb (a b : list N) : bool :=
  match a, b with [], [] => true | x :: a', y :: b' => (x =? y) && leqb a' b' | _, _ => false end.
Fixpoint lleqb (a b : list (list N)) : bool :=
  match a, b with [], [] => true | x :: a', y :: b' => leqb x y && lleqb a' b' | _, _ => false end.
Definition oeq {A} (eqb : A -> A -> bool) (a b : outcome A) : bool :=
  match a, b with Ret x, Ret y => eqb x y | Panic, Panic | UB, UB => true | _, _ => false end.
Definition is {A} (eqb : A -> A -> bool) (a : outcome A) (b : A) : bool := oeq eqb a (Ret b).
Definition holds {A} (p : A -> bool) (a : outcome A) : bool := match a with Ret x => p x | _ => false end.
Definition okr {A} (a : outcome A) : bool := holds (fun _ => true) a.
Definition panics {A} (a : outcome A) : bool := match a with Panic => true | _ => false end.
Definition ks := [K128; K192; K256].
Definition pairs {A} (l : list A) : list (A * A) := combine l (tl l ++ firstn 1 l) ++ combine l l.

Section T.
  Context (i : impl).
  Notation o1 := (i_ops1 i). Notation o2 := (i_ops2 i). Notation o4 := (i_ops4 i).
  Definition shows_b {T} (o : ops T) (x : T) (b : list N) : bool := is leqb (to_bytes o x) b.
  Definition same {T} (o : ops T) (x y : T) : bool := oeq leqb (to_bytes o x) (to_bytes o y) && okr (to_bytes o x).
  Definition key_sizes (f : key_size -> list N -> bool) : bool := f K128 (t_key K128) && f K192 (t_key' K192) && f K256 (t_key' K256).
  Definition with1 (b : list N) (f : T1 i -> bool) : bool := holds f (o_from o1 b).
  Definition with2 (b : list N) (f : T2 i -> bool) : bool := holds f (o_from o2 b).
  Definition with4 (b : list N) (f : T4 i -> bool) : bool := holds f (o_from o4 b).

  Definition t01 := key_sizes (fun k key => forallb (fun p => is leqb (encrypt_bytes i k key p) (aes_encrypt k key p)) [blkA; blkC]).
  Definition t02 := key_sizes (fun k key => forallb (fun p => is leqb (decrypt_bytes i k key p) (aes_decrypt k key p) &&
    is leqb (decrypt_bytes_via_enc i k key p) (aes_decrypt k key p)) [blkA; blkC]).
  Definition t03 := key_sizes (fun k key => forallb (fun p => is leqb (c <- encrypt_bytes i k key p ;; decrypt_bytes i k key c) p &&
    is leqb (c <- decrypt_bytes i k key p ;; encrypt_bytes i k key c) p &&
    is leqb (c <- encrypt_message_via_dec i k key [One] p ;; decrypt_bytes i k key c) p) [blkA; blkC]).
  Definition with_quad (f : T1 i -> T1 i -> T1 i -> T1 i -> bool) : bool :=
    with1 blkA (fun a => with1 blkB (fun b => with1 blkC (fun c => with1 blkE (fun d => f a b c d)))).
  Definition t_wide (one : T1 i -> outcome (T1 i)) (two : T2 i -> outcome (T2 i)) (four : T4 i -> outcome (T4 i)) : bool :=
    with_quad (fun a b c d => holds (fun a' => holds (fun b' => holds (fun c' => holds (fun d' =>
      holds (fun z => let '(u, v) := x2_to_pair i z in same o1 u a' && same o1 v b') (two (x2_of_pair i (a, b))) &&
      holds (fun z => let '(u, v, w, x) := x4_to_quad i z in same o1 u a' && same o1 v b' && same o1 w c' && same o1 x d') (four (x4_of_quad i (a, b, c, d))))
      (one d)) (one c)) (one b)) (one a)).
  Definition t04 := key_sizes (fun k key => holds (fun e => t_wide (encrypt_block i k e) (encrypt_2_blocks i k e) (encrypt_4_blocks i k e)) (enc_new i k key)).
  Definition t05 := key_sizes (fun k key => holds (fun d => t_wide (decrypt_block i k d) (decrypt_2_blocks i k d) (decrypt_4_blocks i k d)) (dec_new i k key)).
  Definition t07 := key_sizes (fun k key => is lleqb (key_bytes i k key) (round_keys k key)).
  Definition keys_of (l : list (T1 i)) : outcome (list (list N)) := fold_right (fun k r => b <- to_bytes o1 k ;; r' <- r ;; Ret (b :: r')) (Ret []) l.
  Definition t08 := key_sizes (fun k key =>
    holds (fun e => oeq lleqb (e' <- enc_round_trips i k 2 e ;; keys_of (enc_keys e')) (keys_of (enc_keys e)) &&
                    oeq lleqb (d <- decrypter i k e ;; keys_of (dec_keys d)) (d <- dec_new i k key ;; keys_of (dec_keys d))) (enc_new i k key) &&
    holds (fun d => oeq lleqb (d' <- dec_round_trips i k 2 d ;; keys_of (dec_keys d')) (keys_of (dec_keys d))) (dec_new i k key)).
  Definition t_round (f : T1 i -> T1 i -> T1 i) (spec : list N -> list N -> list N) :=
    forallb (fun ab => is leqb (op2_bytes i f (fst ab) (snd ab)) (spec (fst ab) (snd ab))) (pairs blks).
  Definition t09 := t_round (o_enc o1) spec_enc && t_round (o_enc_last o1) spec_enc_last.
  Definition t10 := t_round (o_dec o1) spec_dec && t_round (o_dec_last o1) spec_dec_last.
  Definition t11 := forallb (fun a => is leqb (op1_bytes i (e_mc (i_ext i)) a) (mix_columns a) && is leqb (op1_bytes i (e_imc (i_ext i)) a) (inv_mix_columns a)) blks.
  Definition t_chain {T} (o : ops T) (wth : list N -> (T -> bool) -> bool) (chain : T -> list T -> outcome T) (round : T -> T -> T) (ws : list (list N)) :=
    wth (nth 0 ws []) (fun x => wth (nth 1 ws []) (fun k0 => wth (nth 2 ws []) (fun k1 => wth (nth 5 ws []) (fun k2 =>
      panics (chain x []) &&
      forallb (fun kk => oeq (same o) (chain x kk) (documented_chain o round x kk) && okr (chain x kk)) [[k0]; [k0; k1]; [k2; k1; k0]; [k1; k1; k2; k0; k2]])))).
  Definition t12 := t_chain o1 with1 (chain_enc1 i) (o_enc o1) blks && t_chain o1 with1 (chain_dec1 i) (o_dec o1) blks &&
    t_chain o2 with2 (chain_enc2 i) (o_enc o2) wide2 && t_chain o2 with2 (chain_dec2 i) (o_dec o2) wide2 &&
    t_chain o4 with4 (chain_enc4 i) (o_enc o4) wide4 && t_chain o4 with4 (chain_dec4 i) (o_dec o4) wide4.
  Definition t13 := forallb (fun ab => with1 (fst ab) (fun x => with1 (snd ab) (fun k =>
    same o1 (o_dec_last o1 (e_imc (i_ext i) (o_xor o1 (o_enc o1 x k) k)) (o_zero o1)) x &&
    same o1 (o_enc_last o1 (e_mc (i_ext i) (o_xor o1 (o_dec o1 x k) k)) (o_zero o1)) x &&
    same o1 (o_dec_last o1 (o_xor o1 (o_enc_last o1 x k) k) (o_zero o1)) x &&
    same o1 (o_enc_last o1 (o_xor o1 (o_dec_last o1 x k) k) (o_zero o1)) x))) (pairs blks).
  Definition t_lanes (f1 : T1 i -> T1 i -> T1 i) (f2 : T2 i -> T2 i -> T2 i) (f4 : T4 i -> T4 i -> T4 i) :=
    forallb (fun ab => with2 (fst ab) (fun x => with2 (snd ab) (fun k =>
      let '(xa, xb) := x2_to_pair i x in let '(ka, kb) := x2_to_pair i k in let '(ya, yb) := x2_to_pair i (f2 x k) in
      same o1 ya (f1 xa ka) && same o1 yb (f1 xb kb)))) (pairs wide2) &&
    forallb (fun ab => with4 (fst ab) (fun x => with4 (snd ab) (fun k =>
      let '(xa, xb, xc, xd) := x4_to_quad i x in let '(ka, kb, kc, kd) := x4_to_quad i k in let '(ya, yb, yc, yd) := x4_to_quad i (f4 x k) in
      same o1 ya (f1 xa ka) && same o1 yb (f1 xb kb) && same o1 yc (f1 xc kc) && same o1 yd (f1 xd kd)))) (pairs wide4).
  Definition t14 := t_lanes (o_enc o1) (o_enc o2) (o_enc o4) && t_lanes (o_dec o1) (o_dec o2) (o_dec o4) &&
    t_lanes (o_enc_last o1) (o_enc_last o2) (o_enc_last o4) && t_lanes (o_dec_last o1) (o_dec_last o2) (o_dec_last o4).
  Definition widths (f : forall T, ops T -> (list N -> (T -> bool) -> bool) -> nat -> list (list N) -> bool) : bool :=
    f _ o1 with1 16%nat blks && f _ o2 with2 32%nat wide2 && f _ o4 with4 64%nat wide4.
  Definition t15 := widths (fun T o _ n l => Nat.eqb (o_size o) n && forallb (fun b =>
    is leqb (x <- o_from o b ;; to_bytes o x) b && is leqb (x <- o_new o b ;; to_bytes o x) b && is leqb (x <- from_ref o b ;; to_bytes o x) b) l).
  Definition weq {A} (a b : outcome A * list N) := oeq (fun _ _ => true) (fst a) (fst b) && leqb (snd a) (snd b).
  Definition t16 := widths (fun T o w n l => forallb (fun b => w b (fun x =>
    forallb (fun m => let dst := map N.of_nat (seq 1 m) in
      weq (o_store o x dst) (if Nat.ltb m n then (Panic, dst) else (Ret tt, b ++ skipn n dst))) [0; 1; n - 1; n; n + 1; n + 40]%nat)) l).
  Definition t17 := widths (fun T o w n l => forallb (fun dbg => forallb (fun m => let s := map N.of_nat (seq 1 m) in
      match try_from o dbg s with
      | Ret (Err e) => Nat.ltb m n && Nat.eqb e m
      | Ret (Ok x) => negb (Nat.ltb m n) && shows_b o x (firstn n s)
      | _ => false end) [0; 1; n - 1; n; n + 1; n + 40]%nat) [true; false]).
  Definition t18 := forallb (fun b => is leqb (x <- of_u128 o1 (of_be b) ;; to_bytes o1 x) b && with1 b (fun x => is N.eqb (to_u128 o1 x) (of_be b))) blks.
  Definition t19 := widths (fun T o w n l => forallb (fun ab => w (fst ab) (fun x => w (snd ab) (fun y => Bool.eqb (o_eq o x y) (leqb (fst ab) (snd ab)))))
    (list_prod l l)).
  Definition t20 := widths (fun T o w n l => forallb (fun ab => w (fst ab) (fun x => w (snd ab) (fun y =>
    shows_b o (o_and o x y) (map2 N.land (fst ab) (snd ab)) && shows_b o (o_or o x y) (map2 N.lor (fst ab) (snd ab)) &&
    shows_b o (o_xor o x y) (map2 N.lxor (fst ab) (snd ab)) && shows_b o (o_not o x) (map (N.lxor 255) (fst ab)) &&
    shows_b o (and_assign o x y) (map2 N.land (fst ab) (snd ab)) && shows_b o (or_assign o x y) (map2 N.lor (fst ab) (snd ab)) &&
    shows_b o (xor_assign o x y) (map2 N.lxor (fst ab) (snd ab))))) (pairs l)).
  Definition t21 := widths (fun T o w n l => shows_b o (o_zero o) (repeat 0 n) && shows_b o (default o) (repeat 0 n) &&
    forallb (fun b => w b (fun x => Bool.eqb (o_is_zero o x) (leqb b (repeat 0 n)) && same o (o_xor o x (o_zero o)) x)) l &&
    forallb (fun ab => w (fst ab) (fun x => w (snd ab) (fun y => Bool.eqb (o_is_zero o (o_xor o x y)) (leqb (fst ab) (snd ab))))) (list_prod l l)).
  Definition t22 :=
    with1 blkA (fun a => with1 blkB (fun b => with1 blkC (fun c => with1 blkD (fun d =>
      shows_b o2 (x2_of_pair i (a, b)) (blkA ++ blkB) && shows_b o2 (x2_of_block i a) (blkA ++ blkA) &&
      (let '(u, v) := x2_to_pair i (x2_of_pair i (a, b)) in shows_b o1 u blkA && shows_b o1 v blkB) &&
      shows_b o4 (x4_of_quad i (a, b, c, d)) (blkA ++ blkB ++ blkC ++ blkD) && shows_b o4 (x4_of_block i a) (blkA ++ blkA ++ blkA ++ blkA) &&
      (let '(p, q, r, s) := x4_to_quad i (x4_of_quad i (a, b, c, d)) in shows_b o1 p blkA && shows_b o1 q blkB && shows_b o1 r blkC && shows_b o1 s blkD) &&
      shows_b o4 (x4_of_pair i (x2_of_pair i (a, b), x2_of_pair i (c, d))) (blkA ++ blkB ++ blkC ++ blkD) &&
      shows_b o4 (x4_of_x2 i (x2_of_pair i (a, b))) (blkA ++ blkB ++ blkA ++ blkB) &&
      (let '(p, q) := x4_to_pair i (x4_of_quad i (a, b, c, d)) in shows_b o2 p (blkA ++ blkB) && shows_b o2 q (blkC ++ blkD)))))).
  Definition seqb := is String.eqb.
  Definition t23 := forallb (fun b => let v := of_be b in with1 b (fun x => forallb (fun alt : bool => forallb (fun w => let f := FOpts alt w in
    seqb (fmt_lower_hex i x f) ((if alt then "0x" else "") ++ numeral "0123456789abcdef" 16 32 v)%string &&
    seqb (fmt_upper_hex i x f) ((if alt then "0X" else "") ++ numeral "0123456789ABCDEF" 16 32 v)%string &&
    seqb (fmt_binary i x f) ((if alt then "0b" else "") ++ numeral "01" 2 128 v)%string &&
    seqb (fmt_display i x f) (numeral (if alt then "0123456789ABCDEF" else "0123456789abcdef") 16 32 v) &&
    seqb (fmt_debug i x f) (numeral (if alt then "0123456789ABCDEF" else "0123456789abcdef") 16 32 v)) [None; Some 40%nat]) [true; false])) blks.
  Definition t24 := forallb (fun alt : bool => let f := FOpts alt None in
    with2 (blkA ++ blkB) (fun x => seqb (fmt_debug_x2 i x f) (tuple_text alt [of_be blkA; of_be blkB])) &&
    with4 (blkA ++ blkB ++ blkC ++ blkD) (fun x => seqb (fmt_debug_x4 i x f) (tuple_text alt [of_be blkA; of_be blkB; of_be blkC; of_be blkD])) &&
    key_sizes (fun k key =>
      holds (fun e => match keys_of (enc_keys e) with Ret l => seqb (fmt_debug_enc i k e f) (object_text alt (object_name true k) (map of_be l)) | _ => true end) (enc_new i k key) &&
      holds (fun d => match keys_of (dec_keys d) with Ret l => seqb (fmt_debug_dec i k d f) (object_text alt (object_name false k) (map of_be l)) | _ => true end) (dec_new i k key))) [true; false].
  Definition t27 := key_sizes (fun k key => let m := blkA ++ blkB ++ blkC in
    oeq leqb (encrypt_message i k key [One; Two] m) (encrypt_message i k key [Two; One] m) &&
    oeq leqb (decrypt_message i k key [One; Two] m) (decrypt_message i k key [Two; One] m)).
  Definition distinct_images (f : T1 i -> T1 i) : bool :=
    forallb (fun ab => leqb (fst ab) (snd ab) || negb (oeq leqb (op1_bytes i f (fst ab)) (op1_bytes i f (snd ab)))) (list_prod blks blks).
  Definition t28 := with1 blkB (fun k => distinct_images (fun x => o_enc o1 x k) && distinct_images (fun x => o_dec o1 x k) &&
    distinct_images (fun x => o_enc_last o1 x k) && distinct_images (fun x => o_dec_last o1 x k) && distinct_images (e_mc (i_ext i)) && distinct_images (e_imc (i_ext i))).
  Definition claims_of : list (string * bool) :=
    [("C01", t01); ("C02", t02); ("C03", t03); ("C04", t04); ("C05", t05); ("C07", t07); ("C08", t08); ("C09", t09); ("C10", t10);
     ("C11", t11); ("C12", t12); ("C13", t13); ("C14", t14); ("C15", t15); ("C16", t16); ("C17", t17); ("C18", t18); ("C19", t19);
     ("C20", t20); ("C21", t21); ("C22", t22); ("C23", t23); ("C24", t24); ("C27", t27); ("C28", t28)].
End T.

(** C29: the programs of Model_Leak / Model_LeakTable compute the API and their traces. *)
Definition event_eqb (a b : event) : bool :=
  match a, b with
  | Access x n, Access y m => String.eqb x y && (n =? m)
  | Branch x, Branch y => Bool.eqb x y
  | Arith x y, Arith z w => (x =? z) && (y =? w)
  | Lookup x n, Lookup y m => String.eqb x y && (n =? m)
  | _, _ => false
  end.
Fixpoint trace_eqb (a b : list event) : bool :=
  match a, b with [], [] => true | x :: a', y :: b' => event_eqb x y && trace_eqb a' b' | _, _ => false end.
Definition t_engine (c : cfg) (e : engine) (shapes : list (group * nat * nat * list N)) (sizes : list key_size) : bool :=
  match impl_of c with
  | None => false
  | Some i => forallb (fun k => forallb (fun gm => let '(g, n, m, msg) := gm : group * nat * nat * list N in
      let go p := arrs (final p (start (t_key k) msg)) "out" in
      is leqb (encrypt_message i k (t_key k) [g] msg) (go (encrypt_program e k n m)) &&
      is leqb (decrypt_message i k (t_key k) [g] msg) (go (decrypt_program e k n m)) &&
      is leqb (encrypt_message_via_dec i k (t_key k) [g] msg) (go (convert_program e k n m)) &&
      forallb (fun p => trace_eqb (trace (p e k n m) (start (t_key k) msg)) (trace (p e k n m) (start (t_key' k) (rev msg))))
        [encrypt_program; decrypt_program; convert_program])
      shapes) sizes
  end.
Definition t29_bitslice (be : bool) : bool := t_engine (if be then c_ct_be else c_ct_le) (bitslice_engine be) [(One, 1, 1, blkA)]%nat [K128].
(** C36: the same for the accelerated backends, every key size. *)
Definition t36 (c : cfg) (e : engine) (shapes : list (group * nat * nat * list N)) : bool := t_engine c e ((One, 1%nat, 1%nat, blkA) :: shapes) ks.
Definition abcd := (blkA ++ blkB ++ blkC ++ blkD)%list.
Definition t29_table : bool :=
  match impl_of c_soft with
  | None => false
  | Some i => forallb (fun k => is leqb (encrypt_bytes i k (t_key k) blkA) (arrs (final (table_encrypt k) (start_table (round_keys k (t_key k)) blkA)) "out")) ks
  end.
(** C25: the selection against the README, every configuration. *)
Definition bools := [true; false].
Definition t25_one (c : cfg) : bool :=
  implb (rustc_ok c) (
    match readme c, select_block c, select_x2 c, select_x4 c with
    | P_aesni_vaes4, BX86, WVaes, WVaes | P_aesni_vaes2, BX86, WVaes, WDefault | P_aesni, BX86, WDefault, WDefault
    | P_neon, BNeon, WDefault, WDefault | P_rv64, BRv64, WDefault, WDefault | P_rv32, BRv32, WDefault, WDefault
    | P_constant_time, BBitslice, WDefault, WDefault | P_software, BTable, WDefault, WDefault => true
    | _, _, _, _ => false end &&
    Bool.eqb (uses_avx512 c) (gate_avx512 c) && Bool.eqb (uses_arm_neon c) (gate_arm_neon c) && Bool.eqb (uses_llvm c) (gate_llvm c)).
Definition t32_one (c : cfg) : bool := implb (rustc_ok c) (match impl_of c with Some _ => true | None => is_neon_arch c && c_aes c && c_be c end).
Definition every_cfg (f : cfg -> bool) : bool :=
  forallb (fun a => forallb (fun be => forallb (fun n => forallb (fun ct => forallb (fun x => forallb (fun e => forallb (fun v => forallb (fun z => forallb (fun v8 => forallb (fun r => forallb (fun s =>
    f (Cfg a be n ct x e v z v8 r s true)) bools) bools) bools) bools) bools) bools) bools) bools) bools) bools)
  [X86; X86_64; Aarch64; Arm64ec; Arm; Riscv32; Riscv64; OtherArch].

Definition backends : list (string * cfg) :=
  [("soft", c_soft); ("soft_be", c_soft_be); ("ct_le", c_ct_le); ("ct_be", c_ct_be); ("x86", c_x86); ("vaes256", c_vaes256); ("vaes512", c_vaes512);
   ("neon", c_neon); ("arm32", c_arm32); ("rv64", c_rv64); ("rv32", c_rv32)].
Definition failing_in (nc : string * cfg) : list string :=
  match impl_of (snd nc) with
  | None => [(fst nc ++ ":none")%string]
  | Some i => map (fun c => (fst nc ++ ":" ++ fst c)%string) (filter (fun c => negb (snd c)) (claims_of i)) end.
Definition failing_rest : list string :=
  (if t29_bitslice false then [] else ["C29:bitslice"]) ++ (if t29_bitslice true then [] else ["C29:bitslice_be"]) ++ (if t29_table then [] else ["C29:table"]) ++
  (if t36 c_x86 x86_engine [(Two, 1, 2, blkA ++ blkB)]%nat then [] else ["C36:x86"]) ++
  (if t36 c_vaes256 x86_engine [(Four, 2, 2, abcd)]%nat then [] else ["C36:vaes256"]) ++
  (if t36 c_vaes512 x86_engine [(Four, 4, 1, abcd)]%nat then [] else ["C36:vaes512"]) ++
  (if t36 c_neon arm_engine [] then [] else ["C36:neon"]) ++ (if t36 c_rv64 rv64_engine [] then [] else ["C36:rv64"]) ++
  (if t36 c_rv32 rv32_engine [] then [] else ["C36:rv32"]) ++
  (if every_cfg t25_one then [] else ["C25"]) ++ (if every_cfg t32_one then [] else ["C32"]).
(** FIPS 197 appendix C and SP 800-38A F.1 through the specification. *)
Example fips_vectors : map (fun k => of_be (aes_encrypt k (t_key k) blkA)) ks =
  [0x69c4e0d86a7b0430d8cdb78070b4c55a; 0xdda97ca4864cdfe06eaf70a0ec0d7191; 0x8ea2b7ca516745bfeafc49904b496089].
Proof. vm_compute. reflexivity. Qed.
Example soft_tests : failing_in ("soft", c_soft) = [].
Proof. vm_compute. reflexivity. Qed.
