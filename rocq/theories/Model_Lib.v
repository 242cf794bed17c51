(** src/lib.rs, lines 126-522: the public API, generic in the selected implementation [impl]. *)
From Verif Require Import Word Interface Fips197.
Open Scope N_scope.

(** ** Conversions and operators common to the three block types (lib.rs:126-210) *)
Section Common.
  Context {T : Type} (o : ops T).

  (** lib.rs:165-170 From<&[u8; N]>; the same as From<[u8; N]> of the copy *)
  Definition from_ref (value : list N) : outcome T := o_from o value.
  (** lib.rs:172-179 TryFrom<&[u8]> *)
  Definition try_from (dbg : bool) (value : list N) : outcome (result T nat) :=
    try_from_slice dbg (o_size o) (o_from o) value.
  (** lib.rs:181-188 From<Block> for [u8; N]: store into a zeroed array *)
  Definition to_bytes (x : T) : outcome (list N) :=
    let (r, dst) := o_store o x (repeat 0 (o_size o)) in _ <- r ;; Ret dst.
  (** lib.rs:158-163 Default *)
  Definition default : T := o_zero o.
  (** lib.rs:190-207 the assigning operators: new value of [*self] *)
  Definition and_assign (self rhs : T) : T := o_and o self rhs.
  Definition or_assign (self rhs : T) : T := o_or o self rhs.
  Definition xor_assign (self rhs : T) : T := o_xor o self rhs.

  (** lib.rs:142-147 From<u128>, lib.rs:149-154 Into<u128> (AesBlock only) *)
  Definition of_u128 (v : N) : outcome T := o_from o (to_be 16 v).
  Definition to_u128 (x : T) : outcome N := b <- to_bytes x ;; Ret (of_be b).

  (** lib.rs:396-422: chain_enc / chain_dec, ordinary variant ([round] = enc or dec) *)
  Definition chain_post (round : T -> T -> T) (self : T) (keys : list T) : outcome T :=
    _ <- rust_assert (negb (Nat.eqb (length keys) 0)) ;;
    k0 <- get keys 0 ;;
    rest <- slice_from keys 1 ;;
    Ret (fold_left round rest (o_xor o self k0)).
  (** lib.rs:366-394: variant for NEON and RV32 ([pre] = pre_enc or pre_dec) *)
  Definition chain_pre (pre : T -> T -> T) (self : T) (keys : list T) : outcome T :=
    _ <- rust_assert (negb (Nat.eqb (length keys) 0)) ;;
    init <- slice_to keys (length keys - 1) ;;
    last <- get keys (length keys - 1) ;;
    Ret (o_xor o (fold_left pre init self) last).
  Definition chain (pre : option (T -> T -> T)) (round : T -> T -> T) (self : T) (keys : list T) : outcome T :=
    match pre with
    | None => chain_post round self keys
    | Some p => chain_pre p self keys
    end.
End Common.

(* No counterpart in the source (the cfg_if of lib.rs:333-426 is an option in the model). *)
Definition option_map' {A B} (f : A -> B) (o : option A) : option B :=
  match o with Some a => Some (f a) | None => None end.

Section Api.
  Context (i : impl).
  Notation Blk := (T1 i).

  (** lib.rs:348-364 impl_pre_encdec!: pre_enc / pre_dec of the wide types through pairs *)
  Definition pre_pair {A B} (to_pair : B -> A * A) (of_pair : A * A -> B) (f : A -> A -> A) (self rk : B) : B :=
    let '(a, b) := to_pair self in
    let '(rk_a, rk_b) := to_pair rk in
    of_pair (f a rk_a, f b rk_b).

  (* pre_enc, pre_dec of AesBlock where lib.rs:333-347 selects them: aes_arm.rs, aes_riscv32.rs:126-130, 148-152. *)
  Definition pre1 (dec : bool) : option (T1 i -> T1 i -> T1 i) :=
    option_map' (fun p => if dec then snd p else fst p) (i_pre_chain i).
  (* lib.rs:348-366 impl_pre_encdec!(AesBlockX2). *)
  Definition pre2 (dec : bool) : option (T2 i -> T2 i -> T2 i) :=
    option_map' (pre_pair (x2_to_pair i) (x2_of_pair i)) (pre1 dec).
  (* lib.rs:348-366 impl_pre_encdec!(AesBlockX4). *)
  Definition pre4 (dec : bool) : option (T4 i -> T4 i -> T4 i) :=
    option_map' (pre_pair (x4_to_pair i) (x4_of_pair i)) (pre2 dec).

  (** lib.rs:426 declare_chain!(AesBlock, AesBlockX2, AesBlockX4) *)
  Definition chain_enc1 := chain (i_ops1 i) (pre1 false) (o_enc (i_ops1 i)).
  Definition chain_dec1 := chain (i_ops1 i) (pre1 true) (o_dec (i_ops1 i)).
  Definition chain_enc2 := chain (i_ops2 i) (pre2 false) (o_enc (i_ops2 i)).
  Definition chain_dec2 := chain (i_ops2 i) (pre2 true) (o_dec (i_ops2 i)).
  Definition chain_enc4 := chain (i_ops4 i) (pre4 false) (o_enc (i_ops4 i)).
  Definition chain_dec4 := chain (i_ops4 i) (pre4 true) (o_dec (i_ops4 i)).

  (** lib.rs:311-320 dec_round_keys (with [f] = imc), lib.rs:322-331 enc_round_keys ([f] = mc) *)
  Definition swap_round_keys (f : Blk -> Blk) (n : nat) (rk : list Blk) : outcome (list Blk) :=
    let drk := repeat (o_zero (i_ops1 i)) n in
    k <- get rk (n - 1) ;;
    drk <- set drk 0 k ;;
    drk <- ofold (fun drk j => k <- get rk (n - 1 - j) ;; set drk j (f k)) (seq 1 (n - 1 - 1)) drk ;;
    k <- get rk 0 ;;
    set drk (n - 1) k.
  Definition dec_round_keys := swap_round_keys (e_imc (i_ext i)).
  Definition enc_round_keys := swap_round_keys (e_mc (i_ext i)).

  (** lib.rs:428-518 implement_aes!; the [round_keys] arrays of Aes*Enc and Aes*Dec *)
  Record enc_obj : Type := EncObj { enc_keys : list Blk }.
  Record dec_obj : Type := DecObj { dec_keys : list Blk }.

  (** lib.rs:520-522: which keygen *)
  Definition keygen (k : key_size) : list N -> outcome (list Blk) :=
    match k with
    | K128 => e_keygen_128 (i_ext i)
    | K192 => e_keygen_192 (i_ext i)
    | K256 => e_keygen_256 (i_ext i)
    end.
  (** lib.rs:520-522: the $nr literal of each instantiation *)
  Definition lib_nr (k : key_size) : nat := match k with K128 => 10 | K192 => 12 | K256 => 14 end.

  (** lib.rs:437-443 *)
  Definition enc_new (k : key_size) (key : list N) : outcome enc_obj :=
    rk <- keygen k key ;; Ret (EncObj rk).
  (** lib.rs:461-465 *)
  Definition decrypter (k : key_size) (e : enc_obj) : outcome dec_obj :=
    rk <- dec_round_keys (lib_nr k + 1) (enc_keys e) ;; Ret (DecObj rk).
  (** lib.rs:452-456 *)
  Definition dec_new (k : key_size) (key : list N) : outcome dec_obj :=
    e <- enc_new k key ;; decrypter k e.
  (** lib.rs:491-495 *)
  Definition encrypter (k : key_size) (d : dec_obj) : outcome enc_obj :=
    rk <- enc_round_keys (lib_nr k + 1) (dec_keys d) ;; Ret (EncObj rk).

  (** lib.rs:467-471 and 473-485: chain over [..nr], then the last round with key [nr] *)
  Definition run {T} (chain : T -> list T -> outcome T) (last : T -> T -> T) (k : key_size)
             (keys : list T) (x : T) : outcome T :=
    init <- slice_to keys (lib_nr k) ;;
    y <- chain x init ;;
    rk <- get keys (lib_nr k) ;;
    Ret (last y rk).
  Definition encrypt_block (k : key_size) (e : enc_obj) (x : T1 i) : outcome (T1 i) :=
    run chain_enc1 (o_enc_last (i_ops1 i)) k (enc_keys e) x.
  Definition encrypt_2_blocks (k : key_size) (e : enc_obj) (x : T2 i) : outcome (T2 i) :=
    run chain_enc2 (o_enc_last (i_ops2 i)) k (map (x2_of_block i) (enc_keys e)) x.
  Definition encrypt_4_blocks (k : key_size) (e : enc_obj) (x : T4 i) : outcome (T4 i) :=
    run chain_enc4 (o_enc_last (i_ops4 i)) k (map (x4_of_block i) (enc_keys e)) x.
  (** lib.rs:497-501 and 503-515 *)
  Definition decrypt_block (k : key_size) (d : dec_obj) (x : T1 i) : outcome (T1 i) :=
    run chain_dec1 (o_dec_last (i_ops1 i)) k (dec_keys d) x.
  Definition decrypt_2_blocks (k : key_size) (d : dec_obj) (x : T2 i) : outcome (T2 i) :=
    run chain_dec2 (o_dec_last (i_ops2 i)) k (map (x2_of_block i) (dec_keys d)) x.
  Definition decrypt_4_blocks (k : key_size) (d : dec_obj) (x : T4 i) : outcome (T4 i) :=
    run chain_dec4 (o_dec_last (i_ops4 i)) k (map (x4_of_block i) (dec_keys d)) x.
End Api.
Arguments EncObj {i} _. Arguments enc_keys {i} _.
Arguments DecObj {i} _. Arguments dec_keys {i} _.
