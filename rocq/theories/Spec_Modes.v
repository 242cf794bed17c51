(** SPECIFICATION.  Two modes of operation of NIST SP 800-38A, and programs a user of the crate writes for them with the
    1- and 4-block functions, conversions between blocks, [u128] and wide types, and [^]. *)
From Verif Require Import Word Interface Fips197 Model_Lib Spec_User.
Open Scope N_scope.

(** ** The standard (this part does not mention the crate) *)

(** Counter mode (6.5) with the standard incrementing function on all 128 bits of the block (B.1): the [j]-th counter block, and
    each byte of the text xored with the byte at its place in the enciphered counter block. The text need not fill its last block. *)
Definition counter_block (t : N) (j : nat) : list N := to_be 16 ((t + N.of_nat j) mod 2 ^ 128).
Definition ctr (ciph : list N -> list N) (t : N) (text : list N) : list N :=
  map (fun j => N.lxor (nth j text 0) (nth (Nat.modulo j 16) (ciph (counter_block t (Nat.div j 16))) 0)) (seq 0 (length text)).

(** Cipher block chaining (6.2), on lists of blocks. *)
Fixpoint cbc_encrypt (ciph : list N -> list N) (iv : list N) (ps : list (list N)) : list (list N) :=
  match ps with [] => [] | p :: r => let c := ciph (map2 N.lxor p iv) in c :: cbc_encrypt ciph c r end.
Fixpoint cbc_decrypt (inv : list N -> list N) (iv : list N) (cs : list (list N)) : list (list N) :=
  match cs with [] => [] | c :: r => map2 N.lxor (inv c) iv :: cbc_decrypt inv c r end.

(** ** The programs *)
(** u128::wrapping_add *)
Definition wrapping_add (t n : N) : N := (t + n) mod 2 ^ 128.

Section Programs.
  Context (i : impl) (k : key_size) (dbg : bool).
  Let o1 := i_ops1 i.
  Let o4 := i_ops4 i.

  (** Four blocks of text:
      [let y = enc.encrypt_4_blocks((AesBlock::from(t), AesBlock::from(t.wrapping_add(1)), ..(2), ..(3)).into());]
      [AesBlockX4::try_from(chunk).unwrap() ^ y] *)
  Definition ctr_four (e : enc_obj i) (t : N) (chunk : list N) : outcome (list N) :=
    a <- of_u128 o1 t ;; b <- of_u128 o1 (wrapping_add t 1) ;; c <- of_u128 o1 (wrapping_add t 2) ;; d <- of_u128 o1 (wrapping_add t 3) ;;
    y <- encrypt_4_blocks i k e (x4_of_quad i (a, b, c, d)) ;;
    r <- try_from o4 dbg chunk ;; x <- unwrap r ;; to_bytes o4 (o_xor o4 x y).
  (** At most sixteen bytes of text:
      [let y = <[u8; 16]>::from(enc.encrypt_block(AesBlock::from(t))); chunk.iter_mut().zip(y).for_each(|(b, y)| *b ^= y)] *)
  Definition ctr_one (e : enc_obj i) (t : N) (chunk : list N) : outcome (list N) :=
    a <- of_u128 o1 t ;; y <- encrypt_block i k e a ;; b <- to_bytes o1 y ;; Ret (map2 N.lxor chunk b).
  Fixpoint over (step : N -> list N -> outcome (list N)) (inc : N) (t : N) (cs : list (list N)) : outcome (list N) :=
    match cs with [] => Ret [] | c :: r => a <- step t c ;; b <- over step inc (wrapping_add t inc) r ;; Ret (a ++ b) end.
  (** [text.chunks_exact(64)] by fours, then [rest.chunks(16)] *)
  Definition ctr_crypt (key : list N) (t : N) (text : list N) : outcome (list N) :=
    e <- enc_new i k key ;;
    let q := Nat.div (length text) 64 in
    let rest := skipn (64 * q) text in
    a <- over (ctr_four e) 4 t (chunks 64 q text) ;;
    b <- over (ctr_one e) 1 (wrapping_add t (4 * N.of_nat q)) (chunks 16 (Nat.div (length rest + 15) 16) rest) ;;
    Ret (a ++ b).

  (** CBC: [prev = enc.encrypt_block(AesBlock::from(p) ^ prev)] for each block. *)
  Fixpoint cbc_blocks (e : enc_obj i) (prev : T1 i) (ps : list (list N)) : outcome (list N) :=
    match ps with
    | [] => Ret []
    | p :: r => x <- o_from o1 p ;; c <- encrypt_block i k e (o_xor o1 x prev) ;; b <- to_bytes o1 c ;; r' <- cbc_blocks e c r ;; Ret (b ++ r')
    end.
  Definition cbc_encrypt_message (key iv text : list N) : outcome (list N) :=
    e <- enc_new i k key ;; v <- o_from o1 iv ;; cbc_blocks e v (chunks 16 (Nat.div (length text) 16) text).

  (** CBC decryption four blocks at a time:
      [let c4 = AesBlockX4::from(chunk); let (c0, c1, c2, c3) = c4.into();]
      [dec.decrypt_4_blocks(c4) ^ AesBlockX4::from((prev, c0, c1, c2)); prev = c3], and the rest one by one. *)
  Fixpoint cbc_fours (d : dec_obj i) (prev : T1 i) (cs : list (list N)) : outcome (list N * T1 i) :=
    match cs with
    | [] => Ret ([], prev)
    | c :: r =>
        x <- o_from o4 c ;; y <- decrypt_4_blocks i k d x ;;
        let '(c0, c1, c2, c3) := x4_to_quad i x in
        b <- to_bytes o4 (o_xor o4 y (x4_of_quad i (prev, c0, c1, c2))) ;;
        r' <- cbc_fours d c3 r ;; Ret (b ++ fst r', snd r')
    end.
  Fixpoint cbc_ones (d : dec_obj i) (prev : T1 i) (cs : list (list N)) : outcome (list N) :=
    match cs with
    | [] => Ret []
    | c :: r => x <- o_from o1 c ;; y <- decrypt_block i k d x ;; b <- to_bytes o1 (o_xor o1 y prev) ;; r' <- cbc_ones d x r ;; Ret (b ++ r')
    end.
  Definition cbc_decrypt_message (key iv text : list N) : outcome (list N) :=
    d <- dec_new i k key ;; v <- o_from o1 iv ;;
    let q := Nat.div (length text) 64 in
    let rest := skipn (64 * q) text in
    f <- cbc_fours d v (chunks 64 q text) ;;
    b <- cbc_ones d (snd f) (chunks 16 (Nat.div (length rest) 16) rest) ;;
    Ret (fst f ++ b).
End Programs.
