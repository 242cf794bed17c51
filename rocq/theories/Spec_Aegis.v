(** SPECIFICATION.  AEGIS-128L (draft-irtf-cfrg-aegis-aead, an authenticated cipher made of single AES rounds), and programs a user of
    the crate writes for it from [AesBlock::enc], [^], [&], [==] and conversions, or with [AesBlockX4::enc] on four blocks at once. *)
From Verif Require Import Word Interface Fips197 Spec_Api Model_Lib.
Open Scope N_scope.

(** ** The cipher (this part does not mention the crate) *)
(** "AESRound(in, rk): a single round of the AES encryption round function" *)
Definition aes_round (x rk : list N) : list N := add_round_key (mix_columns (sub_bytes (shift_rows x))) rk.
Definition xor (a b : list N) : list N := map2 N.lxor a b.
Definition C0 : list N := [0x00; 0x01; 0x01; 0x02; 0x03; 0x05; 0x08; 0x0d; 0x15; 0x22; 0x37; 0x59; 0x90; 0xe9; 0x79; 0x62].
Definition C1 : list N := [0xdb; 0x3d; 0x18; 0x55; 0x6d; 0xc2; 0x2f; 0xf1; 0x20; 0x11; 0x31; 0x42; 0x73; 0xb5; 0x28; 0xdd].
Notation "s ! j" := (nth j s []) (at level 9, format "s ! j").
(** Update: the state is eight blocks S0 ... S7 *)
Definition update (s : list (list N)) (m0 m1 : list N) : list (list N) :=
  [aes_round s!7 (xor s!0 m0); aes_round s!0 s!1; aes_round s!1 s!2; aes_round s!2 s!3;
   aes_round s!3 (xor s!4 m1); aes_round s!4 s!5; aes_round s!5 s!6; aes_round s!6 s!7].
Definition init (key nonce : list N) : list (list N) :=
  Nat.iter 10 (fun s => update s nonce key)
    [xor key nonce; C1; C0; C1; xor key nonce; xor key C0; xor key C1; xor key C0].
Definition zero_pad (l : list N) : list N := l ++ repeat 0 (32 - length l).
(** Absorb one 256-bit block, the last one zero-padded; encrypt one; decrypt one *)
Definition absorb (s : list (list N)) (a : list N) : list (list N) := update s (firstn 16 (zero_pad a)) (skipn 16 (zero_pad a)).
Definition keystream (s : list (list N)) : list N :=
  xor (xor s!6 s!1) (map2 N.land s!2 s!3) ++ xor (xor s!2 s!5) (map2 N.land s!6 s!7).
Definition enc_block (s : list (list N)) (m : list N) : list (list N) * list N := (absorb s m, xor m (keystream s)).
Definition dec_block (s : list (list N)) (c : list N) : list (list N) * list N := let m := xor c (keystream s) in (absorb s m, m).
(** Finalize, 128-bit tag *)
Definition finalize (s : list (list N)) (ad_len msg_len : nat) : list N :=
  let t := xor s!2 (to_le 8 (8 * N.of_nat ad_len) ++ to_le 8 (8 * N.of_nat msg_len)) in
  let s := Nat.iter 7 (fun s => update s t t) s in
  xor (xor (xor (xor (xor (xor s!0 s!1) s!2) s!3) s!4) s!5) s!6.
(** Pieces of 32 bytes, the last one possibly shorter *)
Definition pieces (l : list N) : list (list N) := chunks 32 (Nat.div (length l + 31) 32) l.
Fixpoint over_pieces (f : list (list N) -> list N -> list (list N) * list N) (s : list (list N)) (ps : list (list N)) : list (list N) * list N :=
  match ps with [] => (s, []) | p :: r => let '(s, o) := f s p in let '(s, os) := over_pieces f s r in (s, o ++ os) end.
(** Encrypt(msg, ad, key, nonce) = (ct, tag); Decrypt *)
Definition aegis_seal (key nonce ad msg : list N) : list N * list N :=
  let s := fold_left absorb (pieces ad) (init key nonce) in
  let '(s, ct) := over_pieces enc_block s (pieces msg) in (ct, finalize s (length ad) (length msg)).
Definition aegis_open (key nonce ad ct tag : list N) : option (list N) :=
  let s := fold_left absorb (pieces ad) (init key nonce) in
  let '(s, msg) := over_pieces dec_block s (pieces ct) in
  if list_eq_dec N.eq_dec tag (finalize s (length ad) (length msg)) then Some msg else None.

(** ** The programs *)
Section Programs.
  Context (i : impl).
  Let o1 := i_ops1 i.
  Let o4 := i_ops4 i.
  Notation T := (T1 i).
  Notation "s '!!' j" := (nth j s (o_zero o1)) (at level 9, format "s '!!' j").

  (** One [enc] for each of the eight blocks ... *)
  Definition update_blocks (s : list T) (m0 m1 : T) : list T :=
    [o_enc o1 s!!7 (o_xor o1 s!!0 m0); o_enc o1 s!!0 s!!1; o_enc o1 s!!1 s!!2; o_enc o1 s!!2 s!!3;
     o_enc o1 s!!3 (o_xor o1 s!!4 m1); o_enc o1 s!!4 s!!5; o_enc o1 s!!5 s!!6; o_enc o1 s!!6 s!!7].
  (** ... or two calls of [AesBlockX4::enc], each block with its own round key:
      [AesBlockX4::from((s7, s0, s1, s2)).enc(AesBlockX4::from((s0 ^ m0, s1, s2, s3)))] and the other half, taken apart again *)
  Definition update_wide (s : list T) (m0 m1 : T) : list T :=
    let '(t0, t1, t2, t3) := x4_to_quad i (o_enc o4 (x4_of_quad i (s!!7, s!!0, s!!1, s!!2)) (x4_of_quad i (o_xor o1 s!!0 m0, s!!1, s!!2, s!!3))) in
    let '(t4, t5, t6, t7) := x4_to_quad i (o_enc o4 (x4_of_quad i (s!!3, s!!4, s!!5, s!!6)) (x4_of_quad i (o_xor o1 s!!4 m1, s!!5, s!!6, s!!7))) in
    [t0; t1; t2; t3; t4; t5; t6; t7].

  Context (step : list T -> T -> T -> list T).
  (** [AesBlock::from] of the two halves of a zero-padded [u8; 32] *)
  Definition load (l : list N) : outcome (T * T) :=
    a <- o_from o1 (firstn 16 (zero_pad l)) ;; b <- o_from o1 (skipn 16 (zero_pad l)) ;; Ret (a, b).
  Definition init_prog (key nonce : list N) : outcome (list T) :=
    k <- o_from o1 key ;; n <- o_from o1 nonce ;; c0 <- o_from o1 C0 ;; c1 <- o_from o1 C1 ;;
    Ret (Nat.iter 10 (fun s => step s n k) [o_xor o1 k n; c1; c0; c1; o_xor o1 k n; o_xor o1 k c0; o_xor o1 k c1; o_xor o1 k c0]).
  Definition absorb_prog (s : list T) (a : list N) : outcome (list T) := m <- load a ;; Ret (step s (fst m) (snd m)).
  (** One piece in either direction: load, xor with the key stream, store, update with the plain text *)
  Definition crypt_prog (dec : bool) (s : list T) (p : list N) : outcome (list T * list N) :=
    m <- load p ;;
    let z0 := o_xor o1 (o_xor o1 s!!6 s!!1) (o_and o1 s!!2 s!!3) in
    let z1 := o_xor o1 (o_xor o1 s!!2 s!!5) (o_and o1 s!!6 s!!7) in
    b0 <- to_bytes o1 (o_xor o1 (fst m) z0) ;; b1 <- to_bytes o1 (o_xor o1 (snd m) z1) ;;
    let out := firstn (length p) (b0 ++ b1) in
    s <- absorb_prog s (if dec then out else p) ;; Ret (s, out).
  Fixpoint pieces_prog (dec : bool) (s : list T) (ps : list (list N)) : outcome (list T * list N) :=
    match ps with
    | [] => Ret (s, [])
    | p :: r => so <- crypt_prog dec s p ;; ss <- pieces_prog dec (fst so) r ;; Ret (fst ss, snd so ++ snd ss)
    end.
  Definition tag_prog (s : list T) (ad_len msg_len : nat) : outcome T :=
    u <- o_from o1 (to_le 8 (8 * N.of_nat ad_len) ++ to_le 8 (8 * N.of_nat msg_len)) ;;
    let t := o_xor o1 s!!2 u in
    let s := Nat.iter 7 (fun s => step s t t) s in
    Ret (o_xor o1 (o_xor o1 (o_xor o1 (o_xor o1 (o_xor o1 (o_xor o1 s!!0 s!!1) s!!2) s!!3) s!!4) s!!5) s!!6).
  Definition seal_prog (key nonce ad msg : list N) : outcome (list N * list N) :=
    s <- init_prog key nonce ;; s <- ofold absorb_prog (pieces ad) s ;;
    sc <- pieces_prog false s (pieces msg) ;; t <- tag_prog (fst sc) (length ad) (length msg) ;; tag <- to_bytes o1 t ;; Ret (snd sc, tag).
  (** the tag compared with [==] *)
  Definition open_prog (key nonce ad ct tag : list N) : outcome (option (list N)) :=
    s <- init_prog key nonce ;; s <- ofold absorb_prog (pieces ad) s ;;
    sm <- pieces_prog true s (pieces ct) ;; t <- tag_prog (fst sm) (length ad) (length (snd sm)) ;; x <- o_from o1 tag ;;
    Ret (if o_eq o1 x t then Some (snd sm) else None).
End Programs.
