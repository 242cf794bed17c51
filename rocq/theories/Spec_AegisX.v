(** SPECIFICATION.  AEGIS-128X2 and AEGIS-128X4 (draft-irtf-cfrg-aegis-aead: D independent AEGIS-128L states that share key, nonce and tag), and the
    programs a user of the crate writes for them with every state word one [AesBlockX2] (D = 2) or one [AesBlockX4] (D = 4). *)
From Verif Require Import Word Interface Fips197 Spec_Api Spec_Aegis Model_Lib.
Open Scope N_scope.

(** ** The cipher (this part does not mention the crate) *)
Section Cipher.
  Context (D : nat).
  (** "ctx[i] = ZeroPad(Byte(i) || Byte(D - 1), 128)" is added to V[3, i] and V[7, i] before each of the ten updates of Init *)
  Definition context (i : nat) : list N := [N.of_nat i; N.of_nat (D - 1)] ++ repeat 0 14.
  Definition add_context (i : nat) (s : list (list N)) : list (list N) := [s!0; s!1; s!2; xor s!3 (context i); s!4; s!5; s!6; xor s!7 (context i)].
  Definition init_lane (key nonce : list N) (i : nat) : list (list N) :=
    Nat.iter 10 (fun s => update (add_context i s) nonce key)
      [xor key nonce; C1; C0; C1; xor key nonce; xor key C0; xor key C1; xor key C0].
  Definition init_x (key nonce : list N) : list (list (list N)) := map (init_lane key nonce) (seq 0 D).
  (** Update: lane i with the i-th block of M0 and the i-th of M1 *)
  Fixpoint update_lanes (ss : list (list (list N))) (m0 m1 : list (list N)) : list (list (list N)) :=
    match ss, m0, m1 with s :: ss, a :: m0, b :: m1 => update s a b :: update_lanes ss m0 m1 | _, _, _ => [] end.
  (** R = 256 * D bits are absorbed, encrypted or decrypted at a time, the last piece zero-padded *)
  Definition pad_x (l : list N) : list N := l ++ repeat 0 (32 * D - length l).
  Definition absorb_x (ss : list (list (list N))) (a : list N) : list (list (list N)) :=
    update_lanes ss (lanes D (firstn (16 * D) (pad_x a))) (lanes D (skipn (16 * D) (pad_x a))).
  Definition keystream_x (ss : list (list (list N))) : list N :=
    concat (map (fun s => xor (xor s!6 s!1) (map2 N.land s!2 s!3)) ss) ++ concat (map (fun s => xor (xor s!2 s!5) (map2 N.land s!6 s!7)) ss).
  Definition enc_x (ss : list (list (list N))) (m : list N) : list (list (list N)) * list N := (absorb_x ss m, xor m (keystream_x ss)).
  Definition dec_x (ss : list (list (list N))) (c : list N) : list (list (list N)) * list N := let m := xor c (keystream_x ss) in (absorb_x ss m, m).
  Fixpoint over_x (f : list (list (list N)) -> list N -> list (list (list N)) * list N) (ss : list (list (list N))) (ps : list (list N)) :
      list (list (list N)) * list N :=
    match ps with [] => (ss, []) | p :: r => let '(ss, c) := f ss p in let '(ss, cs) := over_x f ss r in (ss, c ++ cs) end.
  Definition pieces_x (l : list N) : list (list N) := chunks (32 * D) (Nat.div (length l + (32 * D - 1)) (32 * D)) l.
  (** Finalize: the lanes finish as AEGIS-128L does and the tag is the xor of their tags *)
  Definition finalize_x (ss : list (list (list N))) (ad_len msg_len : nat) : list N := fold_left xor (map (fun s => finalize s ad_len msg_len) ss) (repeat 0 16).
  Definition aegisx_seal (key nonce ad msg : list N) : list N * list N :=
    let ss := fold_left absorb_x (pieces_x ad) (init_x key nonce) in
    let '(ss, ct) := over_x enc_x ss (pieces_x msg) in (ct, finalize_x ss (length ad) (length msg)).
  Definition aegisx_open (key nonce ad ct tag : list N) : option (list N) :=
    let ss := fold_left absorb_x (pieces_x ad) (init_x key nonce) in
    let '(ss, msg) := over_x dec_x ss (pieces_x ct) in
    if list_eq_dec N.eq_dec tag (finalize_x ss (length ad) (length msg)) then Some msg else None.
End Cipher.

(** ** The programs: the same text for [AesBlockX2] and [AesBlockX4] *)
Section Programs.
  Context (i : impl) {T : Type} (o : ops T) (wide : T1 i -> T) (split : T -> list (T1 i)) (D : nat).
  Let o1 := i_ops1 i.
  Notation "s '!!' j" := (nth j s (o_zero o)) (at level 9, format "s '!!' j").

  Definition step_x (s : list T) (m0 m1 : T) : list T :=
    [o_enc o s!!7 (o_xor o s!!0 m0); o_enc o s!!0 s!!1; o_enc o s!!1 s!!2; o_enc o s!!2 s!!3;
     o_enc o s!!3 (o_xor o s!!4 m1); o_enc o s!!4 s!!5; o_enc o s!!5 s!!6; o_enc o s!!6 s!!7].
  (** [let k: AesBlockX2 = AesBlock::from(key).into();] and so on; the contexts as one [u8; 16 * D] *)
  Definition init_xprog (key nonce : list N) : outcome (list T) :=
    k <- o_from o1 key ;; n <- o_from o1 nonce ;; c0 <- o_from o1 C0 ;; c1 <- o_from o1 C1 ;; cx <- o_from o (concat (map (context D) (seq 0 D))) ;;
    let k := wide k in let n := wide n in let c0 := wide c0 in let c1 := wide c1 in
    Ret (Nat.iter 10 (fun s => step_x [s!!0; s!!1; s!!2; o_xor o s!!3 cx; s!!4; s!!5; s!!6; o_xor o s!!7 cx] n k)
      [o_xor o k n; c1; c0; c1; o_xor o k n; o_xor o k c0; o_xor o k c1; o_xor o k c0]).
  Definition load_x (l : list N) : outcome (T * T) :=
    a <- o_from o (firstn (16 * D) (pad_x D l)) ;; b <- o_from o (skipn (16 * D) (pad_x D l)) ;; Ret (a, b).
  Definition absorb_xprog (s : list T) (a : list N) : outcome (list T) := m <- load_x a ;; Ret (step_x s (fst m) (snd m)).
  Definition crypt_xprog (dec : bool) (s : list T) (p : list N) : outcome (list T * list N) :=
    m <- load_x p ;;
    let z0 := o_xor o (o_xor o s!!6 s!!1) (o_and o s!!2 s!!3) in
    let z1 := o_xor o (o_xor o s!!2 s!!5) (o_and o s!!6 s!!7) in
    b0 <- to_bytes o (o_xor o (fst m) z0) ;; b1 <- to_bytes o (o_xor o (snd m) z1) ;;
    let out := firstn (length p) (b0 ++ b1) in
    s <- absorb_xprog s (if dec then out else p) ;; Ret (s, out).
  Fixpoint pieces_xprog (dec : bool) (s : list T) (ps : list (list N)) : outcome (list T * list N) :=
    match ps with
    | [] => Ret (s, [])
    | p :: r => so <- crypt_xprog dec s p ;; ss <- pieces_xprog dec (fst so) r ;; Ret (fst ss, snd so ++ snd ss)
    end.
  (** the seven words of all lanes added up, then taken apart into blocks, then those added up *)
  Definition tag_xprog (s : list T) (ad_len msg_len : nat) : outcome (T1 i) :=
    u <- o_from o1 (to_le 8 (8 * N.of_nat ad_len) ++ to_le 8 (8 * N.of_nat msg_len)) ;;
    let t := o_xor o s!!2 (wide u) in
    let s := Nat.iter 7 (fun s => step_x s t t) s in
    Ret (fold_left (o_xor o1) (split (o_xor o (o_xor o (o_xor o (o_xor o (o_xor o (o_xor o s!!0 s!!1) s!!2) s!!3) s!!4) s!!5) s!!6)) (o_zero o1)).
  Definition seal_xprog (key nonce ad msg : list N) : outcome (list N * list N) :=
    s <- init_xprog key nonce ;; s <- ofold absorb_xprog (pieces_x D ad) s ;;
    sc <- pieces_xprog false s (pieces_x D msg) ;; t <- tag_xprog (fst sc) (length ad) (length msg) ;; tag <- to_bytes o1 t ;; Ret (snd sc, tag).
  Definition open_xprog (key nonce ad ct tag : list N) : outcome (option (list N)) :=
    s <- init_xprog key nonce ;; s <- ofold absorb_xprog (pieces_x D ad) s ;;
    sm <- pieces_xprog true s (pieces_x D ct) ;; t <- tag_xprog (fst sm) (length ad) (length (snd sm)) ;; x <- o_from o1 tag ;;
    Ret (if o_eq o1 x t then Some (snd sm) else None).
End Programs.
(** [<(AesBlock, AesBlock)>::from(x)], [<(AesBlock, AesBlock, AesBlock, AesBlock)>::from(x)] *)
Definition blocks_of_x2 (i : impl) (t : T2 i) : list (T1 i) := let '(a, b) := x2_to_pair i t in [a; b].
Definition blocks_of_x4 (i : impl) (t : T4 i) : list (T1 i) := let '(a, b, c, d) := x4_to_quad i t in [a; b; c; d].
Definition x2_seal (i : impl) := seal_xprog i (i_ops2 i) (x2_of_block i) (blocks_of_x2 i) 2.
Definition x2_open (i : impl) := open_xprog i (i_ops2 i) (x2_of_block i) (blocks_of_x2 i) 2.
Definition x4_seal (i : impl) := seal_xprog i (i_ops4 i) (x4_of_block i) (blocks_of_x4 i) 4.
Definition x4_open (i : impl) := open_xprog i (i_ops4 i) (x4_of_block i) (blocks_of_x4 i) 4.
