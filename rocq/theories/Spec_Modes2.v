(** SPECIFICATION.  Three more standard uses of AES - the CMAC authentication code (NIST SP 800-38B), disk encryption XTS with ciphertext
    stealing (IEEE 1619-2007, SP 800-38E) and key wrap KW (SP 800-38F, RFC 3394) - and programs a user of the crate writes for them. *)
From Verif Require Import Word Interface Fips197 Model_Lib Spec_User.
Open Scope N_scope.

(** ** The standards (this part does not mention the crate).  [ciph], [inv]: the block cipher under a key. *)
Definition xorb (a b : list N) : list N := map2 N.lxor a b.

(** SP 800-38B, 6.1 and 6.2: subkeys; the message in blocks, the last one complete or padded with 10...0; the full-length tag. *)
Definition doubled (b : list N) : list N :=
  let v := of_be b in to_be 16 (if v <? 2 ^ 127 then 2 * v else N.lxor ((2 * v) mod 2 ^ 128) 0x87).
Definition cmac (ciph : list N -> list N) (m : list N) : list N :=
  let k1 := doubled (ciph (repeat 0 16)) in
  let k2 := doubled k1 in
  let n := Nat.max 1 (Nat.div (length m + 15) 16) in
  let l := skipn (16 * (n - 1)) m in
  let last := if Nat.eqb (length l) 16 then xorb k1 l else xorb k2 (l ++ [0x80] ++ repeat 0 (15 - length l)) in
  fold_left (fun c b => ciph (xorb c b)) (chunks 16 (n - 1) m ++ [last]) (repeat 0 16).

(** IEEE 1619, 5.2: multiplication by alpha; 5.3.1, 5.4.1: one block; 5.3.2, 5.4.2: a data unit of at least one block. *)
Definition times_alpha (a : list N) : list N :=
  N.lxor (2 * (nth 0 a 0 mod 128)) (135 * (nth 15 a 0 / 128)) :: map (fun j => N.lxor (2 * (nth j a 0 mod 128)) (nth (j - 1) a 0 / 128)) (seq 1 15).
Definition tweak_of (ciph2 : list N -> list N) (unit_number : N) (j : nat) : list N := Nat.iter j times_alpha (ciph2 (to_le 16 unit_number)).
Definition xts_block (f : list N -> list N) (t p : list N) : list N := xorb (f (xorb p t)) t.
Definition block_at (text : list N) (j : nat) : list N := firstn 16 (skipn (16 * j) text).
Definition whole (f : list N -> list N) (tweak : nat -> list N) (m : nat) (text : list N) : list N :=
  flat_map (fun j => xts_block f (tweak j) (block_at text j)) (seq 0 m).
(** With [b] bytes after the [m] whole blocks, the last whole block and the rest are treated with the tweaks [m - 1] and [m], in
    this order when encrypting and in the other when decrypting. *)
Definition stolen (f : list N -> list N) (t t' : list N) (p rest : list N) : list N :=
  let cc := xts_block f t p in xts_block f t' (rest ++ skipn (length rest) cc) ++ firstn (length rest) cc.
Definition xts_encrypt (ciph1 ciph2 : list N -> list N) (unit_number : N) (text : list N) : list N :=
  let tw := tweak_of ciph2 unit_number in let m := Nat.div (length text) 16 in
  if Nat.eqb (Nat.modulo (length text) 16) 0 then whole ciph1 tw m text
  else whole ciph1 tw (m - 1) text ++ stolen ciph1 (tw (m - 1)%nat) (tw m) (block_at text (m - 1)) (skipn (16 * m) text).
Definition xts_decrypt (inv1 ciph2 : list N -> list N) (unit_number : N) (text : list N) : list N :=
  let tw := tweak_of ciph2 unit_number in let m := Nat.div (length text) 16 in
  if Nat.eqb (Nat.modulo (length text) 16) 0 then whole inv1 tw m text
  else whole inv1 tw (m - 1) text ++ stolen inv1 (tw m) (tw (m - 1)%nat) (block_at text (m - 1)) (skipn (16 * m) text).

(** SP 800-38F, 6.1: the wrapping function W on semiblocks (8 bytes) and its inverse, step by step; 6.2: KW-AE and KW-AD. *)
Definition state : Type := (list N * list (list N))%type.   (* A, and R2 .. Rn *)
Definition w_step (ciph : list N -> list N) (t : nat) (s : state) : state :=
  let y := ciph (fst s ++ hd [] (snd s)) in (xorb (firstn 8 y) (to_be 8 (N.of_nat t)), tl (snd s) ++ [skipn 8 y]).
Definition w_step_back (inv : list N -> list N) (t : nat) (s : state) : state :=
  let y := inv (xorb (fst s) (to_be 8 (N.of_nat t)) ++ last (snd s) []) in (firstn 8 y, skipn 8 y :: removelast (snd s)).
Definition w (ciph : list N -> list N) (s : state) : state := fold_left (fun s t => w_step ciph t s) (seq 1 (6 * length (snd s))) s.
Definition w_back (inv : list N -> list N) (s : state) : state := fold_left (fun s t => w_step_back inv t s) (rev (seq 1 (6 * length (snd s)))) s.
Definition icv1 : list N := repeat 0xA6 8.
Definition semiblocks (l : list N) : list (list N) := chunks 8 (Nat.div (length l) 8) l.
Definition flat (s : state) : list N := fst s ++ concat (snd s).
Definition kw_wrap (ciph : list N -> list N) (p : list N) : list N := flat (w ciph (icv1, semiblocks p)).
Definition kw_unwrap (inv : list N -> list N) (c : list N) : option (list N) :=
  let s := w_back inv (firstn 8 c, semiblocks (skipn 8 c)) in
  if list_eq_dec N.eq_dec (fst s) icv1 then Some (concat (snd s)) else None.

(** ** The programs *)
Definition u128_shl (v : N) (n : N) : N := (v * 2 ^ n) mod 2 ^ 128.
Definition u128_double (v : N) : N := N.lxor (u128_shl v 1) (0x87 * (v / 2 ^ 127)).   (* (v << 1) ^ ((v >> 127) * 0x87) *)

Section Programs.
  Context (i : impl) (k : key_size) (dbg : bool).
  Let o1 := i_ops1 i.
  Let o4 := i_ops4 i.

  (** [fn cmac(key, m) -> [u8; 16]]:
      [let k1 = double(u128::from(enc.encrypt_block(AesBlock::zero()))); let k2 = double(k1);]
      [let (full, last) = m.split_at(16 * (m.len().saturating_sub(1) / 16)); let mut c = AesBlock::zero();]
      [for b in full.chunks_exact(16) { c = enc.encrypt_block(c ^ AesBlock::try_from(b).unwrap()) }]
      [let mut buf = [0; 16]; buf[..last.len()].copy_from_slice(last);]
      [let k = if last.len() == 16 { k1 } else { buf[last.len()] = 0x80; k2 };]
      [let mut tag = [0; 16]; enc.encrypt_block(c ^ AesBlock::from(buf) ^ AesBlock::from(k)).store_to(&mut tag); tag] *)
  Fixpoint cbc_mac (e : enc_obj i) (c : T1 i) (bs : list (list N)) : outcome (T1 i) :=
    match bs with
    | [] => Ret c
    | b :: r => t <- try_from o1 dbg b ;; x <- unwrap t ;; c' <- encrypt_block i k e (o_xor o1 c x) ;; cbc_mac e c' r
    end.
  Definition cmac_tag (key m : list N) : outcome (list N) :=
    e <- enc_new i k key ;;
    l <- encrypt_block i k e (o_zero o1) ;; v <- to_u128 o1 l ;;
    let k1 := u128_double v in let k2 := u128_double k1 in
    let q := Nat.div (length m - 1) 16 in
    let last := skipn (16 * q) m in
    c <- cbc_mac e (o_zero o1) (chunks 16 q m) ;;
    b <- o_from o1 (if Nat.eqb (length last) 16 then last else last ++ 0x80 :: repeat 0 (15 - length last)) ;;
    kb <- of_u128 o1 (if Nat.eqb (length last) 16 then k1 else k2) ;;
    y <- encrypt_block i k e (o_xor o1 (o_xor o1 c b) kb) ;;
    let (r, tag) := o_store o1 y (repeat 0 16) in _ <- r ;; Ret tag.

  (** XTS, four blocks at a time, with [run4], [run1] either [encrypt_4_blocks] and [encrypt_block] of the encrypter of the first key
      or [decrypt_4_blocks] and [decrypt_block] of its decrypter.  The tweak is a [u128], first
      [u128::from_le_bytes(enc2.encrypt_block(AesBlock::from(unit.to_le_bytes())).into())]. *)
  Section Xts.
    Context (run4 : T4 i -> outcome (T4 i)) (run1 : T1 i -> outcome (T1 i)).
    (** [let t4 = AesBlockX4::from((b(t), b(t'), ..)); run4(AesBlockX4::try_from(chunk).unwrap() ^ t4) ^ t4], where [b(t) = AesBlock::from(t.to_le_bytes())] *)
    Definition xts_four (t : N) (chunk : list N) : outcome (list N) :=
      a <- o_from o1 (to_le 16 t) ;; b <- o_from o1 (to_le 16 (u128_double t)) ;;
      c <- o_from o1 (to_le 16 (u128_double (u128_double t))) ;; d <- o_from o1 (to_le 16 (u128_double (u128_double (u128_double t)))) ;;
      let t4 := x4_of_quad i (a, b, c, d) in
      r <- try_from o4 dbg chunk ;; x <- unwrap r ;; y <- run4 (o_xor o4 x t4) ;; to_bytes o4 (o_xor o4 y t4).
    Definition xts_one (t : N) (chunk : list N) : outcome (list N) :=
      a <- o_from o1 (to_le 16 t) ;; r <- try_from o1 dbg chunk ;; x <- unwrap r ;; y <- run1 (o_xor o1 x a) ;; to_bytes o1 (o_xor o1 y a).
    Fixpoint xts_fours (t : N) (cs : list (list N)) : outcome (list N * N) :=
      match cs with
      | [] => Ret ([], t)
      | c :: r => a <- xts_four t c ;; b <- xts_fours (Nat.iter 4 u128_double t) r ;; Ret (a ++ fst b, snd b)
      end.
    Fixpoint xts_ones (t : N) (cs : list (list N)) : outcome (list N * N) :=
      match cs with [] => Ret ([], t) | c :: r => a <- xts_one t c ;; b <- xts_ones (u128_double t) r ;; Ret (a ++ fst b, snd b) end.
    (** [m] whole blocks: [m / 4] times four, then one by one; what comes after them, with [t] the next tweak *)
    Definition xts_whole (t : N) (m : nat) (text : list N) : outcome (list N * N) :=
      let q := Nat.div m 4 in
      a <- xts_fours t (chunks 64 q text) ;;
      b <- xts_ones (snd a) (chunks 16 (m - 4 * q) (skipn (64 * q) text)) ;;
      Ret (fst a ++ fst b, snd b).
    Definition xts_data_unit (decrypting : bool) (t : N) (text : list N) : outcome (list N) :=
      let m := Nat.div (length text) 16 in
      if Nat.eqb (Nat.modulo (length text) 16) 0 then a <- xts_whole t m text ;; Ret (fst a)
      else
        a <- xts_whole t (m - 1) text ;;
        let t1 := snd a in let t2 := u128_double t1 in
        let rest := skipn (16 * m) text in
        cc <- xts_one (if decrypting then t2 else t1) (firstn 16 (skipn (16 * (m - 1)) text)) ;;
        c <- xts_one (if decrypting then t1 else t2) (rest ++ skipn (length rest) cc) ;;
        Ret (fst a ++ c ++ firstn (length rest) cc).
  End Xts.
  Definition xts_start (key2 : list N) (unit_number : N) : outcome N :=
    e <- enc_new i k key2 ;; x <- o_from o1 (to_le 16 unit_number) ;; y <- encrypt_block i k e x ;; b <- to_bytes o1 y ;; Ret (of_le b).
  Definition xts_encrypt_unit (key1 key2 : list N) (unit_number : N) (text : list N) : outcome (list N) :=
    e <- enc_new i k key1 ;; t <- xts_start key2 unit_number ;; xts_data_unit (encrypt_4_blocks i k e) (encrypt_block i k e) false t text.
  Definition xts_decrypt_unit (key1 key2 : list N) (unit_number : N) (text : list N) : outcome (list N) :=
    d <- dec_new i k key1 ;; t <- xts_start key2 unit_number ;; xts_data_unit (decrypt_4_blocks i k d) (decrypt_block i k d) true t text.

  (** Key wrap in place (RFC 3394, 2.2.1, index based), with registers [a: u64] and [r: [u64]]:
      [for j in 0..6 { for i in 0..n { let y = u128::from(enc.encrypt_block(AesBlock::from(u128::from(a) << 64 | u128::from(r[i]))));]
      [a = (y >> 64) as u64 ^ (n * j + i + 1); r[i] = y as u64; } }] *)
  Fixpoint kw_pass (e : enc_obj i) (t : nat) (a : N) (r : list N) : outcome (N * list N) :=
    match r with
    | [] => Ret (a, [])
    | x :: q =>
        b <- of_u128 o1 (N.lor (u128_shl a 64) x) ;; z <- encrypt_block i k e b ;; y <- to_u128 o1 z ;;
        rest <- kw_pass e (t + 1) (N.lxor (y / 2 ^ 64) (N.of_nat t)) q ;;
        Ret (fst rest, y mod 2 ^ 64 :: snd rest)
    end.
  Fixpoint kw_passes (e : enc_obj i) (js : list nat) (a : N) (r : list N) : outcome (N * list N) :=
    match js with [] => Ret (a, r) | j :: js' => s <- kw_pass e (length r * j + 1) a r ;; kw_passes e js' (fst s) (snd s) end.
  Definition wrap_key (kek p : list N) : outcome (list N) :=
    e <- enc_new i k kek ;;
    s <- kw_passes e (seq 0 6) 0xA6A6A6A6A6A6A6A6 (map of_be (semiblocks p)) ;;
    Ret (to_be 8 (fst s) ++ flat_map (to_be 8) (snd s)).
  (** Unwrapping: [for j in (0..6).rev() { for i in (0..n).rev() { let y = u128::from(dec.decrypt_block(AesBlock::from(]
      [u128::from(a ^ (n * j + i + 1)) << 64 | u128::from(r[i])))); a = (y >> 64) as u64; r[i] = y as u64 } }] *)
  Fixpoint kw_pass_back (d : dec_obj i) (t : nat) (a : N) (r : list N) : outcome (N * list N) :=
    match r with
    | [] => Ret (a, [])
    | x :: q =>
        rest <- kw_pass_back d (t + 1) a q ;;
        b <- of_u128 o1 (N.lor (u128_shl (N.lxor (fst rest) (N.of_nat t)) 64) x) ;; z <- decrypt_block i k d b ;; y <- to_u128 o1 z ;;
        Ret (y / 2 ^ 64, y mod 2 ^ 64 :: snd rest)
    end.
  Fixpoint kw_passes_back (d : dec_obj i) (js : list nat) (a : N) (r : list N) : outcome (N * list N) :=
    match js with [] => Ret (a, r) | j :: js' => s <- kw_pass_back d (length r * j + 1) a r ;; kw_passes_back d js' (fst s) (snd s) end.
  Definition unwrap_key (kek c : list N) : outcome (option (list N)) :=
    d <- dec_new i k kek ;;
    s <- kw_passes_back d (rev (seq 0 6)) (of_be (firstn 8 c)) (map of_be (semiblocks (skipn 8 c))) ;;
    Ret (if fst s =? 0xA6A6A6A6A6A6A6A6 then Some (flat_map (to_be 8) (snd s)) else None).
End Programs.
