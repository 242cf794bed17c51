(** SPECIFICATION.  AES written by a user of the crate from the single-round functions of the block types alone, without the
    key objects: the S-box of the key schedule is read off the last encryption round, the schedule is Algorithm 2 of FIPS 197,
    and the cipher is a loop over [enc] closed by [enc_last] (FIPS 197 Algorithm 1), the inverse cipher a loop over [dec] closed by [dec_last]
    with round keys passed through [imc] (the equivalent inverse cipher, FIPS 197 section 5.3.5).
    Nothing here looks inside a block type: values are made from bytes and shown as bytes. *)
From Verif Require Import Word Interface Fips197 Model_Lib Spec_User.
Open Scope N_scope.

Section Programs.
  Context (i : impl).

  (** SubWord: [let x = AesBlock::from([w, w, w, w].concat()); <[u8; 16]>::from(x.enc_last(AesBlock::zero()))[..4]] *)
  Definition sub_word_by_round (w : list N) : outcome (list N) :=
    x <- o_from (i_ops1 i) (w ++ w ++ w ++ w) ;;
    b <- to_bytes (i_ops1 i) (o_enc_last (i_ops1 i) x (o_zero (i_ops1 i))) ;;
    Ret (firstn 4 b).

  (** Algorithm 2 of FIPS 197, word by word as in [Fips197.expand_step], with that SubWord. *)
  Definition assembled_step (nk : nat) (w : list (list N)) (j : nat) : outcome (list (list N)) :=
    let temp := nth (j - 1) w [] in
    temp' <- (if Nat.eqb (Nat.modulo j nk) 0 then s <- sub_word_by_round (rot_word temp) ;; Ret (xor_word s (rcon (Nat.div j nk)))
              else if Nat.ltb 6 nk && Nat.eqb (Nat.modulo j nk) 4 then sub_word_by_round temp
              else Ret temp) ;;
    Ret (w ++ [xor_word (nth (j - nk) w []) temp']).
  Definition assembled_schedule (k : key_size) (key : list N) : outcome (list (list N)) :=
    ofold (assembled_step (nk_of k)) (seq (nk_of k) (4 * (nr_of k + 1) - nk_of k)) (chunks 4 (nk_of k) key).

  (** A round key for a type that holds [m] blocks: its bytes [m] times over, through [From]. *)
  Definition spread {T} (o : ops T) (m : nat) (rk : list N) : outcome T := o_from o (concat (repeat rk m)).

  (** [(x ^ k0).enc(k1)....enc(k_{Nr-1}).enc_last(k_Nr)], one call for each round. *)
  Definition assembled_encrypt {T} (o : ops T) (m nr : nat) (rk : nat -> list N) (b : list N) : outcome (list N) :=
    x <- o_from o b ;; k0 <- spread o m (rk 0%nat) ;;
    s <- ofold (fun s r => kr <- spread o m (rk r) ;; Ret (o_enc o s kr)) (seq 1 (nr - 1)) (o_xor o x k0) ;;
    kl <- spread o m (rk nr) ;; to_bytes o (o_enc_last o s kl).
  (** [<[u8; 16]>::from(AesBlock::from(rk).imc())] *)
  Definition imc_bytes (rk : list N) : outcome (list N) := op1_bytes i (e_imc (i_ext i)) rk.
  (** [(x ^ k_Nr).dec(k'_{Nr-1})....dec(k'_1).dec_last(k0)], where [k'] is the round key after [imc]. *)
  Definition assembled_decrypt {T} (o : ops T) (m nr : nat) (rk : nat -> list N) (b : list N) : outcome (list N) :=
    x <- o_from o b ;; k0 <- spread o m (rk nr) ;;
    s <- ofold (fun s r => q <- imc_bytes (rk r) ;; kr <- spread o m q ;; Ret (o_dec o s kr)) (rev (seq 1 (nr - 1))) (o_xor o x k0) ;;
    kl <- spread o m (rk 0%nat) ;; to_bytes o (o_dec_last o s kl).

  (** The same for a group of one, two or four blocks, and for a message cut into such groups. *)
  Definition assembled_group (f : forall T, ops T -> nat -> nat -> (nat -> list N) -> list N -> outcome (list N)) (nr : nat) (w : list (list N)) (g : group) (b : list N) : outcome (list N) :=
    match g with
    | One => f _ (i_ops1 i) 1%nat nr (round_key w) b
    | Two => f _ (i_ops2 i) 2%nat nr (round_key w) b
    | Four => f _ (i_ops4 i) 4%nat nr (round_key w) b
    end.
  Definition assembled_encrypt_message (k : key_size) (key : list N) (gs : list group) (msg : list N) : outcome (list N) :=
    w <- assembled_schedule k key ;; by_groups (assembled_group (@assembled_encrypt) (nr_of k) w) gs msg.
  Definition assembled_decrypt_message (k : key_size) (key : list N) (gs : list group) (msg : list N) : outcome (list N) :=
    w <- assembled_schedule k key ;; by_groups (assembled_group (@assembled_decrypt) (nr_of k) w) gs msg.

  (** The same for one block through [chain_enc] and [chain_dec], the round keys in a slice:
      [x.chain_enc(&keys[..Nr]).enc_last(keys[Nr])]. *)
  Fixpoint load_keys (ks : list (list N)) : outcome (list (T1 i)) :=
    match ks with [] => Ret [] | k :: ks' => x <- o_from (i_ops1 i) k ;; r <- load_keys ks' ;; Ret (x :: r) end.
  Definition chained_encrypt (nr : nat) (rk : nat -> list N) (b : list N) : outcome (list N) :=
    x <- o_from (i_ops1 i) b ;; ks <- load_keys (map rk (seq 0 nr)) ;; s <- chain_enc1 i x ks ;;
    kl <- o_from (i_ops1 i) (rk nr) ;; to_bytes (i_ops1 i) (o_enc_last (i_ops1 i) s kl).
  Definition chained_decrypt (nr : nat) (rk : nat -> list N) (b : list N) : outcome (list N) :=
    x <- o_from (i_ops1 i) b ;; k0 <- o_from (i_ops1 i) (rk nr) ;; ks <- load_keys (map rk (rev (seq 1 (nr - 1)))) ;;
    s <- chain_dec1 i x (k0 :: map (e_imc (i_ext i)) ks) ;;
    kl <- o_from (i_ops1 i) (rk 0%nat) ;; to_bytes (i_ops1 i) (o_dec_last (i_ops1 i) s kl).
  Definition chained_encrypt_block (k : key_size) (key b : list N) : outcome (list N) :=
    w <- assembled_schedule k key ;; chained_encrypt (nr_of k) (round_key w) b.
  Definition chained_decrypt_block (k : key_size) (key b : list N) : outcome (list N) :=
    w <- assembled_schedule k key ;; chained_decrypt (nr_of k) (round_key w) b.
End Programs.
