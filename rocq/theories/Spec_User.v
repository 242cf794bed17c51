(** SPECIFICATION.  Small programs a user of the crate writes, and what they should return.
    Nothing here looks inside a block type: values are made from bytes and shown as bytes. *)
From Verif Require Import Word Interface Fips197 Model_Lib.
Open Scope N_scope.

(** [shows o x b]: converting [x] to a byte array ([Into<[u8; N]>]) returns [b]. *)
Definition shows {T} (o : ops T) (x : T) (b : list N) : Prop := to_bytes o x = Ret b.

Section Programs.
  Context (i : impl) (k : key_size).

  (** [<[u8;16]>::from(Aes*Enc::from(key).encrypt_block(AesBlock::from(p)))] *)
  Definition encrypt_bytes (key p : list N) : outcome (list N) :=
    e <- enc_new i k key ;; x <- o_from (i_ops1 i) p ;; y <- encrypt_block i k e x ;; to_bytes (i_ops1 i) y.
  (** [<[u8;16]>::from(Aes*Dec::from(key).decrypt_block(AesBlock::from(c)))] *)
  Definition decrypt_bytes (key c : list N) : outcome (list N) :=
    d <- dec_new i k key ;; x <- o_from (i_ops1 i) c ;; y <- decrypt_block i k d x ;; to_bytes (i_ops1 i) y.
  (** the same with [Aes*Enc::from(key).decrypter()] *)
  Definition decrypt_bytes_via_enc (key c : list N) : outcome (list N) :=
    e <- enc_new i k key ;; d <- decrypter i k e ;; x <- o_from (i_ops1 i) c ;; y <- decrypt_block i k d x ;; to_bytes (i_ops1 i) y.

  (** A message processed in groups of one, two or four blocks, one API call for each group. *)
  Inductive group := One | Two | Four.
  Definition group_len (g : group) : nat := match g with One => 16 | Two => 32 | Four => 64 end.
  Definition groups_len (gs : list group) : nat := fold_right (fun g n => (group_len g + n)%nat) 0%nat gs.
  Definition encrypt_group (e : enc_obj i) (g : group) (b : list N) : outcome (list N) :=
    match g with
    | One => x <- o_from (i_ops1 i) b ;; y <- encrypt_block i k e x ;; to_bytes (i_ops1 i) y
    | Two => x <- o_from (i_ops2 i) b ;; y <- encrypt_2_blocks i k e x ;; to_bytes (i_ops2 i) y
    | Four => x <- o_from (i_ops4 i) b ;; y <- encrypt_4_blocks i k e x ;; to_bytes (i_ops4 i) y
    end.
  Definition decrypt_group (d : dec_obj i) (g : group) (b : list N) : outcome (list N) :=
    match g with
    | One => x <- o_from (i_ops1 i) b ;; y <- decrypt_block i k d x ;; to_bytes (i_ops1 i) y
    | Two => x <- o_from (i_ops2 i) b ;; y <- decrypt_2_blocks i k d x ;; to_bytes (i_ops2 i) y
    | Four => x <- o_from (i_ops4 i) b ;; y <- decrypt_4_blocks i k d x ;; to_bytes (i_ops4 i) y
    end.
  Fixpoint by_groups (f : group -> list N -> outcome (list N)) (gs : list group) (msg : list N) : outcome (list N) :=
    match gs with
    | [] => Ret []
    | g :: gs' => c <- f g (firstn (group_len g) msg) ;; r <- by_groups f gs' (skipn (group_len g) msg) ;; Ret (c ++ r)
    end.
  Definition encrypt_message (key : list N) (gs : list group) (msg : list N) : outcome (list N) :=
    e <- enc_new i k key ;; by_groups (encrypt_group e) gs msg.
  Definition decrypt_message (key : list N) (gs : list group) (msg : list N) : outcome (list N) :=
    d <- dec_new i k key ;; by_groups (decrypt_group d) gs msg.
  (** encryption with the encrypter made from a decrypter: [Aes*Dec::from(key).encrypter()] *)
  Definition encrypt_message_via_dec (key : list N) (gs : list group) (msg : list N) : outcome (list N) :=
    d <- dec_new i k key ;; e <- encrypter i k d ;; by_groups (encrypt_group e) gs msg.
End Programs.

(** Block-by-block FIPS-197 of a message whose length is a multiple of 16. *)
Definition each_block (f : list N -> list N) (msg : list N) : list N :=
  concat (map f (chunks 16 (Nat.div (length msg) 16) msg)).

(** "(x ^ keys[0]).enc(keys[1])...enc(keys[n-1])", the documentation of chain_enc and chain_dec;
    an empty slice panics. *)
Definition documented_chain {T} (o : ops T) (round : T -> T -> T) (x : T) (keys : list T) : outcome T :=
  match keys with
  | [] => Panic
  | k0 :: r => Ret (fold_left round r (o_xor o x k0))
  end.

(** Alternating conversions between the two key objects, [n] times there and back. *)
Section Convert.
  Context (i : impl) (k : key_size).
  Fixpoint enc_round_trips (n : nat) (e : enc_obj i) : outcome (enc_obj i) :=
    match n with O => Ret e | S n' => d <- decrypter i k e ;; e' <- encrypter i k d ;; enc_round_trips n' e' end.
  Fixpoint dec_round_trips (n : nat) (d : dec_obj i) : outcome (dec_obj i) :=
    match n with O => Ret d | S n' => e <- encrypter i k d ;; d' <- decrypter i k e ;; dec_round_trips n' d' end.
End Convert.

(** [<[u8;16]>::from(AesBlock::from(a).op())], [<[u8;16]>::from(AesBlock::from(a).op(AesBlock::from(b)))]
    and the same for an operation that takes a slice of blocks. *)
Section OpBytes.
  Context (i : impl).
  Definition op1_bytes (f : T1 i -> T1 i) (a : list N) : outcome (list N) :=
    x <- o_from (i_ops1 i) a ;; to_bytes (i_ops1 i) (f x).
  Definition op2_bytes (f : T1 i -> T1 i -> T1 i) (a b : list N) : outcome (list N) :=
    x <- o_from (i_ops1 i) a ;; y <- o_from (i_ops1 i) b ;; to_bytes (i_ops1 i) (f x y).
  Definition chain_bytes (f : T1 i -> list (T1 i) -> outcome (T1 i)) (a : list N) (ks : list (list N)) : outcome (list N) :=
    x <- o_from (i_ops1 i) a ;;
    keys <- fold_right (fun k r => k' <- o_from (i_ops1 i) k ;; r' <- r ;; Ret (k' :: r')) (Ret []) ks ;;
    y <- f x keys ;; to_bytes (i_ops1 i) y.
  Definition key_bytes (k : key_size) (key : list N) : outcome (list (list N)) :=
    e <- enc_new i k key ;;
    fold_right (fun k r => b <- to_bytes (i_ops1 i) k ;; r' <- r ;; Ret (b :: r')) (Ret []) (enc_keys e).
End OpBytes.
