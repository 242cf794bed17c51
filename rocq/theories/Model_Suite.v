(** src/tests.rs, the project's own tests, and the two tests of src/aes_bitslice.rs, as executable functions on the model:
    a test passes if it returns [true]; a failed [assert_eq!] or a panic is [false]. *)
From Verif Require Import Word Interface Fips197 Model_Bitslice Model_Lib Model_Cfg.
Open Scope N_scope.

(** tests.rs:6-14 *)
Definition test_key (k : key_size) : list N :=
  match k with
  | K128 => to_be 16 0x2b7e151628aed2a6abf7158809cf4f3c
  | K192 => to_be 24 0x8e73b0f7da0e6452c810f32b809079e562f8ead2522c6b7b
  | K256 => to_be 32 0x603deb1015ca71be2b73aef0857d77811f352c073b6108d72d9810a30914dff4
  end.
(** tests.rs:28-83 *)
Definition test_schedule (k : key_size) : list N :=
  match k with
  | K128 =>
  [0x2b7e151628aed2a6abf7158809cf4f3c;
   0xa0fafe1788542cb123a339392a6c7605;
   0xf2c295f27a96b9435935807a7359f67f;
   0x3d80477d4716fe3e1e237e446d7a883b;
   0xef44a541a8525b7fb671253bdb0bad00;
   0xd4d1c6f87c839d87caf2b8bc11f915bc;
   0x6d88a37a110b3efddbf98641ca0093fd;
   0x4e54f70e5f5fc9f384a64fb24ea6dc4f;
   0xead27321b58dbad2312bf5607f8d292f;
   0xac7766f319fadc2128d12941575c006e;
   0xd014f9a8c9ee2589e13f0cc8b6630ca6]
  | K192 =>
  [0x8e73b0f7da0e6452c810f32b809079e5;
   0x62f8ead2522c6b7bfe0c91f72402f5a5;
   0xec12068e6c827f6b0e7a95b95c56fec2;
   0x4db7b4bd69b5411885a74796e92538fd;
   0xe75fad44bb095386485af05721efb14f;
   0xa448f6d94d6dce24aa326360113b30e6;
   0xa25e7ed583b1cf9a27f939436a94f767;
   0xc0a69407d19da4e1ec1786eb6fa64971;
   0x485f703222cb8755e26d135233f0b7b3;
   0x40beeb282f18a2596747d26b458c553e;
   0xa7e1466c9411f1df821f750aad07d753;
   0xca4005388fcc5006282d166abc3ce7b5;
   0xe98ba06f448c773c8ecc720401002202]
  | K256 =>
  [0x603deb1015ca71be2b73aef0857d7781;
   0x1f352c073b6108d72d9810a30914dff4;
   0x9ba354118e6925afa51a8b5f2067fcde;
   0xa8b09c1a93d194cdbe49846eb75d5b9a;
   0xd59aecb85bf3c917fee94248de8ebe96;
   0xb5a9328a2678a647983122292f6c79b3;
   0x812c81addadf48ba24360af2fab8b464;
   0x98c5bfc9bebd198e268c3ba709e04214;
   0x68007bacb2df331696e939e46c518d80;
   0xc814e20476a9fb8a5025c02d59c58239;
   0xde1369676ccc5a71fa2563959674ee15;
   0x5886ca5d2e2f31d77e0af1fa27cf73c3;
   0x749c47ab18501ddae2757e4f7401905a;
   0xcafaaae3e4d59b349adf6acebd10190d;
   0xfe4890d1e6188d0b046df344706c631e]
  end.
(** tests.rs:138-197 *)
Definition test_vectors (k : key_size) : list (N * N) :=
  match k with
  | K128 =>
  [(0x6bc1bee22e409f96e93d7e117393172a, 0x3ad77bb40d7a3660a89ecaf32466ef97);
   (0xae2d8a571e03ac9c9eb76fac45af8e51, 0xf5d3d58503b9699de785895a96fdbaaf);
   (0x30c81c46a35ce411e5fbc1191a0a52ef, 0x43b1cd7f598ece23881b00e3ed030688);
   (0xf69f2445df4f9b17ad2b417be66c3710, 0x7b0c785e27e8ad3f8223207104725dd4);
   (0x3243f6a8885a308d313198a2e0370734, 0x3925841d02dc09fbdc118597196a0b32)]
  | K192 =>
  [(0x6bc1bee22e409f96e93d7e117393172a, 0xbd334f1d6e45f25ff712a214571fa5cc);
   (0xae2d8a571e03ac9c9eb76fac45af8e51, 0x974104846d0ad3ad7734ecb3ecee4eef);
   (0x30c81c46a35ce411e5fbc1191a0a52ef, 0xef7afd2270e2e60adce0ba2face6444e);
   (0xf69f2445df4f9b17ad2b417be66c3710, 0x9a4b41ba738d6c72fb16691603c18e0e)]
  | K256 =>
  [(0x6bc1bee22e409f96e93d7e117393172a, 0xf3eed1bdb5d2a03c064b5a7e3db181f8);
   (0xae2d8a571e03ac9c9eb76fac45af8e51, 0x591ccb10d410ed26dc5ba74a31362870);
   (0x30c81c46a35ce411e5fbc1191a0a52ef, 0xb6ed21b99ca6f4f9f153e7b1beafed1d);
   (0xf69f2445df4f9b17ad2b417be66c3710, 0x23304b7a39f9f3ff067d8d8f9e24ecc7)]
  end.

Section Run.
  Context (i : impl).
  Notation o1 := (i_ops1 i).
  (** [assert_eq!] on block types: PartialEq *)
  (* assert_eq! as used throughout tests.rs:16-239. *)
  Definition eq1 (a b : outcome (T1 i)) : outcome bool := x <- a ;; y <- b ;; Ret (o_eq (i_ops1 i) x y).
  Definition eq2 (a b : outcome (T2 i)) : outcome bool := x <- a ;; y <- b ;; Ret (o_eq (i_ops2 i) x y).
  Definition eq4 (a b : outcome (T4 i)) : outcome bool := x <- a ;; y <- b ;; Ret (o_eq (i_ops4 i) x y).
  Definition passes (a : outcome bool) : bool := match a with Ret b => b | _ => false end.
  (* tests.rs:18-20, 30-40, 139-196: AesBlock::from(u128). *)
  Definition blk (v : N) : outcome (T1 i) := of_u128 o1 v.
  (** tests.rs:16-25 *)
  Definition aesenc_test : bool :=
    passes (block <- blk 0x000102030405060708090a0b0c0d0e0f ;; rk <- blk 0x101112131415161718191a1b1c1d1e1f ;;
            eq1 (Ret (o_enc o1 block rk)) (blk 0x7a7b4e5638782546a8c0477a3b813f43)) &&
    passes (block <- blk 0x000102030405060708090a0b0c0d0e0f ;; rk <- blk 0x101112131415161718191a1b1c1d1e1f ;;
            enc <- blk 0x7a7b4e5638782546a8c0477a3b813f43 ;;
            eq1 (Ret (o_dec_last o1 (e_imc (i_ext i) (o_xor o1 enc rk)) (o_zero o1))) (Ret block)).
  (** tests.rs:27-83 *)
  Definition expansion_test (k : key_size) : bool :=
    match enc_new i k (test_key k) with
    | Ret e => Nat.eqb (length (enc_keys e)) (length (test_schedule k)) &&
               forallb (fun p => passes (eq1 (Ret (fst p)) (blk (snd p)))) (combine (enc_keys e) (test_schedule k))
    | _ => false
    end.
  (** tests.rs:85-135: each block, the pairs 0-1 and 2-3, the quadruple *)
  Definition pair (a b : N) : outcome (T2 i) := x <- blk a ;; y <- blk b ;; Ret (x2_of_pair i (x, y)).
  Definition quad (a b c d : N) : outcome (T4 i) := x <- blk a ;; y <- blk b ;; z <- blk c ;; w <- blk d ;; Ret (x4_of_quad i (x, y, z, w)).
  Definition aes_test (run1 : T1 i -> outcome (T1 i)) (run2 : T2 i -> outcome (T2 i)) (run4 : T4 i -> outcome (T4 i)) (v : list (N * N)) : bool :=
    forallb (fun p => passes (eq1 (x <- blk (fst p) ;; run1 x) (blk (snd p)))) v &&
    match v with
    | (a, a') :: (b, b') :: (c, c') :: (d, d') :: _ =>
        passes (eq2 (x <- pair a b ;; run2 x) (pair a' b')) && passes (eq2 (x <- pair c d ;; run2 x) (pair c' d')) &&
        passes (eq4 (x <- quad a b c d ;; run4 x) (quad a' b' c' d'))
    | _ => false
    end.
  (** tests.rs:199-239 *)
  Definition cipher_test (k : key_size) : bool :=
    match enc_new i k (test_key k) with
    | Ret e => aes_test (encrypt_block i k e) (encrypt_2_blocks i k e) (encrypt_4_blocks i k e) (test_vectors k) &&
               match decrypter i k e with
               | Ret d => aes_test (decrypt_block i k d) (decrypt_2_blocks i k d) (decrypt_4_blocks i k d) (map (fun p => (snd p, fst p)) (test_vectors k))
               | _ => false
               end
    | _ => false
    end.
  (** The seven tests in the order of the file. *)
  Definition results : list bool :=
    [aesenc_test; expansion_test K128; expansion_test K192; expansion_test K256; cipher_test K128; cipher_test K192; cipher_test K256].
End Run.

(** aes_bitslice.rs:410-435, test_subbytes and test_invsubbytes, compiled only where that module is *)
Definition bitslice_tests (be : bool) : list (list N) :=
  let x := of_ne be [0; 1; 2; 3; 4; 5; 6; 7; 8; 9; 10; 11; 12; 13; 14; 15] in [to_ne be 16 (subbytes 16 x); to_ne be 16 (invsubbytes 16 x)].
(* aes_bitslice.rs:417-421, 429-433: the expected bytes. *)
Definition bitslice_expected : list (list N) :=
  [[0x63; 0x7c; 0x77; 0x7b; 0xf2; 0x6b; 0x6f; 0xc5; 0x30; 0x01; 0x67; 0x2b; 0xfe; 0xd7; 0xab; 0x76];
   [0x52; 0x09; 0x6a; 0xd5; 0x30; 0x36; 0xa5; 0x38; 0xbf; 0x40; 0xa3; 0x9e; 0x81; 0xf3; 0xd7; 0xfb]].
(* assert_eq! on [u8; 16] at aes_bitslice.rs:421, 433. *)
Fixpoint bytes_eqb (a b : list N) : bool :=
  match a, b with [], [] => true | x :: a, y :: b => (x =? y) && bytes_eqb a b | _, _ => false end.
Definition bitslice_results (c : cfg) : list bool :=
  match select_block c with
  | BBitslice => map (fun p => bytes_eqb (fst p) (snd p)) (combine (bitslice_tests (c_be c)) bitslice_expected)
  | _ => []
  end.

(** [cargo test] on a build: every test of tests.rs, and of aes_bitslice.rs where that is the block module
    (lib.rs:123-124 [mod tests], aes_bitslice.rs:410-411). *)
Definition suite_passes (c : cfg) (i : impl) : bool := forallb (fun b => b) (results i ++ bitslice_results c).
