(** SPECIFICATION for C56: what the calls of C30 and C31 have to do, and which edits of Model_Repair a configuration needs. *)
From Verif Require Import Word Interface Fips197 Spec_Api Spec_Reach Spec_Cfg Spec_User Model_Lib Model_Cfg Model_Repair.
Open Scope N_scope.

(** The ciphers on one block, for all keys and blocks. *)
Definition fips_ciphers (i : impl) : Prop := forall k key p, is_bytes (key_len k) key -> is_bytes 16 p ->
  encrypt_bytes i k key p = Ret (aes_encrypt k key p) /\ decrypt_bytes i k key p = Ret (aes_decrypt k key p).

(** Everything C30 and C31 ask for: the ciphers, on messages in groups of one, two and four blocks, the key schedule, the
    round functions, MixColumns and its inverse, and the chains. *)
Record fips_build (i : impl) : Prop := {
  fb_ciphers : fips_ciphers i;
  fb_messages : forall k key gs msg, is_bytes (key_len k) key -> is_bytes (groups_len gs) msg ->
    encrypt_message i k key gs msg = Ret (each_block (aes_encrypt k key) msg) /\ decrypt_message i k key gs msg = Ret (each_block (aes_decrypt k key) msg);
  fb_schedule : forall k key, is_bytes (key_len k) key -> key_bytes i k key = Ret (round_keys k key);
  fb_rounds : forall a b, is_bytes 16 a -> is_bytes 16 b ->
    op2_bytes i (o_enc (i_ops1 i)) a b = Ret (spec_enc a b) /\ op2_bytes i (o_enc_last (i_ops1 i)) a b = Ret (spec_enc_last a b) /\
    op2_bytes i (o_dec (i_ops1 i)) a b = Ret (spec_dec a b) /\ op2_bytes i (o_dec_last (i_ops1 i)) a b = Ret (spec_dec_last a b) /\
    op1_bytes i (e_mc (i_ext i)) a = Ret (mix_columns a) /\ op1_bytes i (e_imc (i_ext i)) a = Ret (inv_mix_columns a);
  fb_chains : forall x ks, reach1 i x -> Forall (reach1 i) ks ->
    chain_enc1 i x ks = documented_chain (i_ops1 i) (o_enc (i_ops1 i)) x ks /\
    chain_dec1 i x ks = documented_chain (i_ops1 i) (o_dec (i_ops1 i)) x ks
}.

(** Big-endian AArch64, and nightly big-endian Arm v8, with the AES instructions. *)
Definition be_arm (c : cfg) : bool := c_be c && c_aes c && (is_arch Aarch64 c || (is_arch Arm c && c_v8 c && c_nightly c)).
(** The edits a configuration needs: the chain condition of lib.rs where the crate does not compile (C32), the five of
    aes_riscv32.rs on RV32 (C30), the two of the key schedule of aes_bitslice.rs on big-endian constant-time (C31). *)
Definition needs (c : cfg) (e : edits) : Prop :=
  (be_arm c = true -> ed_chain e = true) /\
  (rv32_zk c = true -> ed_order e = true /\ ed_pre e = true /\ ed_rot128 e = true /\ ed_rot192 e = true /\ ed_rot256 e = true) /\
  (be_constant_time c = true -> ed_be_rot e = true /\ ed_be_rcon e = true).
