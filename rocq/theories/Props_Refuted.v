(** C30, C31: FIPS-197 conformance of the RV32 backend and of the big-endian constant-time backend.
    Both are false of the code; the theorems give concrete inputs.  What does hold of these two backends
    is in Props_Cipher / Props_Rounds / Props_Blocks / Props_Total (which quantify over them too) and in
    Props_Actual. *)
From Coq Require Import Lia Arith.
From Verif Require Import Word Interface Fips197 Spec_Api Spec_Reach Spec_Cfg Spec_User Model_Lib Model_Cfg.
Open Scope N_scope.

Definition bytes_0_to (n : nat) : list N := map N.of_nat (seq 0 n).
Lemma bytes_0_to_ok n : (n <= 256)%nat -> is_bytes n (bytes_0_to n).
Proof.
  intros H. unfold bytes_0_to. split; [now rewrite map_length, seq_length|]. apply Forall_forall. intros x Hx. apply in_map_iff in Hx as (m & <- & Hm).
  apply in_seq in Hm. lia.
Qed.
Lemma key_len_256 k : (key_len k <= 256)%nat. Proof. destruct k; cbn; lia. Qed.

(** The statement of C30 (for RV32 configurations) and of C31 (big-endian constant-time), for the ciphers. *)
Definition ciphers_conform (group : cfg -> bool) (k : key_size) : Prop := forall c i key p,
  rustc_ok c = true -> group c = true -> impl_of c = Some i -> is_bytes (key_len k) key -> is_bytes 16 p ->
  encrypt_bytes i k key p = Ret (aes_encrypt k key p) /\ decrypt_bytes i k key p = Ret (aes_decrypt k key p).
Definition schedule_conforms (group : cfg -> bool) (k : key_size) : Prop := forall c i key,
  rustc_ok c = true -> group c = true -> impl_of c = Some i -> is_bytes (key_len k) key ->
  key_bytes i k key = Ret (round_keys k key).
Definition rounds_conform (group : cfg -> bool) : Prop := forall c i a k,
  rustc_ok c = true -> group c = true -> impl_of c = Some i -> is_bytes 16 a -> is_bytes 16 k ->
  op2_bytes i (o_dec (i_ops1 i)) a k = Ret (spec_dec a k) /\ op2_bytes i (o_dec_last (i_ops1 i)) a k = Ret (spec_dec_last a k) /\
  op1_bytes i (e_mc (i_ext i)) a = Ret (mix_columns a) /\ op1_bytes i (e_imc (i_ext i)) a = Ret (inv_mix_columns a).
Definition chains_conform (group : cfg -> bool) : Prop := forall c i x ks,
  rustc_ok c = true -> group c = true -> impl_of c = Some i -> reach1 i x -> Forall (reach1 i) ks ->
  chain_enc1 i x ks = documented_chain (i_ops1 i) (o_enc (i_ops1 i)) x ks /\
  chain_dec1 i x ks = documented_chain (i_ops1 i) (o_dec (i_ops1 i)) x ks.

(** ** C30: RV32.  Every clause fails on its own. *)
Definition key_0 (k : key_size) : list N := bytes_0_to (key_len k).
Theorem C30_rv32_ciphers_refuted : forall k, ~ ciphers_conform rv32_zk k.
Proof.
  intros k H. destruct (H c_rv32 _ (key_0 k) (bytes_0_to 16) eq_refl eq_refl eq_refl (bytes_0_to_ok _ (key_len_256 k)) (bytes_0_to_ok 16 ltac:(lia))) as [H1 _].
  destruct k; vm_compute in H1; discriminate.
Qed.
Print Assumptions C30_rv32_ciphers_refuted.
(** also for encryption alone and for decryption alone, on concrete bytes *)
Theorem C30_rv32_encrypt_and_decrypt_wrong : forall k, exists i, impl_of c_rv32 = Some i /\
  encrypt_bytes i k (key_0 k) (bytes_0_to 16) <> Ret (aes_encrypt k (key_0 k) (bytes_0_to 16)) /\
  decrypt_bytes i k (key_0 k) (bytes_0_to 16) <> Ret (aes_decrypt k (key_0 k) (bytes_0_to 16)).
Proof.
  intros k. eexists. split; [reflexivity|]. destruct k; split; vm_compute; discriminate.
Qed.
Print Assumptions C30_rv32_encrypt_and_decrypt_wrong.
(** decrypting what the same build encrypted does not give the plaintext back *)
Theorem C30_rv32_round_trip_refuted : forall k, exists i ct, impl_of c_rv32 = Some i /\
  encrypt_bytes i k (key_0 k) (bytes_0_to 16) = Ret ct /\ decrypt_bytes i k (key_0 k) ct <> Ret (bytes_0_to 16).
Proof.
  intros k. eexists. destruct k; (eexists; split; [reflexivity|]; split; [vm_compute; reflexivity|vm_compute; discriminate]).
Qed.
Print Assumptions C30_rv32_round_trip_refuted.
Theorem C30_rv32_key_schedule_refuted : forall k, ~ schedule_conforms rv32_zk k.
Proof.
  intros k H. pose proof (H c_rv32 _ (key_0 k) eq_refl eq_refl eq_refl (bytes_0_to_ok _ (key_len_256 k))) as H1.
  destruct k; vm_compute in H1; discriminate.
Qed.
Print Assumptions C30_rv32_key_schedule_refuted.
Theorem C30_rv32_rounds_refuted : ~ rounds_conform rv32_zk /\ exists i a k, impl_of c_rv32 = Some i /\ is_bytes 16 a /\ is_bytes 16 k /\
  op2_bytes i (o_dec (i_ops1 i)) a k <> Ret (spec_dec a k) /\ op2_bytes i (o_dec_last (i_ops1 i)) a k <> Ret (spec_dec_last a k) /\
  op1_bytes i (e_mc (i_ext i)) a <> Ret (mix_columns a) /\ op1_bytes i (e_imc (i_ext i)) a <> Ret (inv_mix_columns a).
Proof.
  assert (W : exists i a k, impl_of c_rv32 = Some i /\ is_bytes 16 a /\ is_bytes 16 k /\
  op2_bytes i (o_dec (i_ops1 i)) a k <> Ret (spec_dec a k) /\ op2_bytes i (o_dec_last (i_ops1 i)) a k <> Ret (spec_dec_last a k) /\
  op1_bytes i (e_mc (i_ext i)) a <> Ret (mix_columns a) /\ op1_bytes i (e_imc (i_ext i)) a <> Ret (inv_mix_columns a)).
  { eexists. exists (bytes_0_to 16), (bytes_0_to 16). split; [reflexivity|]. split; [apply bytes_0_to_ok; lia|]. split; [apply bytes_0_to_ok; lia|].
    refine (conj _ (conj _ (conj _ _))); vm_compute; discriminate. }
  split; [|exact W]. intros H. destruct W as (i & a & k & Hi & Ha & Hk & W1 & _). destruct (H c_rv32 i a k eq_refl eq_refl Hi Ha Hk) as [H1 _]. contradiction.
Qed.
Print Assumptions C30_rv32_rounds_refuted.
Theorem C30_rv32_chains_refuted : ~ chains_conform rv32_zk /\ exists i a k, impl_of c_rv32 = Some i /\ is_bytes 16 a /\ is_bytes 16 k /\
  chain_bytes i (chain_enc1 i) a [k; a] <> Ret (spec_enc (map2 N.lxor a k) a) /\
  chain_bytes i (chain_dec1 i) a [k; a] <> Ret (spec_dec (map2 N.lxor a k) a).
Proof.
  split.
  - intros H. assert (R : forall i b x, is_bytes 16 b -> o_size (i_ops1 i) = 16%nat -> o_from (i_ops1 i) b = Ret x -> reach1 i x).
    { intros i b x Hb Hs Hx P1 P2 P4 PE PD A. eapply (cl_from _ _ _ (ac_1 _ _ _ _ _ _ A)); [rewrite Hs; exact Hb|exact Hx]. }
    assert (B1 : is_bytes 16 (bytes_0_to 16)) by (apply bytes_0_to_ok; lia).
    assert (B2 : is_bytes 16 (repeat 7 16)) by (split; [reflexivity|apply Forall_forall; intros x Hx; apply repeat_spec in Hx; now subst]).
    specialize (H c_rv32 (default_of true Model_Rv32.rv32_ops Model_Rv32.rv32_ext (Some (Model_Rv32.r32_pre_enc, Model_Rv32.r32_pre_dec))) (Model_Rv32.r32_of_bytes (bytes_0_to 16)) [Model_Rv32.r32_of_bytes (repeat 7 16); Model_Rv32.r32_of_bytes (bytes_0_to 16)] eq_refl eq_refl eq_refl).
    destruct H as [H1 _].
    + eapply R; [exact B1|reflexivity|reflexivity].
    + repeat constructor; [eapply R; [exact B2|reflexivity|reflexivity]|eapply R; [exact B1|reflexivity|reflexivity]].
    + vm_compute in H1. discriminate.
  - eexists. exists (bytes_0_to 16), (repeat 7 16). split; [reflexivity|]. split; [apply bytes_0_to_ok; lia|].
    split; [split; [reflexivity|apply Forall_forall; intros x Hx; apply repeat_spec in Hx; now subst]|].
    split; vm_compute; discriminate.
Qed.
Print Assumptions C30_rv32_chains_refuted.

(** ** C31: big-endian, constant-time feature *)
Theorem C31_be_constant_time_refuted : forall k, ~ ciphers_conform be_constant_time k.
Proof.
  intros k H. destruct (H c_ct_be _ (key_0 k) (bytes_0_to 16) eq_refl eq_refl eq_refl (bytes_0_to_ok _ (key_len_256 k)) (bytes_0_to_ok 16 ltac:(lia))) as [H1 _].
  destruct k; vm_compute in H1; discriminate.
Qed.
Print Assumptions C31_be_constant_time_refuted.
Theorem C31_be_constant_time_wrong : forall k, exists i, impl_of c_ct_be = Some i /\
  encrypt_bytes i k (key_0 k) (bytes_0_to 16) <> Ret (aes_encrypt k (key_0 k) (bytes_0_to 16)) /\
  decrypt_bytes i k (key_0 k) (bytes_0_to 16) <> Ret (aes_decrypt k (key_0 k) (bytes_0_to 16)).
Proof.
  intros k. eexists. split; [reflexivity|]. destruct k; split; vm_compute; discriminate.
Qed.
Print Assumptions C31_be_constant_time_wrong.
Theorem C31_be_constant_time_key_schedule_refuted : forall k, ~ schedule_conforms be_constant_time k.
Proof.
  intros k H. pose proof (H c_ct_be _ (key_0 k) eq_refl eq_refl eq_refl (bytes_0_to_ok _ (key_len_256 k))) as H1.
  destruct k; vm_compute in H1; discriminate.
Qed.
Print Assumptions C31_be_constant_time_key_schedule_refuted.
