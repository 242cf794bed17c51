(** The project's test suite (Model_Suite) passes on every conforming build, from the refinement theorems, and fails on the others. *)
From Coq Require Import Lia Arith.
From Verif Require Import Word Interface Fips197 Spec_Api Spec_Cfg Spec_User Model_Lib Model_Cfg Model_Suite Proof_Shape Proof_Word Proof_Fips Proof_Ok Proof_Sem Proof_Lib Proof_Cipher Proof_Inst Proof_Main.
From Verif Require Import Model_Bitslice Model_Rv32 Props_Cfg Props_Rounds Props_Batch.
Open Scope N_scope.

Lemma to_be_bytes n v : is_bytes n (to_be n v).
Proof. unfold to_be. split; [rewrite rev_length; apply to_le_length|]. apply Forall_rev, to_le_ok. Qed.
Lemma test_key_ok k : is_bytes (key_len k) (test_key k). Proof. destruct k; apply to_be_bytes. Qed.

(** The expected values in tests.rs are those of FIPS 197 (by computation in the specification). *)
Lemma schedule_right k : round_keys k (test_key k) = map (to_be 16) (test_schedule k).
Proof. destruct k; vm_compute; reflexivity. Qed.
Lemma vectors_right k : map (fun p => aes_encrypt k (test_key k) (to_be 16 (fst p))) (test_vectors k) = map (fun p => to_be 16 (snd p)) (test_vectors k).
Proof. destruct k; vm_compute; reflexivity. Qed.
Lemma aesenc_right :
  spec_enc (to_be 16 0x000102030405060708090a0b0c0d0e0f) (to_be 16 0x101112131415161718191a1b1c1d1e1f) = to_be 16 0x7a7b4e5638782546a8c0477a3b813f43 /\
  spec_dec_last (inv_mix_columns (map2 N.lxor (to_be 16 0x7a7b4e5638782546a8c0477a3b813f43) (to_be 16 0x101112131415161718191a1b1c1d1e1f))) (repeat 0 16)
    = to_be 16 0x000102030405060708090a0b0c0d0e0f.
Proof. split; vm_compute; reflexivity. Qed.

Section Conforming.
Context (i : impl) (pre : option ((list N -> list N -> list N) * (list N -> list N -> list N))) (f1 : list N -> T1 i) (f2 : list N -> T2 i) (f4 : list N -> T4 i).
Context (P : pre_fips pre) (S1 : sem_ok (fips_sem pre round_keys)) (R : refines i f1 f2 f4 (fips_sem pre round_keys)).
Notation b16 v := (to_be 16 v).

Lemma blk_ok v : blk i v = Ret (f1 (b16 v)).
Proof. apply (dk_from _ _ _ (R_d1 _ _ _ _ _ R)), to_be_bytes. Qed.
Lemma pair_ok a b : pair i a b = Ret (f2 (b16 a ++ b16 b)).
Proof. unfold pair. rewrite !blk_ok. cbn [bind]. now rewrite (R_x2_of_pair _ _ _ _ _ R) by apply to_be_bytes. Qed.
Lemma quad_ok a b c d : quad i a b c d = Ret (f4 (b16 a ++ b16 b ++ b16 c ++ b16 d)).
Proof. unfold quad. rewrite !blk_ok. cbn [bind]. now rewrite (R_x4_of_quad _ _ _ _ _ R) by apply to_be_bytes. Qed.
Lemma eq1_refl x : is_bytes 16 x -> passes (eq1 i (Ret (f1 x)) (Ret (f1 x))) = true.
Proof. intros H. cbn. now apply (dk_eq _ _ _ (R_d1 _ _ _ _ _ R)). Qed.
Lemma eq2_refl x : is_bytes 32 x -> passes (eq2 i (Ret (f2 x)) (Ret (f2 x))) = true.
Proof. intros H. cbn. now apply (dk_eq _ _ _ (R_d2 _ _ _ _ _ R)). Qed.
Lemma eq4_refl x : is_bytes 64 x -> passes (eq4 i (Ret (f4 x)) (Ret (f4 x))) = true.
Proof. intros H. cbn. now apply (dk_eq _ _ _ (R_d4 _ _ _ _ _ R)). Qed.
Lemma b32 a b : is_bytes 32 (b16 a ++ b16 b). Proof. apply (is_bytes_app 16 16); apply to_be_bytes. Qed.
Lemma b64 a b c d : is_bytes 64 (b16 a ++ b16 b ++ b16 c ++ b16 d). Proof. repeat (apply (is_bytes_app 16 _); [apply to_be_bytes|]). apply to_be_bytes. Qed.

(** one direction of [aes_test!], for functions that act as [g] on every lane *)
Lemma aes_test_ok g run1 run2 run4 v :
  (forall x, is_bytes 16 x -> run1 (f1 x) = Ret (f1 (g x))) ->
  (forall x y, is_bytes 16 x -> is_bytes 16 y -> run2 (f2 (x ++ y)) = Ret (f2 (g x ++ g y))) ->
  (forall x y z w, is_bytes 16 x -> is_bytes 16 y -> is_bytes 16 z -> is_bytes 16 w ->
     run4 (f4 (x ++ y ++ z ++ w)) = Ret (f4 (g x ++ g y ++ g z ++ g w))) ->
  (4 <= length v)%nat -> Forall (fun p => g (b16 (fst p)) = b16 (snd p)) v ->
  aes_test i run1 run2 run4 v = true.
Proof.
  intros H1 H2 H4 L F. unfold aes_test. apply andb_true_intro. split.
  - apply forallb_forall. intros p Hp. rewrite Forall_forall in F. rewrite !blk_ok. cbn [bind]. rewrite H1 by apply to_be_bytes.
    rewrite (F p Hp). apply eq1_refl, to_be_bytes.
  - destruct v as [|[a a'] [|[b b'] [|[c c'] [|[d d'] v]]]]; try (cbn in L; lia).
    inversion_clear F as [|? ? Fa F1]. inversion_clear F1 as [|? ? Fb F2]. inversion_clear F2 as [|? ? Fc F3]. inversion_clear F3 as [|? ? Fd F4].
    cbn [fst snd] in Fa, Fb, Fc, Fd. rewrite !pair_ok, !quad_ok. cbn [bind].
    rewrite !H2, H4 by apply to_be_bytes. rewrite Fa, Fb, Fc, Fd. repeat (apply andb_true_intro; split); [apply eq2_refl, b32|apply eq2_refl, b32|apply eq4_refl, b64].
Qed.

Lemma vectors_forall k : Forall (fun p => aes_encrypt k (test_key k) (b16 (fst p)) = b16 (snd p)) (test_vectors k).
Proof.
  pose proof (vectors_right k) as V. revert V. generalize (aes_encrypt k (test_key k)) as g. generalize (test_vectors k) as l.
  induction l as [|p l IH]; intros g V; [constructor|]. cbn [map] in V. injection V as V1 V2. constructor; [exact V1|now apply IH].
Qed.
Lemma vectors_back k : Forall (fun p => aes_decrypt k (test_key k) (b16 (fst p)) = b16 (snd p)) (map (fun p => (snd p, fst p)) (test_vectors k)).
Proof.
  apply Forall_map. eapply Forall_impl; [|apply vectors_forall]. cbn [fst snd]. intros p <-.
  apply aes_decrypt_encrypt; [apply test_key_ok|apply to_be_bytes].
Qed.
Lemma vectors_len k : (4 <= length (test_vectors k))%nat. Proof. destruct k; cbn; lia. Qed.

Lemma cipher_passes k : cipher_test i k = true.
Proof.
  pose proof (test_key_ok k) as Hk. pose proof (round_keys_good k _ Hk) as G. unfold cipher_test.
  rewrite (enc_new_ok _ _ _ _ _ R) by assumption. cbn [fips_sem s_keys]. rewrite (decrypter_ok _ _ _ _ _ R) by assumption. cbn [fips_sem s_imc].
  assert (G' : good_keys k (b_swap inv_mix_columns (round_keys k (test_key k)))) by (apply b_swap_good; [apply inv_mix_columns_bytes|assumption]).
  assert (A32 : forall x y, is_bytes 16 x -> is_bytes 16 y -> is_bytes 32 (x ++ y)) by (intros; now apply (is_bytes_app 16 16)).
  assert (A64 : forall x y z w, is_bytes 16 x -> is_bytes 16 y -> is_bytes 16 z -> is_bytes 16 w -> is_bytes 64 (x ++ y ++ z ++ w)).
  { intros. repeat (apply (is_bytes_app 16 _); [assumption|]). assumption. }
  apply andb_true_intro. split.
  - apply (aes_test_ok (aes_encrypt k (test_key k))).
    + intros x Hx. rewrite (encrypt_block_ok _ _ _ _ _ R S1) by assumption. now rewrite b_encrypt_fips by assumption.
    + intros x y Hx Hy. rewrite (encrypt_2_ok _ _ _ _ _ R S1) by auto. rewrite lanes2_app by assumption. cbn [map concat]. rewrite app_nil_r.
      now rewrite !b_encrypt_fips by assumption.
    + intros x y z w Hx Hy Hz Hw. rewrite (encrypt_4_ok _ _ _ _ _ R S1) by auto. rewrite lanes4_app by assumption. cbn [map concat]. rewrite app_nil_r.
      now rewrite !b_encrypt_fips by assumption.
    + apply vectors_len.
    + apply vectors_forall.
  - apply (aes_test_ok (aes_decrypt k (test_key k))).
    + intros x Hx. rewrite (decrypt_block_ok _ _ _ _ _ R S1) by assumption. now rewrite b_decrypt_fips by assumption.
    + intros x y Hx Hy. rewrite (decrypt_2_ok _ _ _ _ _ R S1) by auto. rewrite lanes2_app by assumption. cbn [map concat]. rewrite app_nil_r.
      now rewrite !b_decrypt_fips by assumption.
    + intros x y z w Hx Hy Hz Hw. rewrite (decrypt_4_ok _ _ _ _ _ R S1) by auto. rewrite lanes4_app by assumption. cbn [map concat]. rewrite app_nil_r.
      now rewrite !b_decrypt_fips by assumption.
    + rewrite map_length. apply vectors_len.
    + apply vectors_back.
Qed.

Lemma expansion_passes k : expansion_test i k = true.
Proof.
  unfold expansion_test. rewrite (enc_new_ok _ _ _ _ _ R) by apply test_key_ok. cbn [fips_sem s_keys enc_keys].
  rewrite schedule_right, !map_length, Nat.eqb_refl. cbn [andb].
  generalize (test_schedule k) as l. induction l as [|v l IH]; [reflexivity|]. cbn [map combine forallb fst snd].
  rewrite IH, blk_ok, eq1_refl by apply to_be_bytes. reflexivity.
Qed.

Lemma aesenc_passes : aesenc_test i = true.
Proof.
  unfold aesenc_test. rewrite !blk_ok. cbn [bind].
  set (x := b16 0x000102030405060708090a0b0c0d0e0f). set (k := b16 0x101112131415161718191a1b1c1d1e1f). set (y := b16 0x7a7b4e5638782546a8c0477a3b813f43).
  assert (Hx : is_bytes 16 x) by apply to_be_bytes. assert (Hk : is_bytes 16 k) by apply to_be_bytes. assert (Hy : is_bytes 16 y) by apply to_be_bytes.
  destruct aesenc_right as [A1 A2]. fold x k y in A1, A2.
  pose proof (R_d1 _ _ _ _ _ R) as D.
  rewrite (dk_xor _ _ _ D) by assumption.
  assert (Hyk : is_bytes 16 (map2 N.lxor y k)) by now apply (xor_bytes 16).
  rewrite (R_imc _ _ _ _ _ R) by assumption. cbn [fips_sem s_imc].
  rewrite (dk_zero _ _ _ D).
  rewrite (ln1 _ f1 spec_enc) by (try assumption; apply R).
  rewrite (ln1 _ f1 spec_dec_last) by (try (apply R); try (now apply inv_mix_columns_bytes); (apply is_bytesb_correct; vm_compute; reflexivity)).
  rewrite A1, A2, !eq1_refl by assumption. reflexivity.
Qed.

Lemma results_pass : forallb (fun b => b) (results i) = true.
Proof. unfold results. cbn [forallb]. now rewrite aesenc_passes, !expansion_passes, !cipher_passes. Qed.
End Conforming.

Lemma bitslice_passes c : forallb (fun b => b) (bitslice_results c) = true.
Proof. unfold bitslice_results. destruct (select_block c); try reflexivity. destruct (c_be c); vm_compute; reflexivity. Qed.

Lemma conforming_suite c i : impl_of c = Some i -> conforming c = true -> suite_passes c i = true.
Proof.
  intros E C. destruct (inst c i E (conforming_rv c C)) as (pre & keys & f1 & f2 & f4 & Hpre & K & S1 & R). rewrite (K C) in *.
  unfold suite_passes. rewrite forallb_app, (results_pass i pre f1 f2 f4 Hpre S1 R), bitslice_passes. reflexivity.
Qed.

(** The two kinds of build that do not conform, and what they are. *)
Definition rv32_build (dbg : bool) : impl := implementation (Cfg Riscv32 false true false false false false false false true true dbg) P_rv32.
Definition ct_be_build (dbg : bool) : impl := implementation (Cfg OtherArch true false true false false false false false false false dbg) P_constant_time.
Definition nonconf_check (c : cfg) : bool :=
  implb (rustc_ok c && negb (conforming c))
        (match readme c with P_rv32 => rv32_zk c | P_constant_time => be_constant_time c && negb (rv32_zk c) | _ => false end).
Lemma nonconf_checked : all_cfgs nonconf_check = true. Proof. vm_compute. reflexivity. Qed.
Lemma nonconforming c i : rustc_ok c = true -> impl_of c = Some i -> conforming c = false ->
  i = rv32_build (c_dbg c) \/ i = ct_be_build (c_dbg c).
Proof.
  intros H E C. pose proof (all_cfgs_ok _ nonconf_checked c) as Q. unfold nonconf_check in Q. rewrite H, C in Q. cbn [negb andb implb] in Q.
  pose proof (C25_readme_is_selection c H) as S. rewrite E in S. destruct (be_arm_aes c); [discriminate S|]. injection S as ->.
  destruct (readme c); try discriminate Q; [left; reflexivity|right]. apply andb_true_iff in Q as [Q _]. unfold be_constant_time in Q.
  apply andb_true_iff in Q as [Q _]. unfold ct_be_build, implementation. cbn [c_dbg c_be]. rewrite Q. reflexivity.
Qed.

Lemma rv32_aesenc_fails b : aesenc_test (rv32_build b) = false. Proof. destruct b; vm_compute; reflexivity. Qed.
Lemma ct_be_expansion_fails b : expansion_test (ct_be_build b) K128 = false. Proof. destruct b; vm_compute; reflexivity. Qed.
Lemma nonconforming_suite c i : rustc_ok c = true -> impl_of c = Some i -> conforming c = false -> forallb (fun b => b) (results i) = false.
Proof.
  intros H E C. unfold results. cbn [forallb]. destruct (nonconforming c i H E C) as [-> | ->].
  - now rewrite rv32_aesenc_fails.
  - rewrite ct_be_expansion_fails. now rewrite !andb_false_r.
Qed.
