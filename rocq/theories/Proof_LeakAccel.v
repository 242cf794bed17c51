(** The accelerated backends as programs ([Model_LeakAccel.v]) compute what the model of the code computes. *)
From Coq Require Import Lia Arith String.
From Coq Require Import List.
From Verif Require Import Word Interface Fips197 Isa_x86 Isa_arm Isa_riscv Spec_Api Spec_Actual Spec_Leak Model_Columns Model_X86 Model_Vaes Model_Arm Model_Rv64 Model_Rv32 Model_Bitslice Model_Lib Model_Cfg Model_Leak Model_LeakAccel.
From Verif Require Import Proof_Shape Proof_Word Proof_Fips Proof_Ok Proof_Sem Proof_Lib Proof_Wide Proof_Lanes Proof_X86 Proof_Arm Proof_Rv64 Proof_Rv32 Proof_KeySpec Proof_KeyGen Proof_Inst Proof_Bitslice Proof_KeyTable Proof_KeyX86 Proof_KeyRv64 Proof_Columns Proof_Actual Proof_Leak Proof_LeakRun Proof_LeakEngine.
Open Scope string_scope.
Open Scope list_scope.
Open Scope N_scope.

(** ** Registers *)
Lemma regs_bytes n b : is_bytes n b -> to_le n (of_le b) = b.
Proof. intros [L B]. rewrite <- L. now apply to_le_of_le. Qed.
Lemma on_reg_ok f b : is_bytes 16 b -> on_reg f (of_le b) = of_le (f b).
Proof. intros H. unfold on_reg. now rewrite regs_bytes. Qed.
Lemma on_regs_ok n f a b : is_bytes n a -> is_bytes n b -> on_regs n f (of_le a) (of_le b) = of_le (f a b).
Proof. intros H H'. unfold on_regs. now rewrite !regs_bytes. Qed.
Lemma zeros_bytes n : is_bytes n (repeat 0 n).
Proof. split; [apply repeat_length|]. apply Forall_forall. intros x Hx. apply repeat_spec in Hx. subst. reflexivity. Qed.
Lemma of_le_zeros n : of_le (repeat 0 n) = 0.
Proof. apply of_le_zero_iff. now rewrite repeat_length. Qed.
Lemma lanewise_1 f a b : is_bytes 16 a -> is_bytes 16 b -> lanewise 1 f a b = f a b.
Proof. intros [La _] [Lb _]. unfold lanewise. cbn [chunks map2 concat]. rewrite app_nil_r, !firstn_all2 by lia. reflexivity. Qed.
Lemma xor_le n a b : is_bytes n a -> is_bytes n b -> N.lxor (of_le a) (of_le b) = of_le (map2 N.lxor a b).
Proof. intros [La Ba] [Lb Bb]. symmetry. apply of_le_lxor; [assumption|assumption|congruence]. Qed.

(** ** x86 *)
Notation sx := (fips_sem None round_keys).
Lemma bcast_concat n b : concat (repeat b n) = bcast n b.
Proof. reflexivity. Qed.
Lemma x86_vec n : vec_ok x86_engine sx n.
Proof.
  constructor; cbn [x86_engine g_enc g_enc_last g_dec g_dec_last g_wide g_pre].
  - exists (on_regs (16 * n) (lanewise n mm_aesenc)). split; [intros st a b; reflexivity|]. intros a k Ha Hk. cbn [g_be x86_engine of_ne]. now rewrite on_regs_ok by assumption.
  - exists (on_regs (16 * n) (lanewise n mm_aesenclast)). split; [intros st a b; reflexivity|]. intros a k Ha Hk. cbn [g_be x86_engine of_ne]. now rewrite on_regs_ok by assumption.
  - exists (on_regs (16 * n) (lanewise n mm_aesdec)). split; [intros st a b; reflexivity|]. intros a k Ha Hk. cbn [g_be x86_engine of_ne]. now rewrite on_regs_ok by assumption.
  - exists (on_regs (16 * n) (lanewise n mm_aesdeclast)). split; [intros st a b; reflexivity|]. intros a k Ha Hk. cbn [g_be x86_engine of_ne]. now rewrite on_regs_ok by assumption.
  - exists (if Nat.eqb n 1 then fun x => x else on_reg (fun x => concat (repeat x n))). split.
    + intros st a. destruct (Nat.eqb n 1); reflexivity.
    + intros a Ha. destruct (Nat.eqb_spec n 1) as [->|_]; [now rewrite bcast_1|]. cbn [g_be x86_engine of_ne]. now rewrite on_reg_ok.
  - exact I.
Qed.
Lemma x86_mc_u : uop x86_engine (g_mc x86_engine) (s_mc sx).
Proof.
  exists (fun x => on_regs (16 * 1) (lanewise 1 mm_aesenc) (on_regs (16 * 1) (lanewise 1 mm_aesdeclast) x 0) 0). split; [intros st a; reflexivity|].
  intros a Ha. cbn [g_be x86_engine of_ne s_mc fips_sem]. pose proof (zeros_bytes 16) as Z. rewrite <- (of_le_zeros 16).
  rewrite on_regs_ok, lanewise_1 by assumption.
  assert (B : is_bytes 16 (mm_aesdeclast a (repeat 0 16))).
  { unfold mm_aesdeclast, mm_xor. apply xor_bop; [|exact Z]. now apply inv_sub_bytes_bytes, inv_shift_rows_bytes. }
  rewrite on_regs_ok, lanewise_1 by assumption. f_equal. now apply x86_mc_ok.
Qed.
Lemma x86_imc_u : uop x86_engine (g_imc x86_engine) (s_imc sx).
Proof. exists (on_reg mm_aesimc). split; [intros st a; reflexivity|]. intros a Ha. cbn [g_be x86_engine of_ne]. now rewrite on_reg_ok. Qed.

(** ** Arm *)
Notation sa := (fips_sem (Some neon_pre) round_keys).
Lemma aese_bytes a k : is_bytes 16 a -> is_bytes 16 k -> is_bytes 16 (vaeseq_u8 a k).
Proof. intros Ha Hk. unfold vaeseq_u8. apply sub_bytes_bytes, shift_rows_bytes. now apply xor_bop. Qed.
Lemma aesd_bytes a k : is_bytes 16 a -> is_bytes 16 k -> is_bytes 16 (vaesdq_u8 a k).
Proof. intros Ha Hk. unfold vaesdq_u8. apply inv_sub_bytes_bytes, inv_shift_rows_bytes. now apply xor_bop. Qed.
Definition n_arm_enc s k := on_reg vaesmcq_u8 (on_regs 16 vaeseq_u8 s k).
Definition n_arm_dec s k := on_reg vaesimcq_u8 (on_regs 16 vaesdq_u8 s k).
Lemma n_arm_enc_ok a k : is_bytes 16 a -> is_bytes 16 k -> n_arm_enc (of_le a) (of_le k) = of_le (arm_pre_enc a k).
Proof. intros Ha Hk. unfold n_arm_enc. rewrite on_regs_ok, on_reg_ok by auto using aese_bytes. reflexivity. Qed.
Lemma n_arm_dec_ok a k : is_bytes 16 a -> is_bytes 16 k -> n_arm_dec (of_le a) (of_le k) = of_le (arm_pre_dec a k).
Proof. intros Ha Hk. unfold n_arm_dec. rewrite on_regs_ok, on_reg_ok by auto using aesd_bytes. reflexivity. Qed.
Lemma arm_vec : vec_ok arm_engine sa 1.
Proof.
  pose proof (zeros_bytes 16) as Z.
  assert (P : forall a, is_bytes 16 a -> is_bytes 16 (arm_pre_enc a (repeat 0 16))) by (intros a Ha; apply mix_columns_bytes, aese_bytes; assumption).
  assert (Q : forall a, is_bytes 16 a -> is_bytes 16 (arm_pre_dec a (repeat 0 16))) by (intros a Ha; apply inv_mix_columns_bytes, aesd_bytes; assumption).
  constructor; cbn [arm_engine g_enc g_enc_last g_dec g_dec_last g_wide g_pre].
  - exists (fun s k => N.lxor (n_arm_enc s 0) k). split; [intros st a b; reflexivity|]. intros a k Ha Hk. change (16 * 1)%nat with 16%nat in *. cbn [g_be arm_engine of_ne]. rewrite <- (of_le_zeros 16).
    rewrite n_arm_enc_ok, (xor_le 16) by auto. f_equal. exact (ek_enc _ _ _ (arm_enc_ok false) a k Ha Hk).
  - exists (fun s k => N.lxor (on_regs 16 vaeseq_u8 s 0) k). split; [intros st a b; reflexivity|]. intros a k Ha Hk. change (16 * 1)%nat with 16%nat in *. cbn [g_be arm_engine of_ne]. rewrite <- (of_le_zeros 16).
    rewrite on_regs_ok, (xor_le 16) by auto using aese_bytes. f_equal. exact (ek_enc_last _ _ _ (arm_enc_ok false) a k Ha Hk).
  - exists (fun s k => N.lxor (n_arm_dec s 0) k). split; [intros st a b; reflexivity|]. intros a k Ha Hk. change (16 * 1)%nat with 16%nat in *. cbn [g_be arm_engine of_ne]. rewrite <- (of_le_zeros 16).
    rewrite n_arm_dec_ok, (xor_le 16) by auto. f_equal. exact (ek_dec _ _ _ (arm_dec_ok false) a k Ha Hk).
  - exists (fun s k => N.lxor (on_regs 16 vaesdq_u8 s 0) k). split; [intros st a b; reflexivity|]. intros a k Ha Hk. change (16 * 1)%nat with 16%nat in *. cbn [g_be arm_engine of_ne]. rewrite <- (of_le_zeros 16).
    rewrite on_regs_ok, (xor_le 16) by auto using aesd_bytes. f_equal. exact (ek_dec_last _ _ _ (arm_dec_ok false) a k Ha Hk).
  - exists (fun x => x). split; [intros st a; reflexivity|]. intros a Ha. now rewrite bcast_1.
  - cbn [fips_sem s_pre neon_pre]. split.
    + exists n_arm_enc. split; [intros st a b; reflexivity|]. intros a k Ha Hk. change (16 * 1)%nat with 16%nat in *. cbn [g_be arm_engine of_ne]. rewrite n_arm_enc_ok by assumption. f_equal.
      rewrite on_lanes_1 by (apply Ha || apply Hk). reflexivity.
    + exists n_arm_dec. split; [intros st a b; reflexivity|]. intros a k Ha Hk. change (16 * 1)%nat with 16%nat in *. cbn [g_be arm_engine of_ne]. rewrite n_arm_dec_ok by assumption. f_equal.
      rewrite on_lanes_1 by (apply Ha || apply Hk). reflexivity.
Qed.
Lemma arm_mc_u : uop arm_engine (g_mc arm_engine) (s_mc sa).
Proof. exists (on_reg vaesmcq_u8). split; [intros st a; reflexivity|]. intros a Ha. cbn [g_be arm_engine of_ne]. now rewrite on_reg_ok. Qed.
Lemma arm_imc_u : uop arm_engine (g_imc arm_engine) (s_imc sa).
Proof. exists (on_reg vaesimcq_u8). split; [intros st a; reflexivity|]. intros a Ha. cbn [g_be arm_engine of_ne]. now rewrite on_reg_ok. Qed.

(** ** RV64 *)
Definition unpk (n : N) : w2 := W2 (trunc 64 n) (shr n 64).
Definition pk (w : w2) : N := N.lor (d_0 w) (shl 128 (d_1 w) 64).
Lemma bit_high n w i : n < 2 ^ w -> w <= i -> N.testbit n i = false.
Proof. intros H Hi. rewrite <- (N.mod_small n (2 ^ w)) by assumption. now apply N.mod_pow2_bits_high. Qed.
Lemma pk_unpk n : n < 2 ^ 128 -> pk (unpk n) = n.
Proof.
  intros H. unfold pk, unpk. cbn [d_0 d_1]. apply N.bits_inj. intro i. rewrite N.lor_spec, trunc_testbit, shl_testbit, shr_testbit.
  destruct (N.ltb_spec i 64), (N.leb_spec 64 i); try lia; cbn [andb].
  - rewrite andb_false_r. apply orb_false_r.
  - rewrite andb_true_r. destruct (N.ltb_spec i 128); cbn [andb orb].
    + f_equal. lia.
    + symmetry. now apply (bit_high n 128).
Qed.
Lemma le_128 b : is_bytes 16 b -> of_le b < 2 ^ 128.
Proof. intros [L B]. pose proof (of_le_lt b B) as H. now rewrite L in H. Qed.
Lemma unpk_le b : is_bytes 16 b -> unpk (of_le b) = r64_of b.
Proof.
  intros [L B]. unfold unpk, r64_of. f_equal.
  - exact (of_le_firstn b 8 B).
  - change 64 with (8 * N.of_nat 8). rewrite of_le_skipn by assumption. f_equal. rewrite firstn_all2; [reflexivity|]. rewrite skipn_length. lia.
Qed.
Lemma pk_of b : is_bytes 16 b -> pk (r64_of b) = of_le b.
Proof. intros H. rewrite <- unpk_le by assumption. now apply pk_unpk, le_128. Qed.
Lemma rv64_vop e f (G : bop) : bop_ok G -> computes2 e (fun s k => pk (f (unpk s) (unpk k))) ->
  (forall a k, is_bytes 16 a -> is_bytes 16 k -> f (r64_of a) (r64_of k) = r64_of (G a k)) -> vop rv64_engine e 1 G.
Proof.
  intros HG C H. eexists. split; [exact C|]. intros a k Ha Hk. change (16 * 1)%nat with 16%nat in *. cbn [g_be rv64_engine of_ne].
  rewrite !unpk_le, H, pk_of by auto. now rewrite on_lanes_1 by (apply Ha || apply Hk).
Qed.
Lemma rv64_vec : vec_ok rv64_engine sx 1.
Proof.
  pose proof (fips_rk_ok None (or_introl eq_refl)) as S0.
  constructor; cbn [rv64_engine g_enc g_enc_last g_dec g_dec_last g_wide g_pre].
  - apply (rv64_vop _ r64_enc); [apply S0|intros st a b; reflexivity|exact r64_enc_ok'].
  - apply (rv64_vop _ r64_enc_last); [apply S0|intros st a b; reflexivity|exact r64_enc_last_ok'].
  - apply (rv64_vop _ r64_dec); [apply S0|intros st a b; reflexivity|exact r64_dec_ok'].
  - apply (rv64_vop _ r64_dec_last); [apply S0|intros st a b; reflexivity|exact r64_dec_last_ok'].
  - exists (fun x => x). split; [intros st a; reflexivity|]. intros a Ha. now rewrite bcast_1.
  - exact I.
Qed.
Lemma rv64_mc_u : uop rv64_engine (g_mc rv64_engine) (s_mc sx).
Proof.
  exists (fun x => pk (r64_mc (unpk x))). split; [intros st a; reflexivity|]. intros a Ha. cbn [g_be rv64_engine of_ne s_mc fips_sem].
  rewrite unpk_le, r64_mc_ok, pk_of by auto using mix_columns_bytes. reflexivity.
Qed.
Lemma rv64_imc_u : uop rv64_engine (g_imc rv64_engine) (s_imc sx).
Proof.
  exists (fun x => pk (r64_imc (unpk x))). split; [intros st a; reflexivity|]. intros a Ha. cbn [g_be rv64_engine of_ne s_imc fips_sem].
  rewrite unpk_le, r64_imc_ok, pk_of by auto using inv_mix_columns_bytes. reflexivity.
Qed.

(** ** RV32 *)
Definition unpk4 (n : N) : w4 := W4 (trunc 32 (shr n 0)) (trunc 32 (shr n 32)) (trunc 32 (shr n 64)) (trunc 32 (shr n 96)).
Definition pk4 (w : w4) : N := N.lor (N.lor (N.lor (w_0 w) (shl 128 (w_1 w) 32)) (shl 128 (w_2 w) 64)) (shl 128 (w_3 w) 96).
Lemma pk4_unpk4 n : n < 2 ^ 128 -> pk4 (unpk4 n) = n.
Proof.
  intros H. unfold pk4, unpk4. cbn [w_0 w_1 w_2 w_3]. apply N.bits_inj. intro i. rewrite !N.lor_spec, !shl_testbit, !trunc_testbit, !shr_testbit.
  destruct (N.ltb_spec i 128).
  - destruct (N.leb_spec 96 i), (N.leb_spec 64 i), (N.leb_spec 32 i); try lia; cbn [andb];
      repeat match goal with |- context [?x <? ?y] => destruct (N.ltb_spec x y); try lia end; cbn [andb orb];
      rewrite ?orb_false_r; f_equal; lia.
  - cbn [andb]. destruct (N.ltb_spec i 32); [lia|]. cbn [andb orb]. symmetry. now apply (bit_high n 128).
Qed.
Lemma unpk4_le b : is_bytes 16 b -> unpk4 (of_le b) = r32_of_bytes b.
Proof.
  intros [L B]. unfold unpk4, r32_of_bytes. cbn [chunks map].
  rewrite !skipn_skipn'. cbn [Nat.add].
  assert (H : forall j, trunc 32 (shr (of_le b) (8 * N.of_nat j)) = of_le (firstn 4 (skipn j b))).
  { intros j. rewrite of_le_skipn by assumption. apply (of_le_firstn _ 4). now apply bytes_ok_skipn. }
  f_equal; [exact (H 0%nat)|exact (H 4%nat)|exact (H 8%nat)|exact (H 12%nat)].
Qed.
Lemma pk4_of b : is_bytes 16 b -> pk4 (r32_of_bytes b) = of_le b.
Proof. intros H. rewrite <- unpk4_le by assumption. now apply pk4_unpk4, le_128. Qed.
Definition n_outer f (s k : N) : N := pk4 (r32_outer f (unpk4 s) (unpk4 k)).
Lemma outer_value i f st s k : (forall bs a b, ival2 (i bs) a b = f a b bs) -> value st (xv_outer i s k) = n_outer f (value st s) (value st k).
Proof.
  intros H. unfold value, xv_outer. cbn [val]. generalize (val (ctrs st) (arrs st) (vars st) s) as x, (val (ctrs st) (arrs st) (vars st) k) as y. intros x y.
  unfold n_outer, r32_outer, r32_inner. rewrite <- !H. reflexivity.
Qed.
Lemma round_value i f st s k : (forall bs a b, ival2 (i bs) a b = f a b bs) -> value st (xv_round i s k) = N.lxor (n_outer f (value st s) 0) (value st k).
Proof. intros H. unfold xv_round. now rewrite value_xor, (outer_value i f) by assumption. Qed.
(** An instruction round is right, with the key given to the instructions or xored in afterwards. *)
Definition outer_is f (G : bop) : Prop := bop_ok G /\ xors_first f /\
  forall a k, is_bytes 16 a -> is_bytes 16 k -> r32_outer f (r32_of_bytes a) (r32_of_bytes k) = r32_of_bytes (G a k).
Lemma n_outer_ok f G a k : outer_is f G -> is_bytes 16 a -> is_bytes 16 k -> n_outer f (of_le a) (of_le k) = of_le (G a k).
Proof. intros (B & _ & H) Ha Hk. unfold n_outer. rewrite !unpk4_le, H, pk4_of by auto. reflexivity. Qed.
Lemma r32_inj a b : is_bytes 16 a -> is_bytes 16 b -> r32_of_bytes a = r32_of_bytes b -> a = b.
Proof. intros Ha Hb E. rewrite <- (r32_bytes_of a), <- (r32_bytes_of b) by assumption. now rewrite E. Qed.
Lemma n_round_ok f G a k : outer_is f G -> is_bytes 16 a -> is_bytes 16 k -> N.lxor (n_outer f (of_le a) 0) (of_le k) = of_le (G a k).
Proof.
  intros O Ha Hk. pose proof (zeros_bytes 16) as Z. rewrite <- (of_le_zeros 16), (n_outer_ok f G) by assumption. destruct O as (B & X & H).
  rewrite (xor_le 16) by auto. f_equal. apply r32_inj; [apply xor_bop; auto|auto|].
  rewrite <- H by assumption. rewrite (outer_xor f _ _ X). change w4_zero with (r32_of_bytes (repeat 0 16)). rewrite H by assumption.
  symmetry. apply r32_map2_ok; auto using of_le_lxor.
Qed.
Lemma esmi_is : outer_is aes32esmi spec_enc.
Proof. split; [apply rv32_exact_ok|]. split; [exact esmi_xf|]. intros a k Ha Hk. rewrite <- r32_enc_ok' by assumption. apply pre_enc_eq. Qed.
Lemma esi_is : outer_is aes32esi spec_enc_last.
Proof. split; [apply rv32_exact_ok|]. split; [exact esi_xf|]. intros a k Ha Hk. rewrite <- r32_enc_last_ok' by assumption. apply pre_enc_last_eq. Qed.
Lemma dsmi_is : outer_is aes32dsmi rv32_dec.
Proof. split; [apply rv32_exact_ok|]. split; [exact dsmi_xf|]. intros a k Ha Hk. rewrite <- r32_dec_ok by assumption. apply pre_dec_eq. Qed.
Lemma dsi_is : outer_is aes32dsi rv32_dec_last.
Proof. split; [apply rv32_exact_ok|]. split; [exact dsi_xf|]. intros a k Ha Hk. rewrite <- r32_dec_last_ok by assumption. apply pre_dec_last_eq. Qed.
Lemma rv32_vop e f G : outer_is f G -> computes2 e (fun s k => N.lxor (n_outer f s 0) k) -> vop rv32_engine e 1 G.
Proof.
  intros O C. eexists. split; [exact C|]. intros a k Ha Hk. change (16 * 1)%nat with 16%nat in *. cbn [g_be rv32_engine of_ne].
  rewrite on_lanes_1 by (apply Ha || apply Hk). now apply n_round_ok.
Qed.
Lemma rv32_pre_vop e f G : outer_is f G -> computes2 e (n_outer f) -> vop rv32_engine e 1 G.
Proof.
  intros O C. eexists. split; [exact C|]. intros a k Ha Hk. change (16 * 1)%nat with 16%nat in *. cbn [g_be rv32_engine of_ne].
  rewrite on_lanes_1 by (apply Ha || apply Hk). now apply n_outer_ok.
Qed.
Lemma rv32_vec : vec_ok rv32_engine rv32_exact 1.
Proof.
  constructor; cbn [rv32_engine g_enc g_enc_last g_dec g_dec_last g_wide g_pre rv32_exact s_enc s_enc_last s_dec s_dec_last s_pre].
  - apply (rv32_vop _ aes32esmi); [exact esmi_is|intros st a b; now apply (round_value Aes32esmi)].
  - apply (rv32_vop _ aes32esi); [exact esi_is|intros st a b; now apply (round_value Aes32esi)].
  - apply (rv32_vop _ aes32dsmi); [exact dsmi_is|intros st a b; now apply (round_value Aes32dsmi)].
  - apply (rv32_vop _ aes32dsi); [exact dsi_is|intros st a b; now apply (round_value Aes32dsi)].
  - exists (fun x => x). split; [intros st a; reflexivity|]. intros a Ha. now rewrite bcast_1.
  - split; [apply (rv32_pre_vop _ aes32esmi); [exact esmi_is|intros st a b; now apply (outer_value Aes32esmi)]|apply (rv32_pre_vop _ aes32dsmi); [exact dsmi_is|intros st a b; now apply (outer_value Aes32dsmi)]].
Qed.
Lemma rv32_mc_u : uop rv32_engine (g_mc rv32_engine) (s_mc rv32_exact).
Proof.
  exists (fun x => N.lxor (n_outer aes32esmi (n_outer aes32dsi x 0) 0) 0).
  split; [intros st a; cbn [rv32_engine g_mc]; unfold xv_mc; now rewrite (round_value _ aes32esmi), (outer_value _ aes32dsi) by reflexivity|]. intros a Ha. cbn [g_be rv32_engine of_ne s_mc rv32_exact].
  pose proof (zeros_bytes 16) as Z. rewrite <- (of_le_zeros 16) at 1 3. rewrite (n_outer_ok _ _ _ _ dsi_is) by assumption.
  assert (B : is_bytes 16 (rv32_dec_last a (repeat 0 16))) by now apply dsi_is.
  rewrite (n_round_ok _ _ _ _ esmi_is) by assumption. f_equal.
  apply r32_inj; [now apply esmi_is|now apply rv32_mc_bytes|]. rewrite <- r32_mc_ok, <- r32_enc_ok', <- r32_dec_last_ok by assumption.
  unfold r32_mc. now rewrite pre_dec_last_eq.
Qed.
Lemma rv32_imc_u : uop rv32_engine (g_imc rv32_engine) (s_imc rv32_exact).
Proof.
  exists (fun x => N.lxor (n_outer aes32dsmi (n_outer aes32esi x 0) 0) 0).
  split; [intros st a; cbn [rv32_engine g_imc]; unfold xv_imc; now rewrite (round_value _ aes32dsmi), (outer_value _ aes32esi) by reflexivity|]. intros a Ha. cbn [g_be rv32_engine of_ne s_imc rv32_exact].
  pose proof (zeros_bytes 16) as Z. rewrite <- (of_le_zeros 16) at 1 3. rewrite (n_outer_ok _ _ _ _ esi_is) by assumption.
  assert (B : is_bytes 16 (spec_enc_last a (repeat 0 16))) by now apply esi_is.
  rewrite (n_round_ok _ _ _ _ dsmi_is) by assumption. f_equal.
  apply r32_inj; [now apply dsmi_is|now apply rv32_imc_bytes|]. rewrite <- r32_imc_ok, <- r32_dec_ok, <- r32_enc_last_ok' by assumption.
  unfold r32_imc. now rewrite pre_enc_last_eq.
Qed.

(** ** Key schedules of Arm and RV32 *)
Lemma keyed_start key msg ks st : keyed (arrs (start key msg)) ks st -> arrs st "keys" = ks /\ arrs st "in" = msg.
Proof. intros [cols H]. split; exact (H _). Qed.
Lemma lane0_trunc b : is_bytes 16 b -> vgetq_lane 0 (vreinterpretq_u32_u8 b) = trunc 32 (of_le b).
Proof. intros [L B]. symmetry. exact (of_le_firstn b 4 B). Qed.
Lemma dup_bytes a : is_bytes 16 (vreinterpretq_u8_u32 (vdupq_n_u32 a)).
Proof.
  unfold vreinterpretq_u8_u32, vdupq_n_u32. cbn [repeat map concat]. split.
  - rewrite !app_length, !to_le_length. reflexivity.
  - repeat (apply Forall_app; split); apply to_le_ok || constructor.
Qed.
Lemma sub_word_value st e : value st (xa_sub_word e) = arm_sub_word (value st e).
Proof.
  unfold arm_sub_word. cbv zeta. rewrite lane0_trunc by (apply aese_bytes; [apply dup_bytes|apply zeros_bytes]).
  change (value st (xa_sub_word e)) with (trunc 32 (on_regs 16 vaeseq_u8 (of_le (vreinterpretq_u8_u32 (vdupq_n_u32 (value st e)))) 0)).
  rewrite <- (of_le_zeros 16), on_regs_ok by (apply dup_bytes || apply zeros_bytes). reflexivity.
Qed.
Lemma xa_first_ok : computes3 xa_first (rot_first arm_sub_word).
Proof.
  intros st a b c. unfold xa_first. rewrite !value_xor. 
  change (value st (Un (Rotr 32 8) (xa_sub_word b))) with (rotr 32 (value st (xa_sub_word b)) 8). rewrite sub_word_value. reflexivity.
Qed.
Lemma xa_mid_ok : computes2 xa_mid (sub_mid arm_sub_word).
Proof. intros st a b. unfold xa_mid. rewrite value_xor, sub_word_value. reflexivity. Qed.
Lemma bind_ret {A B} (m : outcome A) (f : A -> B) b : (x <- m ;; Ret (f x)) = Ret b -> exists x, m = Ret x /\ f x = b.
Proof. destruct m as [x| |]; try discriminate. intros E. exists x. split; [reflexivity|]. now injection E. Qed.
Lemma arm_keyed : keyed_ok arm_engine sa.
Proof.
  intros k key msg Hk. cbn zeta. destruct arm_key_ok as [K1 K2 K3].
  apply (keyed_start key). cbn [arm_engine g_keygen g_be s_keys fips_sem].
  assert (Hs : exists c, holds (arrs (start key msg)) "columns" c (start key msg)) by (exists []; apply start_holds).
  destruct k.
  - destruct (bind_ret _ _ _ (K1 key Hk)) as (cols & E & Eb). unfold xb in Eb. rewrite map_id in Eb. rewrite <- Eb.
    apply (run_128 _ eq_refl xa_first (rot_first arm_sub_word) xa_first_ok false key cols (start key msg) eq_refl (proj1 Hk) Hs E).
  - destruct (bind_ret _ _ _ (K2 key Hk)) as (cols & E & Eb). unfold xb in Eb. rewrite map_id in Eb. rewrite <- Eb.
    apply (run_192 _ eq_refl xa_first (rot_first arm_sub_word) xa_first_ok false key cols (start key msg) eq_refl (proj1 Hk) Hs E).
  - destruct (bind_ret _ _ _ (K3 key Hk)) as (cols & E & Eb). unfold xb in Eb. rewrite map_id in Eb. rewrite <- Eb.
    apply (run_256 _ eq_refl xa_first xa_first xa_mid (rot_first arm_sub_word) (rot_first arm_sub_word) (sub_mid arm_sub_word) xa_first_ok xa_first_ok xa_mid_ok false key cols (start key msg) eq_refl (proj1 Hk) Hs E).
Qed.
Lemma xv_first_ok : computes3 xv_first r32_first. Proof. intros st a b c. reflexivity. Qed.
Lemma xv_first_rot_ok : computes3 xv_first_rot r32_first_rot. Proof. intros st a b c. reflexivity. Qed.
Lemma xv_mid_ok : computes2 xv_mid r32_mid. Proof. intros st a b. reflexivity. Qed.
Lemma rv32_keyed : keyed_ok rv32_engine rv32_exact.
Proof.
  intros k key msg Hk. cbn zeta. destruct (rv32_cols_ok k key Hk) as (cols & E & Eb).
  apply (keyed_start key). cbn [rv32_engine g_keygen g_be s_keys rv32_exact]. rewrite <- Eb.
  assert (Hs : exists c, holds (arrs (start key msg)) "columns" c (start key msg)) by (exists []; apply start_holds).
  destruct k.
  - exact (run_128 _ eq_refl xv_first r32_first xv_first_ok false key cols (start key msg) eq_refl (proj1 Hk) Hs E).
  - exact (run_192 _ eq_refl xv_first r32_first xv_first_ok false key cols (start key msg) eq_refl (proj1 Hk) Hs E).
  - exact (run_256 _ eq_refl xv_first_rot xv_first xv_mid r32_first_rot r32_first r32_mid xv_first_rot_ok xv_first_ok xv_mid_ok false key cols (start key msg) eq_refl (proj1 Hk) Hs E).
Qed.
