(** NEON backend refines FIPS-197 (rounds, data operations). *)
From Coq Require Import Lia Arith.
From Verif Require Import Word Interface Fips197 Spec_Api Isa_arm Model_Arm Proof_Word Proof_Fips Proof_Ok Proof_X86.
Open Scope N_scope.

Lemma lor_zero_4 a b c d : N.lor (N.lor (N.lor a b) c) d = 0 <-> a = 0 /\ b = 0 /\ c = 0 /\ d = 0.
Proof. rewrite !N.lor_eq_0_iff. tauto. Qed.
Lemma arm_is_zero_ok arm32 a : is_bytes 16 a -> (arm_is_zero arm32 a = true <-> a = repeat 0 16).
Proof.
  intros [L F]. unfold arm_is_zero. clear F. explode L. destruct arm32; rewrite N.eqb_eq.
  - rewrite lor_zero_4. unfold vgetq_lane, vreinterpretq_u32_u8. cbn [chunks map nth firstn skipn].
    rewrite !of_le_zero_iff. cbn [length repeat]. split.
    + intros (E0 & E1 & E2 & E3). injection E0. injection E1. injection E2. injection E3. intros. subst. reflexivity.
    + intros E. injection E. intros. subst. repeat split.
  - rewrite N.lor_eq_0_iff. unfold vgetq_lane, vreinterpretq_u64_u8. cbn [chunks map nth firstn skipn].
    rewrite !of_le_zero_iff. cbn [length repeat]. split.
    + intros (E0 & E1). injection E0. injection E1. intros. subst. reflexivity.
    + intros E. injection E. intros. subst. repeat split.
Qed.

Lemma arm_data_ok arm32 : data_ok (arm_ops arm32) 16 xb.
Proof.
  split; unfold xb; cbn [o_size o_new o_from o_store o_and o_or o_xor o_not o_zero o_is_zero o_eq arm_ops]; try reflexivity.
  - intros b [L _]. apply raw_read_all, L.
  - intros b dst [L _]. unfold arm_store_to, vst1q_u8. apply raw_write_block, L.
  - apply arm_is_zero_ok.
  - intros a b Ha Hb. unfold arm_eq, veorq_u8. rewrite arm_is_zero_ok by (apply xor_bytes; assumption).
    apply xor_zeros_iff; eapply is_bytes_len; eassumption.
Qed.
Lemma arm_enc_ok arm32 : enc_ok (arm_ops arm32) 1 xb.
Proof.
  apply enc_ok_1; unfold xb; cbn [o_enc o_enc_last arm_ops]; intros a k Ha Hk;
    unfold arm_enc, arm_pre_enc, arm_mc, arm_enc_last, vaeseq_u8, vaesmcq_u8, veorq_u8, arm_zero, vdupq_n_u8;
    rewrite (xor_zero_r 16) by apply Ha; reflexivity.
Qed.
Lemma arm_dec_ok arm32 : dec_ok (arm_ops arm32) 1 xb.
Proof.
  apply dec_ok_1; unfold xb; cbn [o_dec o_dec_last arm_ops]; intros a k Ha Hk;
    unfold arm_dec, arm_pre_dec, arm_imc, arm_dec_last, vaesdq_u8, vaesimcq_u8, veorq_u8, arm_zero, vdupq_n_u8;
    rewrite (xor_zero_r 16) by apply Ha; reflexivity.
Qed.
Lemma arm_mix_ok : mix_ok arm_ext xb.
Proof. split; reflexivity. Qed.
