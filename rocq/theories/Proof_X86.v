(** AES-NI, VAES-256 and VAES-512 backends refine FIPS-197 (rounds, data operations). *)
From Coq Require Import Lia Arith.
From Verif Require Import Word Interface Fips197 Spec_Api Isa_x86 Model_X86 Model_Vaes Proof_Word Proof_Fips Proof_Ok.
Open Scope N_scope.

(** A register is its byte list: the representation map is the identity. *)
Definition xb (b : list N) : list N := b.

Lemma land_self l : map2 N.land l l = l.
Proof. induction l as [|a l IH]; [reflexivity|]. cbn. now rewrite N.land_diag, IH. Qed.
Lemma testz_self n l : length l = n -> ((mm_testz l l =? 1) = true <-> l = repeat 0 n).
Proof.
  intros H. unfold mm_testz, mm_and. rewrite land_self, <- (zeros_iff n l H).
  destruct (forallb (fun x => x =? 0) l); cbn; split; congruence.
Qed.
Lemma xor_ones l : map2 N.lxor l (repeat 255 (length l)) = map (bnot 8) l.
Proof. induction l as [|a l IH]; [reflexivity|]. cbn [length repeat map2 map]. now rewrite IH. Qed.

Lemma x86_data_ok : data_ok x86_ops 16 xb.
Proof.
  split; unfold xb; cbn [o_size o_new o_from o_store o_and o_or o_xor o_not o_zero o_is_zero o_eq x86_ops]; try reflexivity.
  - intros b [L _]. apply raw_read_all, L.
  - intros b dst [L _]. unfold x86_store_to, mm_storeu. apply raw_write_block, L.
  - intros a [L _]. unfold x86_not, mm_xor, mm_set1_m1. rewrite <- L. apply xor_ones.
  - intros a [L _]. apply testz_self, L.
  - intros a b Ha Hb. unfold x86_eq, x86_is_zero, mm_xor.
    rewrite (testz_self 16) by (apply is_bytes_len, xor_bytes; assumption).
    apply xor_zeros_iff; eapply is_bytes_len; eassumption.
Qed.
Lemma x86_enc_ok : enc_ok x86_ops 1 xb.
Proof. apply enc_ok_1; reflexivity. Qed.
Lemma x86_dec_ok : dec_ok x86_ops 1 xb.
Proof. apply dec_ok_1; reflexivity. Qed.

(** mc = AESENC(AESDECLAST(x, 0), 0). *)
Lemma x86_mc_ok a : is_bytes 16 a -> x86_mc a = mix_columns a.
Proof.
  intros Ha. unfold x86_mc, mm_aesenc, mm_aesdeclast, mm_xor, mm_setzero.
  assert (B : is_bytes 16 (inv_sub_bytes (inv_shift_rows a))) by (apply inv_sub_bytes_bytes, inv_shift_rows_bytes, Ha).
  rewrite (xor_zero_r 16 (inv_sub_bytes _)) by apply B.
  rewrite <- inv_shift_sub by apply Ha.
  assert (C : is_bytes 16 (inv_sub_bytes a)) by apply inv_sub_bytes_bytes, Ha.
  rewrite shift_inv_shift, sub_inv_sub by (apply Ha || apply C). apply xor_zero_r. now apply mix_columns_bytes.
Qed.
Lemma x86_mix_ok dbg : mix_ok (x86_ext dbg) xb.
Proof. split; [apply x86_mc_ok|reflexivity]. Qed.

(** ** VAES *)
Lemma vaes2_data_ok : data_ok vaes2_ops 32 xb.
Proof.
  split; unfold xb; cbn [o_size o_new o_from o_store o_and o_or o_xor o_not o_zero o_is_zero o_eq vaes2_ops]; try reflexivity.
  - intros b [L _]. apply raw_read_all, L.
  - intros b dst [L _]. unfold v2_store_to, mm_storeu. apply raw_write_block, L.
  - intros a [L _]. unfold v2_not, mm_xor, mm_set1_m1. rewrite <- L. apply xor_ones.
  - intros a [L _]. apply testz_self, L.
  - intros a b Ha Hb. unfold v2_eq, v2_is_zero, mm_xor.
    rewrite (testz_self 32) by (apply is_bytes_len, xor_bytes; assumption).
    apply xor_zeros_iff; eapply is_bytes_len; eassumption.
Qed.
Lemma vaes2_enc_ok : enc_ok vaes2_ops 2 xb.
Proof. split; reflexivity. Qed.
Lemma vaes2_dec_ok : dec_ok vaes2_ops 2 xb.
Proof. split; reflexivity. Qed.

(** Mask registers. *)
Lemma mask_zero l : mask_of l = 0 <-> forallb negb l = true.
Proof.
  induction l as [|b l IH]; [split; reflexivity|]. cbn [mask_of forallb]. rewrite andb_true_iff, <- IH.
  destruct b; cbn [N.b2n negb]; split; [lia|intros [? ?]; discriminate|intros E; split; [reflexivity|lia]|lia].
Qed.
Lemma mask_ones l : mask_of l = N.ones (N.of_nat (length l)) <-> forallb (fun b => b) l = true.
Proof.
  assert (B : mask_of l < 2 ^ N.of_nat (length l)).
  { induction l as [|b l IH]; [reflexivity|]. cbn [mask_of length]. rewrite Nat2N.inj_succ, N.pow_succ_r'. destruct b; cbn [N.b2n]; lia. }
  rewrite N.ones_equiv. revert B. induction l as [|b l IH]; [split; reflexivity|]. cbn [mask_of length forallb].
  rewrite Nat2N.inj_succ, N.pow_succ_r', andb_true_iff.
  pose proof (N.pow_nonzero 2 (N.of_nat (length l)) ltac:(lia)). revert IH H. generalize (2 ^ N.of_nat (length l)). intros p IH H B.
  destruct b; cbn [N.b2n] in *.
  - rewrite <- IH by lia. split; [intros E; split; [reflexivity|lia]|intros [_ E]; lia].
  - split; [lia|intros [? _]; discriminate].
Qed.

Lemma chunks_concat {A} k n (l : list A) : length l = (k * n)%nat -> concat (chunks k n l) = l.
Proof.
  revert l. induction n as [|n IH]; intros l H; cbn [chunks concat].
  - destruct l; [reflexivity|cbn in H; lia].
  - rewrite IH by (rewrite skipn_length; lia). apply firstn_skipn.
Qed.
Lemma chunks_each {A} k n (l : list A) : length l = (k * n)%nat -> Forall (fun c => length c = k) (chunks k n l).
Proof.
  revert l. induction n as [|n IH]; intros l H; cbn [chunks]; constructor.
  - rewrite firstn_length. lia.
  - apply IH. rewrite skipn_length. lia.
Qed.
Lemma chunks_ok k n l : bytes_ok l -> Forall bytes_ok (chunks k n l).
Proof.
  revert l. induction n as [|n IH]; intros l H; cbn [chunks]; constructor.
  - now apply bytes_ok_firstn.
  - apply IH. now apply bytes_ok_skipn.
Qed.
Lemma chunks_length {A} k n (l : list A) : length (chunks k n l) = n.
Proof. revert l. induction n; intros; cbn; auto. Qed.

Lemma qwords_zero n l : length l = (8 * n)%nat ->
  (forallb (fun q => q =? 0) (qwords n l) = true <-> l = repeat 0 (8 * n)).
Proof.
  revert l. induction n as [|n IH]; intros l H.
  - destruct l; [split; reflexivity|cbn in H; lia].
  - unfold qwords in *. cbn [chunks map forallb]. rewrite andb_true_iff, N.eqb_eq, of_le_zero_iff.
    rewrite IH by (rewrite skipn_length; lia). rewrite firstn_length.
    replace (Nat.min 8 (length l)) with 8%nat by lia.
    replace (8 * S n)%nat with (8 + 8 * n)%nat by lia. rewrite repeat_app. split.
    + intros [E1 E2]. rewrite <- E1, <- E2 at 1. now rewrite firstn_skipn.
    + intros ->. rewrite firstn_app, skipn_app, repeat_length, Nat.sub_diag. 
      rewrite firstn_all2, skipn_all2 by (rewrite repeat_length; lia). cbn [firstn skipn app]. now rewrite app_nil_r.
Qed.
Lemma qwords_eq n a b : is_bytes (8 * n) a -> is_bytes (8 * n) b ->
  (forallb (fun x => x) (map2 N.eqb (qwords n a) (qwords n b)) = true <-> a = b).
Proof.
  revert a b. induction n as [|n IH]; intros a b [La Fa] [Lb Fb].
  - destruct a, b; try (cbn in *; lia). split; reflexivity.
  - unfold qwords in *. cbn [chunks map map2 forallb]. rewrite andb_true_iff, N.eqb_eq.
    rewrite IH by (split; [rewrite skipn_length; lia|now apply bytes_ok_skipn]). split; [|now intros ->].
    intros [E1 E2]. rewrite <- (firstn_skipn 8 a), <- (firstn_skipn 8 b), E2. f_equal.
    apply of_le_inj; try assumption; try now apply bytes_ok_firstn. rewrite !firstn_length. lia.
Qed.

Lemma vaes4_data_ok : data_ok vaes4_ops 64 xb.
Proof.
  split; unfold xb; cbn [o_size o_new o_from o_store o_and o_or o_xor o_not o_zero o_is_zero o_eq vaes4_ops]; try reflexivity.
  - intros b [L _]. apply raw_read_all, L.
  - intros b dst [L _]. unfold v4_store_to, mm_storeu. apply raw_write_block, L.
  - intros a [L _]. unfold v4_not, mm_xor, mm_set1_m1. rewrite <- L. apply xor_ones.
  - intros a [L _]. unfold v4_is_zero, mm512_test_epi64_mask, mm_and. rewrite land_self, N.eqb_eq, mask_zero.
    rewrite <- (qwords_zero 8 a L). unfold qwords. generalize (map of_le (chunks 8 8 a)). intros q.
    induction q as [|x q IH]; [split; reflexivity|]. cbn [map forallb]. rewrite negb_involutive, !andb_true_iff. tauto.
  - intros a b Ha Hb. unfold v4_eq, mm512_cmpeq_epi64_mask. rewrite N.eqb_eq, <- (qwords_eq 8 a b Ha Hb), <- mask_ones.
    rewrite map2_length. unfold qwords. rewrite !map_length, !chunks_length. reflexivity.
Qed.
Lemma vaes4_enc_ok : enc_ok vaes4_ops 4 xb.
Proof. split; reflexivity. Qed.
Lemma vaes4_dec_ok : dec_ok vaes4_ops 4 xb.
Proof. split; reflexivity. Qed.

(** The undefined upper halves left by the cast intrinsics never reach the result. *)
Lemma v4_of_quad_g_ok g1 g2 g3 a b c d :
  length a = 16%nat -> length b = 16%nat -> length c = 16%nat -> length d = 16%nat ->
  v4_of_quad_g g1 g2 g3 (a, b, c, d) = a ++ b ++ c ++ d.
Proof.
  intros La Lb Lc Ld. unfold v4_of_quad_g, mm512_inserti64x4_1, mm512_castsi256, mm256_inserti128_1, mm256_castsi128.
  rewrite !(firstn_app 16), La, Lc, Nat.sub_diag, !firstn_O, !app_nil_r, !(firstn_all2 (n := 16)) by lia.
  rewrite firstn_app, !app_length, La, Lb, Nat.sub_diag, firstn_O, app_nil_r, firstn_all2 by (rewrite app_length; lia).
  now rewrite <- app_assoc.
Qed.
Lemma v4_of_pair_g_ok g a b : length a = 32%nat -> length b = 32%nat -> v4_of_pair_g g (a, b) = a ++ b.
Proof.
  intros La Lb. unfold v4_of_pair_g, mm512_inserti64x4_1, mm512_castsi256. cbn [fst snd].
  rewrite firstn_app, La, Nat.sub_diag, firstn_O, app_nil_r, firstn_all2 by lia. reflexivity.
Qed.
