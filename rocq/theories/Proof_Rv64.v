(** RV64 backend refines FIPS-197 (rounds, data operations). *)
From Coq Require Import Lia Arith Btauto.
From Verif Require Import Word Interface Fips197 Spec_Api Isa_riscv Model_Rv64 Proof_Word Proof_Fips Proof_Ok.
Open Scope N_scope.

Definition r64_of (b : list N) : w2 := W2 (of_le (firstn 8 b)) (of_le (firstn 8 (skipn 8 b))).

Lemma getbyte_le l i : bytes_ok l -> getbyte (of_le l) (N.of_nat i) = nth i l 0.
Proof. intros H. unfold getbyte. apply (as_u8_shr l i H). Qed.

Ltac byte_lt' := first [ assumption | apply sbox_lt; byte_lt' | apply inv_sbox_lt; byte_lt'
  | apply gmul_lt; byte_lt' | apply lxor_byte; byte_lt' | apply col_mix_lt; byte_lt' | reflexivity ].
Ltac ok_list := repeat constructor; byte_lt'.

Lemma mixcolumn_col m0 m1 m2 m3 a b c d : mixcolumn m0 m1 m2 m3 a b c d =
  [col_mix m0 m1 m2 m3 a b c d; col_mix m0 m1 m2 m3 b c d a; col_mix m0 m1 m2 m3 c d a b; col_mix m0 m1 m2 m3 d a b c].
Proof.
  unfold mixcolumn, col_mix. apply list4_eq; apply N.bits_inj; intro n; rewrite !N.lxor_spec; btauto.
Qed.

Section Rounds.
  Context (a0 a1 a2 a3 a4 a5 a6 a7 b0 b1 b2 b3 b4 b5 b6 b7 : N)
    (Ha : bytes_ok [a0;a1;a2;a3;a4;a5;a6;a7]) (Hb : bytes_ok [b0;b1;b2;b3;b4;b5;b6;b7]).
  Let rs1 := of_le [a0;a1;a2;a3;a4;a5;a6;a7].
  Let rs2 := of_le [b0;b1;b2;b3;b4;b5;b6;b7].
  Lemma shiftrows_fwd_ok : rv64_shiftrows_fwd rs2 rs1 = [a0;a5;b2;b7;a4;b1;b6;a3].
  Proof.
    unfold rv64_shiftrows_fwd, rs1, rs2.
    rewrite !(getbyte_le _ 0), !(getbyte_le _ 1), !(getbyte_le _ 2), !(getbyte_le _ 3), !(getbyte_le _ 4), !(getbyte_le _ 5),
            !(getbyte_le _ 6), !(getbyte_le _ 7) by assumption. reflexivity.
  Qed.
  Lemma shiftrows_inv_ok : rv64_shiftrows_inv rs2 rs1 = [a0;b5;b2;a7;a4;a1;b6;b3].
  Proof.
    unfold rv64_shiftrows_inv, rs1, rs2.
    rewrite !(getbyte_le _ 0), !(getbyte_le _ 1), !(getbyte_le _ 2), !(getbyte_le _ 3), !(getbyte_le _ 4), !(getbyte_le _ 5),
            !(getbyte_le _ 6), !(getbyte_le _ 7) by assumption. reflexivity.
  Qed.
End Rounds.

Ltac r64_start Ha :=
  unfold r64_of; bytes_tac Ha; cbn [firstn skipn].
Lemma r64_round_ok (f : N -> N -> N) (g : list N -> list N) :
  (forall a, is_bytes 16 a -> f (d_0 (r64_of a)) (d_1 (r64_of a)) = of_le (firstn 8 (g a)) /\
                              f (d_1 (r64_of a)) (d_0 (r64_of a)) = of_le (firstn 8 (skipn 8 (g a))) /\ is_bytes 16 (g a)) ->
  forall a k, is_bytes 16 a -> is_bytes 16 k -> r64_round f (r64_of a) (r64_of k) = r64_of (add_round_key (g a) k).
Proof.
  intros H a k Ha Hk. destruct (H a Ha) as (E0 & E1 & B). unfold r64_round. rewrite E0, E1. unfold r64_of. cbn [d_0 d_1].
  assert (S : forall n (x y : list N), firstn n (map2 N.lxor x y) = map2 N.lxor (firstn n x) (firstn n y)).
  { clear. induction n; intros [|x l] [|y m]; cbn; try reflexivity. f_equal. apply IHn. }
  assert (S' : forall n (x y : list N), skipn n (map2 N.lxor x y) = map2 N.lxor (skipn n x) (skipn n y)).
  { clear. induction n; intros [|x l] [|y m]; cbn; try reflexivity; auto. destruct (skipn n l); reflexivity. }
  unfold add_round_key. rewrite S', !S.
  rewrite !of_le_lxor; try reflexivity;
    try (apply bytes_ok_firstn; try apply bytes_ok_skipn; eapply is_bytes_ok; eassumption);
    rewrite !firstn_length, ?skipn_length; destruct B as [-> _], Hk as [-> _]; reflexivity.
Qed.

Lemma r64_enc_ok' a k : is_bytes 16 a -> is_bytes 16 k -> r64_enc (r64_of a) (r64_of k) = r64_of (spec_enc a k).
Proof.
  revert a k. apply r64_round_ok. intros a Ha. split; [|split; [|now apply mix_columns_bytes, sub_bytes_bytes, shift_rows_bytes]];
    bytes_tac Ha; rewrite shift_rows_16; unfold sub_bytes; cbn [map]; unfold mix_columns; rewrite mix_with_16; cbv zeta;
    unfold r64_of, aes64esm; cbn [firstn skipn d_0 d_1]; rewrite shiftrows_fwd_ok by (repeat constructor; assumption);
    cbn [map mix2]; unfold mixcolumn_fwd; rewrite !mixcolumn_col; reflexivity.
Qed.
Lemma r64_enc_last_ok' a k : is_bytes 16 a -> is_bytes 16 k -> r64_enc_last (r64_of a) (r64_of k) = r64_of (spec_enc_last a k).
Proof.
  revert a k. apply r64_round_ok. intros a Ha. split; [|split; [|now apply sub_bytes_bytes, shift_rows_bytes]];
    bytes_tac Ha; rewrite shift_rows_16; unfold sub_bytes; cbn [map];
    unfold r64_of, aes64es; cbn [firstn skipn d_0 d_1]; rewrite shiftrows_fwd_ok by (repeat constructor; assumption); reflexivity.
Qed.
Lemma r64_dec_ok' a k : is_bytes 16 a -> is_bytes 16 k -> r64_dec (r64_of a) (r64_of k) = r64_of (spec_dec a k).
Proof.
  revert a k. apply r64_round_ok. intros a Ha. split; [|split; [|now apply inv_mix_columns_bytes, inv_sub_bytes_bytes, inv_shift_rows_bytes]];
    bytes_tac Ha; rewrite inv_shift_rows_16; unfold inv_sub_bytes; cbn [map]; unfold inv_mix_columns; rewrite mix_with_16; cbv zeta;
    unfold r64_of, aes64dsm; cbn [firstn skipn d_0 d_1]; rewrite shiftrows_inv_ok by (repeat constructor; assumption);
    cbn [map mix2]; unfold mixcolumn_inv; rewrite !mixcolumn_col; reflexivity.
Qed.
Lemma r64_dec_last_ok' a k : is_bytes 16 a -> is_bytes 16 k -> r64_dec_last (r64_of a) (r64_of k) = r64_of (spec_dec_last a k).
Proof.
  revert a k. apply r64_round_ok. intros a Ha. split; [|split; [|now apply inv_sub_bytes_bytes, inv_shift_rows_bytes]];
    bytes_tac Ha; rewrite inv_shift_rows_16; unfold inv_sub_bytes; cbn [map];
    unfold r64_of, aes64ds; cbn [firstn skipn d_0 d_1]; rewrite shiftrows_inv_ok by (repeat constructor; assumption); reflexivity.
Qed.

Lemma r64_mc_ok a : is_bytes 16 a -> r64_mc (r64_of a) = r64_of (mix_columns a).
Proof.
  intros Ha. bytes_tac Ha. unfold mix_columns. rewrite mix_with_16. cbv zeta. unfold r64_mc, r64_of, aes64ds.
  cbn [firstn skipn d_0 d_1]. rewrite !shiftrows_inv_ok by (repeat constructor; assumption). cbn [map].
  unfold aes64esm. rewrite !shiftrows_fwd_ok by ok_list. cbn [map].
  rewrite !sbox_inv_sbox by assumption. cbn [mix2]. unfold mixcolumn_fwd. rewrite !mixcolumn_col. reflexivity.
Qed.
Lemma r64_imc_ok a : is_bytes 16 a -> r64_imc (r64_of a) = r64_of (inv_mix_columns a).
Proof.
  intros Ha. bytes_tac Ha. unfold inv_mix_columns. rewrite mix_with_16. cbv zeta. unfold r64_imc, r64_of, aes64im.
  cbn [firstn skipn d_0 d_1].
  assert (E : forall l, bytes_ok l -> length l = 8%nat -> to_le 8 (of_le l) = l) by (intros l O <-; now apply to_le_of_le).
  rewrite !E by (reflexivity || (repeat constructor; assumption)).
  cbn [mix2]. unfold mixcolumn_inv. rewrite !mixcolumn_col. reflexivity.
Qed.

Lemma r64_map2_ok f g b c : is_bytes 16 b -> is_bytes 16 c ->
  (forall l m, bytes_ok l -> bytes_ok m -> length l = length m -> of_le (map2 f l m) = g (of_le l) (of_le m)) ->
  r64_map2 g (r64_of b) (r64_of c) = r64_of (map2 f b c).
Proof.
  intros Hb Hc H. bytes_tac Hb. bytes_tac Hc. unfold r64_map2, r64_of. cbn [map2 firstn skipn d_0 d_1].
  rewrite <- !H by (reflexivity || (repeat constructor; assumption)). reflexivity.
Qed.
Lemma r64_eq_iff a b : is_bytes 16 a -> is_bytes 16 b -> (r64_eq (r64_of a) (r64_of b) = true <-> a = b).
Proof.
  intros [La Fa] [Lb Fb]. unfold r64_eq, r64_of. cbn [d_0 d_1]. rewrite andb_true_iff, !N.eqb_eq. split; [|now intros ->].
  intros [E0 E1].
  apply of_le_inj in E0; [|now apply bytes_ok_firstn|now apply bytes_ok_firstn|rewrite !firstn_length; lia].
  apply of_le_inj in E1; [|now apply bytes_ok_firstn, bytes_ok_skipn|now apply bytes_ok_firstn, bytes_ok_skipn|rewrite !firstn_length, !skipn_length; lia].
  clear Fa Fb. explode La. explode Lb. cbn [firstn skipn] in *. injection E0. injection E1. intros. now subst.
Qed.
Lemma r64_bytes_of b : is_bytes 16 b -> r64_bytes (r64_of b) = b.
Proof.
  intros Hb. bytes_tac Hb. unfold r64_bytes, r64_of. cbn [d_0 d_1 firstn skipn].
  assert (E : forall l, bytes_ok l -> length l = 8%nat -> to_le 8 (of_le l) = l) by (intros l O <-; now apply to_le_of_le).
  rewrite !E by (reflexivity || (repeat constructor; assumption)). reflexivity.
Qed.
Lemma rv64_data_ok : data_ok rv64_ops 16 r64_of.
Proof.
  split; cbn [o_size o_new o_from o_store o_and o_or o_xor o_not o_zero o_is_zero o_eq rv64_ops]; try reflexivity.
  - intros b dst Hb. unfold r64_store_to. rewrite r64_bytes_of by assumption. apply raw_write_block, Hb.
  - intros. apply r64_map2_ok; try assumption. apply of_le_land.
  - intros. apply r64_map2_ok; try assumption. apply of_le_lor.
  - intros. apply r64_map2_ok; try assumption. apply of_le_lxor.
  - intros a [L F]. unfold r64_not, r64_of. cbn [d_0 d_1]. rewrite !skipn_map, !firstn_map.
    rewrite !of_le_bnot by (apply bytes_ok_firstn; try apply bytes_ok_skipn; assumption).
    rewrite !firstn_length, skipn_length, L. reflexivity.
  - intros a Ha. replace (r64_is_zero (r64_of a)) with (r64_eq (r64_of a) (r64_of (repeat 0 16))).
    + apply r64_eq_iff; [assumption|apply zeros_bytes].
    + unfold r64_eq, r64_is_zero. apply eq_true_iff_eq. rewrite andb_true_iff, !N.eqb_eq, N.lor_eq_0_iff. reflexivity.
  - apply r64_eq_iff.
Qed.
Lemma rv64_enc_ok : enc_ok rv64_ops 1 r64_of.
Proof. apply enc_ok_1; [apply r64_enc_ok'|apply r64_enc_last_ok']. Qed.
Lemma rv64_dec_ok : dec_ok rv64_ops 1 r64_of.
Proof. apply dec_ok_1; [apply r64_dec_ok'|apply r64_dec_last_ok']. Qed.
Lemma rv64_mix_ok dbg : mix_ok (rv64_ext dbg) r64_of.
Proof. split; [apply r64_mc_ok|apply r64_imc_ok]. Qed.
