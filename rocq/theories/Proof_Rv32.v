(** RV32 backend: data operations and the encryption rounds refine FIPS-197.
    (The decryption rounds, MixColumns and the key schedule do not: see Props_Refuted.v.) *)
From Coq Require Import Lia Arith Btauto.
From Verif Require Import Word Interface Fips197 Spec_Api Isa_riscv Model_Columns Model_Rv32
  Proof_Word Proof_Shift Proof_Fips Proof_Ok Proof_Table Proof_Rv64 Proof_Bitslice.
Open Scope N_scope.

Lemma r32_of_16 b0 b1 b2 b3 b4 b5 b6 b7 b8 b9 b10 b11 b12 b13 b14 b15 :
  r32_of_bytes [b0;b1;b2;b3;b4;b5;b6;b7;b8;b9;b10;b11;b12;b13;b14;b15] =
  W4 (of_le [b0;b1;b2;b3]) (of_le [b4;b5;b6;b7]) (of_le [b8;b9;b10;b11]) (of_le [b12;b13;b14;b15]).
Proof. reflexivity. Qed.

(** Left rotation by whole bytes. *)
Lemma rol32_le a b c d i : bytes_ok [a;b;c;d] -> (i < 4)%nat ->
  rol32 (of_le [a;b;c;d]) (8 * N.of_nat i) = of_le (skipn (4 - i) [a;b;c;d] ++ firstn (4 - i) [a;b;c;d]).
Proof.
  intros H Hi. destruct i as [|i].
  - unfold rol32. change (8 * N.of_nat 0) with 0. change (32 - 0) with (8 * N.of_nat 4).
    rewrite (shr_le _ 4 H). cbn [skipn repeat app Nat.sub firstn]. change (of_le [0;0;0;0]) with 0. rewrite N.lor_0_r.
    unfold shl. rewrite N.shiftl_0_r. apply trunc_small. apply (of_le_lt _ H).
  - pose proof (rotr_le [a;b;c;d] (4 - S i) H ltac:(cbn [length]; lia)) as E. unfold rotr in E. unfold rol32.
    change (8 * N.of_nat (length [a;b;c;d])) with 32 in E.
    replace (32 - 8 * N.of_nat (4 - S i)) with (8 * N.of_nat (S i)) in E by lia.
    replace (32 - 8 * N.of_nat (S i)) with (8 * N.of_nat (4 - S i)) by lia.
    rewrite N.lor_comm. exact E.
Qed.

Lemma esmi_ok rk t i : bytes_ok t -> (i < 4)%nat ->
  aes32esmi rk (of_le t) (N.of_nat i) =
  N.lxor rk (of_le (let s := sbox (nth i t 0) in let w := [gmul 2 s; s; s; gmul 3 s] in skipn (4 - i) w ++ firstn (4 - i) w)).
Proof.
  intros Ht Hi. unfold aes32esmi. rewrite getbyte_le by assumption. unfold mixcolumn_byte_fwd. rewrite rol32_le; try assumption; [reflexivity|].
  pose proof (bytes_ok_nth t i Ht). repeat constructor; byte_lt'.
Qed.
Lemma esi_ok rk t i : bytes_ok t -> (i < 4)%nat ->
  aes32esi rk (of_le t) (N.of_nat i) =
  N.lxor rk (of_le (let w := [sbox (nth i t 0); 0; 0; 0] in skipn (4 - i) w ++ firstn (4 - i) w)).
Proof.
  intros Ht Hi. unfold aes32esi. rewrite getbyte_le by assumption.
  pose proof (sbox_lt _ (bytes_ok_nth t i Ht)).
  replace (sbox (nth i t 0)) with (of_le [sbox (nth i t 0); 0; 0; 0]) at 1 by (cbn [of_le]; lia).
  rewrite rol32_le; try assumption; [reflexivity|]. repeat constructor; try assumption; reflexivity.
Qed.

Lemma enc_word a b c d t0 t1 t2 t3 :
  bytes_ok t0 -> bytes_ok t1 -> bytes_ok t2 -> bytes_ok t3 ->
  nth 0 t0 0 = a -> nth 1 t1 0 = b -> nth 2 t2 0 = c -> nth 3 t3 0 = d ->
  r32_inner aes32esmi (of_le t0) (of_le t1) (of_le t2) (of_le t3) 0 =
  let M := col_mix 2 3 1 1 in let a := sbox a in let b := sbox b in let c := sbox c in let d := sbox d in
  of_le [M a b c d; M b c d a; M c d a b; M d a b c].
Proof.
  intros O0 O1 O2 O3 E0 E1 E2 E3. cbv zeta. unfold r32_inner.
  rewrite (esmi_ok _ t0 0), (esmi_ok _ t1 1), (esmi_ok _ t2 2), (esmi_ok _ t3 3) by (assumption || lia).
  rewrite E0, E1, E2, E3. 
  pose proof (bytes_ok_nth t0 0 O0) as B0. pose proof (bytes_ok_nth t1 1 O1) as B1.
  pose proof (bytes_ok_nth t2 2 O2) as B2. pose proof (bytes_ok_nth t3 3 O3) as B3.
  rewrite E0 in B0. rewrite E1 in B1. rewrite E2 in B2. rewrite E3 in B3.
  cbv zeta. cbn [skipn firstn Nat.sub app]. rewrite N.lxor_0_l. repeat (rewrite w4_lxor by byte_lt').
  unfold col_mix. rewrite !gmul_1. apply (f_equal of_le), list4_eq; apply N.bits_inj; intro n; rewrite !N.lxor_spec; btauto.
Qed.
Lemma enc_last_word a b c d t0 t1 t2 t3 :
  bytes_ok t0 -> bytes_ok t1 -> bytes_ok t2 -> bytes_ok t3 ->
  nth 0 t0 0 = a -> nth 1 t1 0 = b -> nth 2 t2 0 = c -> nth 3 t3 0 = d ->
  r32_inner aes32esi (of_le t0) (of_le t1) (of_le t2) (of_le t3) 0 = of_le [sbox a; sbox b; sbox c; sbox d].
Proof.
  intros O0 O1 O2 O3 E0 E1 E2 E3. unfold r32_inner.
  rewrite (esi_ok _ t0 0), (esi_ok _ t1 1), (esi_ok _ t2 2), (esi_ok _ t3 3) by (assumption || lia).
  rewrite E0, E1, E2, E3. 
  pose proof (bytes_ok_nth t0 0 O0) as B0. pose proof (bytes_ok_nth t1 1 O1) as B1.
  pose proof (bytes_ok_nth t2 2 O2) as B2. pose proof (bytes_ok_nth t3 3 O3) as B3.
  rewrite E0 in B0. rewrite E1 in B1. rewrite E2 in B2. rewrite E3 in B3.
  cbv zeta. cbn [skipn firstn Nat.sub app]. rewrite N.lxor_0_l. repeat (rewrite w4_lxor by byte_lt').
  now rewrite ?N.lxor_0_l, ?N.lxor_0_r.
Qed.

Lemma r32_enc_ok' a k : is_bytes 16 a -> is_bytes 16 k -> r32_enc (r32_of_bytes a) (r32_of_bytes k) = r32_of_bytes (spec_enc a k).
Proof.
  intros Ha Hk. bytes_tac Ha. bytes_tac Hk. unfold spec_enc. rewrite shift_rows_16.
  unfold sub_bytes. cbn [map]. unfold mix_columns. rewrite mix_with_16. cbv zeta. unfold add_round_key. cbn [map2].
  rewrite !r32_of_16. unfold r32_enc, r32_pre_enc, r32_outer, w4_xor, w4_map2, w4_zero. cbn [w_0 w_1 w_2 w_3].
  erewrite !enc_word by (reflexivity || (repeat constructor; assumption)). cbv zeta.
  rewrite !w4_lxor by byte_lt'. reflexivity.
Qed.
Lemma r32_enc_last_ok' a k : is_bytes 16 a -> is_bytes 16 k -> r32_enc_last (r32_of_bytes a) (r32_of_bytes k) = r32_of_bytes (spec_enc_last a k).
Proof.
  intros Ha Hk. bytes_tac Ha. bytes_tac Hk. unfold spec_enc_last. rewrite shift_rows_16.
  unfold sub_bytes. cbn [map]. unfold add_round_key. cbn [map2].
  rewrite !r32_of_16. unfold r32_enc_last, r32_pre_enc_last, r32_outer, w4_xor, w4_map2, w4_zero. cbn [w_0 w_1 w_2 w_3].
  erewrite !enc_last_word by (reflexivity || (repeat constructor; assumption)).
  rewrite !w4_lxor by byte_lt'. reflexivity.
Qed.

Lemma r32_map2_ok f g b c : is_bytes 16 b -> is_bytes 16 c ->
  (forall l m, bytes_ok l -> bytes_ok m -> length l = length m -> of_le (map2 f l m) = g (of_le l) (of_le m)) ->
  w4_map2 g (r32_of_bytes b) (r32_of_bytes c) = r32_of_bytes (map2 f b c).
Proof.
  intros Hb Hc H. bytes_tac Hb. bytes_tac Hc. cbn [map2]. rewrite !r32_of_16. unfold w4_map2. cbn [w_0 w_1 w_2 w_3].
  rewrite <- !H by (reflexivity || (repeat constructor; assumption)). reflexivity.
Qed.
Lemma r32_eq_iff a b : is_bytes 16 a -> is_bytes 16 b -> (w4_eq (r32_of_bytes a) (r32_of_bytes b) = true <-> a = b).
Proof.
  intros Ha Hb. split; [|intros ->; unfold w4_eq; now rewrite !N.eqb_refl].
  bytes_tac Ha. bytes_tac Hb. rewrite !r32_of_16. unfold w4_eq. cbn [w_0 w_1 w_2 w_3]. rewrite !andb_true_iff, !N.eqb_eq.
  intros [[[E0 E1] E2] E3].
  apply of_le_inj in E0; [|repeat constructor; assumption|repeat constructor; assumption|reflexivity].
  apply of_le_inj in E1; [|repeat constructor; assumption|repeat constructor; assumption|reflexivity].
  apply of_le_inj in E2; [|repeat constructor; assumption|repeat constructor; assumption|reflexivity].
  apply of_le_inj in E3; [|repeat constructor; assumption|repeat constructor; assumption|reflexivity].
  injection E0. injection E1. injection E2. injection E3. intros. now subst.
Qed.
Lemma r32_bytes_of b : is_bytes 16 b -> r32_bytes (r32_of_bytes b) = b.
Proof.
  intros Hb. bytes_tac Hb. rewrite r32_of_16. unfold r32_bytes. cbn [w_0 w_1 w_2 w_3].
  assert (E : forall l, bytes_ok l -> length l = 4%nat -> to_le 4 (of_le l) = l) by (intros l O <-; now apply to_le_of_le).
  rewrite !E by (reflexivity || (repeat constructor; assumption)). reflexivity.
Qed.
Lemma rv32_data_ok : data_ok rv32_ops 16 r32_of_bytes.
Proof.
  split; cbn [o_size o_new o_from o_store o_and o_or o_xor o_not o_zero o_is_zero o_eq rv32_ops]; try reflexivity.
  - intros b dst Hb. unfold r32_store_to. rewrite r32_bytes_of by assumption. apply raw_write_block, Hb.
  - intros. apply r32_map2_ok; try assumption. apply of_le_land.
  - intros. apply r32_map2_ok; try assumption. apply of_le_lor.
  - intros. apply r32_map2_ok; try assumption. apply of_le_lxor.
  - intros a Ha. bytes_tac Ha. cbn [map]. rewrite !r32_of_16. unfold w4_not. cbn [w_0 w_1 w_2 w_3].
    assert (E : forall l, bytes_ok l -> length l = 4%nat -> bnot 32 (of_le l) = of_le (map (bnot 8) l)).
    { intros l O L. rewrite of_le_bnot, L by assumption. reflexivity. }
    rewrite !E by (reflexivity || (repeat constructor; assumption)). reflexivity.
  - intros a Ha. rewrite w4_is_zero_eq. change w4_zero with (r32_of_bytes (repeat 0 16)). apply r32_eq_iff; [assumption|apply zeros_bytes].
  - apply r32_eq_iff.
Qed.
Lemma rv32_enc_ok : enc_ok rv32_ops 1 r32_of_bytes.
Proof. apply enc_ok_1; [apply r32_enc_ok'|apply r32_enc_last_ok']. Qed.
