(** The table-based backend's programs (Model_LeakSoft.v) compute what its functions (Model_Table.v) compute. *)
From Coq Require Import Lia Arith String.
From Coq Require Import List.
From Verif Require Import Word Interface Fips197 Spec_Api Spec_Leak Model_Table Model_Leak Model_LeakAccel Model_LeakSoft.
From Verif Require Import Proof_Shape Proof_Word Proof_Fips Proof_Ok Proof_Sem Proof_Lib Proof_Lanes Proof_Table Proof_KeySpec Proof_Inst Proof_KeyTable Proof_Cipher Proof_Leak Proof_LeakRun Proof_LeakEngine Proof_LeakAccel Proof_LeakKeys.
Open Scope string_scope.
Open Scope list_scope.
Open Scope N_scope.
Notation sx := (fips_sem None round_keys).

(** ** Four u32s and the number with the same bytes *)
Definition unpkb (n : N) : w4 := W4 (trunc 32 (shr n 96)) (trunc 32 (shr n 64)) (trunc 32 (shr n 32)) (trunc 32 (shr n 0)).
Definition pkb (w : w4) : N := N.lor (N.lor (N.lor (shl 128 (w_0 w) 96) (shl 128 (w_1 w) 64)) (shl 128 (w_2 w) 32)) (w_3 w).
Lemma pkb_unpkb n : n < 2 ^ 128 -> pkb (unpkb n) = n.
Proof.
  intros H. unfold pkb, unpkb. cbn [w_0 w_1 w_2 w_3]. apply N.bits_inj. intro i. rewrite !N.lor_spec, !shl_testbit, !trunc_testbit, !shr_testbit.
  destruct (N.ltb_spec i 128).
  - destruct (N.leb_spec 96 i), (N.leb_spec 64 i), (N.leb_spec 32 i); try lia; cbn [andb];
      repeat match goal with |- context [?x <? ?y] => destruct (N.ltb_spec x y); try lia end; cbn [andb orb];
      rewrite ?orb_false_r; f_equal; lia.
  - cbn [andb]. destruct (N.ltb_spec i 32); [lia|]. cbn [andb orb]. symmetry. now apply (bit_high n 128).
Qed.
Lemma rev_skipn_firstn {A} (b : list A) j : (j <= 12)%nat -> length b = 16%nat -> firstn 4 (skipn (12 - j) (rev b)) = rev (firstn 4 (skipn j b)).
Proof.
  intros Hj L. do 16 (destruct b as [|? b]; [discriminate L|]). destruct b; [|discriminate L].
  do 13 (destruct j as [|j]; [reflexivity|]). lia.
Qed.
Lemma be_128 b : is_bytes 16 b -> of_be b < 2 ^ 128.
Proof. intros [L B]. pose proof (of_le_lt (rev b) (bytes_ok_rev _ B)) as H. rewrite rev_length, L in H. exact H. Qed.
Lemma unpkb_be b : is_bytes 16 b -> unpkb (of_be b) = tb_of b.
Proof.
  intros [L B]. unfold unpkb, tb_of, w_be, of_be. pose proof (bytes_ok_rev _ B) as R.
  assert (H : forall j, (j <= 12)%nat -> trunc 32 (shr (of_le (rev b)) (8 * N.of_nat (12 - j))) = of_le (rev (firstn 4 (skipn j b)))).
  { intros j Hj. rewrite <- rev_skipn_firstn by assumption. rewrite of_le_skipn by assumption. apply (of_le_firstn _ 4). now apply bytes_ok_skipn. }
  f_equal; [exact (H 0%nat ltac:(lia))|exact (H 4%nat ltac:(lia))|exact (H 8%nat ltac:(lia))|exact (H 12%nat ltac:(lia))].
Qed.
Lemma pkb_of b : is_bytes 16 b -> pkb (tb_of b) = of_be b.
Proof. intros H. rewrite <- unpkb_be by assumption. now apply pkb_unpkb, be_128. Qed.

Ltac crunch := cbv [value val val1 val2 upd String.eqb Ascii.eqb Bool.eqb table_engine g_enc g_enc_last g_dec g_dec_last g_mc g_imc xt_forward xt_backward xt_enc xt_enc_last xt_dec xt_dec_last
  xt_mix xt_mc_word xt_imc_word xt_keyexp_128 xt_keyexp_256_1 xt_keyexp_256_2 xt_sub_word fields f_ x_lut x_te0 x_te1 x_te2 x_te3 x_td0 x_td1 x_td2 x_td3 x_te4 x_td4
  pkb unpkb w_0 w_1 w_2 w_3 tb_enc tb_enc_last tb_dec tb_dec_last tb_mc tb_imc mc_word imc_word tb_keyexp_128 tb_keyexp_256_1 tb_keyexp_256_2 tb_sub_word xor4 xor5
  lut te0 te1 te2 te3 td0 td1 td2 td3 te4_0 te4_1 te4_2 te4_3 td4_0 td4_1 td4_2 td4_3 as_u8 N.sub N.mul Pos.mul Pos.sub Pos.sub_mask Pos.double_mask Pos.succ_double_mask Pos.pred_double Pos.double_pred_mask Pos.add]; reflexivity.
(** ** Rounds *)
Lemma table_vop e f (G : bop) : bop_ok G -> computes2 e (fun s k => pkb (f (unpkb s) (unpkb k))) ->
  (forall a k, is_bytes 16 a -> is_bytes 16 k -> f (tb_of a) (tb_of k) = tb_of (G a k)) -> vop table_engine e 1 G.
Proof.
  intros HG C H. eexists. split; [exact C|]. intros a k Ha Hk. change (16 * 1)%nat with 16%nat in *. cbn [g_be table_engine of_ne].
  rewrite !unpkb_be, H, pkb_of by auto. now rewrite on_lanes_1 by (apply Ha || apply Hk).
Qed.
Lemma table_vec : vec_ok table_engine sx 1.
Proof.
  pose proof (fips_rk_ok None (or_introl eq_refl)) as S0.
  constructor; cbn [table_engine g_enc g_enc_last g_dec g_dec_last g_wide g_pre].
  - apply (table_vop _ tb_enc); [apply S0|intros st a b; crunch|exact tb_enc_ok].
  - apply (table_vop _ tb_enc_last); [apply S0|intros st a b; crunch|exact tb_enc_last_ok].
  - apply (table_vop _ tb_dec); [apply S0|intros st a b; crunch|exact tb_dec_ok].
  - apply (table_vop _ tb_dec_last); [apply S0|intros st a b; crunch|exact tb_dec_last_ok].
  - exists (fun x => x). split; [intros st a; reflexivity|]. intros a Ha. now rewrite bcast_1.
  - exact I.
Qed.
Lemma table_mc_u : uop table_engine (g_mc table_engine) (s_mc sx).
Proof.
  exists (fun x => pkb (tb_mc (unpkb x))). split; [intros st a; crunch|]. intros a Ha. cbn [g_be table_engine of_ne s_mc fips_sem].
  rewrite unpkb_be, tb_mc_ok, pkb_of by auto using mix_columns_bytes. reflexivity.
Qed.
Lemma table_imc_u : uop table_engine (g_imc table_engine) (s_imc sx).
Proof.
  exists (fun x => pkb (tb_imc (unpkb x))). split; [intros st a; crunch|]. intros a Ha. cbn [g_be table_engine of_ne s_imc fips_sem].
  rewrite unpkb_be, tb_imc_ok, pkb_of by auto using inv_mix_columns_bytes. reflexivity.
Qed.

(** ** Key schedules *)
Lemma load_be_value st key off n : arrs st "key" = key -> (off + n <= length key)%nat -> value st (xt_load off n) = of_be (firstn n (skipn off key)).
Proof.
  intros Hk L. unfold xt_load, value. rewrite val_from_ne, map_map. cbn [of_ne]. f_equal.
  rewrite (firstn_seq_nth 0) by lia. rewrite <- (seq_shift' off n), map_map. apply map_ext. intros t.
  change (value st (Index "key" (Lit (N.of_nat (off + t)))) = nth (off + t) key 0). rewrite (value_index _ _ _ (off + t)%nat) by reflexivity. now rewrite Hk.
Qed.
Lemma sub_word_value st e : value st (xt_sub_word e) = tb_sub_word (value st e).
Proof. reflexivity. Qed.
Lemma tb_keyexp_128_value st r e w : value st e = pkb w -> unpkb (pkb w) = w -> value st (xt_keyexp_128 r e) = pkb (tb_keyexp_128 r w).
Proof. intros He Hw. rewrite <- Hw, <- He. crunch. Qed.
Lemma tb_keyexp_256_1_value st r e f w v : value st e = pkb w -> value st f = pkb v -> unpkb (pkb w) = w -> unpkb (pkb v) = v ->
  value st (xt_keyexp_256_1 r e f) = pkb (tb_keyexp_256_1 r w v).
Proof. intros He Hf Hw Hv. rewrite <- Hw, <- He, <- Hv, <- Hf. crunch. Qed.
Lemma tb_keyexp_256_2_value st e f w v : value st e = pkb w -> value st f = pkb v -> unpkb (pkb w) = w -> unpkb (pkb v) = v ->
  value st (xt_keyexp_256_2 e f) = pkb (tb_keyexp_256_2 w v).
Proof. intros He Hf Hw Hv. rewrite <- Hw, <- He, <- Hv, <- Hf. crunch. Qed.
Lemma map_pkb k key : is_bytes (key_len k) key -> map of_be (round_keys k key) = map pkb (map tb_of (round_keys k key)).
Proof.
  intros H. rewrite map_map. apply map_ext_in. intros b Hb. symmetry. apply pkb_of.
  destruct (round_keys_good k key H) as [_ F]. rewrite Forall_forall in F. now apply F.
Qed.
Lemma unpkb_keys k key w : is_bytes (key_len k) key -> In w (map tb_of (round_keys k key)) -> unpkb (pkb w) = w.
Proof.
  intros H Hw. apply in_map_iff in Hw as (b & <- & Hb). destruct (round_keys_good k key H) as [_ F]. rewrite Forall_forall in F.
  rewrite pkb_of, unpkb_be by now apply F. reflexivity.
Qed.
Lemma table_keyed_128 key msg : is_bytes 16 key ->
  let st := final st_keygen_128 (start key msg) in arrs st "keys" = map of_be (round_keys K128 key) /\ arrs st "in" = msg.
Proof.
  intros H. cbn zeta. pose proof (tb_key_128 key H) as E. unfold tb_keygen_128 in E. rewrite (tb_new_ok key H) in E. cbn [bind] in E. apply Ret_eq in E.
  rewrite (map_pkb K128 key H). pose proof (unpkb_keys K128 key) as U. rewrite <- E in *. specialize (fun w => U w H).
  set (k0 := tb_of key) in *.
  set (k1 := tb_keyexp_128 16777216 k0) in *.
  set (k2 := tb_keyexp_128 33554432 k1) in *.
  set (k3 := tb_keyexp_128 67108864 k2) in *.
  set (k4 := tb_keyexp_128 134217728 k3) in *.
  set (k5 := tb_keyexp_128 268435456 k4) in *.
  set (k6 := tb_keyexp_128 536870912 k5) in *.
  set (k7 := tb_keyexp_128 1073741824 k6) in *.
  set (k8 := tb_keyexp_128 2147483648 k7) in *.
  set (k9 := tb_keyexp_128 452984832 k8) in *.
  set (k10 := tb_keyexp_128 905969664 k9) in *.
  cbv zeta in U |- *.
  assert (U0 : unpkb (pkb k0) = k0) by (apply U; cbn [In]; tauto).
  assert (U1 : unpkb (pkb k1) = k1) by (apply U; cbn [In]; tauto).
  assert (U2 : unpkb (pkb k2) = k2) by (apply U; cbn [In]; tauto).
  assert (U3 : unpkb (pkb k3) = k3) by (apply U; cbn [In]; tauto).
  assert (U4 : unpkb (pkb k4) = k4) by (apply U; cbn [In]; tauto).
  assert (U5 : unpkb (pkb k5) = k5) by (apply U; cbn [In]; tauto).
  assert (U6 : unpkb (pkb k6) = k6) by (apply U; cbn [In]; tauto).
  assert (U7 : unpkb (pkb k7) = k7) by (apply U; cbn [In]; tauto).
  assert (U8 : unpkb (pkb k8) = k8) by (apply U; cbn [In]; tauto).
  assert (U9 : unpkb (pkb k9) = k9) by (apply U; cbn [In]; tauto).
  assert (E1 : k1 = tb_keyexp_128 16777216 k0) by reflexivity.
  assert (E2 : k2 = tb_keyexp_128 33554432 k1) by reflexivity.
  assert (E3 : k3 = tb_keyexp_128 67108864 k2) by reflexivity.
  assert (E4 : k4 = tb_keyexp_128 134217728 k3) by reflexivity.
  assert (E5 : k5 = tb_keyexp_128 268435456 k4) by reflexivity.
  assert (E6 : k6 = tb_keyexp_128 536870912 k5) by reflexivity.
  assert (E7 : k7 = tb_keyexp_128 1073741824 k6) by reflexivity.
  assert (E8 : k8 = tb_keyexp_128 2147483648 k7) by reflexivity.
  assert (E9 : k9 = tb_keyexp_128 452984832 k8) by reflexivity.
  assert (E10 : k10 = tb_keyexp_128 905969664 k9) by reflexivity.
  clear U E; clearbody k1 k2 k3 k4 k5 k6 k7 k8 k9 k10.
  unfold st_keygen_128. cbn [seq combine map app fst snd].
  run_step (pkb k0) ltac:(rewrite (load_be_value _ key 0 16) by (reflexivity || (rewrite (proj1 H); lia)); cbn [skipn]; rewrite firstn_all2 by (rewrite (proj1 H); lia); symmetry; now apply pkb_of).
  run_step (pkb k1) ltac:(rewrite E1; apply (tb_keyexp_128_value _ _ _ k0); [look|assumption]).
  run_step (pkb k2) ltac:(rewrite E2; apply (tb_keyexp_128_value _ _ _ k1); [look|assumption]).
  run_step (pkb k3) ltac:(rewrite E3; apply (tb_keyexp_128_value _ _ _ k2); [look|assumption]).
  run_step (pkb k4) ltac:(rewrite E4; apply (tb_keyexp_128_value _ _ _ k3); [look|assumption]).
  run_step (pkb k5) ltac:(rewrite E5; apply (tb_keyexp_128_value _ _ _ k4); [look|assumption]).
  run_step (pkb k6) ltac:(rewrite E6; apply (tb_keyexp_128_value _ _ _ k5); [look|assumption]).
  run_step (pkb k7) ltac:(rewrite E7; apply (tb_keyexp_128_value _ _ _ k6); [look|assumption]).
  run_step (pkb k8) ltac:(rewrite E8; apply (tb_keyexp_128_value _ _ _ k7); [look|assumption]).
  run_step (pkb k9) ltac:(rewrite E9; apply (tb_keyexp_128_value _ _ _ k8); [look|assumption]).
  run_step (pkb k10) ltac:(rewrite E10; apply (tb_keyexp_128_value _ _ _ k9); [look|assumption]).
  clearbody k0. finish 11%nat; reflexivity.
Qed.
Lemma table_keyed_256 key msg : is_bytes 32 key ->
  let st := final st_keygen_256 (start key msg) in arrs st "keys" = map of_be (round_keys K256 key) /\ arrs st "in" = msg.
Proof.
  intros H. cbn zeta. pose proof (tb_key_256 false key H) as E. unfold tb_keygen_256 in E.
  unfold slice_to, slice_from in E. rewrite (proj1 H) in E. cbn [Nat.leb bind] in E.
  pose proof (key_bytes_lo 16 16 key H) as B0. pose proof (key_bytes_hi 16 16 key H) as B1.
  rewrite !try_from_exact in E by (apply B0 || apply B1).
  rewrite (tb_new_ok (firstn 16 key) B0), (tb_new_ok (skipn 16 key) B1) in E. cbn [bind unwrap omap] in E. apply Ret_eq in E.
  rewrite (map_pkb K256 key H). pose proof (unpkb_keys K256 key) as U. rewrite <- E in *. specialize (fun w => U w H).
  set (k0 := tb_of (firstn 16 key)) in *. set (k1 := tb_of (skipn 16 key)) in *.
  set (k2 := tb_keyexp_256_1 16777216 k0 k1) in *.
  set (k3 := tb_keyexp_256_2 k1 k2) in *.
  set (k4 := tb_keyexp_256_1 33554432 k2 k3) in *.
  set (k5 := tb_keyexp_256_2 k3 k4) in *.
  set (k6 := tb_keyexp_256_1 67108864 k4 k5) in *.
  set (k7 := tb_keyexp_256_2 k5 k6) in *.
  set (k8 := tb_keyexp_256_1 134217728 k6 k7) in *.
  set (k9 := tb_keyexp_256_2 k7 k8) in *.
  set (k10 := tb_keyexp_256_1 268435456 k8 k9) in *.
  set (k11 := tb_keyexp_256_2 k9 k10) in *.
  set (k12 := tb_keyexp_256_1 536870912 k10 k11) in *.
  set (k13 := tb_keyexp_256_2 k11 k12) in *.
  set (k14 := tb_keyexp_256_1 1073741824 k12 k13) in *.
  cbv zeta in U |- *.
  assert (U0 : unpkb (pkb k0) = k0) by (apply U; cbn [In]; tauto).
  assert (U1 : unpkb (pkb k1) = k1) by (apply U; cbn [In]; tauto).
  assert (U2 : unpkb (pkb k2) = k2) by (apply U; cbn [In]; tauto).
  assert (U3 : unpkb (pkb k3) = k3) by (apply U; cbn [In]; tauto).
  assert (U4 : unpkb (pkb k4) = k4) by (apply U; cbn [In]; tauto).
  assert (U5 : unpkb (pkb k5) = k5) by (apply U; cbn [In]; tauto).
  assert (U6 : unpkb (pkb k6) = k6) by (apply U; cbn [In]; tauto).
  assert (U7 : unpkb (pkb k7) = k7) by (apply U; cbn [In]; tauto).
  assert (U8 : unpkb (pkb k8) = k8) by (apply U; cbn [In]; tauto).
  assert (U9 : unpkb (pkb k9) = k9) by (apply U; cbn [In]; tauto).
  assert (U10 : unpkb (pkb k10) = k10) by (apply U; cbn [In]; tauto).
  assert (U11 : unpkb (pkb k11) = k11) by (apply U; cbn [In]; tauto).
  assert (U12 : unpkb (pkb k12) = k12) by (apply U; cbn [In]; tauto).
  assert (U13 : unpkb (pkb k13) = k13) by (apply U; cbn [In]; tauto).
  assert (E2 : k2 = tb_keyexp_256_1 16777216 k0 k1) by reflexivity.
  assert (E3 : k3 = tb_keyexp_256_2 k1 k2) by reflexivity.
  assert (E4 : k4 = tb_keyexp_256_1 33554432 k2 k3) by reflexivity.
  assert (E5 : k5 = tb_keyexp_256_2 k3 k4) by reflexivity.
  assert (E6 : k6 = tb_keyexp_256_1 67108864 k4 k5) by reflexivity.
  assert (E7 : k7 = tb_keyexp_256_2 k5 k6) by reflexivity.
  assert (E8 : k8 = tb_keyexp_256_1 134217728 k6 k7) by reflexivity.
  assert (E9 : k9 = tb_keyexp_256_2 k7 k8) by reflexivity.
  assert (E10 : k10 = tb_keyexp_256_1 268435456 k8 k9) by reflexivity.
  assert (E11 : k11 = tb_keyexp_256_2 k9 k10) by reflexivity.
  assert (E12 : k12 = tb_keyexp_256_1 536870912 k10 k11) by reflexivity.
  assert (E13 : k13 = tb_keyexp_256_2 k11 k12) by reflexivity.
  assert (E14 : k14 = tb_keyexp_256_1 1073741824 k12 k13) by reflexivity.
  clear U E; clearbody k2 k3 k4 k5 k6 k7 k8 k9 k10 k11 k12 k13 k14.
  unfold st_keygen_256. cbn [seq combine map app fst snd].
  run_step (pkb k0) ltac:(rewrite (load_be_value _ key 0 16) by (reflexivity || (rewrite (proj1 H); lia)); cbn [skipn]; symmetry; now apply pkb_of).
  run_step (pkb k1) ltac:(rewrite (load_be_value _ key 16 16) by (reflexivity || (rewrite (proj1 H); lia)); rewrite firstn_all2 by (rewrite skipn_length, (proj1 H); lia); symmetry; now apply pkb_of).
  run_step (pkb k2) ltac:(rewrite E2; apply (tb_keyexp_256_1_value _ _ _ _ k0 k1); [look|look|assumption|assumption]).
  run_step (pkb k3) ltac:(rewrite E3; apply (tb_keyexp_256_2_value _ _ _ k1 k2); [look|look|assumption|assumption]).
  run_step (pkb k4) ltac:(rewrite E4; apply (tb_keyexp_256_1_value _ _ _ _ k2 k3); [look|look|assumption|assumption]).
  run_step (pkb k5) ltac:(rewrite E5; apply (tb_keyexp_256_2_value _ _ _ k3 k4); [look|look|assumption|assumption]).
  run_step (pkb k6) ltac:(rewrite E6; apply (tb_keyexp_256_1_value _ _ _ _ k4 k5); [look|look|assumption|assumption]).
  run_step (pkb k7) ltac:(rewrite E7; apply (tb_keyexp_256_2_value _ _ _ k5 k6); [look|look|assumption|assumption]).
  run_step (pkb k8) ltac:(rewrite E8; apply (tb_keyexp_256_1_value _ _ _ _ k6 k7); [look|look|assumption|assumption]).
  run_step (pkb k9) ltac:(rewrite E9; apply (tb_keyexp_256_2_value _ _ _ k7 k8); [look|look|assumption|assumption]).
  run_step (pkb k10) ltac:(rewrite E10; apply (tb_keyexp_256_1_value _ _ _ _ k8 k9); [look|look|assumption|assumption]).
  run_step (pkb k11) ltac:(rewrite E11; apply (tb_keyexp_256_2_value _ _ _ k9 k10); [look|look|assumption|assumption]).
  run_step (pkb k12) ltac:(rewrite E12; apply (tb_keyexp_256_1_value _ _ _ _ k10 k11); [look|look|assumption|assumption]).
  run_step (pkb k13) ltac:(rewrite E13; apply (tb_keyexp_256_2_value _ _ _ k11 k12); [look|look|assumption|assumption]).
  run_step (pkb k14) ltac:(rewrite E14; apply (tb_keyexp_256_1_value _ _ _ _ k12 k13); [look|look|assumption|assumption]).
  clearbody k0 k1. finish 15%nat; reflexivity.
Qed.
Lemma tb_keyexp_192_eqs r p q : q = tb_keyexp_192 r p ->
  (v_0 q = N.lxor (N.lxor (v_0 p) (tb_sub_word (v_5 p))) r /\ v_1 q = N.lxor (v_1 p) (v_0 q) /\ v_2 q = N.lxor (v_2 p) (v_1 q) /\
   v_3 q = N.lxor (v_3 p) (v_2 q)) /\ v_4 q = N.lxor (v_4 p) (v_3 q) /\ v_5 q = N.lxor (v_5 p) (v_4 q).
Proof. intros ->. repeat split. Qed.
Lemma sub_word_first st r a b x y : value st a = x -> value st b = y ->
  value st (a :^: xt_sub_word b :^: Lit r) = N.lxor (N.lxor x (tb_sub_word y)) r.
Proof. intros <- <-. rewrite !value_xor, sub_word_value, value_lit. reflexivity. Qed.
Definition holds6 (st : state) (w : w6) : Prop :=
  (vars st "k0" = v_0 w /\ vars st "k1" = v_1 w /\ vars st "k2" = v_2 w) /\ vars st "k3" = v_3 w /\ vars st "k4" = v_4 w /\ vars st "k5" = v_5 w.
Lemma part_192 r1 r2 j st w p q l : In j [0; 3; 6; 9]%nat -> holds6 st w -> p = tb_keyexp_192 r1 w -> q = tb_keyexp_192 r2 p ->
  exists st', final (block (st_keys_192 r1 j ++ st_keyexp_192 r2 p_names k_names ++ l)) st = final (block l) st' /\ holds6 st' q /\
    (vars st' (key_name j) = pkb (W4 (v_0 w) (v_1 w) (v_2 w) (v_3 w)) /\ vars st' (key_name (j + 1)) = pkb (W4 (v_4 w) (v_5 w) (v_0 p) (v_1 p)) /\
     vars st' (key_name (j + 2)) = pkb (W4 (v_2 p) (v_3 p) (v_4 p) (v_5 p))) /\
    (forall i, (i < j)%nat -> vars st' (key_name i) = vars st (key_name i)) /\ arrs st' = arrs st.
Proof.
  intros Hj ((K0 & K1 & K2) & K3 & K4 & K5) Ep Eq.
  destruct (tb_keyexp_192_eqs r1 w p Ep) as ((A & B & C & D) & F & G). destruct (tb_keyexp_192_eqs r2 p q Eq) as ((A' & B' & C' & D') & F' & G'). clear Ep Eq.
  unfold st_keys_192, st_keyexp_192, at6. cbn [map app nth k_names p_names Nat.sub].
  destruct Hj as [<-|[<-|[<-|[<-|[]]]]]; cbn [key_name key_names nth Nat.add];
    run_step (pkb (W4 (v_0 w) (v_1 w) (v_2 w) (v_3 w))) ltac:(rewrite <- K0, <- K1, <- K2, <- K3; look);
    run_step (v_0 p) ltac:(rewrite A; apply sub_word_first; [rewrite <- K0|rewrite <- K5]; look);
    run_step (v_1 p) ltac:(rewrite B, <- K1; look);
    run_step (v_2 p) ltac:(rewrite C, <- K2; look);
    run_step (v_3 p) ltac:(rewrite D, <- K3; look);
    run_step (v_4 p) ltac:(rewrite F, <- K4; look);
    run_step (v_5 p) ltac:(rewrite G, <- K5; look);
    run_step (pkb (W4 (v_4 w) (v_5 w) (v_0 p) (v_1 p))) ltac:(rewrite <- K4, <- K5; look);
    run_step (pkb (W4 (v_2 p) (v_3 p) (v_4 p) (v_5 p))) ltac:(look);
    run_step (v_0 q) ltac:(rewrite A'; apply sub_word_first; look);
    run_step (v_1 q) ltac:(rewrite B'; look);
    run_step (v_2 q) ltac:(rewrite C'; look);
    run_step (v_3 q) ltac:(rewrite D'; look);
    run_step (v_4 q) ltac:(rewrite F'; look);
    run_step (v_5 q) ltac:(rewrite G'; look);
    (eexists; split; [reflexivity|]; split; [repeat split|]; split; [repeat split|]; split; [|reflexivity]; intros i Hi; do 9 (destruct i as [|i]; [reflexivity || lia|]); lia).
Qed.
Lemma table_keyed_192 key msg : is_bytes 24 key ->
  let st := final st_keygen_192 (start key msg) in arrs st "keys" = map of_be (round_keys K192 key) /\ arrs st "in" = msg.
Proof.
  intros H. cbn zeta. pose proof (tb_key_192 key H) as E. unfold tb_keygen_192 in E.
  rewrite !load_ok in E by (apply H || (rewrite (proj1 H); lia)). cbn [bind] in E.
  assert (V : forall off st, (off + 4 <= 24)%nat -> arrs st "key" = key -> value st (xt_load off 4) = of_be (firstn 4 (skipn off key))).
  { intros off st Ho Hs. apply load_be_value; [assumption|]. now rewrite (proj1 H). }
  set (a0 := of_be (firstn 4 (skipn 0 key))) in *.
  set (a1 := of_be (firstn 4 (skipn 4 key))) in *.
  set (a2 := of_be (firstn 4 (skipn 8 key))) in *.
  set (a3 := of_be (firstn 4 (skipn 12 key))) in *.
  set (a4 := of_be (firstn 4 (skipn 16 key))) in *.
  set (a5 := of_be (firstn 4 (skipn 20 key))) in *.
  set (w0 := W6 a0 a1 a2 a3 a4 a5) in *.
  cbv zeta in E.
  set (w1 := tb_keyexp_192 16777216 w0) in *.
  set (w2 := tb_keyexp_192 33554432 w1) in *.
  set (w3 := tb_keyexp_192 67108864 w2) in *.
  set (w4 := tb_keyexp_192 134217728 w3) in *.
  set (w5 := tb_keyexp_192 268435456 w4) in *.
  set (w6 := tb_keyexp_192 536870912 w5) in *.
  set (w7 := tb_keyexp_192 1073741824 w6) in *.
  set (w8 := tb_keyexp_192 2147483648 w7) in *.
  apply Ret_eq in E. rewrite (map_pkb K192 key H), <- E. clear E.
  assert (E1 : w1 = tb_keyexp_192 16777216 w0) by reflexivity.
  assert (E2 : w2 = tb_keyexp_192 33554432 w1) by reflexivity.
  assert (E3 : w3 = tb_keyexp_192 67108864 w2) by reflexivity.
  assert (E4 : w4 = tb_keyexp_192 134217728 w3) by reflexivity.
  assert (E5 : w5 = tb_keyexp_192 268435456 w4) by reflexivity.
  assert (E6 : w6 = tb_keyexp_192 536870912 w5) by reflexivity.
  assert (E7 : w7 = tb_keyexp_192 1073741824 w6) by reflexivity.
  assert (E8 : w8 = tb_keyexp_192 2147483648 w7) by reflexivity.
  clearbody w1 w2 w3 w4 w5 w6 w7 w8.
  unfold st_keygen_192. cbn [seq map app nth k_names Nat.add Nat.mul].
  run_step (v_0 w0) ltac:(apply V; [lia|reflexivity]).
  run_step (v_1 w0) ltac:(apply V; [lia|reflexivity]).
  run_step (v_2 w0) ltac:(apply V; [lia|reflexivity]).
  run_step (v_3 w0) ltac:(apply V; [lia|reflexivity]).
  run_step (v_4 w0) ltac:(apply V; [lia|reflexivity]).
  run_step (v_5 w0) ltac:(apply V; [lia|reflexivity]).
  clear V. clearbody w0. match goal with |- context [final (block (st_keys_192 16777216 0 ++ _)) ?s] => set (st := s) end.
  assert (S : holds6 st w0) by repeat split. assert (SA : arrs st "in" = msg) by reflexivity. clearbody st.
  match goal with |- context [final (block (st_keys_192 16777216 0 ++ st_keyexp_192 33554432 p_names k_names ++ ?l)) st] =>
    destruct (part_192 16777216 33554432 0 st w0 w1 w2 l ltac:(cbn; tauto) S E1 E2) as (st0 & -> & S0 & (X0 & Y0 & Z0) & T0 & U0) end.
  match goal with |- context [final (block (st_keys_192 67108864 3 ++ st_keyexp_192 134217728 p_names k_names ++ ?l)) st0] =>
    destruct (part_192 67108864 134217728 3 st0 w2 w3 w4 l ltac:(cbn; tauto) S0 E3 E4) as (st1 & -> & S1 & (X1 & Y1 & Z1) & T1 & U1) end.
  match goal with |- context [final (block (st_keys_192 268435456 6 ++ st_keyexp_192 536870912 p_names k_names ++ ?l)) st1] =>
    destruct (part_192 268435456 536870912 6 st1 w4 w5 w6 l ltac:(cbn; tauto) S1 E5 E6) as (st2 & -> & S2 & (X2 & Y2 & Z2) & T2 & U2) end.
  match goal with |- context [final (block (st_keys_192 1073741824 9 ++ st_keyexp_192 2147483648 p_names k_names ++ ?l)) st2] =>
    destruct (part_192 1073741824 2147483648 9 st2 w6 w7 w8 l ltac:(cbn; tauto) S2 E7 E8) as (st3 & -> & S3 & (X3 & Y3 & Z3) & T3 & U3) end.
  cbn [Nat.add] in *. destruct S3 as ((P0 & P1 & P2) & P3 & _ & _).
  run_step (pkb (W4 (v_0 w8) (v_1 w8) (v_2 w8) (v_3 w8))) ltac:(rewrite <- P0, <- P1, <- P2, <- P3; reflexivity).
  finish 13%nat; [|cbn [set_var arrs]; now rewrite U3, U2, U1, U0].
  change (firstn 13 Model_LeakAccel.key_names) with (map key_name (seq 0 13)). cbn [seq map]. unfold set_var; cbn [vars].
  change (upd (vars st3) (key_name 12) ?v (key_name 12)) with v. rewrite !upd_other by (cbn; discriminate).
  rewrite X3, Y3, Z3, !T3, X2, Y2, Z2, !T2, X1, Y1, Z1, !T1, X0, Y0, Z0 by lia. reflexivity.
Qed.
Lemma table_keyed : keyed_ok table_engine sx.
Proof.
  intros k key msg H. cbn [table_engine g_keygen g_be s_keys fips_sem of_ne]. destruct k; [now apply table_keyed_128|now apply table_keyed_192|now apply table_keyed_256].
Qed.
