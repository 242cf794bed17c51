(** The edited crate (Model_Repair): with the edits a build needs, it refines FIPS 197. *)
From Coq Require Import Lia Arith Btauto.
From Verif Require Import Word Interface Fips197 Spec_Api Spec_Actual Spec_Cfg Isa_riscv Isa_x86 Isa_arm Model_Columns Model_Bitslice Model_Rv32 Model_X86 Model_Vaes Model_Arm Model_Rv64 Model_Table Model_Wide Model_Cfg Model_Repair.
From Verif Require Import Proof_Word Proof_Shift Proof_Fips Proof_Ok Proof_Lanes Proof_Bitslice Proof_X86 Proof_Table Proof_Arm Proof_Rv64 Proof_Rv32 Proof_Wide Proof_KeySpec Proof_KeyTable Proof_KeyX86 Proof_KeyRv64 Proof_Columns Proof_KeyGen Proof_Shape Proof_Sem Proof_Lib Proof_Inst.
Open Scope N_scope.

(** ** RV32 decryption rounds in the right order *)
Lemma dsmi_ok rk t i : bytes_ok t -> (i < 4)%nat ->
  aes32dsmi rk (of_le t) (N.of_nat i) =
  N.lxor rk (of_le (let s := inv_sbox (nth i t 0) in let w := [gmul 0xe s; gmul 9 s; gmul 0xd s; gmul 0xb s] in skipn (4 - i) w ++ firstn (4 - i) w)).
Proof.
  intros Ht Hi. unfold aes32dsmi. rewrite getbyte_le by assumption. unfold mixcolumn_byte_inv. rewrite rol32_le; try assumption; [reflexivity|].
  pose proof (inv_sbox_lt _ (bytes_ok_nth t i Ht)). repeat constructor; apply gmul_lt; assumption.
Qed.
Lemma dsi_ok rk t i : bytes_ok t -> (i < 4)%nat ->
  aes32dsi rk (of_le t) (N.of_nat i) =
  N.lxor rk (of_le (let w := [inv_sbox (nth i t 0); 0; 0; 0] in skipn (4 - i) w ++ firstn (4 - i) w)).
Proof.
  intros Ht Hi. unfold aes32dsi. rewrite getbyte_le by assumption.
  pose proof (inv_sbox_lt _ (bytes_ok_nth t i Ht)).
  replace (inv_sbox (nth i t 0)) with (of_le [inv_sbox (nth i t 0); 0; 0; 0]) at 1 by (cbn [of_le]; lia).
  rewrite rol32_le; try assumption; [reflexivity|]. repeat constructor; try assumption; reflexivity.
Qed.
Lemma dec_word a b c d t0 t1 t2 t3 :
  bytes_ok t0 -> bytes_ok t1 -> bytes_ok t2 -> bytes_ok t3 ->
  nth 0 t0 0 = a -> nth 1 t1 0 = b -> nth 2 t2 0 = c -> nth 3 t3 0 = d ->
  r32_inner aes32dsmi (of_le t0) (of_le t1) (of_le t2) (of_le t3) 0 =
  let M := col_mix 0xe 0xb 0xd 9 in let a := inv_sbox a in let b := inv_sbox b in let c := inv_sbox c in let d := inv_sbox d in
  of_le [M a b c d; M b c d a; M c d a b; M d a b c].
Proof.
  intros O0 O1 O2 O3 E0 E1 E2 E3. cbv zeta. unfold r32_inner.
  rewrite (dsmi_ok _ t0 0), (dsmi_ok _ t1 1), (dsmi_ok _ t2 2), (dsmi_ok _ t3 3) by (assumption || lia).
  rewrite E0, E1, E2, E3.
  pose proof (bytes_ok_nth t0 0 O0) as B0. pose proof (bytes_ok_nth t1 1 O1) as B1.
  pose proof (bytes_ok_nth t2 2 O2) as B2. pose proof (bytes_ok_nth t3 3 O3) as B3.
  rewrite E0 in B0. rewrite E1 in B1. rewrite E2 in B2. rewrite E3 in B3.
  cbv zeta. cbn [skipn firstn Nat.sub app]. rewrite N.lxor_0_l. repeat (rewrite w4_lxor by byte_lt').
  unfold col_mix. apply (f_equal of_le), list4_eq; apply N.bits_inj; intro n; rewrite !N.lxor_spec; btauto.
Qed.
Lemma dec_last_word a b c d t0 t1 t2 t3 :
  bytes_ok t0 -> bytes_ok t1 -> bytes_ok t2 -> bytes_ok t3 ->
  nth 0 t0 0 = a -> nth 1 t1 0 = b -> nth 2 t2 0 = c -> nth 3 t3 0 = d ->
  r32_inner aes32dsi (of_le t0) (of_le t1) (of_le t2) (of_le t3) 0 = of_le [inv_sbox a; inv_sbox b; inv_sbox c; inv_sbox d].
Proof.
  intros O0 O1 O2 O3 E0 E1 E2 E3. unfold r32_inner.
  rewrite (dsi_ok _ t0 0), (dsi_ok _ t1 1), (dsi_ok _ t2 2), (dsi_ok _ t3 3) by (assumption || lia).
  rewrite E0, E1, E2, E3.
  pose proof (bytes_ok_nth t0 0 O0) as B0. pose proof (bytes_ok_nth t1 1 O1) as B1.
  pose proof (bytes_ok_nth t2 2 O2) as B2. pose proof (bytes_ok_nth t3 3 O3) as B3.
  rewrite E0 in B0. rewrite E1 in B1. rewrite E2 in B2. rewrite E3 in B3.
  cbv zeta. cbn [skipn firstn Nat.sub app]. rewrite N.lxor_0_l. repeat (rewrite w4_lxor by byte_lt').
  now rewrite ?N.lxor_0_l, ?N.lxor_0_r.
Qed.

Section Rv32.
Context (e : edits).
Lemma xor_zero s : w4_xor s w4_zero = s.
Proof. destruct s as [a b c d]. unfold w4_xor, w4_map2, w4_zero. cbn [w_0 w_1 w_2 w_3]. now rewrite !N.lxor_0_r. Qed.
Lemma r32_xor a b : is_bytes 16 a -> is_bytes 16 b -> w4_xor (r32_of_bytes a) (r32_of_bytes b) = r32_of_bytes (map2 N.lxor a b).
Proof. intros Ha Hb. apply (dk_xor _ _ _ rv32_data_ok); assumption. Qed.
Lemma enc_body a : is_bytes 16 a -> r32_outer aes32esmi (r32_of_bytes a) w4_zero = r32_of_bytes (mix_columns (sub_bytes (shift_rows a))).
Proof.
  intros Ha. bytes_tac Ha. rewrite shift_rows_16. unfold sub_bytes. cbn [map]. unfold mix_columns. rewrite mix_with_16. cbv zeta.
  rewrite !r32_of_16. unfold r32_outer, w4_zero. cbn [w_0 w_1 w_2 w_3].
  erewrite !enc_word by (reflexivity || (repeat constructor; assumption)). reflexivity.
Qed.
Lemma enc_last_body a : is_bytes 16 a -> r32_outer aes32esi (r32_of_bytes a) w4_zero = r32_of_bytes (sub_bytes (shift_rows a)).
Proof.
  intros Ha. bytes_tac Ha. rewrite shift_rows_16. unfold sub_bytes. cbn [map].
  rewrite !r32_of_16. unfold r32_outer, w4_zero. cbn [w_0 w_1 w_2 w_3].
  erewrite !enc_last_word by (reflexivity || (repeat constructor; assumption)). reflexivity.
Qed.
Context (Ho : ed_order e = true).
Lemma dec_body a : is_bytes 16 a -> rx_outer_dec e aes32dsmi (r32_of_bytes a) w4_zero = r32_of_bytes (inv_mix_columns (inv_sub_bytes (inv_shift_rows a))).
Proof.
  intros Ha. unfold rx_outer_dec. rewrite Ho. bytes_tac Ha. rewrite inv_shift_rows_16. unfold inv_sub_bytes. cbn [map]. unfold inv_mix_columns. rewrite mix_with_16. cbv zeta.
  rewrite !r32_of_16. unfold w4_zero. cbn [w_0 w_1 w_2 w_3].
  erewrite !dec_word by (reflexivity || (repeat constructor; assumption)). reflexivity.
Qed.
Lemma dec_last_body a : is_bytes 16 a -> rx_outer_dec e aes32dsi (r32_of_bytes a) w4_zero = r32_of_bytes (inv_sub_bytes (inv_shift_rows a)).
Proof.
  intros Ha. unfold rx_outer_dec. rewrite Ho. bytes_tac Ha. rewrite inv_shift_rows_16. unfold inv_sub_bytes. cbn [map].
  rewrite !r32_of_16. unfold w4_zero. cbn [w_0 w_1 w_2 w_3].
  erewrite !dec_last_word by (reflexivity || (repeat constructor; assumption)). reflexivity.
Qed.
Lemma rx_enc_r32 s k : rx_enc e s k = r32_enc s k.
Proof. unfold rx_enc, rx_pre_enc. destruct (ed_pre e); [rewrite xor_zero|]; reflexivity. Qed.
Lemma rx_dec_ok a k : is_bytes 16 a -> is_bytes 16 k -> rx_dec e (r32_of_bytes a) (r32_of_bytes k) = r32_of_bytes (spec_dec a k).
Proof.
  intros Ha Hk. unfold rx_dec, rx_pre_dec. replace (if ed_pre e then _ else _) with (rx_outer_dec e aes32dsmi (r32_of_bytes a) w4_zero) by (destruct (ed_pre e); now rewrite ?xor_zero).
  rewrite dec_body by assumption. apply r32_xor; [|assumption]. now apply inv_mix_columns_bytes, inv_sub_bytes_bytes, inv_shift_rows_bytes.
Qed.
Lemma rx_dec_last_ok a k : is_bytes 16 a -> is_bytes 16 k -> rx_dec_last e (r32_of_bytes a) (r32_of_bytes k) = r32_of_bytes (spec_dec_last a k).
Proof.
  intros Ha Hk. unfold rx_dec_last, rx_pre_dec_last. rewrite dec_last_body by assumption. apply r32_xor; [|assumption]. now apply inv_sub_bytes_bytes, inv_shift_rows_bytes.
Qed.
End Rv32.

(** ** The repaired RV32 *)
Lemma undo_enc_last a : is_bytes 16 a -> inv_sub_bytes (inv_shift_rows (sub_bytes (shift_rows a))) = a.
Proof. intros [L F]. now rewrite <- shift_sub, inv_shift_shift, inv_sub_sub by (assumption || (unfold sub_bytes; now rewrite map_length)). Qed.
Lemma undo_dec_last a : is_bytes 16 a -> sub_bytes (shift_rows (inv_sub_bytes (inv_shift_rows a))) = a.
Proof. intros [L F]. now rewrite <- inv_shift_sub, shift_inv_shift, sub_inv_sub by (assumption || (unfold inv_sub_bytes; now rewrite map_length)). Qed.
Lemma std_first_ok : first_ok std_first.
Proof. intros j t H. unfold std_first. apply xor_word_bytes; [now apply sub_word_bytes, rot_word_bytes|apply rcon_bytes]. Qed.
Lemma r32_rot_std j : (1 <= j <= 10)%nat -> f_ok std_first false r32_first_rot j.
Proof.
  intros Hj a d Ha Hd. unfold r32_first_rot, std_first. cbn [of_ne]. rewrite rotr_rot_word by assumption.
  pose proof (rot_word_bytes d Hd). rewrite r32_sub_word_ok by assumption.
  apply (first_word_xor false a (sub_word (rot_word d))); [assumption|now apply sub_word_bytes|assumption].
Qed.
Definition rx_needs (e : edits) : bool := ed_order e && ed_pre e && ed_rot128 e && ed_rot192 e && ed_rot256 e.
Lemma rx_keys e k key : rx_needs e = true -> is_bytes (key_len k) key ->
  match k with K128 => rx_keygen_128 e key | K192 => rx_keygen_192 e key | K256 => rx_keygen_256 e key end = Ret (map r32_of_bytes (round_keys k key)).
Proof.
  intros N H. unfold rx_needs in N. apply andb_true_iff in N as [N N5]. apply andb_true_iff in N as [N N4]. apply andb_true_iff in N as [N N3].
  pose proof std_first_ok as Hf. rewrite <- round_keys_std. rewrite <- (xcol_blocks std_first Hf false key k H).
  destruct k; unfold rx_keygen_128, rx_keygen_192, rx_keygen_256, r32_keygen; rewrite ?N3, ?N4, ?N5; cbn [rx_first].
  - rewrite (xcol_128 _ Hf) by (assumption || (intros; now apply r32_rot_std)). reflexivity.
  - rewrite (xcol_192 _ Hf) by (assumption || (intros; apply r32_rot_std; lia)). reflexivity.
  - rewrite (xcol_256 _ Hf); [reflexivity| | |exact r32_mid_ok|assumption]; [intros j Hj|]; apply r32_rot_std; lia.
Qed.
Lemma rx_refines e dbg : rx_needs e = true ->
  refines (default_of dbg (rx_ops e) (rx_ext e) (Some (rx_pre_enc e, rx_pre_dec e))) r32_of_bytes (pair_of 16 r32_of_bytes) (pair_of 32 (pair_of 16 r32_of_bytes))
    (fips_sem (Some neon_pre) round_keys).
Proof.
  intros N. pose proof N as N0. unfold rx_needs in N. apply andb_true_iff in N as [N N5]. apply andb_true_iff in N as [N N4]. apply andb_true_iff in N as [N N3].
  apply andb_true_iff in N as [N1 N2]. destruct rv32_data_ok as [D1 D2 D3 D4 D5 D6 D7 D8 D9 D10 D11].
  apply default_refines.
  - apply fips_sem_ok; [now right|apply round_keys_ok].
  - split; assumption.
  - apply rounds_of_ok.
    + apply enc_ok_1; intros a k Ha Hk; cbn [rx_ops o_enc o_enc_last]; [rewrite rx_enc_r32; now apply r32_enc_ok'|now apply r32_enc_last_ok'].
    + apply dec_ok_1; intros a k Ha Hk; cbn [rx_ops o_dec o_dec_last]; [now apply rx_dec_ok|now apply rx_dec_last_ok].
  - intros a Ha. cbn [rx_ext e_mc fips_sem s_mc]. unfold rx_mc. unfold rx_pre_dec_last. rewrite dec_last_body, rx_enc_r32 by assumption.
    assert (B : is_bytes 16 (inv_sub_bytes (inv_shift_rows a))) by now apply inv_sub_bytes_bytes, inv_shift_rows_bytes.
    unfold r32_enc. rewrite xor_zero. unfold r32_pre_enc. rewrite enc_body by assumption. now rewrite undo_dec_last.
  - intros a Ha. cbn [rx_ext e_imc fips_sem s_imc]. unfold rx_imc. unfold r32_pre_enc_last. rewrite enc_last_body by assumption.
    assert (B : is_bytes 16 (sub_bytes (shift_rows a))) by now apply sub_bytes_bytes, shift_rows_bytes.
    unfold rx_dec, rx_pre_dec. rewrite N2, !xor_zero. rewrite dec_body by assumption. now rewrite undo_enc_last.
  - cbn [fips_sem s_pre]. unfold neon_pre. split; intros a k Ha Hk; change (is_bytes 16 a) in Ha; change (is_bytes 16 k) in Hk; rewrite on_lanes_1 by (apply Ha || apply Hk).
    + unfold rx_pre_enc. rewrite N2, r32_xor, enc_body by (assumption || now apply xor_bytes). reflexivity.
    + unfold rx_pre_dec. rewrite N2, r32_xor, dec_body by (assumption || now apply xor_bytes). reflexivity.
  - intros k key Hk. now apply (rx_keys e k key N0).
Qed.

(** ** The repaired big-endian key schedule *)
Definition bx_needs (e : edits) : bool := ed_be_rot e && ed_be_rcon e.
Lemma rotr_be_word w : is_bytes 4 w -> rotr 32 (of_be w) 24 = of_be (rot_word w).
Proof.
  intros H. unfold of_be. assert (B : is_bytes 4 (rev w)) by (split; [rewrite rev_length; apply H|apply Forall_rev, H]).
  pose proof (rotr_le (rev w) 3 (proj2 B)) as R. rewrite (proj1 B) in R. change (8 * N.of_nat 4) with 32 in R. change (8 * N.of_nat 3) with 24 in R.
  rewrite R by lia. clear R B. bytes_tac H. reflexivity.
Qed.
Lemma shl_rcon j : shl 32 (rcb j) 24 = of_be [rcb j; 0; 0; 0].
Proof.
  pose proof (rcb_lt j) as B. unfold shl. rewrite N.shiftl_mul_pow2. rewrite trunc_small.
  - unfold of_be. cbn [rev app of_le]. change (2 ^ 24) with 16777216. lia.
  - change (2 ^ 24) with 16777216. change (2 ^ 32) with 4294967296. lia.
Qed.
Lemma bx_first_be e j : bx_needs e = true -> (1 <= j <= 10)%nat -> f_ok std_first true (bx_first e true) j.
Proof.
  intros N Hj a d Ha Hd. apply andb_true_iff in N as [N1 N2]. unfold bx_first. rewrite N1, N2. cbn [andb of_ne].
  rewrite bs_sub_be by assumption. rewrite rotr_be_word by now apply sub_word_bytes. rewrite shl_rcon.
  assert (B1 : is_bytes 4 (sub_word (rot_word d))) by now apply sub_word_bytes, rot_word_bytes.
  replace (rot_word (sub_word d)) with (sub_word (rot_word d)) by (clear - Hd; bytes_tac Hd; reflexivity).
  pose proof (rc_bytes _ (rcb_lt j)) as B2. unfold std_first. rewrite (rcon_rcb j Hj).
  pose proof (of_ne_xor true a (sub_word (rot_word d)) Ha B1) as X1. cbn [of_ne] in X1. rewrite X1.
  pose proof (of_ne_xor true (xor_word a (sub_word (rot_word d))) [rcb j; 0; 0; 0] (xor_word_bytes _ _ Ha B1) B2) as X2. cbn [of_ne] in X2. rewrite X2.
  f_equal. clear - Ha B1 B2. revert B1 B2. generalize (sub_word (rot_word d)) as s. generalize (rcb j) as r. intros r s Hs Hr. bytes_tac Ha. bytes_tac Hs.
  unfold xor_word. cbn [map2]. apply list4_eq; apply N.lxor_assoc.
Qed.
Lemma bx_key_ok_be e : bx_needs e = true -> key_ok (bx_ext e true) (of_ne true).
Proof.
  intros N. pose proof std_first_ok as Hf. split; intros key H; cbn [bx_ext e_keygen_128 e_keygen_192 e_keygen_256];
    unfold bx_keygen_128, bx_keygen_192, bx_keygen_256, bs_keygen; rewrite <- round_keys_std.
  - rewrite <- (xcol_blocks std_first Hf true key K128 H). rewrite (xcol_128 _ Hf) by (assumption || (intros; now apply bx_first_be)). reflexivity.
  - rewrite <- (xcol_blocks std_first Hf true key K192 H). rewrite (xcol_192 _ Hf) by (assumption || (intros; apply bx_first_be; [assumption|lia])). reflexivity.
  - rewrite <- (xcol_blocks std_first Hf true key K256 H). rewrite (xcol_256 _ Hf); [reflexivity| | |exact be_mid_ok|assumption]; [intros j Hj|]; (apply bx_first_be; [assumption|lia]).
Qed.
Lemma bx_key_ok_le e : key_ok (bx_ext e false) (of_ne false).
Proof. exact bitslice_key_ok. Qed.
Lemma bx_refines e dbg be : (be = true -> bx_needs e = true) ->
  refines (default_of dbg (bitslice_ops be) (bx_ext e be) None) (of_ne be) (pair_of 16 (of_ne be)) (pair_of 32 (pair_of 16 (of_ne be))) (fips_sem None round_keys).
Proof.
  intros N. apply default_fips; [apply bitslice_data_ok|apply bitslice_enc_ok|apply bitslice_dec_ok| |].
  - destruct (bitslice_mix_ok be) as [M1 M2]. split; assumption.
  - destruct be; [apply bx_key_ok_be, N; reflexivity|apply bx_key_ok_le].
Qed.

(** ** Every configuration of the edited crate *)
Lemma impl_with_fips e c i : impl_with e c = Some i -> (rv32_zk c = true -> rx_needs e = true) -> (be_constant_time c = true -> bx_needs e = true) ->
  exists pre f1 f2 f4, pre_fips pre /\ refines i f1 f2 f4 (fips_sem pre round_keys).
Proof.
  intros E NX NB. rewrite rv32_select in NX. unfold impl_with in E.
  assert (HD : forall T (o : ops T) x f pre, e_pre x = None -> data_ok o 16 f -> enc_ok o 1 f -> dec_ok o 1 f -> mix_ok x f -> key_ok x f ->
     default_impl (c_dbg c) o x pre = Some i -> exists pre f1 f2 f4, pre_fips pre /\ refines i f1 f2 f4 (fips_sem pre round_keys)).
  { intros T o x f pre He D E1 D1 M K H. unfold default_impl in H. rewrite He in H. destruct pre; [discriminate|]. injection H as <-.
    exists None. do 3 eexists. split; [now left|]. apply (default_fips _ o x f); assumption. }
  destruct (select_x2 c), (select_x4 c), (select_block c) eqn:EB; try discriminate.
  - destruct (select_pre_with e c); [discriminate|]. injection E as <-. exists None. do 3 eexists. split; [now left|apply vaes4_refines].
  - destruct (select_pre_with e c); [discriminate|]. injection E as <-. exists None. do 3 eexists. split; [now left|apply vaes2_refines].
  - eapply (HD _ x86_ops (x86_ext (c_dbg c)) xb); [reflexivity|apply x86_data_ok|apply x86_enc_ok|apply x86_dec_ok|apply x86_mix_ok|apply x86_key_ok|eassumption].
  - assert (P : select_pre_with e c = true).
    { revert EB. unfold select_block, select_pre_with. destruct (is_x86 c && c_sse41 c && c_aes c); [discriminate|].
      destruct (is_neon_arch c && c_aes c && negb (c_be c)) eqn:G.
      - apply andb_true_iff in G as [G1 G2]. rewrite G1, G2, orb_true_r. reflexivity.
      - destruct (c_nightly c && is_arch Riscv64 c && c_zkne c && c_zknd c); [discriminate|].
        destruct (c_nightly c && is_arch Riscv32 c && c_zkne c && c_zknd c); [discriminate|]. destruct (c_ct c); discriminate. }
    rewrite P in E. cbn in E. injection E as <-. exists (Some neon_pre). do 3 eexists. split; [now right|apply arm_refines].
  - eapply (HD _ rv64_ops (rv64_ext (c_dbg c)) r64_of); [reflexivity|apply rv64_data_ok|apply rv64_enc_ok|apply rv64_dec_ok|apply rv64_mix_ok|apply rv64_key_ok|eassumption].
  - assert (P : select_pre_with e c = true).
    { revert EB. unfold select_block, select_pre_with. destruct (is_x86 c && c_sse41 c && c_aes c); [discriminate|].
      destruct (is_neon_arch c && c_aes c && negb (c_be c)) eqn:G; [discriminate|].
      destruct (c_nightly c && is_arch Riscv64 c && c_zkne c && c_zknd c); [discriminate|].
      destruct (c_nightly c && is_arch Riscv32 c && c_zkne c && c_zknd c); [now rewrite orb_true_r|]. destruct (c_ct c); discriminate. }
    rewrite P in E. unfold default_impl in E. cbn [rx_ext e_pre] in E. injection E as <-. exists (Some neon_pre). do 3 eexists. split; [now right|].
    apply (rx_refines e (c_dbg c)). now apply NX.
  - unfold default_impl in E. cbn [bx_ext e_pre] in E. destruct (select_pre_with e c); [discriminate|]. injection E as <-.
    assert (CT : c_ct c = true).
    { revert EB. unfold select_block. destruct (is_x86 c && c_sse41 c && c_aes c); [discriminate|].
      destruct (is_neon_arch c && c_aes c && negb (c_be c)); [discriminate|].
      destruct (c_nightly c && is_arch Riscv64 c && c_zkne c && c_zknd c); [discriminate|].
      destruct (c_nightly c && is_arch Riscv32 c && c_zkne c && c_zknd c); [discriminate|]. destruct (c_ct c); [reflexivity|discriminate]. }
    exists None. do 3 eexists. split; [now left|]. apply bx_refines. intros BE. apply NB. unfold be_constant_time. now rewrite BE, CT.
  - eapply (HD _ table_ops (table_ext (c_dbg c)) tb_of); [reflexivity|apply table_data_ok|apply table_enc_ok|apply table_dec_ok|apply table_mix_ok|apply table_key_ok|eassumption].
Qed.
