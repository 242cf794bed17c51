(** What the RV32 backend and the big-endian constant-time backend compute, exactly. *)
From Coq Require Import Lia Arith Btauto.
From Verif Require Import Word Interface Fips197 Spec_Api Spec_Reach Spec_Cfg Spec_User Spec_Actual Isa_riscv Model_Columns Model_Bitslice Model_Rv32 Model_Lib Model_Cfg
  Proof_Word Proof_Shift Proof_Fips Proof_Ok Proof_Table Proof_Rv64 Proof_Bitslice Proof_Rv32 Proof_Wide Proof_KeySpec Proof_KeyGen Proof_Shape Proof_Sem Proof_Lib Proof_Reach Proof_Inst Proof_Cipher Proof_Main.
Open Scope N_scope.

(** ** RV32 decryption instructions *)
Lemma dsmi_ok rk t i : bytes_ok t -> (i < 4)%nat ->
  aes32dsmi rk (of_le t) (N.of_nat i) =
  N.lxor rk (of_le (let s := inv_sbox (nth i t 0) in let w := [gmul 0xe s; gmul 9 s; gmul 0xd s; gmul 0xb s] in skipn (4 - i) w ++ firstn (4 - i) w)).
Proof.
  intros Ht Hi. unfold aes32dsmi. rewrite getbyte_le by assumption. unfold mixcolumn_byte_inv. rewrite rol32_le; try assumption; [reflexivity|].
  pose proof (bytes_ok_nth t i Ht). repeat constructor; byte_lt'.
Qed.
Lemma dsi_ok rk t i : bytes_ok t -> (i < 4)%nat ->
  aes32dsi rk (of_le t) (N.of_nat i) =
  N.lxor rk (of_le (let w := [inv_sbox (nth i t 0); 0; 0; 0] in skipn (4 - i) w ++ firstn (4 - i) w)).
Proof.
  intros Ht Hi. unfold aes32dsi. rewrite getbyte_le by assumption.
  pose proof (inv_sbox_lt _ (bytes_ok_nth t i Ht)).
  replace (inv_sbox (nth i t 0)) with (of_le [inv_sbox (nth i t 0); 0; 0; 0]) at 1 by (cbn [of_le]; lia).
  rewrite rol32_le; try assumption; [reflexivity|]. repeat constructor; try assumption; reflexivity.
Qed.
Lemma dec_word a b c d t0 t1 t2 t3 :
  bytes_ok t0 -> bytes_ok t1 -> bytes_ok t2 -> bytes_ok t3 ->
  nth 0 t0 0 = a -> nth 1 t1 0 = b -> nth 2 t2 0 = c -> nth 3 t3 0 = d ->
  r32_inner aes32dsmi (of_le t0) (of_le t1) (of_le t2) (of_le t3) 0 =
  let M := col_mix 0xe 0xb 0xd 9 in let a := inv_sbox a in let b := inv_sbox b in let c := inv_sbox c in let d := inv_sbox d in
  of_le [M a b c d; M b c d a; M c d a b; M d a b c].
Proof.
  intros O0 O1 O2 O3 E0 E1 E2 E3. cbv zeta. unfold r32_inner.
  rewrite (dsmi_ok _ t0 0), (dsmi_ok _ t1 1), (dsmi_ok _ t2 2), (dsmi_ok _ t3 3) by (assumption || lia).
  rewrite E0, E1, E2, E3.
  pose proof (bytes_ok_nth t0 0 O0) as B0. pose proof (bytes_ok_nth t1 1 O1) as B1.
  pose proof (bytes_ok_nth t2 2 O2) as B2. pose proof (bytes_ok_nth t3 3 O3) as B3.
  rewrite E0 in B0. rewrite E1 in B1. rewrite E2 in B2. rewrite E3 in B3.
  cbv zeta. cbn [skipn firstn Nat.sub app]. rewrite N.lxor_0_l. repeat (rewrite w4_lxor by byte_lt').
  unfold col_mix. apply (f_equal of_le), list4_eq; apply N.bits_inj; intro n; rewrite !N.lxor_spec; btauto.
Qed.
Lemma dec_last_word a b c d t0 t1 t2 t3 :
  bytes_ok t0 -> bytes_ok t1 -> bytes_ok t2 -> bytes_ok t3 ->
  nth 0 t0 0 = a -> nth 1 t1 0 = b -> nth 2 t2 0 = c -> nth 3 t3 0 = d ->
  r32_inner aes32dsi (of_le t0) (of_le t1) (of_le t2) (of_le t3) 0 = of_le [inv_sbox a; inv_sbox b; inv_sbox c; inv_sbox d].
Proof.
  intros O0 O1 O2 O3 E0 E1 E2 E3. unfold r32_inner.
  rewrite (dsi_ok _ t0 0), (dsi_ok _ t1 1), (dsi_ok _ t2 2), (dsi_ok _ t3 3) by (assumption || lia).
  rewrite E0, E1, E2, E3.
  pose proof (bytes_ok_nth t0 0 O0) as B0. pose proof (bytes_ok_nth t1 1 O1) as B1.
  pose proof (bytes_ok_nth t2 2 O2) as B2. pose proof (bytes_ok_nth t3 3 O3) as B3.
  rewrite E0 in B0. rewrite E1 in B1. rewrite E2 in B2. rewrite E3 in B3.
  cbv zeta. cbn [skipn firstn Nat.sub app]. rewrite N.lxor_0_l. repeat (rewrite w4_lxor by byte_lt').
  now rewrite ?N.lxor_0_l, ?N.lxor_0_r.
Qed.

Lemma r32_dec_ok a k : is_bytes 16 a -> is_bytes 16 k -> r32_dec (r32_of_bytes a) (r32_of_bytes k) = r32_of_bytes (rv32_dec a k).
Proof.
  intros Ha Hk. bytes_tac Ha. bytes_tac Hk. unfold rv32_dec. rewrite shift_rows_16.
  unfold inv_sub_bytes. cbn [map]. unfold inv_mix_columns. rewrite mix_with_16. cbv zeta. unfold add_round_key. cbn [map2].
  rewrite !r32_of_16. unfold r32_dec, r32_pre_dec, r32_outer, w4_xor, w4_map2, w4_zero. cbn [w_0 w_1 w_2 w_3].
  erewrite !dec_word by (reflexivity || (repeat constructor; assumption)). cbv zeta.
  rewrite !w4_lxor by byte_lt'. reflexivity.
Qed.
Lemma r32_dec_last_ok a k : is_bytes 16 a -> is_bytes 16 k -> r32_dec_last (r32_of_bytes a) (r32_of_bytes k) = r32_of_bytes (rv32_dec_last a k).
Proof.
  intros Ha Hk. bytes_tac Ha. bytes_tac Hk. unfold rv32_dec_last. rewrite shift_rows_16.
  unfold inv_sub_bytes. cbn [map]. unfold add_round_key. cbn [map2].
  rewrite !r32_of_16. unfold r32_dec_last, r32_pre_dec_last, r32_outer, w4_xor, w4_map2, w4_zero. cbn [w_0 w_1 w_2 w_3].
  erewrite !dec_last_word by (reflexivity || (repeat constructor; assumption)).
  rewrite !w4_lxor by byte_lt'. reflexivity.
Qed.

(** The key handed to the instructions is xored in like the one xored afterwards. *)
Definition xors_first (f : N -> N -> N -> N) : Prop := forall rk t i, f rk t i = N.lxor rk (f 0 t i).
Lemma inner_xor f t0 t1 t2 t3 rk : xors_first f -> r32_inner f t0 t1 t2 t3 rk = N.lxor (r32_inner f t0 t1 t2 t3 0) rk.
Proof.
  intros H. unfold r32_inner. rewrite (H (f (f (f rk t0 0) t1 1) t2 2) t3 3), (H (f (f (f 0 t0 0) t1 1) t2 2) t3 3).
  rewrite (H (f (f rk t0 0) t1 1) t2 2), (H (f (f 0 t0 0) t1 1) t2 2), (H (f rk t0 0) t1 1), (H (f 0 t0 0) t1 1), (H rk t0 0).
  apply N.bits_inj. intro n. rewrite !N.lxor_spec. btauto.
Qed.
Lemma outer_xor f m k : xors_first f -> r32_outer f m k = w4_xor (r32_outer f m w4_zero) k.
Proof. intros H. unfold r32_outer, w4_xor, w4_map2, w4_zero. cbn [w_0 w_1 w_2 w_3]. now rewrite <- !inner_xor. Qed.
Lemma esmi_xf : xors_first aes32esmi. Proof. intros rk t i. unfold aes32esmi. now rewrite N.lxor_0_l. Qed.
Lemma esi_xf : xors_first aes32esi. Proof. intros rk t i. unfold aes32esi. now rewrite N.lxor_0_l. Qed.
Lemma dsmi_xf : xors_first aes32dsmi. Proof. intros rk t i. unfold aes32dsmi. now rewrite N.lxor_0_l. Qed.
Lemma dsi_xf : xors_first aes32dsi. Proof. intros rk t i. unfold aes32dsi. now rewrite N.lxor_0_l. Qed.
Lemma pre_enc_eq m k : r32_pre_enc m k = r32_enc m k. Proof. apply (outer_xor _ m k esmi_xf). Qed.
Lemma pre_enc_last_eq m k : r32_pre_enc_last m k = r32_enc_last m k. Proof. apply (outer_xor _ m k esi_xf). Qed.
Lemma pre_dec_eq m k : r32_pre_dec m k = r32_dec m k. Proof. apply (outer_xor _ m k dsmi_xf). Qed.
Lemma pre_dec_last_eq m k : r32_pre_dec_last m k = r32_dec_last m k. Proof. apply (outer_xor _ m k dsi_xf). Qed.

Lemma rv32_dec_bytes : bop_ok rv32_dec.
Proof. intros a k Ha Hk. apply xor_bytes; [|assumption]. now apply inv_mix_columns_bytes, inv_sub_bytes_bytes, shift_rows_bytes. Qed.
Lemma rv32_dec_last_bytes : bop_ok rv32_dec_last.
Proof. intros a k Ha Hk. apply xor_bytes; [|assumption]. now apply inv_sub_bytes_bytes, shift_rows_bytes. Qed.
Lemma rv32_mc_bytes a : is_bytes 16 a -> is_bytes 16 (rv32_mc a).
Proof. intros H. now apply mix_columns_bytes, shift_rows_bytes, shift_rows_bytes. Qed.
Lemma rv32_imc_bytes a : is_bytes 16 a -> is_bytes 16 (rv32_imc a).
Proof. intros H. now apply inv_mix_columns_bytes, shift_rows_bytes, shift_rows_bytes. Qed.
Lemma shift_map f s : length s = 16%nat -> shift_rows (map f s) = map f (shift_rows s).
Proof. intros L. explode L. cbn [map]. rewrite !shift_rows_16. reflexivity. Qed.

Local Notation Z := (repeat 0 16) (only parsing).
Lemma Z_ok : is_bytes 16 Z. Proof. apply zeros_bytes. Qed.
Lemma ark_Z a : is_bytes 16 a -> add_round_key a Z = a.
Proof. intros H. apply (xor_zero_r 16), H. Qed.
Lemma r32_mc_ok a : is_bytes 16 a -> r32_mc (r32_of_bytes a) = r32_of_bytes (rv32_mc a).
Proof.
  intros H. unfold r32_mc. rewrite pre_dec_last_eq. change w4_zero with (r32_of_bytes Z).
  pose proof Z_ok as HZ. rewrite r32_dec_last_ok by assumption. rewrite r32_enc_ok' by (assumption || now apply rv32_dec_last_bytes). f_equal.
  pose proof (shift_rows_bytes a H) as H1. pose proof (shift_rows_bytes _ H1) as H2.
  unfold rv32_dec_last, spec_enc, rv32_mc. rewrite (ark_Z (inv_sub_bytes _)) by (now apply inv_sub_bytes_bytes).
  unfold inv_sub_bytes. rewrite shift_map by apply H1. fold (inv_sub_bytes (shift_rows (shift_rows a))). rewrite sub_inv_sub by apply H2.
  apply ark_Z. now apply mix_columns_bytes.
Qed.
Lemma r32_imc_ok a : is_bytes 16 a -> r32_imc (r32_of_bytes a) = r32_of_bytes (rv32_imc a).
Proof.
  intros H. unfold r32_imc. rewrite pre_enc_last_eq. change w4_zero with (r32_of_bytes Z).
  pose proof Z_ok as HZ. rewrite r32_enc_last_ok' by assumption. rewrite r32_dec_ok by (assumption || now apply spec_enc_last_bop). f_equal.
  pose proof (shift_rows_bytes a H) as H1. pose proof (shift_rows_bytes _ H1) as H2.
  unfold rv32_dec, spec_enc_last, rv32_imc. rewrite (ark_Z (sub_bytes _)) by (now apply sub_bytes_bytes).
  unfold sub_bytes. rewrite shift_map by apply H1. fold (sub_bytes (shift_rows (shift_rows a))). rewrite inv_sub_sub by apply H2.
  apply ark_Z. now apply inv_mix_columns_bytes.
Qed.

(** ** The exact semantics *)
Definition rv32_exact : sem :=
  Sem spec_enc spec_enc_last rv32_dec rv32_dec_last rv32_mc rv32_imc (Some (spec_enc, rv32_dec)) rv32_round_keys.
Lemma rv32_exact_ok : sem_ok rv32_exact.
Proof.
  split; cbn [rv32_exact s_enc s_enc_last s_dec s_dec_last s_mc s_imc s_pre s_keys].
  - apply spec_enc_bop.
  - apply spec_enc_last_bop.
  - apply rv32_dec_bytes.
  - apply rv32_dec_last_bytes.
  - apply rv32_mc_bytes.
  - apply rv32_imc_bytes.
  - split; [apply spec_enc_bop|apply rv32_dec_bytes].
  - intros k key. apply round_keys_with_ok, rv32_first_ok.
Qed.
Lemma lane1 {T} (op : T -> T -> T) f g : (forall a k, is_bytes 16 a -> is_bytes 16 k -> op (f a) (f k) = f (g a k)) -> lane_ok op 1 f g.
Proof. intros H a k Ha Hk. change (is_bytes 16 a) in Ha. change (is_bytes 16 k) in Hk. rewrite on_lanes_1 by (apply Ha || apply Hk). now apply H. Qed.
Lemma rv32_exact_refines dbg :
  refines (default_of dbg rv32_ops rv32_ext (Some (r32_pre_enc, r32_pre_dec))) r32_of_bytes (pair_of 16 r32_of_bytes) (pair_of 32 (pair_of 16 r32_of_bytes)) rv32_exact.
Proof.
  apply default_refines.
  - exact rv32_exact_ok.
  - apply rv32_data_ok.
  - split; apply lane1; [apply r32_enc_ok'|apply r32_dec_ok|apply r32_enc_last_ok'|apply r32_dec_last_ok].
  - apply r32_mc_ok.
  - apply r32_imc_ok.
  - cbn [rv32_exact s_pre]. split; apply lane1; intros a k Ha Hk; [rewrite pre_enc_eq; now apply r32_enc_ok'|rewrite pre_dec_eq; now apply r32_dec_ok].
  - apply rv32_keygen_ok.
Qed.
Lemma rv32_inst c i : impl_of c = Some i -> rv32_zk c = true -> exists f1 f2 f4, refines i f1 f2 f4 rv32_exact.
Proof.
  intros E H. rewrite rv32_select in H. unfold impl_of in E.
  destruct (select_block c) eqn:EB; try discriminate. 
  assert (P : select_pre_chain c = true).
  { revert EB. unfold select_block, select_pre_chain. destruct (is_x86 c && c_sse41 c && c_aes c); [discriminate|].
    destruct (is_neon_arch c && c_aes c && negb (c_be c)); [discriminate|].
    destruct (c_nightly c && is_arch Riscv64 c && c_zkne c && c_zknd c); [discriminate|].
    destruct (c_nightly c && is_arch Riscv32 c && c_zkne c && c_zknd c); [now rewrite orb_true_r|]. destruct (c_ct c); discriminate. }
  destruct (select_x2 c), (select_x4 c); try discriminate. rewrite P in E. cbn in E. injection E as <-.
  do 3 eexists. apply rv32_exact_refines.
Qed.

Definition be_exact : sem := fips_sem None be_round_keys.
Lemma be_exact_ok : sem_ok be_exact.
Proof. apply fips_sem_ok; [now left|]. intros k key. apply round_keys_with_ok, be_first_ok. Qed.
Lemma be_inst c i : rustc_ok c = true -> impl_of c = Some i -> be_constant_time c = true -> exists f1 f2 f4, refines i f1 f2 f4 be_exact.
Proof.
  intros RO E H. assert (i = default_of (c_dbg c) (bitslice_ops true) (bitslice_ext true) None) as ->.
  { revert RO E H. clear. unfold rustc_ok, be_constant_time, impl_of, select_x2, select_x4, select_block, select_pre_chain, is_neon_arch, is_x86, is_arch.
    destruct c as [a be ni ct sse aes va av v8 ze zd dbg]; cbn [c_arch c_be c_nightly c_ct c_sse41 c_aes c_vaes c_avx512f c_v8 c_zkne c_zknd c_dbg].
    destruct be; [|discriminate]. destruct ct; [|discriminate].
    destruct a, ni, sse, aes, va, av, v8, ze, zd; cbn; intros R E H; try discriminate R; try discriminate E; injection E as <-; reflexivity. }
  do 3 eexists. apply default_refines.
  - exact be_exact_ok.
  - apply bitslice_data_ok.
  - apply rounds_of_ok; [apply bitslice_enc_ok|apply bitslice_dec_ok].
  - apply bitslice_mix_ok.
  - apply bitslice_mix_ok.
  - exact I.
  - apply be_keygen_ok.
Qed.

(** ** Byte-level ciphers *)
Lemma chunks_of_block b : is_bytes 16 b -> length (chunks 4 4 b) = 4%nat /\ concat (chunks 4 4 b) = b.
Proof. intros H. bytes_tac H. split; reflexivity. Qed.
Lemma round_key_of rks i : Forall (is_bytes 16) rks -> (i < length rks)%nat -> round_key (concat (map (chunks 4 4) rks)) i = nth i rks [].
Proof.
  intros F. revert i. unfold round_key. induction F as [|b rks Hb _ IH]; intros i Hi; [cbn in Hi; lia|]. cbn [map concat].
  destruct (chunks_of_block b Hb) as [L E]. destruct i as [|i].
  - change (4 * 0)%nat with 0%nat. cbn [skipn nth]. rewrite firstn_app, L, Nat.sub_diag, firstn_O, app_nil_r, firstn_all2 by lia. exact E.
  - cbn [nth]. rewrite <- IH by (cbn in Hi; lia). rewrite skipn_app, L. rewrite skipn_all2 by lia. cbn [app]. do 3 f_equal. lia.
Qed.
Lemma cipher_with_g k rks x : good_keys k rks -> cipher_with k rks x = g_cipher (nr_of k) (fun i => nth i rks []) x.
Proof. intros [L F]. unfold cipher_with. rewrite g_cipher_spec. apply g_cipher_ext. intros i Hi. apply round_key_of; [assumption|lia]. Qed.
Lemma inv_cipher_with_g k rks x : good_keys k rks -> inv_cipher_with k rks x = g_inv_cipher (nr_of k) (fun i => nth i rks []) x.
Proof. intros [L F]. unfold inv_cipher_with. rewrite g_inv_cipher_spec. apply g_inv_cipher_ext. intros i Hi. apply round_key_of; [assumption|lia]. Qed.

Lemma effective_good k rks : good_keys k rks -> good_keys k (rv32_effective rks).
Proof.
  intros [L F]. pose proof Z_ok as HZ. destruct k; cbn in L; explode L; inv_forall; (split; [reflexivity|]);
    repeat (apply Forall_cons; [first [assumption|exact HZ|now apply xor_bytes]|]); apply Forall_nil.
Qed.
Lemma spec_enc_xor y a b : spec_enc y (xor_word a b) = map2 N.lxor (spec_enc y a) b.
Proof. unfold spec_enc, add_round_key, xor_word. symmetry. apply xor_assoc. Qed.
Lemma rv32_b_encrypt k rks x : good_keys k rks -> is_bytes 16 x -> b_encrypt rv32_exact k rks x = rv32_encrypt k rks x.
Proof.
  intros G Hx. unfold rv32_encrypt. pose proof (effective_good k rks G) as G'. rewrite cipher_with_g by assumption.
  rewrite <- (b_encrypt_cipher None round_keys) by (assumption || now left).
  unfold b_encrypt, b_run, s_pre1. cbn [rv32_exact s_pre s_enc s_enc_last fips_sem].
  destruct G as [L F]. destruct k; cbn in L; explode L; unfold rv32_effective, b_chain;
    cbn [length Nat.sub nth firstn app nr_of removelast last fold_left]; rewrite spec_enc_xor;
    rewrite (xor_zero_r 16) by apply Hx; reflexivity.
Qed.
Lemma rv32_swap k rks : good_keys k rks -> b_swap rv32_imc rks = rv32_dec_keys rks.
Proof. intros [L F]. destruct k; cbn in L; explode L; reflexivity. Qed.
Lemma rv32_b_decrypt k dks x : b_decrypt rv32_exact k dks x = rv32_decrypt k dks x.
Proof. reflexivity. Qed.

(** ** Additive maps on blocks are determined by the 128 single-bit blocks *)
Definition additive (f : list N -> list N) : Prop := forall a b, length a = 16%nat -> length b = 16%nat ->
  f (map2 N.lxor a b) = map2 N.lxor (f a) (f b).
Definition single (i : nat) (b : N) : list N := repeat 0 i ++ b :: repeat 0 (15 - i).
Definition byte_sum (b : N) : N := fold_right (fun j acc => N.lxor (if N.testbit b (N.of_nat j) then 2 ^ N.of_nat j else 0) acc) 0 (seq 0 8).
Lemma byte_sum_ok b : b < 256 -> byte_sum b = b.
Proof. revert b. apply (sweep_eq byte_sum (fun b => b)). vm_compute. reflexivity. Qed.
Lemma single_xor i a b : (i < 16)%nat -> single i (N.lxor a b) = map2 N.lxor (single i a) (single i b).
Proof. intros H. do 16 (destruct i as [|i]; [reflexivity|]). lia. Qed.
Lemma single_len i b : (i < 16)%nat -> length (single i b) = 16%nat.
Proof. intros H. do 16 (destruct i as [|i]; [reflexivity|]). lia. Qed.
Lemma single_0 i : (i < 16)%nat -> single i 0 = Z.
Proof. intros H. do 16 (destruct i as [|i]; [reflexivity|]). lia. Qed.
Lemma xor_self_Z a : length a = 16%nat -> map2 N.lxor a a = Z.
Proof. intros L. explode L. cbn [map2 repeat]. now rewrite !N.lxor_nilpotent. Qed.
Lemma additive_Z f : additive f -> (forall a, length a = 16%nat -> length (f a) = 16%nat) -> f Z = Z.
Proof.
  intros A H. rewrite <- (xor_self_Z Z) at 1 by reflexivity. rewrite (A Z Z) by reflexivity. apply xor_self_Z. now apply H.
Qed.
Lemma additive_id f : additive f -> (forall a, length a = 16%nat -> length (f a) = 16%nat) ->
  (forall i j, (i < 16)%nat -> (j < 8)%nat -> f (single i (2 ^ N.of_nat j)) = single i (2 ^ N.of_nat j)) ->
  forall x, is_bytes 16 x -> f x = x.
Proof.
  intros A H B. pose proof (additive_Z f A H) as FZ.
  assert (S1 : forall i b, (i < 16)%nat -> b < 256 -> f (single i b) = single i b).
  { intros i b Hi Hb. rewrite <- (byte_sum_ok b Hb). unfold byte_sum.
    assert (Hl : forall l, (forall j, In j l -> (j < 8)%nat) -> 
      f (single i (fold_right (fun j acc => N.lxor (if N.testbit b (N.of_nat j) then 2 ^ N.of_nat j else 0) acc) 0 l)) =
      single i (fold_right (fun j acc => N.lxor (if N.testbit b (N.of_nat j) then 2 ^ N.of_nat j else 0) acc) 0 l)).
    { induction l as [|j l IH]; intros Hj; cbn [fold_right]; [now rewrite single_0|].
      rewrite single_xor, A by (assumption || now apply single_len). rewrite IH by (intros; apply Hj; now right). f_equal.
      destruct (N.testbit b (N.of_nat j)); [apply B; [assumption|apply Hj; now left]|now rewrite single_0]. }
    apply Hl. intros j Hj. apply in_seq in Hj. lia. }
  assert (S2 : forall n x, (n <= 16)%nat -> is_bytes 16 x -> (forall i, (n <= i)%nat -> nth i x 0 = 0) -> f x = x).
  { induction n as [|n IH]; intros x Hn Hx H0.
    - assert (x = Z) as ->; [|exact FZ]. destruct Hx as [L _]. explode L. cbn [repeat].
      pose proof (fun i => H0 i (Nat.le_0_l i)) as Q.
      pose proof (Q 0%nat); pose proof (Q 1%nat); pose proof (Q 2%nat); pose proof (Q 3%nat); pose proof (Q 4%nat); pose proof (Q 5%nat); pose proof (Q 6%nat); pose proof (Q 7%nat);
      pose proof (Q 8%nat); pose proof (Q 9%nat); pose proof (Q 10%nat); pose proof (Q 11%nat); pose proof (Q 12%nat); pose proof (Q 13%nat); pose proof (Q 14%nat); pose proof (Q 15%nat). cbn [nth] in *. congruence.
    - set (y := map2 N.lxor x (single n (nth n x 0))).
      assert (Bn : nth n x 0 < 256) by (apply bytes_ok_nth, Hx).
      assert (Sb : is_bytes 16 (single n (nth n x 0))).
      { split; [apply single_len; lia|]. unfold single. apply bytes_ok_app; [now apply bytes_ok_repeat|]. constructor; [assumption|now apply bytes_ok_repeat]. }
      assert (Hy : is_bytes 16 y) by now apply xor_bytes.
      assert (E : x = map2 N.lxor y (single n (nth n x 0))) by (unfold y; symmetry; apply (xor_xor 16); [apply Hx|apply Sb]).
      rewrite E. rewrite A by (apply Hy || apply Sb). rewrite (S1 n) by (lia || assumption). rewrite (IH y); [reflexivity|lia|assumption|].
      intros i Hi. unfold y. clear - Hx H0 Hi Hn. destruct (Nat.eq_dec i n) as [->|Ne].
      + destruct Hx as [L _]. explode L. do 16 (destruct n as [|n]; [cbn; apply N.lxor_nilpotent|]). lia.
      + pose proof (H0 i ltac:(lia)) as Z0. destruct (Nat.lt_ge_cases i 16) as [Hi'|Hi'].
        * assert (X : forall a b, length a = 16%nat -> length b = 16%nat -> nth i (map2 N.lxor a b) 0 = N.lxor (nth i a 0) (nth i b 0)).
          { intros a b La Lb. explode La. explode Lb. do 16 (destruct i as [|i]; [reflexivity|]). lia. }
          rewrite X by (apply Hx || (apply single_len; lia)). rewrite Z0. unfold single. rewrite app_nth2 by (rewrite repeat_length; lia). rewrite repeat_length.
          destruct (i - n)%nat as [|d] eqn:D; [lia|]. cbn [nth]. rewrite nth_repeat. reflexivity.
        * rewrite nth_overflow; [reflexivity|]. rewrite map2_length, (proj1 Hx), single_len by lia. lia. }
  intros x Hx. apply (S2 16%nat); [lia|assumption|]. intros i Hi. apply nth_overflow. destruct Hx as [L _]. rewrite L. exact Hi.
Qed.

Lemma additive_comp f g : additive f -> additive g -> (forall a, length a = 16%nat -> length (g a) = 16%nat) -> additive (fun x => f (g x)).
Proof. intros A B H a b La Lb. rewrite B, A by (assumption || now apply H). reflexivity. Qed.
Lemma additive_shift : additive shift_rows.
Proof. intros a b La Lb. explode La. explode Lb. cbn [map2]. rewrite !shift_rows_16. reflexivity. Qed.
Lemma shift_len a : length (shift_rows a) = 16%nat. Proof. apply mk_state_length. Qed.
Lemma additive_mc : additive rv32_mc.
Proof.
  intros a b La Lb. unfold rv32_mc, mix_columns. rewrite !additive_shift by (assumption || apply shift_len). apply mix_with_xor; apply shift_len.
Qed.
Lemma additive_imc : additive rv32_imc.
Proof.
  intros a b La Lb. unfold rv32_imc, inv_mix_columns. rewrite !additive_shift by (assumption || apply shift_len). apply mix_with_xor; apply shift_len.
Qed.
Lemma mc_len a : length (rv32_mc a) = 16%nat. Proof. apply mk_state_length. Qed.
Lemma imc_len a : length (rv32_imc a) = 16%nat. Proof. apply mk_state_length. Qed.
(** Two conversions there and back restore a round key (one does not). *)
Lemma rv32_mc_imc_twice x : is_bytes 16 x -> rv32_mc (rv32_imc (rv32_mc (rv32_imc x))) = x.
Proof.
  revert x. apply additive_id.
  - apply (additive_comp rv32_mc (fun x => rv32_imc (rv32_mc (rv32_imc x)))); [apply additive_mc| |intros; apply imc_len].
    apply (additive_comp rv32_imc (fun x => rv32_mc (rv32_imc x))); [apply additive_imc| |intros; apply mc_len].
    apply (additive_comp rv32_mc rv32_imc); [apply additive_mc|apply additive_imc|intros; apply imc_len].
  - intros. apply mc_len.
  - intros i j Hi Hj. do 16 (destruct i as [|i]; [do 8 (destruct j as [|j]; [vm_compute; reflexivity|]); lia|]). lia.
Qed.
Lemma rv32_imc_mc_twice x : is_bytes 16 x -> rv32_imc (rv32_mc (rv32_imc (rv32_mc x))) = x.
Proof.
  revert x. apply additive_id.
  - apply (additive_comp rv32_imc (fun x => rv32_mc (rv32_imc (rv32_mc x)))); [apply additive_imc| |intros; apply mc_len].
    apply (additive_comp rv32_mc (fun x => rv32_imc (rv32_mc x))); [apply additive_mc| |intros; apply imc_len].
    apply (additive_comp rv32_imc rv32_mc); [apply additive_imc|apply additive_mc|intros; apply mc_len].
  - intros. apply imc_len.
  - intros i j Hi Hj. do 16 (destruct i as [|i]; [do 8 (destruct j as [|j]; [vm_compute; reflexivity|]); lia|]). lia.
Qed.
