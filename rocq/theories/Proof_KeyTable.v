(** The table-based backend's key schedules are the FIPS-197 key expansion. *)
From Coq Require Import Lia Arith Btauto.
From Verif Require Import Word Interface Fips197 Spec_Api Tables Model_Table Proof_Word Proof_Fips Proof_Ok Proof_Shift Proof_Table Proof_KeySpec.
Open Scope N_scope.

Definition tb4 (ws : list (list N)) : w4 :=
  W4 (of_be (nth 0 ws [])) (of_be (nth 1 ws [])) (of_be (nth 2 ws [])) (of_be (nth 3 ws [])).
Definition tb6 (ws : list (list N)) : w6 :=
  W6 (of_be (nth 0 ws [])) (of_be (nth 1 ws [])) (of_be (nth 2 ws [])) (of_be (nth 3 ws [])) (of_be (nth 4 ws [])) (of_be (nth 5 ws [])).

Lemma list_4 {A} (l : list A) : length l = 4%nat -> exists a b c d, l = [a; b; c; d].
Proof. intros H. explode H. repeat eexists. Qed.
Lemma list_6 {A} (l : list A) : length l = 6%nat -> exists a b c d e f, l = [a; b; c; d; e; f].
Proof. intros H. explode H. repeat eexists. Qed.

Lemma of_be_xor u v : is_bytes 4 u -> is_bytes 4 v -> N.lxor (of_be u) (of_be v) = of_be (xor_word u v).
Proof.
  intros [L F] [L' F']. unfold xor_word. symmetry. apply (of_ne_lxor true); [exact F|exact F'|congruence].
Qed.
Lemma tb_sub_word_ok d : is_bytes 4 d -> tb_sub_word (of_be d) = of_be (sub_word (rot_word d)).
Proof.
  intros H. bytes_tac H. unfold tb_sub_word, te4_0, te4_1, te4_2, te4_3, of_be. cbn [rev app].
  rewrite !(last0 TE4 sbox), !(last1 TE4 sbox), !(last2 TE4 sbox), !(last3 TE4 sbox) by (exact sbox_lt || exact TE4_ent).
  rewrite byte0, byte1, byte2, byte3 by assumption.
  cbn [rot_word sub_word sub_bytes map rev app].
  rewrite <- !of_le_lor by (repeat (constructor; [byte_lt|]); constructor || reflexivity).
  cbn [map2]. rewrite !N.lor_0_r, !N.lor_0_l. reflexivity.
Qed.
Lemma rot_word_rotr d : is_bytes 4 d -> tb_sub_word (rotr 32 (of_be d) 8) = of_be (sub_word d).
Proof.
  intros H. bytes_tac H.
  assert (E : forall a b c d, a < 256 -> b < 256 -> c < 256 -> d < 256 -> rotr 32 (of_be [a; b; c; d]) 8 = of_be [d; a; b; c]).
  { clear. intros a b c d Ha Hb Hc Hd. assert (F : bytes_ok [d; c; b; a]) by (repeat constructor; assumption).
    exact (rotr_le [d; c; b; a] 1 F ltac:(cbn; lia)). }
  rewrite E by assumption. rewrite tb_sub_word_ok; [reflexivity|]. split; [reflexivity|repeat constructor; assumption].
Qed.

Lemma chain_xor_length ws t : length (chain_xor ws t) = length ws.
Proof. revert t. induction ws as [|w ws IH]; intros; cbn; [reflexivity|now rewrite IH]. Qed.

Lemma t_first_bytes rc d : rc < 256 -> is_bytes 4 d -> is_bytes 4 (t_first rc d).
Proof. intros. apply xor_word_bytes; [now apply sub_word_bytes, rot_word_bytes|now apply rc_bytes]. Qed.

Lemma xor_first a d rc : is_bytes 4 a -> is_bytes 4 d -> rc < 256 ->
  N.lxor (N.lxor (of_be a) (tb_sub_word (of_be d))) (of_be [rc; 0; 0; 0]) = of_be (xor_word a (t_first rc d)).
Proof.
  intros Ha Hd Hr. rewrite tb_sub_word_ok by assumption. unfold t_first.
  assert (B : is_bytes 4 (sub_word (rot_word d))) by now apply sub_word_bytes, rot_word_bytes.
  pose proof (rc_bytes rc Hr) as C.
  rewrite <- (of_be_xor a), <- (of_be_xor (sub_word (rot_word d))) by (try apply xor_word_bytes; assumption).
  apply N.lxor_assoc.
Qed.

Lemma of_be_chain ws : Forall (is_bytes 4) ws -> forall t, is_bytes 4 t -> Forall (is_bytes 4) (chain_xor ws t).
Proof.
  induction 1 as [|w ws Hw _ IH]; intros t Ht; [constructor|]. cbn [chain_xor]. constructor; [|apply IH]; now apply xor_word_bytes.
Qed.

Lemma tb_128_ok ws rc : length ws = 4%nat -> Forall (is_bytes 4) ws -> rc < 256 ->
  tb_keyexp_128 (of_be [rc; 0; 0; 0]) (tb4 ws) = tb4 (chain_xor ws (t_first rc (nth 3 ws []))).
Proof.
  intros L F Hr. destruct (list_4 ws L) as (a & b & c & d & ->). inv_forall.
  unfold tb_keyexp_128, tb4. cbn [nth w_0 w_1 w_2 w_3 chain_xor]. cbv zeta.
  rewrite xor_first by assumption.
  assert (is_bytes 4 (xor_word a (t_first rc d))) by (apply xor_word_bytes, t_first_bytes; assumption).
  rewrite !of_be_xor by (repeat first [assumption | apply xor_word_bytes]). reflexivity.
Qed.
Lemma tb_192_ok ws rc : length ws = 6%nat -> Forall (is_bytes 4) ws -> rc < 256 ->
  tb_keyexp_192 (of_be [rc; 0; 0; 0]) (tb6 ws) = tb6 (chain_xor ws (t_first rc (nth 5 ws []))).
Proof.
  intros L F Hr. destruct (list_6 ws L) as (a & b & c & d & e & f & ->). inv_forall.
  unfold tb_keyexp_192, tb6. cbn [nth v_0 v_1 v_2 v_3 v_4 v_5 chain_xor]. cbv zeta.
  rewrite xor_first by assumption.
  assert (is_bytes 4 (xor_word a (t_first rc f))) by (apply xor_word_bytes, t_first_bytes; assumption).
  rewrite !of_be_xor by (repeat first [assumption | apply xor_word_bytes]). reflexivity.
Qed.
Lemma tb_256_1_ok ws vs rc : length ws = 4%nat -> length vs = 4%nat -> Forall (is_bytes 4) ws -> Forall (is_bytes 4) vs -> rc < 256 ->
  tb_keyexp_256_1 (of_be [rc; 0; 0; 0]) (tb4 ws) (tb4 vs) = tb4 (chain_xor ws (t_first rc (nth 3 vs []))).
Proof.
  intros L L' F F' Hr. destruct (list_4 ws L) as (a & b & c & d & ->). destruct (list_4 vs L') as (a' & b' & c' & d' & ->). inv_forall.
  unfold tb_keyexp_256_1, tb4. cbn [nth w_0 w_1 w_2 w_3 chain_xor]. cbv zeta.
  rewrite xor_first by assumption.
  assert (is_bytes 4 (xor_word a (t_first rc d'))) by (apply xor_word_bytes, t_first_bytes; assumption).
  rewrite !of_be_xor by (repeat first [assumption | apply xor_word_bytes]). reflexivity.
Qed.
Lemma tb_256_2_ok ws vs : length ws = 4%nat -> length vs = 4%nat -> Forall (is_bytes 4) ws -> Forall (is_bytes 4) vs ->
  tb_keyexp_256_2 (tb4 ws) (tb4 vs) = tb4 (chain_xor ws (sub_word (nth 3 vs []))).
Proof.
  intros L L' F F'. destruct (list_4 ws L) as (a & b & c & d & ->). destruct (list_4 vs L') as (a' & b' & c' & d' & ->). inv_forall.
  unfold tb_keyexp_256_2, tb4. cbn [nth w_0 w_1 w_2 w_3 chain_xor]. cbv zeta.
  rewrite rot_word_rotr by assumption.
  assert (is_bytes 4 (sub_word d')) by (apply sub_word_bytes; assumption).
  rewrite !of_be_xor by (repeat first [assumption | apply xor_word_bytes]). reflexivity.
Qed.

Lemma tb_of_words ws : length ws = 4%nat -> Forall (is_bytes 4) ws -> tb_of (concat ws) = tb4 ws.
Proof.
  intros L F. destruct (list_4 ws L) as (a & b & c & d & ->). inv_forall.
  repeat match goal with H : is_bytes 4 ?x |- _ => bytes_tac H end. reflexivity.
Qed.
Lemma tb_of_rk k key r : is_bytes (key_len k) key -> (r <= nr_of k)%nat -> tb_of (rk (nk_of k) key r) = tb4 (words (nk_of k) key (4 * r) 4).
Proof.
  intros Hk Hr. rewrite rk_words. apply tb_of_words; [apply words_length|].
  apply words_bytes; [destruct k; cbn; lia|exact Hk|destruct k; cbn [nr_of nk_of] in *; lia].
Qed.
Lemma tb_keys k key : is_bytes (key_len k) key ->
  map tb_of (round_keys k key) = map (fun r => tb4 (words (nk_of k) key (4 * r) 4)) (seq 0 (nr_of k + 1)).
Proof.
  intros H. rewrite round_keys_W, map_map. apply map_ext_in. intros r Hr. apply in_seq in Hr. apply tb_of_rk; [assumption|lia].
Qed.
Lemma words_nth nk key s n i : (i < n)%nat -> nth i (words nk key s n) [] = W nk key (s + i).
Proof.
  intros H. unfold words. rewrite (nth_indep _ [] (W nk key 0)) by (rewrite map_length, seq_length; lia).
  rewrite map_nth, seq_nth by lia. reflexivity.
Qed.

Lemma firstn_nth_chunk nk (key : list N) i : (i < nk)%nat -> nth i (chunks 4 nk key) [] = firstn 4 (skipn (4 * i) key).
Proof.
  revert key i. induction nk as [|nk IH]; intros key i H; [lia|]. cbn [chunks]. destruct i as [|i]; [reflexivity|].
  cbn [nth]. rewrite IH by lia. rewrite skipn_skipn'. do 2 f_equal. lia.
Qed.
Lemma load_W nk key i : is_bytes (4 * nk) key -> (i < nk)%nat -> load_u32_be key (4 * i) = Ret (of_be (W nk key i)).
Proof.
  intros [L F] H. rewrite W_key, firstn_nth_chunk by assumption. apply load_ok; [exact F|lia].
Qed.

Local Opaque tb_keyexp_128 tb_keyexp_192 tb_keyexp_256_1 tb_keyexp_256_2 W.
Lemma tb_key_128 key : is_bytes 16 key -> tb_keygen_128 key = Ret (map tb_of (round_keys K128 key)).
Proof.
  intros H. rewrite (tb_keys K128) by assumption. unfold tb_keygen_128, tb_new.
  rewrite (load_W 4 key 0 H ltac:(lia) : load_u32_be key 0 = _), (load_W 4 key 1 H ltac:(lia) : load_u32_be key 4 = _), (load_W 4 key 2 H ltac:(lia) : load_u32_be key 8 = _), (load_W 4 key 3 H ltac:(lia) : load_u32_be key 12 = _). cbn [bind]. cbv zeta.
  assert (St : forall r, (r < 10)%nat -> tb_keyexp_128 (of_be [rcb (S r); 0; 0; 0]) (tb4 (words 4 key (4 * r) 4)) = tb4 (words 4 key (4 * S r) 4)).
  { intros r Hr. rewrite tb_128_ok, words_nth by (apply words_length || (apply words_bytes; [lia|exact H|lia]) || apply rcb_lt || lia).
    rewrite words_128 by assumption. reflexivity. }
  change (W4 _ _ _ _) with (tb4 (words 4 key (4 * 0) 4)).
  rewrite (St 0%nat ltac:(lia) : tb_keyexp_128 0x01000000 _ = _), (St 1%nat ltac:(lia) : tb_keyexp_128 0x02000000 _ = _),
    (St 2%nat ltac:(lia) : tb_keyexp_128 0x04000000 _ = _), (St 3%nat ltac:(lia) : tb_keyexp_128 0x08000000 _ = _),
    (St 4%nat ltac:(lia) : tb_keyexp_128 0x10000000 _ = _), (St 5%nat ltac:(lia) : tb_keyexp_128 0x20000000 _ = _),
    (St 6%nat ltac:(lia) : tb_keyexp_128 0x40000000 _ = _), (St 7%nat ltac:(lia) : tb_keyexp_128 0x80000000 _ = _),
    (St 8%nat ltac:(lia) : tb_keyexp_128 0x1b000000 _ = _), (St 9%nat ltac:(lia) : tb_keyexp_128 0x36000000 _ = _).
  reflexivity.
Qed.
Lemma tb_key_192 key : is_bytes 24 key -> tb_keygen_192 key = Ret (map tb_of (round_keys K192 key)).
Proof.
  intros H. rewrite (tb_keys K192) by assumption. unfold tb_keygen_192.
  rewrite (load_W 6 key 0 H ltac:(lia) : load_u32_be key 0 = _), (load_W 6 key 1 H ltac:(lia) : load_u32_be key 4 = _), (load_W 6 key 2 H ltac:(lia) : load_u32_be key 8 = _), (load_W 6 key 3 H ltac:(lia) : load_u32_be key 12 = _), (load_W 6 key 4 H ltac:(lia) : load_u32_be key 16 = _), (load_W 6 key 5 H ltac:(lia) : load_u32_be key 20 = _). cbn [bind]. cbv zeta.
  assert (St : forall r, (r < 8)%nat -> tb_keyexp_192 (of_be [rcb (S r); 0; 0; 0]) (tb6 (words 6 key (6 * r) 6)) = tb6 (words 6 key (6 * S r) 6)).
  { intros r Hr. rewrite tb_192_ok, words_nth by (apply words_length || (apply words_bytes; [lia|exact H|lia]) || apply rcb_lt || lia).
    rewrite words_192 by assumption. reflexivity. }
  change (W6 _ _ _ _ _ _) with (tb6 (words 6 key (6 * 0) 6)).
  rewrite (St 0%nat ltac:(lia) : tb_keyexp_192 0x01000000 _ = _), (St 1%nat ltac:(lia) : tb_keyexp_192 0x02000000 _ = _),
    (St 2%nat ltac:(lia) : tb_keyexp_192 0x04000000 _ = _), (St 3%nat ltac:(lia) : tb_keyexp_192 0x08000000 _ = _),
    (St 4%nat ltac:(lia) : tb_keyexp_192 0x10000000 _ = _), (St 5%nat ltac:(lia) : tb_keyexp_192 0x20000000 _ = _),
    (St 6%nat ltac:(lia) : tb_keyexp_192 0x40000000 _ = _), (St 7%nat ltac:(lia) : tb_keyexp_192 0x80000000 _ = _).
  reflexivity.
Qed.
Lemma tb_new_words key s n : length key = n -> bytes_ok key -> (4 * s + 16 <= n)%nat -> 
  tb_new (firstn 16 (skipn (4 * s) key)) = Ret (tb_of (firstn 16 (skipn (4 * s) key))).
Proof.
  intros L F H. apply tb_new_ok. split; [rewrite firstn_length, skipn_length; lia|apply bytes_ok_firstn, bytes_ok_skipn, F].
Qed.

(** Both halves of a 32-byte key, as round keys 0 and 1 of AES-256. *)
Lemma key256_lo key : is_bytes 32 key -> firstn 16 key = rk 8 key 0.
Proof. intros H. unfold rk. cbn [seq map]. rewrite !W_key by lia. bytes_tac H. reflexivity. Qed.
Lemma key256_hi key : is_bytes 32 key -> skipn 16 key = rk 8 key 1.
Proof. intros H. unfold rk. cbn [seq map]. rewrite !W_key by lia. bytes_tac H. reflexivity. Qed.

Lemma try_from_exact {T} dbg n (from : list N -> outcome T) b : length b = n ->
  try_from_slice dbg n from b = (x <- from b ;; Ret (Ok x)).
Proof.
  intros L. unfold try_from_slice, array_from_slice. cbn [Nat.add]. rewrite L, Nat.leb_refl, andb_false_r.
  rewrite raw_read_all by assumption. reflexivity.
Qed.
Lemma tb_key_256 dbg key : is_bytes 32 key -> tb_keygen_256 dbg key = Ret (map tb_of (round_keys K256 key)).
Proof.
  intros H. rewrite (tb_keys K256) by assumption. unfold tb_keygen_256.
  unfold slice_to, slice_from. rewrite (proj1 H). cbn [Nat.leb bind].
  assert (K0 : is_bytes 16 (rk 8 key 0)) by (apply (rk_bytes K256); [exact H|cbn; lia]).
  assert (K1 : is_bytes 16 (rk 8 key 1)) by (apply (rk_bytes K256); [exact H|cbn; lia]).
  rewrite key256_lo, key256_hi by assumption.
  rewrite !try_from_exact by (apply K0 || apply K1). rewrite !tb_new_ok by assumption.
  rewrite (tb_of_rk K256 key 0 H ltac:(cbn; lia) : tb_of (rk 8 key 0) = _), (tb_of_rk K256 key 1 H ltac:(cbn; lia) : tb_of (rk 8 key 1) = _).
  cbn [bind unwrap omap nk_of]. cbv zeta.
  assert (St : forall g, (g < 7)%nat -> tb_keyexp_256_1 (of_be [rcb (S g); 0; 0; 0]) (tb4 (words 8 key (8 * g) 4)) (tb4 (words 8 key (8 * g + 4) 4)) = tb4 (words 8 key (8 * S g) 4)).
  { intros g Hg. rewrite tb_256_1_ok, words_nth by (apply words_length || (apply words_bytes; [lia|exact H|lia]) || apply rcb_lt || lia).
    rewrite words_256_a by assumption. do 2 f_equal. f_equal. f_equal. lia. }
  assert (T : forall g, (g < 7)%nat -> tb_keyexp_256_2 (tb4 (words 8 key (8 * g + 4) 4)) (tb4 (words 8 key (8 * S g) 4)) = tb4 (words 8 key (8 * S g + 4) 4)).
  { intros g Hg. rewrite tb_256_2_ok, words_nth by (apply words_length || (apply words_bytes; [lia|exact H|lia]) || lia).
    rewrite words_256_b by assumption. reflexivity. }
  change (4 * 0)%nat with (8 * 0)%nat. change (4 * 1)%nat with (8 * 0 + 4)%nat.
  rewrite (St 0%nat ltac:(lia) : tb_keyexp_256_1 0x01000000 _ _ = _), (T 0%nat ltac:(lia)),
    (St 1%nat ltac:(lia) : tb_keyexp_256_1 0x02000000 _ _ = _), (T 1%nat ltac:(lia)),
    (St 2%nat ltac:(lia) : tb_keyexp_256_1 0x04000000 _ _ = _), (T 2%nat ltac:(lia)),
    (St 3%nat ltac:(lia) : tb_keyexp_256_1 0x08000000 _ _ = _), (T 3%nat ltac:(lia)),
    (St 4%nat ltac:(lia) : tb_keyexp_256_1 0x10000000 _ _ = _), (T 4%nat ltac:(lia)),
    (St 5%nat ltac:(lia) : tb_keyexp_256_1 0x20000000 _ _ = _), (T 5%nat ltac:(lia)),
    (St 6%nat ltac:(lia) : tb_keyexp_256_1 0x40000000 _ _ = _).
  reflexivity.
Qed.
Lemma table_key_ok dbg : key_ok (table_ext dbg) tb_of.
Proof. split; [apply tb_key_128|apply tb_key_192|apply tb_key_256]. Qed.
