(** The RV64 backend's key schedules are the FIPS-197 key expansion. *)
From Coq Require Import Lia Arith.
From Verif Require Import Word Interface Fips197 Spec_Api Isa_riscv Model_Rv64 Proof_Word Proof_Fips Proof_Ok Proof_Shift Proof_Rv64 Proof_KeySpec Proof_Table Proof_KeyTable Proof_KeyX86.
Open Scope N_scope.

Definition dw (a b : list N) : N := of_le (a ++ b).
Definition r4 (ws : list (list N)) : w2 := W2 (dw (nth 0 ws []) (nth 1 ws [])) (dw (nth 2 ws []) (nth 3 ws [])).
Definition r6 (ws : list (list N)) : N * N * N :=
  (dw (nth 0 ws []) (nth 1 ws []), dw (nth 2 ws []) (nth 3 ws []), dw (nth 4 ws []) (nth 5 ws [])).

Lemma ok_app a b : is_bytes 4 a -> is_bytes 4 b -> bytes_ok (a ++ b).
Proof. intros [_ A] [_ B]. now apply bytes_ok_app. Qed.
Lemma dw_hi a b : is_bytes 4 a -> is_bytes 4 b -> shr (dw a b) 32 = of_le b.
Proof.
  intros Ha Hb. unfold dw. change 32 with (8 * N.of_nat 4). rewrite of_le_skipn by now apply ok_app.
  rewrite skipn_app, (proj1 Ha), skipn_all2 by (rewrite (proj1 Ha); lia). reflexivity.
Qed.
Lemma dw_lo a b : is_bytes 4 a -> is_bytes 4 b -> trunc 32 (dw a b) = of_le a.
Proof.
  intros Ha Hb. unfold dw. change 32 with (8 * N.of_nat 4). rewrite of_le_firstn by now apply ok_app.
  rewrite firstn_app, (proj1 Ha), firstn_all2 by (rewrite (proj1 Ha); lia). cbn [Nat.sub firstn]. now rewrite app_nil_r.
Qed.
Lemma dw_pair a b : is_bytes 4 a -> of_le a + 2 ^ 32 * of_le b = dw a b.
Proof. intros Ha. unfold dw. rewrite of_le_app, (proj1 Ha). reflexivity. Qed.
Lemma of_le_xor u v : is_bytes 4 u -> is_bytes 4 v -> N.lxor (of_le u) (of_le v) = of_le (xor_word u v).
Proof. intros [L F] [L' F']. symmetry. apply of_le_lxor; [assumption|assumption|congruence]. Qed.
Lemma xor_word_comm u v : xor_word u v = xor_word v u.
Proof. unfold xor_word. revert v. induction u as [|x u IH]; intros [|y v]; cbn; try reflexivity. now rewrite N.lxor_comm, IH. Qed.

Ltac xw := repeat first [assumption | apply xor_word_bytes].
Lemma ks2_ok x p a b : is_bytes 4 x -> is_bytes 4 p -> is_bytes 4 a -> is_bytes 4 b ->
  aes64ks2 (dw x p) (dw a b) = dw (xor_word a p) (xor_word b (xor_word a p)).
Proof.
  intros Hx Hp Ha Hb. unfold aes64ks2. rewrite !dw_hi, dw_lo by assumption. cbv zeta.
  rewrite (xor_word_comm b), (xor_word_comm a p), !of_le_xor by xw. apply dw_pair. xw.
Qed.
Lemma ks1i_sub c d : is_bytes 4 c -> is_bytes 4 d -> subword_fwd (shr (dw c d) 32) = of_le (sub_word d).
Proof.
  intros Hc Hd. rewrite dw_hi by assumption. unfold subword_fwd.
  assert (E : to_le 4 (of_le d) = d) by (rewrite <- (proj1 Hd); apply to_le_of_le, Hd). rewrite E. reflexivity.
Qed.
Lemma ks1i_rcon c d r : is_bytes 4 c -> is_bytes 4 d -> (r < 10)%nat ->
  aes64ks1i (dw c d) (N.of_nat r) = dw (t_first (rcb (S r)) d) (t_first (rcb (S r)) d).
Proof.
  intros Hc Hd Hr. unfold aes64ks1i. rewrite ks1i_sub by assumption.
  replace (N.of_nat r =? 10) with false by (symmetry; apply N.eqb_neq; lia).
  assert (B : is_bytes 4 (sub_word d)) by now apply sub_word_bytes.
  assert (E : rotr 32 (of_le (sub_word d)) 8 = of_le (sub_word (rot_word d))).
  { pose proof (rotr_le (sub_word d) 1 (proj2 B)) as R. rewrite (proj1 B) in R.
    change (8 * N.of_nat 4) with 32 in R. change (8 * N.of_nat 1) with 8 in R. rewrite R by lia.
    rewrite <- rot_sub by apply Hd. destruct B as [L _]. explode L. reflexivity. }
  rewrite E. assert (D : decode_rcon (N.of_nat r) = of_le [rcb (S r); 0; 0; 0]).
  { do 10 (destruct r as [|r]; [reflexivity|]). lia. }
  rewrite D, of_le_xor; [|now apply sub_word_bytes, rot_word_bytes|apply rc_bytes, rcb_lt].
  cbv zeta. apply dw_pair. apply t_first_bytes; [apply rcb_lt|assumption].
Qed.
Lemma ks1i_10 c d : is_bytes 4 c -> is_bytes 4 d -> aes64ks1i (dw c d) 10 = dw (sub_word d) (sub_word d).
Proof.
  intros Hc Hd. unfold aes64ks1i. rewrite ks1i_sub by assumption. change (10 =? 10) with true. cbv iota zeta.
  change (decode_rcon 10) with 0. rewrite N.lxor_0_r. apply dw_pair. now apply sub_word_bytes.
Qed.

Lemma r64_128_ok ws r : length ws = 4%nat -> Forall (is_bytes 4) ws -> (r < 10)%nat ->
  r64_keyexp_128 (N.of_nat r) (r4 ws) = r4 (chain_xor ws (t_first (rcb (S r)) (nth 3 ws []))).
Proof.
  intros L F Hr. destruct (list_4 ws L) as (a & b & c & d & ->). inv_forall. cbn [nth].
  assert (is_bytes 4 (t_first (rcb (S r)) d)) by (apply t_first_bytes; [apply rcb_lt|assumption]).
  unfold r64_keyexp_128, r4. cbn [nth d_0 d_1 chain_xor]. rewrite ks1i_rcon by assumption. cbv zeta.
  rewrite !ks2_ok by xw. reflexivity.
Qed.
Lemma r64_192_ok ws r : length ws = 6%nat -> Forall (is_bytes 4) ws -> (r < 10)%nat ->
  r64_keyexp_192 (N.of_nat r) (r6 ws) = r6 (chain_xor ws (t_first (rcb (S r)) (nth 5 ws []))).
Proof.
  intros L F Hr. destruct (list_6 ws L) as (a & b & c & d & e & f & ->). inv_forall. cbn [nth].
  assert (is_bytes 4 (t_first (rcb (S r)) f)) by (apply t_first_bytes; [apply rcb_lt|assumption]).
  unfold r64_keyexp_192, r6. cbn [nth chain_xor]. rewrite ks1i_rcon by assumption. cbv zeta.
  rewrite !ks2_ok by xw. reflexivity.
Qed.
Lemma r64_256_1_ok ws vs r : length ws = 4%nat -> length vs = 4%nat -> Forall (is_bytes 4) ws -> Forall (is_bytes 4) vs -> (r < 10)%nat ->
  r64_keyexp_256_1 (N.of_nat r) (r4 ws) (r4 vs) = r4 (chain_xor ws (t_first (rcb (S r)) (nth 3 vs []))).
Proof.
  intros L L' F F' Hr. destruct (list_4 ws L) as (a & b & c & d & ->). destruct (list_4 vs L') as (a' & b' & c' & d' & ->). inv_forall. cbn [nth].
  assert (is_bytes 4 (t_first (rcb (S r)) d')) by (apply t_first_bytes; [apply rcb_lt|assumption]).
  unfold r64_keyexp_256_1, r4. cbn [nth d_0 d_1 chain_xor]. rewrite ks1i_rcon by assumption. cbv zeta.
  rewrite !ks2_ok by xw. reflexivity.
Qed.
Lemma r64_256_2_ok ws vs : length ws = 4%nat -> length vs = 4%nat -> Forall (is_bytes 4) ws -> Forall (is_bytes 4) vs ->
  r64_keyexp_256_2 (r4 ws) (r4 vs) = r4 (chain_xor ws (sub_word (nth 3 vs []))).
Proof.
  intros L L' F F'. destruct (list_4 ws L) as (a & b & c & d & ->). destruct (list_4 vs L') as (a' & b' & c' & d' & ->). inv_forall. cbn [nth].
  assert (is_bytes 4 (sub_word d')) by (now apply sub_word_bytes).
  unfold r64_keyexp_256_2, r4. cbn [nth d_0 d_1 chain_xor]. rewrite ks1i_10 by assumption. cbv zeta.
  rewrite !ks2_ok by xw. reflexivity.
Qed.

Lemma r64_of_words ws : length ws = 4%nat -> Forall (is_bytes 4) ws -> r64_of (concat ws) = r4 ws.
Proof.
  intros L F. destruct (list_4 ws L) as (a & b & c & d & ->). inv_forall.
  repeat match goal with H : is_bytes 4 ?x |- _ => bytes_tac H end. reflexivity.
Qed.
Lemma r64_of_rk k key r : is_bytes (key_len k) key -> (r <= nr_of k)%nat -> r64_of (rk (nk_of k) key r) = r4 (words (nk_of k) key (4 * r) 4).
Proof.
  intros Hk Hr. rewrite rk_words. apply r64_of_words; [apply words_length|].
  apply words_bytes; [destruct k; cbn; lia|exact Hk|destruct k; cbn [nr_of nk_of] in *; lia].
Qed.
Lemma r64_keys k key : is_bytes (key_len k) key ->
  map r64_of (round_keys k key) = map (fun r => r4 (words (nk_of k) key (4 * r) 4)) (seq 0 (nr_of k + 1)).
Proof.
  intros H. rewrite round_keys_W, map_map. apply map_ext_in. intros r Hr. apply in_seq in Hr. apply r64_of_rk; [assumption|lia].
Qed.

Local Opaque r64_keyexp_128 r64_keyexp_192 r64_keyexp_256_1 r64_keyexp_256_2 W.
Lemma r64_key_128 key : is_bytes 16 key -> r64_keygen_128 key = Ret (map r64_of (round_keys K128 key)).
Proof.
  intros H. rewrite (r64_keys K128) by assumption. unfold r64_keygen_128.
  assert (E : r64_new key = Ret (r4 (words 4 key (4 * 0) 4))).
  { change (r64_new key) with (Ret (r64_of key)). f_equal. rewrite (key128_0 key H) at 1.
    apply r64_of_words; [apply words_length|apply words_bytes; [lia|exact H|lia]]. }
  rewrite E. cbn [bind]. cbv zeta.
  assert (St : forall r, (r < 10)%nat -> r64_keyexp_128 (N.of_nat r) (r4 (words 4 key (4 * r) 4)) = r4 (words 4 key (4 * S r) 4)).
  { intros r Hr. rewrite r64_128_ok, words_nth by (apply words_length || (apply words_bytes; [lia|exact H|lia]) || lia).
    rewrite words_128 by assumption. reflexivity. }
  rewrite (St 0%nat ltac:(lia) : r64_keyexp_128 0 _ = _), (St 1%nat ltac:(lia) : r64_keyexp_128 1 _ = _),
    (St 2%nat ltac:(lia) : r64_keyexp_128 2 _ = _), (St 3%nat ltac:(lia) : r64_keyexp_128 3 _ = _),
    (St 4%nat ltac:(lia) : r64_keyexp_128 4 _ = _), (St 5%nat ltac:(lia) : r64_keyexp_128 5 _ = _),
    (St 6%nat ltac:(lia) : r64_keyexp_128 6 _ = _), (St 7%nat ltac:(lia) : r64_keyexp_128 7 _ = _),
    (St 8%nat ltac:(lia) : r64_keyexp_128 8 _ = _), (St 9%nat ltac:(lia) : r64_keyexp_128 9 _ = _).
  reflexivity.
Qed.
Lemma u64_at_ok key i : is_bytes 24 key -> (i < 3)%nat -> u64_at key (8 * i) = Ret (dw (W 6 key (2 * i)) (W 6 key (2 * i + 1))).
Proof.
  intros H Hi. unfold dw. rewrite !W_key by lia. do 3 (destruct i as [|i]; [bytes_tac H; reflexivity|]). lia.
Qed.
Lemma r64_key_192 key : is_bytes 24 key -> r64_keygen_192 key = Ret (map r64_of (round_keys K192 key)).
Proof.
  intros H. rewrite (r64_keys K192) by assumption. unfold r64_keygen_192.
  rewrite (u64_at_ok key 0 H ltac:(lia) : u64_at key 0 = _), (u64_at_ok key 1 H ltac:(lia) : u64_at key 8 = _), (u64_at_ok key 2 H ltac:(lia) : u64_at key 16 = _).
  cbn [bind].
  assert (St : forall r, (r < 8)%nat -> r64_keyexp_192 (N.of_nat r) (r6 (words 6 key (6 * r) 6)) = r6 (words 6 key (6 * S r) 6)).
  { intros r Hr. rewrite r64_192_ok, words_nth by (apply words_length || (apply words_bytes; [lia|exact H|lia]) || lia).
    rewrite words_192 by assumption. reflexivity. }
  change (dw (W 6 key (2 * 0)) _, dw (W 6 key (2 * 1)) _, dw (W 6 key (2 * 2)) _) with (r6 (words 6 key (6 * 0) 6)).
  rewrite (St 0%nat ltac:(lia) : r64_keyexp_192 0 _ = _). unfold r6 at 1. cbv iota beta. fold (r6 (words 6 key (6 * 1) 6)).
  rewrite (St 1%nat ltac:(lia) : r64_keyexp_192 1 _ = _). unfold r6 at 1. cbv iota beta. fold (r6 (words 6 key (6 * 2) 6)).
  rewrite (St 2%nat ltac:(lia) : r64_keyexp_192 2 _ = _). unfold r6 at 1. cbv iota beta. fold (r6 (words 6 key (6 * 3) 6)).
  rewrite (St 3%nat ltac:(lia) : r64_keyexp_192 3 _ = _). unfold r6 at 1. cbv iota beta. fold (r6 (words 6 key (6 * 4) 6)).
  rewrite (St 4%nat ltac:(lia) : r64_keyexp_192 4 _ = _). unfold r6 at 1. cbv iota beta. fold (r6 (words 6 key (6 * 5) 6)).
  rewrite (St 5%nat ltac:(lia) : r64_keyexp_192 5 _ = _). unfold r6 at 1. cbv iota beta. fold (r6 (words 6 key (6 * 6) 6)).
  rewrite (St 6%nat ltac:(lia) : r64_keyexp_192 6 _ = _).
  pose proof (St 7%nat ltac:(lia)) as E8.
  change (N.of_nat 7) with 7 in E8. unfold r6 in E8 at 1.
  Transparent r64_keyexp_192. cbn [r64_keyexp_192] in E8. Opaque r64_keyexp_192. cbv zeta in E8.
  unfold r6 at 1. cbv iota beta zeta.
  pose proof (f_equal (fun x => fst (fst x)) E8) as A. pose proof (f_equal (fun x => snd (fst x)) E8) as B. cbn [fst snd] in A, B.
  rewrite B, A. reflexivity.
Qed.
Lemma r64_key_256 dbg key : is_bytes 32 key -> r64_keygen_256 dbg key = Ret (map r64_of (round_keys K256 key)).
Proof.
  intros H. rewrite (r64_keys K256) by assumption. unfold r64_keygen_256.
  unfold slice_to, slice_from. rewrite (proj1 H). cbn [Nat.leb bind].
  assert (K0 : is_bytes 16 (rk 8 key 0)) by (apply (rk_bytes K256); [exact H|cbn; lia]).
  assert (K1 : is_bytes 16 (rk 8 key 1)) by (apply (rk_bytes K256); [exact H|cbn; lia]).
  rewrite key256_lo, key256_hi by assumption.
  rewrite !try_from_exact by (apply K0 || apply K1).
  change (r64_new (rk 8 key 0)) with (Ret (r64_of (rk 8 key 0))). change (r64_new (rk 8 key 1)) with (Ret (r64_of (rk 8 key 1))).
  rewrite (r64_of_rk K256 key 0 H ltac:(cbn; lia) : r64_of (rk 8 key 0) = _), (r64_of_rk K256 key 1 H ltac:(cbn; lia) : r64_of (rk 8 key 1) = _).
  cbn [bind unwrap omap nk_of]. cbv zeta.
  assert (St : forall g, (g < 7)%nat -> r64_keyexp_256_1 (N.of_nat g) (r4 (words 8 key (8 * g) 4)) (r4 (words 8 key (8 * g + 4) 4)) = r4 (words 8 key (8 * S g) 4)).
  { intros g Hg. rewrite r64_256_1_ok, words_nth by (apply words_length || (apply words_bytes; [lia|exact H|lia]) || lia).
    rewrite words_256_a by assumption. do 2 f_equal. f_equal. f_equal. lia. }
  assert (T : forall g, (g < 7)%nat -> r64_keyexp_256_2 (r4 (words 8 key (8 * g + 4) 4)) (r4 (words 8 key (8 * S g) 4)) = r4 (words 8 key (8 * S g + 4) 4)).
  { intros g Hg. rewrite r64_256_2_ok, words_nth by (apply words_length || (apply words_bytes; [lia|exact H|lia]) || lia).
    rewrite words_256_b by assumption. reflexivity. }
  change (4 * 0)%nat with (8 * 0)%nat. change (4 * 1)%nat with (8 * 0 + 4)%nat.
  rewrite (St 0%nat ltac:(lia) : r64_keyexp_256_1 0 _ _ = _), (T 0%nat ltac:(lia)),
    (St 1%nat ltac:(lia) : r64_keyexp_256_1 1 _ _ = _), (T 1%nat ltac:(lia)),
    (St 2%nat ltac:(lia) : r64_keyexp_256_1 2 _ _ = _), (T 2%nat ltac:(lia)),
    (St 3%nat ltac:(lia) : r64_keyexp_256_1 3 _ _ = _), (T 3%nat ltac:(lia)),
    (St 4%nat ltac:(lia) : r64_keyexp_256_1 4 _ _ = _), (T 4%nat ltac:(lia)),
    (St 5%nat ltac:(lia) : r64_keyexp_256_1 5 _ _ = _), (T 5%nat ltac:(lia)),
    (St 6%nat ltac:(lia) : r64_keyexp_256_1 6 _ _ = _).
  reflexivity.
Qed.
Lemma rv64_key_ok dbg : key_ok (rv64_ext dbg) r64_of.
Proof. split; [apply r64_key_128|apply r64_key_192|apply r64_key_256]. Qed.
