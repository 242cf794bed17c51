(** The array-style key schedules (bitslice, NEON, RV32). *)
From Coq Require Import Lia Arith.
From Verif Require Import Word Interface Fips197 Spec_Api Model_Columns Model_Bitslice Isa_arm Model_Arm Isa_riscv Model_Rv32
  Proof_Word Proof_Fips Proof_Ok Proof_Shift Proof_Lanes Proof_Bitslice Proof_X86 Proof_Arm Proof_Rv32 Proof_Wide Proof_KeySpec Proof_KeyTable Proof_KeyX86 Proof_KeyRv64.
Open Scope N_scope.

(** ** The array after [m] columns have been filled in *)
Definition colst (F : nat -> N) (n m : nat) : list N := map F (seq 0 m) ++ repeat 0 (n - m).

Lemma colst_len F n m : (m <= n)%nat -> length (colst F n m) = n.
Proof. intros H. unfold colst. rewrite app_length, map_length, seq_length, repeat_length. lia. Qed.
Lemma colst_get F n m i : (i < m)%nat -> get (colst F n m) i = Ret (F i).
Proof.
  intros H. unfold get, colst. rewrite nth_error_app1 by (rewrite map_length, seq_length; lia).
  rewrite nth_error_map. assert (E : nth_error (seq 0 m) i = Some i).
  { rewrite (nth_error_nth' _ 0%nat) by (rewrite seq_length; lia). rewrite seq_nth by lia. reflexivity. }
  rewrite E. reflexivity.
Qed.
Lemma colst_set F n m : (m < n)%nat -> set (colst F n m) m (F m) = Ret (colst F n (S m)).
Proof.
  intros H. unfold set. rewrite colst_len by lia. destruct (Nat.ltb_spec m n); [|lia]. f_equal.
  unfold colst. rewrite firstn_app, firstn_all2 by (rewrite map_length, seq_length; lia).
  rewrite map_length, seq_length, Nat.sub_diag, firstn_O, app_nil_r.
  rewrite skipn_app, skipn_all2 by (rewrite map_length, seq_length; lia). rewrite map_length, seq_length.
  replace (S m - m)%nat with 1%nat by lia. rewrite seq_S, map_app. cbn [map Nat.add app]. rewrite <- app_assoc. cbn [app].
  do 2 f_equal. replace (n - m)%nat with (S (n - S m)) by lia. reflexivity.
Qed.
Lemma col_xor_st F n m a b : (m < n)%nat -> (a < m)%nat -> (b < m)%nat -> N.lxor (F a) (F b) = F m ->
  col_xor (colst F n m) m a b = Ret (colst F n (S m)).
Proof. intros Hm Ha Hb E. unfold col_xor. rewrite !colst_get by assumption. cbn [bind]. rewrite E. now apply colst_set. Qed.
Lemma col_first_st f F n m a b r : (m < n)%nat -> (a < m)%nat -> (b < m)%nat -> (r < 10)%nat -> f (F a) (F b) (rcb (S r)) = F m ->
  col_first f (colst F n m) m a b r = Ret (colst F n (S m)).
Proof.
  intros Hm Ha Hb Hr E. unfold col_first. rewrite !colst_get by assumption. cbn [bind].
  assert (R : get RCON r = Ret (rcb (S r))) by (do 10 (destruct r as [|r]; [reflexivity|]); lia).
  rewrite R. cbn [bind]. rewrite E. now apply colst_set.
Qed.
Lemma col_mid_st g F n m a b : (m < n)%nat -> (a < m)%nat -> (b < m)%nat -> g (F a) (F b) = F m ->
  col_mid g (colst F n m) m a b = Ret (colst F n (S m)).
Proof. intros Hm Ha Hb E. unfold col_mid. rewrite !colst_get by assumption. cbn [bind]. rewrite E. now apply colst_set. Qed.

Lemma load_loop be F n (ws : list (list N)) : forall s,
  (s + length ws <= n)%nat -> (forall i, (i < length ws)%nat -> of_ne be (nth i ws []) = F (s + i)%nat) ->
  ofold (fun cols ic => set cols (fst ic) (of_ne be (snd ic))) (combine (seq s (length ws)) ws) (colst F n s) = Ret (colst F n (s + length ws)).
Proof.
  induction ws as [|w ws IH]; intros s Hn H; cbn [length seq combine ofold].
  - now rewrite Nat.add_0_r.
  - cbn [fst snd]. pose proof (H 0%nat ltac:(cbn; lia)) as E0. cbn [nth] in E0. rewrite Nat.add_0_r in E0. rewrite E0.
    cbn [length] in Hn. rewrite colst_set by lia. cbn [bind]. rewrite IH; [f_equal; f_equal; lia|lia|].
    intros i Hi. pose proof (H (S i) ltac:(cbn; lia)) as E. cbn [nth] in E. rewrite E. f_equal. lia.
Qed.
Lemma col_load_st be F n nk key : length key = (4 * nk)%nat -> (nk <= n)%nat ->
  (forall i, (i < nk)%nat -> of_ne be (nth i (chunks 4 nk key) []) = F i) ->
  col_load be n key = Ret (colst F n nk).
Proof.
  intros L Hn H. unfold col_load. rewrite L, (Nat.mul_comm 4), Nat.div_mul by lia.
  pose proof (load_loop be F n (chunks 4 nk key) 0) as P. rewrite key_chunks_length in P.
  unfold colst at 1 in P. cbn [seq map app] in P. rewrite Nat.sub_0_r in P. apply P; [lia|exact H].
Qed.

Lemma loop_st {S} (body : S -> nat -> outcome S) (st : nat -> S) s n : forall k,
  (forall j, (k <= j < k + n)%nat -> body (st j) (j * s)%nat = Ret (st (j + 1)%nat)) ->
  ofold body (map (fun k => (k * s)%nat) (seq k n)) (st k) = Ret (st (k + n)%nat).
Proof.
  induction n as [|n IH]; intros k H; cbn [seq map ofold].
  - now rewrite Nat.add_0_r.
  - rewrite H by lia. cbn [bind]. rewrite (Nat.add_1_r k), IH; [f_equal; f_equal; lia|]. intros j Hj. apply H. lia.
Qed.

(** ** Words *)
Lemma tmp_first nk k t : (0 < nk)%nat -> (k < 10)%nat -> tmp_word nk (k * nk + nk) t = t_first (rcb (S k)) t.
Proof.
  intros Hn Hk. unfold tmp_word. replace (k * nk + nk)%nat with (S k * nk)%nat by lia.
  rewrite Nat.mod_mul, Nat.div_mul by lia. cbn [Nat.eqb]. unfold t_first. rewrite rcon_rcb by lia. reflexivity.
Qed.
Lemma tmp_plain nk k r t : (0 < r < nk)%nat -> (nk <= 6 \/ r <> 4)%nat -> tmp_word nk (k * nk + (nk + r)) t = t.
Proof.
  intros Hr D. unfold tmp_word. replace (k * nk + (nk + r))%nat with (r + S k * nk)%nat by lia.
  rewrite Nat.mod_add, Nat.mod_small by lia. destruct (Nat.eqb_spec r 0); [lia|].
  destruct (Nat.eqb_spec r 4); [|now rewrite andb_false_r]. destruct (Nat.ltb_spec 6 nk); [lia|]. reflexivity.
Qed.
Lemma tmp_mid k t : tmp_word 8 (k * 8 + 12) t = sub_word t.
Proof.
  unfold tmp_word. replace (k * 8 + 12)%nat with (4 + S k * 8)%nat by lia.
  rewrite Nat.mod_add, Nat.mod_small by lia. reflexivity.
Qed.

Definition sub_ok (sub : N -> N) : Prop := forall w, is_bytes 4 w -> sub (of_le w) = of_le (sub_word w).
Section Cols.
Context (sub : N -> N) (Hs : sub_ok sub) (key : list N).
Let F nk i := of_le (W nk key i).

Lemma rot_first_ok a d rc : is_bytes 4 a -> is_bytes 4 d -> rc < 256 ->
  rot_first sub (of_le a) (of_le d) rc = of_le (xor_word a (t_first rc d)).
Proof.
  intros Ha Hd Hr. unfold rot_first. rewrite Hs by assumption.
  assert (B : is_bytes 4 (sub_word d)) by now apply sub_word_bytes.
  assert (E : rotr 32 (of_le (sub_word d)) 8 = of_le (sub_word (rot_word d))).
  { pose proof (rotr_le (sub_word d) 1 (proj2 B)) as R. rewrite (proj1 B) in R.
    change (8 * N.of_nat 4) with 32 in R. change (8 * N.of_nat 1) with 8 in R. rewrite R by lia.
    rewrite <- rot_sub by apply Hd. destruct B as [L _]. explode L. reflexivity. }
  rewrite E. assert (D : rc = of_le [rc; 0; 0; 0]) by (cbn [of_le]; lia). rewrite D at 1.
  assert (is_bytes 4 (sub_word (rot_word d))) by (now apply sub_word_bytes, rot_word_bytes).
  pose proof (rc_bytes rc Hr). unfold t_first.
  rewrite <- (of_le_xor a), <- (of_le_xor (sub_word (rot_word d))) by (try apply xor_word_bytes; assumption).
  apply N.lxor_assoc.
Qed.

Section Nk.
Context (nk : nat) (Hnk : (0 < nk)%nat) (Hk : is_bytes (4 * nk) key).
Lemma F_first k i j m : m = (k * nk + nk)%nat -> i = (k * nk)%nat -> S j = m -> (k < 10)%nat -> (m < nk + 100)%nat ->
  rot_first sub (F nk i) (F nk j) (rcb (S k)) = F nk m.
Proof.
  intros -> -> Hj Hk10 Hm. unfold F. rewrite (W_rec nk key (k * nk + nk)) by lia.
  replace (k * nk + nk - nk)%nat with (k * nk)%nat by lia. replace (k * nk + nk - 1)%nat with j by lia.
  rewrite tmp_first by assumption. apply rot_first_ok; [apply W_bytes; try assumption; lia|apply W_bytes; try assumption; lia|apply rcb_lt].
Qed.
Lemma F_plain k r i j m : m = (k * nk + (nk + r))%nat -> (0 < r < nk)%nat -> (nk <= 6 \/ r <> 4)%nat -> (i + nk = m)%nat -> S j = m -> (m < nk + 100)%nat ->
  N.lxor (F nk i) (F nk j) = F nk m.
Proof.
  intros -> Hr D Hi Hj Hm. unfold F. rewrite (W_rec nk key (k * nk + (nk + r))) by lia.
  replace (k * nk + (nk + r) - nk)%nat with i by lia. replace (k * nk + (nk + r) - 1)%nat with j by lia.
  rewrite tmp_plain by assumption. apply of_le_xor; apply W_bytes; try assumption; lia.
Qed.
End Nk.
Lemma F_mid k i j m : is_bytes 32 key -> m = (k * 8 + 12)%nat -> (i + 8 = m)%nat -> S j = m -> (m < 108)%nat ->
  sub_mid sub (F 8 i) (F 8 j) = F 8 m.
Proof.
  intros Hk -> Hi Hj Hm. unfold F, sub_mid. rewrite (W_rec 8 key (k * 8 + 12)) by lia.
  replace (k * 8 + 12 - 8)%nat with i by lia. replace (k * 8 + 12 - 1)%nat with j by lia. rewrite tmp_mid.
  assert (is_bytes 4 (W 8 key j)) by (apply (W_bytes 8); [lia|exact Hk|lia]).
  rewrite Hs by assumption. apply of_le_xor; [apply (W_bytes 8); [lia|exact Hk|lia]|now apply sub_word_bytes].
Qed.

Lemma col_128_ok : is_bytes 16 key -> col_keygen_128 false (rot_first sub) key = Ret (map (F 4) (seq 0 44)).
Proof.
  intros Hk. unfold col_keygen_128. rewrite (col_load_st false (F 4) 44 4) by (apply Hk || (intros; unfold F; rewrite W_key by lia; reflexivity) || lia).
  cbn [bind]. change (step_by 40 4) with (map (fun k => k * 4)%nat (seq 0 10)).
  pose proof (loop_st (fun cols i =>
    cols <- col_first (rot_first sub) cols (i + 4) (i + 0) (i + 3) (Nat.div i 4) ;;
    cols <- col_xor cols (i + 5) (i + 1) (i + 4) ;;
    cols <- col_xor cols (i + 6) (i + 2) (i + 5) ;;
    col_xor cols (i + 7) (i + 3) (i + 6)) (fun k => colst (F 4) 44 (k * 4 + 4)) 4 10 0) as P.
  etransitivity; [apply P|].
  - intros k H. rewrite Nat.div_mul by lia.
    rewrite col_first_st; try lia; [|apply (F_first 4 ltac:(lia) Hk k); lia]. cbn [bind]. rewrite <- Nat.add_succ_r.
    rewrite col_xor_st; try lia; [|apply (F_plain 4 ltac:(lia) Hk k 1); lia]. cbn [bind]. rewrite <- Nat.add_succ_r.
    rewrite col_xor_st; try lia; [|apply (F_plain 4 ltac:(lia) Hk k 2); lia]. cbn [bind]. rewrite <- Nat.add_succ_r.
    rewrite col_xor_st; try lia; [|apply (F_plain 4 ltac:(lia) Hk k 3); lia]. f_equal. f_equal. lia.
  - reflexivity.
Qed.
Lemma col_192_ok : is_bytes 24 key -> col_keygen_192 false (rot_first sub) key = Ret (map (F 6) (seq 0 52)).
Proof.
  intros Hk. unfold col_keygen_192. rewrite (col_load_st false (F 6) 52 6) by (apply Hk || (intros; unfold F; rewrite W_key by lia; reflexivity) || lia).
  cbn [bind]. change (step_by 42 6) with (map (fun k => k * 6)%nat (seq 0 7)).
  pose proof (loop_st (fun cols i =>
    cols <- col_first (rot_first sub) cols (i + 6) (i + 0) (i + 5) (Nat.div i 6) ;;
    cols <- col_xor cols (i + 7) (i + 1) (i + 6) ;;
    cols <- col_xor cols (i + 8) (i + 2) (i + 7) ;;
    cols <- col_xor cols (i + 9) (i + 3) (i + 8) ;;
    cols <- col_xor cols (i + 10) (i + 4) (i + 9) ;;
    col_xor cols (i + 11) (i + 5) (i + 10)) (fun k => colst (F 6) 52 (k * 6 + 6)) 6 7 0) as P.
  change (colst (F 6) 52 6) with (colst (F 6) 52 (0 * 6 + 6)). rewrite P; clear P.
  - cbn [bind]. change ((0 + 7) * 6 + 6)%nat with 48%nat.
    rewrite col_first_st; try lia; [|apply (F_first 6 ltac:(lia) Hk 7); lia]. cbn [bind].
    rewrite col_xor_st; try lia; [|apply (F_plain 6 ltac:(lia) Hk 7 1); lia]. cbn [bind].
    rewrite col_xor_st; try lia; [|apply (F_plain 6 ltac:(lia) Hk 7 2); lia]. cbn [bind].
    rewrite col_xor_st; try lia; [|apply (F_plain 6 ltac:(lia) Hk 7 3); lia].
    reflexivity.
  - intros k H. rewrite Nat.div_mul by lia.
    rewrite col_first_st; try lia; [|apply (F_first 6 ltac:(lia) Hk k); lia]. cbn [bind]. rewrite <- Nat.add_succ_r.
    rewrite col_xor_st; try lia; [|apply (F_plain 6 ltac:(lia) Hk k 1); lia]. cbn [bind]. rewrite <- Nat.add_succ_r.
    rewrite col_xor_st; try lia; [|apply (F_plain 6 ltac:(lia) Hk k 2); lia]. cbn [bind]. rewrite <- Nat.add_succ_r.
    rewrite col_xor_st; try lia; [|apply (F_plain 6 ltac:(lia) Hk k 3); lia]. cbn [bind]. rewrite <- Nat.add_succ_r.
    rewrite col_xor_st; try lia; [|apply (F_plain 6 ltac:(lia) Hk k 4); lia]. cbn [bind]. rewrite <- Nat.add_succ_r.
    rewrite col_xor_st; try lia; [|apply (F_plain 6 ltac:(lia) Hk k 5); lia]. f_equal. f_equal. lia.
Qed.
Lemma col_256_ok : is_bytes 32 key -> col_keygen_256 false (rot_first sub) (rot_first sub) (sub_mid sub) key = Ret (map (F 8) (seq 0 60)).
Proof.
  intros Hk. unfold col_keygen_256. rewrite (col_load_st false (F 8) 60 8) by (apply Hk || (intros; unfold F; rewrite W_key by lia; reflexivity) || lia).
  cbn [bind]. change (step_by 48 8) with (map (fun k => k * 8)%nat (seq 0 6)).
  pose proof (loop_st (fun cols i =>
    cols <- col_first (rot_first sub) cols (i + 8) (i + 0) (i + 7) (Nat.div i 8) ;;
    cols <- col_xor cols (i + 9) (i + 1) (i + 8) ;;
    cols <- col_xor cols (i + 10) (i + 2) (i + 9) ;;
    cols <- col_xor cols (i + 11) (i + 3) (i + 10) ;;
    cols <- col_mid (sub_mid sub) cols (i + 12) (i + 4) (i + 11) ;;
    cols <- col_xor cols (i + 13) (i + 5) (i + 12) ;;
    cols <- col_xor cols (i + 14) (i + 6) (i + 13) ;;
    col_xor cols (i + 15) (i + 7) (i + 14)) (fun k => colst (F 8) 60 (k * 8 + 8)) 8 6 0) as P.
  change (colst (F 8) 60 8) with (colst (F 8) 60 (0 * 8 + 8)). rewrite P; clear P.
  - cbn [bind]. change ((0 + 6) * 8 + 8)%nat with 56%nat.
    rewrite col_first_st; try lia; [|apply (F_first 8 ltac:(lia) Hk 6); lia]. cbn [bind].
    rewrite col_xor_st; try lia; [|apply (F_plain 8 ltac:(lia) Hk 6 1); lia]. cbn [bind].
    rewrite col_xor_st; try lia; [|apply (F_plain 8 ltac:(lia) Hk 6 2); lia]. cbn [bind].
    rewrite col_xor_st; try lia; [|apply (F_plain 8 ltac:(lia) Hk 6 3); lia].
    reflexivity.
  - intros k H. rewrite Nat.div_mul by lia.
    rewrite col_first_st; try lia; [|apply (F_first 8 ltac:(lia) Hk k); lia]. cbn [bind]. rewrite <- Nat.add_succ_r.
    rewrite col_xor_st; try lia; [|apply (F_plain 8 ltac:(lia) Hk k 1); lia]. cbn [bind]. rewrite <- Nat.add_succ_r.
    rewrite col_xor_st; try lia; [|apply (F_plain 8 ltac:(lia) Hk k 2); lia]. cbn [bind]. rewrite <- Nat.add_succ_r.
    rewrite col_xor_st; try lia; [|apply (F_plain 8 ltac:(lia) Hk k 3); lia]. cbn [bind]. rewrite <- Nat.add_succ_r.
    rewrite col_mid_st; try lia; [|apply (F_mid k); try lia; exact Hk]. cbn [bind]. rewrite <- Nat.add_succ_r.
    rewrite col_xor_st; try lia; [|apply (F_plain 8 ltac:(lia) Hk k 5); lia]. cbn [bind]. rewrite <- Nat.add_succ_r.
    rewrite col_xor_st; try lia; [|apply (F_plain 8 ltac:(lia) Hk k 6); lia]. cbn [bind]. rewrite <- Nat.add_succ_r.
    rewrite col_xor_st; try lia; [|apply (F_plain 8 ltac:(lia) Hk k 7); lia]. f_equal. f_equal. lia.
Qed.
End Cols.

(** ** Reading the columns back as blocks *)
Lemma chunks_words (ws : list (list N)) n : length ws = (4 * n)%nat -> Forall (is_bytes 4) ws ->
  chunks 16 n (concat ws) = map (fun r => concat (firstn 4 (skipn (4 * r) ws))) (seq 0 n).
Proof.
  revert ws. induction n as [|n IH]; intros ws L F; [reflexivity|]. cbn [chunks seq map].
  assert (E : concat ws = concat (firstn 4 ws) ++ concat (skipn 4 ws)) by (rewrite <- concat_app, firstn_skipn; reflexivity).
  assert (F1 : Forall (is_bytes 4) (firstn 4 ws)) by (rewrite <- (firstn_skipn 4 ws) in F; apply Forall_app in F; tauto).
  assert (F2 : Forall (is_bytes 4) (skipn 4 ws)) by (rewrite <- (firstn_skipn 4 ws) in F; apply Forall_app in F; tauto).
  assert (L4 : length (concat (firstn 4 ws)) = 16%nat).
  { rewrite (proj1 (words_concat4 _ F1)), firstn_length. lia. }
  rewrite E. rewrite firstn_exact, skipn_exact by assumption. f_equal.
  rewrite IH; [|rewrite skipn_length; lia|assumption]. rewrite <- seq_shift, map_map. apply map_ext. intros r.
  rewrite skipn_skipn'. do 3 f_equal. lia.
Qed.
Lemma col_blocks_W k key : is_bytes (key_len k) key ->
  col_blocks false (nr_of k + 1) (map (fun i => of_le (W (nk_of k) key i)) (seq 0 (4 * (nr_of k + 1)))) = round_keys k key.
Proof.
  intros H. assert (Hn : (0 < nk_of k)%nat) by (destruct k; cbn; lia).
  assert (Hb : forall i, (i < 4 * (nr_of k + 1))%nat -> is_bytes 4 (W (nk_of k) key i)).
  { intros i Hi. apply W_bytes; [assumption|exact H|]. destruct k; cbn [nk_of nr_of] in *; lia. }
  unfold col_blocks. rewrite map_map.
  rewrite (map_ext_in _ (W (nk_of k) key)).
  2:{ intros i Hi. apply in_seq in Hi. cbn [to_ne]. rewrite <- (proj1 (Hb i ltac:(lia))) at 1. apply to_le_of_le, Hb. lia. }
  rewrite chunks_words.
  - rewrite round_keys_W. apply map_ext_in. intros r Hr. apply in_seq in Hr. unfold rk. f_equal.
    rewrite (firstn_seq_nth []) by (rewrite map_length, seq_length; lia). apply map_ext_in. intros i Hi. apply in_seq in Hi.
    rewrite (nth_indep _ [] (W (nk_of k) key 0)) by (rewrite map_length, seq_length; lia). rewrite map_nth, seq_nth by lia. reflexivity.
  - now rewrite map_length, seq_length.
  - apply Forall_forall. intros w Hw. apply in_map_iff in Hw. destruct Hw as (i & <- & Hi). apply in_seq in Hi. apply Hb. lia.
Qed.

(** ** sub_word of the two backends *)
Lemma bs_sub_ok : sub_ok bs_sub_word.
Proof.
  intros w [L F]. unfold bs_sub_word. rewrite <- (of_le_app_zeros w 12).
  assert (O : bytes_ok (w ++ repeat 0 12)) by (apply bytes_ok_app; [assumption|now apply bytes_ok_repeat]).
  assert (Len : length (w ++ repeat 0 12) = 16%nat) by (rewrite app_length, repeat_length; lia).
  rewrite <- Len at 1. rewrite subbytes_le; [|intros E; rewrite E in Len; discriminate|assumption].
  change 32 with (8 * N.of_nat 4). rewrite of_le_firstn by (apply map_ok; [exact sbox_lt|assumption]).
  apply (f_equal of_le). unfold sub_bytes. rewrite map_app. apply firstn_exact. rewrite <- L. apply map_length.
Qed.
Lemma arm_sub_ok : sub_ok arm_sub_word.
Proof.
  intros w H. unfold arm_sub_word, vreinterpretq_u8_u32, vdupq_n_u32. cbn [repeat map concat].
  assert (E : to_le 4 (of_le w) = w) by (rewrite <- (proj1 H); apply to_le_of_le, H). rewrite !E.
  unfold vaeseq_u8, veorq_u8, vdupq_n_u8. rewrite (xor_zero_r 16).
  - bytes_tac H. reflexivity.
  - rewrite !app_length, (proj1 H). reflexivity.
Qed.

Lemma bitslice_key_ok : key_ok (bitslice_ext false) (of_ne false).
Proof.
  split; intros key H; cbn [e_keygen_128 e_keygen_192 e_keygen_256 bitslice_ext];
    unfold bs_keygen_128, bs_keygen_192, bs_keygen_256, bs_keygen.
  - rewrite (col_128_ok _ bs_sub_ok) by assumption. cbn [bind]. do 2 f_equal. exact (col_blocks_W K128 key H).
  - rewrite (col_192_ok _ bs_sub_ok) by assumption. cbn [bind]. do 2 f_equal. exact (col_blocks_W K192 key H).
  - rewrite (col_256_ok _ bs_sub_ok) by assumption. cbn [bind]. do 2 f_equal. exact (col_blocks_W K256 key H).
Qed.
Lemma arm_key_ok : key_ok arm_ext xb.
Proof.
  split; intros key H; cbn [e_keygen_128 e_keygen_192 e_keygen_256 arm_ext];
    unfold arm_keygen_128, arm_keygen_192, arm_keygen_256, arm_keygen, xb; rewrite map_id.
  - rewrite (col_128_ok _ arm_sub_ok) by assumption. cbn [bind]. f_equal. exact (col_blocks_W K128 key H).
  - rewrite (col_192_ok _ arm_sub_ok) by assumption. cbn [bind]. f_equal. exact (col_blocks_W K192 key H).
  - rewrite (col_256_ok _ arm_sub_ok) by assumption. cbn [bind]. f_equal. exact (col_blocks_W K256 key H).
Qed.
