(** Straight-line key schedules of the x86 and RV64 backends as programs. *)
From Coq Require Import Lia Arith String.
From Coq Require Import List.
From Verif Require Import Word Interface Fips197 Isa_x86 Isa_riscv Spec_Api Spec_Leak Model_X86 Model_Rv64 Model_Leak Model_LeakAccel.
From Verif Require Import Proof_Shape Proof_Word Proof_Fips Proof_Ok Proof_Sem Proof_Lib Proof_X86 Proof_Rv64 Proof_KeySpec Proof_Inst Proof_KeyTable Proof_KeyX86 Proof_KeyRv64 Proof_Cipher Proof_Leak Proof_LeakRun Proof_LeakEngine Proof_LeakAccel.
Open Scope string_scope.
Open Scope list_scope.
Open Scope N_scope.

(** ** Loads and the array of keys *)
Lemma load_value st key off n z : arrs st "key" = key -> (off + n <= length key)%nat ->
  value st (x_load off n z) = of_le (firstn n (skipn off key) ++ repeat 0 z).
Proof.
  intros Hk L. unfold x_load, value. rewrite val_from_ne, map_app, map_map. cbn [of_ne]. f_equal. f_equal.
  - rewrite (firstn_seq_nth 0) by lia. rewrite <- (seq_shift' off n), map_map. apply map_ext. intros t.
    change (value st (Index "key" (Lit (N.of_nat (off + t)))) = nth (off + t) key 0). rewrite (value_index _ _ _ (off + t)%nat) by reflexivity. now rewrite Hk.
  - induction z as [|z IH]; [reflexivity|]. cbn [repeat map]. now rewrite IH.
Qed.
Definition var_only (e : exp) : Prop := forall st st', vars st' = vars st -> value st' e = value st e.
Lemma write_zeros (l : list N) v n : write (l ++ repeat 0 (S n)) (length l) v = (l ++ [v]) ++ repeat 0 n.
Proof.
  unfold write. rewrite app_length, repeat_length. destruct (Nat.ltb_spec (length l) (length l + S n)); [|lia].
  rewrite firstn_app, firstn_all, Nat.sub_diag. cbn [firstn]. rewrite app_nil_r, <- app_assoc. cbn [app]. do 2 f_equal.
  rewrite skipn_app, skipn_all2 by lia. replace (S (length l) - length l)%nat with 1%nat by lia. reflexivity.
Qed.
Lemma stores_run es : forall l st, Forall var_only es -> arrs st "keys" = l ++ repeat 0 (length es) ->
  let st' := final (block (map (fun je => Store "keys" (Lit (N.of_nat (fst je))) (snd je)) (combine (seq (length l) (length es)) es))) st in
  arrs st' "keys" = l ++ map (value st) es /\ arrs st' "in" = arrs st "in".
Proof.
  induction es as [|e es IH]; intros l st Hv H; cbn zeta; cbn [length seq combine map].
  - split; [exact H|reflexivity].
  - inversion Hv as [|? ? V1 V2]; subst. rewrite final_block_cons. set (st1 := final (Store _ _ _) st).
    assert (A1 : arrs st1 "keys" = (l ++ [value st e]) ++ repeat 0 (length es)).
    { unfold st1. rewrite final_store. cbn [set_arr arrs snd fst]. rewrite upd_same, value_lit, Nat2N.id, H. cbn [length]. apply write_zeros. }
    assert (E1 : arrs st1 "in" = arrs st "in") by reflexivity. assert (W1 : vars st1 = vars st) by reflexivity. clearbody st1.
    destruct (IH (l ++ [value st e]) st1 V2 A1) as [B1 B2].
    replace (length (l ++ [value st e])) with (S (length l)) in * by (rewrite app_length; cbn; lia). split.
    + rewrite B1, <- app_assoc. cbn [app]. do 2 f_equal. apply map_ext_in. intros x Hx. rewrite Forall_forall in V2. now apply V2.
    + now rewrite B2.
Qed.
Lemma keys_array_run es st : Forall var_only es ->
  let st' := final (s_keys_array es) st in arrs st' "keys" = map (value st) es /\ arrs st' "in" = arrs st "in".
Proof.
  intros H. cbn zeta. unfold s_keys_array. rewrite final_seq. set (st1 := final (Zeroed "keys" (length es)) st).
  destruct (stores_run es [] st1 H eq_refl) as [A B]. split; [|exact B]. etransitivity; [exact A|]. cbn [app]. apply map_ext_in. intros x Hx. rewrite Forall_forall in H. now apply H.
Qed.
Lemma return_keys_run n st : let st' := final (s_return_keys n) st in
  arrs st' "keys" = map (vars st) (firstn n key_names) /\ arrs st' "in" = arrs st "in".
Proof.
  cbn zeta. destruct (keys_array_run (map Var (firstn n key_names)) st) as [A B].
  - apply Forall_forall. intros e He. apply in_map_iff in He as (x & <- & _). intros st1 st2 E. unfold value. cbn [val]. now rewrite E.
  - split; [|exact B]. unfold s_return_keys. rewrite A, map_map. reflexivity.
Qed.

(** ** x86 instructions of the key schedule *)
Lemma bslli_bytes k a : (k <= 16)%nat -> is_bytes 16 a -> is_bytes 16 (mm_bslli k a).
Proof.
  intros Hk [L B]. unfold mm_bslli. split.
  - rewrite firstn_length, app_length, repeat_length. lia.
  - apply Forall_firstn', Forall_app. split; [apply zeros_bytes|exact B].
Qed.
Lemma dword_bytes a i : (i < 4)%nat -> is_bytes 16 a -> is_bytes 4 (dword a i).
Proof. intros Hi [L B]. unfold dword. split; [rewrite firstn_length, skipn_length; lia|]. now apply Forall_firstn', bytes_ok_skipn. Qed.
Lemma app_bytes n m a b : is_bytes n a -> is_bytes m b -> is_bytes (n + m) (a ++ b).
Proof. intros [La Ba] [Lb Bb]. split; [rewrite app_length; lia|]. now apply Forall_app. Qed.
Lemma shuffle_bytes imm a : is_bytes 16 a -> is_bytes 16 (mm_shuffle_epi32 imm a).
Proof.
  intros H. unfold mm_shuffle_epi32. cbv zeta.
  assert (S : forall i, (N.to_nat (N.land (N.shiftr imm (2 * i)) 3) < 4)%nat).
  { intros i. change 3 with (N.ones 2). rewrite N.land_ones. pose proof (N.mod_lt (N.shiftr imm (2 * i)) (2 ^ 2) ltac:(discriminate)). change (2 ^ 2) with 4 in *. lia. }
  exact (app_bytes 4 12 _ _ (dword_bytes a _ (S 0) H) (app_bytes 4 8 _ _ (dword_bytes a _ (S 1) H) (app_bytes 4 4 _ _ (dword_bytes a _ (S 2) H) (dword_bytes a _ (S 3) H)))).
Qed.
Lemma assist_bytes imm a : imm < 256 -> is_bytes 16 a -> is_bytes 16 (mm_aeskeygenassist imm a).
Proof.
  intros Hi H. unfold mm_aeskeygenassist. cbv zeta.
  assert (R : is_bytes 4 [imm; 0; 0; 0]) by (split; [reflexivity|]; repeat constructor; assumption).
  assert (X1 : is_bytes 4 (sub_word (dword a 1))) by (apply sub_word_bytes, dword_bytes; [lia|assumption]).
  assert (X3 : is_bytes 4 (sub_word (dword a 3))) by (apply sub_word_bytes, dword_bytes; [lia|assumption]).
  assert (T : forall w, is_bytes 4 w -> is_bytes 4 (xor_word (rot_word w) [imm; 0; 0; 0])).
  { intros w Hw. apply xor_word_bytes; [|exact R]. now apply rot_word_bytes. }
  exact (app_bytes 4 12 _ _ X1 (app_bytes 4 8 _ _ (T _ X1) (app_bytes 4 4 _ _ X3 (T _ X3)))).
Qed.
Definition n_mix (v : N) : N := let t := N.lxor v (on_reg (mm_bslli 4) v) in N.lxor t (on_reg (mm_bslli 8) t).
Lemma mix_value st e : value st (xx_mix e) = n_mix (value st e). Proof. reflexivity. Qed.
Lemma mix_bytes a : is_bytes 16 a -> is_bytes 16 (x86_mix a).
Proof.
  intros H. unfold x86_mix, mm_xor. cbv zeta.
  assert (T : is_bytes 16 (map2 N.lxor a (mm_bslli 4 a))) by (apply xor_bop; [assumption|]; apply bslli_bytes; [lia|assumption]).
  apply xor_bop; [exact T|]. apply bslli_bytes; [lia|exact T].
Qed.
Lemma n_mix_ok a : is_bytes 16 a -> n_mix (of_le a) = of_le (x86_mix a).
Proof.
  intros H. unfold n_mix, x86_mix, mm_xor. cbv zeta. rewrite on_reg_ok by assumption.
  assert (B : is_bytes 16 (mm_bslli 4 a)) by (apply bslli_bytes; [lia|assumption]).
  rewrite (xor_le 16) by assumption. assert (T : is_bytes 16 (map2 N.lxor a (mm_bslli 4 a))) by now apply xor_bop.
  rewrite on_reg_ok by assumption. apply (xor_le 16); [exact T|]. apply bslli_bytes; [lia|exact T].
Qed.
(** [mix(a) ^ pshufd(imm, aeskeygenassist(rc, b))] *)
Definition x_exp imm rc a b := mm_xor (x86_mix a) (mm_shuffle_epi32 imm (mm_aeskeygenassist rc b)).
Lemma exp_bytes imm rc a b : rc < 256 -> is_bytes 16 a -> is_bytes 16 b -> is_bytes 16 (x_exp imm rc a b).
Proof. intros Hr Ha Hb. apply xor_bop; [now apply mix_bytes|]. apply shuffle_bytes. now apply assist_bytes. Qed.
Lemma exp_value imm rc v w a b : rc < 256 -> v = of_le a -> w = of_le b -> is_bytes 16 a -> is_bytes 16 b ->
  N.lxor (n_mix v) (on_reg (mm_shuffle_epi32 imm) (on_reg (mm_aeskeygenassist rc) w)) = of_le (x_exp imm rc a b).
Proof.
  intros Hr -> -> Ha Hb. rewrite n_mix_ok, on_reg_ok, on_reg_ok by auto using assist_bytes. apply (xor_le 16); [now apply mix_bytes|].
  now apply shuffle_bytes, assist_bytes.
Qed.
Lemma keyexp_128_value st rc e a : rc < 256 -> value st e = of_le a -> is_bytes 16 a -> value st (xx_keyexp_128 rc e) = of_le (x86_keyexp_128 rc a).
Proof. intros Hr He Ha. exact (exp_value 0xff rc (value st e) (value st e) a a Hr He He Ha Ha). Qed.
Lemma keyexp_256_1_value st rc e f a b : rc < 256 -> value st e = of_le a -> value st f = of_le b -> is_bytes 16 a -> is_bytes 16 b ->
  value st (xx_keyexp_256_1 rc e f) = of_le (x86_keyexp_256_1 rc a b).
Proof. intros Hr He Hf Ha Hb. exact (exp_value 0xff rc (value st e) (value st f) a b Hr He Hf Ha Hb). Qed.
Lemma keyexp_256_2_value st e f a b : value st e = of_le a -> value st f = of_le b -> is_bytes 16 a -> is_bytes 16 b ->
  value st (xx_keyexp_256_2 e f) = of_le (x86_keyexp_256_2 a b).
Proof. intros He Hf Ha Hb. exact (exp_value 0xaa 0 (value st e) (value st f) a b eq_refl He Hf Ha Hb). Qed.

(** Run the next assignment, whose value [v] is shown by [tac]. *)
Ltac run_step v tac :=
  rewrite final_block_cons, final_assign;
  let E := fresh in
  match goal with |- context [set_var ?st ?x (value ?st ?e)] => assert (E : value st e = v) by tac; rewrite E; clear E end.
Ltac look := cbn [key_name key_names nth Nat.sub fst snd]; unfold value; cbn [val]; reflexivity.
Ltac finish n := rewrite final_block_cons, block_nil;
  match goal with |- context [final (s_return_keys n) ?st] => let A := fresh "A" in let B := fresh "B" in
    destruct (return_keys_run n st) as [A B]; split; [rewrite A|rewrite B] end.
Lemma load_x86 key : is_bytes 16 key -> x86_from key = Ret key.
Proof. intros [L _]. unfold x86_from, mm_loadu. now apply raw_read_all. Qed.
Lemma key_bytes_lo n m key : is_bytes (n + m) key -> is_bytes n (firstn n key).
Proof. intros [L B]. split; [rewrite firstn_length; lia|now apply Forall_firstn']. Qed.
Lemma key_bytes_hi n m key : is_bytes (n + m) key -> is_bytes m (skipn n key).
Proof. intros [L B]. split; [rewrite skipn_length; lia|now apply bytes_ok_skipn]. Qed.
Lemma x86_keyed_128 key msg : is_bytes 16 key ->
  let st := final sx_keygen_128 (start key msg) in arrs st "keys" = map of_le (round_keys K128 key) /\ arrs st "in" = msg.
Proof.
  intros H. cbn zeta. pose proof (x86_key_128 key H) as E. unfold xb in E. rewrite map_id in E. unfold x86_keygen_128 in E.
  rewrite load_x86 in E by assumption. cbn [bind] in E. apply Ret_eq in E.
  set (k1 := x86_keyexp_128 1 key) in *. assert (B1 : is_bytes 16 k1) by now apply exp_bytes.
  set (k2 := x86_keyexp_128 2 k1) in *. assert (B2 : is_bytes 16 k2) by now apply exp_bytes.
  set (k3 := x86_keyexp_128 4 k2) in *. assert (B3 : is_bytes 16 k3) by now apply exp_bytes.
  set (k4 := x86_keyexp_128 8 k3) in *. assert (B4 : is_bytes 16 k4) by now apply exp_bytes.
  set (k5 := x86_keyexp_128 16 k4) in *. assert (B5 : is_bytes 16 k5) by now apply exp_bytes.
  set (k6 := x86_keyexp_128 32 k5) in *. assert (B6 : is_bytes 16 k6) by now apply exp_bytes.
  set (k7 := x86_keyexp_128 64 k6) in *. assert (B7 : is_bytes 16 k7) by now apply exp_bytes.
  set (k8 := x86_keyexp_128 128 k7) in *. assert (B8 : is_bytes 16 k8) by now apply exp_bytes.
  set (k9 := x86_keyexp_128 27 k8) in *. assert (B9 : is_bytes 16 k9) by now apply exp_bytes.
  set (k10 := x86_keyexp_128 54 k9) in *. cbv zeta in E.
  rewrite <- E. unfold sx_keygen_128. cbn [seq combine map app fst snd].
  run_step (of_le key) ltac:(rewrite (load_value _ key 0 16 0) by (reflexivity || (rewrite (proj1 H); lia)); cbn [skipn repeat]; rewrite app_nil_r, firstn_all2 by (rewrite (proj1 H); lia); reflexivity).
  run_step (of_le k1) ltac:(apply (keyexp_128_value _ _ _ key); [reflexivity|look|assumption]).
  run_step (of_le k2) ltac:(apply (keyexp_128_value _ _ _ k1); [reflexivity|look|assumption]).
  run_step (of_le k3) ltac:(apply (keyexp_128_value _ _ _ k2); [reflexivity|look|assumption]).
  run_step (of_le k4) ltac:(apply (keyexp_128_value _ _ _ k3); [reflexivity|look|assumption]).
  run_step (of_le k5) ltac:(apply (keyexp_128_value _ _ _ k4); [reflexivity|look|assumption]).
  run_step (of_le k6) ltac:(apply (keyexp_128_value _ _ _ k5); [reflexivity|look|assumption]).
  run_step (of_le k7) ltac:(apply (keyexp_128_value _ _ _ k6); [reflexivity|look|assumption]).
  run_step (of_le k8) ltac:(apply (keyexp_128_value _ _ _ k7); [reflexivity|look|assumption]).
  run_step (of_le k9) ltac:(apply (keyexp_128_value _ _ _ k8); [reflexivity|look|assumption]).
  run_step (of_le k10) ltac:(apply (keyexp_128_value _ _ _ k9); [reflexivity|look|assumption]).
  clearbody k1 k2 k3 k4 k5 k6 k7 k8 k9 k10. finish 11%nat; reflexivity.
Qed.

Lemma x86_try key : is_bytes 16 key -> forall dbg, (r <- try_from_slice dbg 16 x86_from key ;; unwrap r) = Ret key.
Proof. intros H dbg. rewrite try_from_exact by apply H. rewrite load_x86 by assumption. reflexivity. Qed.
Lemma x86_keyed_256 key msg : is_bytes 32 key ->
  let st := final sx_keygen_256 (start key msg) in arrs st "keys" = map of_le (round_keys K256 key) /\ arrs st "in" = msg.
Proof.
  intros H. cbn zeta. pose proof (x86_key_256 false key H) as E. unfold xb in E. rewrite map_id in E. unfold x86_keygen_256 in E.
  unfold slice_to, slice_from in E. rewrite (proj1 H) in E. cbn [Nat.leb bind] in E.
  pose proof (key_bytes_lo 16 16 key H) as B0. pose proof (key_bytes_hi 16 16 key H) as B1.
  rewrite !try_from_exact in E by (apply B0 || apply B1). rewrite !load_x86 in E by assumption. cbn [bind unwrap omap] in E. apply Ret_eq in E.
  set (k0 := firstn 16 key) in *. set (k1 := skipn 16 key) in *.
  set (k2 := x86_keyexp_256_1 1 k0 k1) in *. assert (B2 : is_bytes 16 k2) by now apply exp_bytes.
  set (k3 := x86_keyexp_256_2 k1 k2) in *. assert (B3 : is_bytes 16 k3) by now apply exp_bytes.
  set (k4 := x86_keyexp_256_1 2 k2 k3) in *. assert (B4 : is_bytes 16 k4) by now apply exp_bytes.
  set (k5 := x86_keyexp_256_2 k3 k4) in *. assert (B5 : is_bytes 16 k5) by now apply exp_bytes.
  set (k6 := x86_keyexp_256_1 4 k4 k5) in *. assert (B6 : is_bytes 16 k6) by now apply exp_bytes.
  set (k7 := x86_keyexp_256_2 k5 k6) in *. assert (B7 : is_bytes 16 k7) by now apply exp_bytes.
  set (k8 := x86_keyexp_256_1 8 k6 k7) in *. assert (B8 : is_bytes 16 k8) by now apply exp_bytes.
  set (k9 := x86_keyexp_256_2 k7 k8) in *. assert (B9 : is_bytes 16 k9) by now apply exp_bytes.
  set (k10 := x86_keyexp_256_1 16 k8 k9) in *. assert (B10 : is_bytes 16 k10) by now apply exp_bytes.
  set (k11 := x86_keyexp_256_2 k9 k10) in *. assert (B11 : is_bytes 16 k11) by now apply exp_bytes.
  set (k12 := x86_keyexp_256_1 32 k10 k11) in *. assert (B12 : is_bytes 16 k12) by now apply exp_bytes.
  set (k13 := x86_keyexp_256_2 k11 k12) in *. assert (B13 : is_bytes 16 k13) by now apply exp_bytes.
  set (k14 := x86_keyexp_256_1 64 k12 k13) in *. assert (B14 : is_bytes 16 k14) by now apply exp_bytes.
  cbv zeta in E. rewrite <- E. unfold sx_keygen_256. cbn [seq combine map app fst snd].
  run_step (of_le k0) ltac:(rewrite (load_value _ key 0 16 0) by (reflexivity || (rewrite (proj1 H); lia)); cbn [skipn repeat]; rewrite app_nil_r; reflexivity).
  run_step (of_le k1) ltac:(rewrite (load_value _ key 16 16 0) by (reflexivity || (rewrite (proj1 H); lia)); cbn [repeat]; rewrite app_nil_r, firstn_all2 by (rewrite skipn_length, (proj1 H); lia); reflexivity).
  run_step (of_le k2) ltac:(apply (keyexp_256_1_value _ _ _ _ k0 k1); [reflexivity|look|look|assumption|assumption]).
  run_step (of_le k3) ltac:(apply (keyexp_256_2_value _ _ _ k1 k2); [look|look|assumption|assumption]).
  run_step (of_le k4) ltac:(apply (keyexp_256_1_value _ _ _ _ k2 k3); [reflexivity|look|look|assumption|assumption]).
  run_step (of_le k5) ltac:(apply (keyexp_256_2_value _ _ _ k3 k4); [look|look|assumption|assumption]).
  run_step (of_le k6) ltac:(apply (keyexp_256_1_value _ _ _ _ k4 k5); [reflexivity|look|look|assumption|assumption]).
  run_step (of_le k7) ltac:(apply (keyexp_256_2_value _ _ _ k5 k6); [look|look|assumption|assumption]).
  run_step (of_le k8) ltac:(apply (keyexp_256_1_value _ _ _ _ k6 k7); [reflexivity|look|look|assumption|assumption]).
  run_step (of_le k9) ltac:(apply (keyexp_256_2_value _ _ _ k7 k8); [look|look|assumption|assumption]).
  run_step (of_le k10) ltac:(apply (keyexp_256_1_value _ _ _ _ k8 k9); [reflexivity|look|look|assumption|assumption]).
  run_step (of_le k11) ltac:(apply (keyexp_256_2_value _ _ _ k9 k10); [look|look|assumption|assumption]).
  run_step (of_le k12) ltac:(apply (keyexp_256_1_value _ _ _ _ k10 k11); [reflexivity|look|look|assumption|assumption]).
  run_step (of_le k13) ltac:(apply (keyexp_256_2_value _ _ _ k11 k12); [look|look|assumption|assumption]).
  run_step (of_le k14) ltac:(apply (keyexp_256_1_value _ _ _ _ k12 k13); [reflexivity|look|look|assumption|assumption]).
  clearbody k0 k1 k2 k3 k4 k5 k6 k7 k8 k9 k10 k11 k12 k13 k14. finish 15%nat; reflexivity.
Qed.

(** AES-192 in four identical parts *)
Lemma fwd_bytes rc s1 s2 : rc < 256 -> is_bytes 16 s1 -> is_bytes 16 s2 -> is_bytes 16 (fst (x86_fwd rc (s1, s2))) /\ is_bytes 16 (snd (x86_fwd rc (s1, s2))).
Proof.
  intros Hr H1 H2. cbn [x86_fwd fst snd]. assert (A : is_bytes 16 (x_exp 0x55 rc s1 s2)) by now apply exp_bytes. split; [exact A|].
  apply xor_bop; [|now apply shuffle_bytes]. apply xor_bop; [assumption|]. apply bslli_bytes; [lia|assumption].
Qed.
Lemma fwd_run rc st s1 s2 l : rc < 256 -> is_bytes 16 s1 -> is_bytes 16 s2 -> vars st "state1" = of_le s1 -> vars st "state2" = of_le s2 ->
  exists st', final (block (ss_fwd rc ++ l)) st = final (block l) st' /\ vars st' "state1" = of_le (fst (x86_fwd rc (s1, s2))) /\ vars st' "state2" = of_le (snd (x86_fwd rc (s1, s2))) /\
  (forall x, x <> "state1" -> x <> "state2" -> vars st' x = vars st x) /\ arrs st' = arrs st.
Proof.
  intros Hr B1 B2 E1 E2. unfold ss_fwd. cbn [app].
  assert (A : is_bytes 16 (x_exp 0x55 rc s1 s2)) by now apply exp_bytes. set (t1 := x_exp 0x55 rc s1 s2) in *.
  assert (B4 : is_bytes 16 (mm_bslli 4 s2)) by (apply bslli_bytes; [lia|assumption]).
  assert (B : is_bytes 16 (mm_xor s2 (mm_bslli 4 s2))) by now apply xor_bop.
  run_step (of_le t1) ltac:(exact (exp_value 0x55 rc (vars st "state1") (vars st "state2") s1 s2 Hr E1 E2 B1 B2)).
  run_step (of_le (mm_xor s2 (mm_bslli 4 s2))) ltac:(rewrite value_xor; change (N.lxor (vars st "state2") (on_reg (mm_bslli 4) (vars st "state2")) = of_le (mm_xor s2 (mm_bslli 4 s2))); rewrite E2, on_reg_ok by assumption; now apply (xor_le 16)).
  run_step (of_le (mm_xor (mm_xor s2 (mm_bslli 4 s2)) (mm_shuffle_epi32 0xff t1))) ltac:(rewrite value_xor; change (N.lxor (of_le (mm_xor s2 (mm_bslli 4 s2))) (on_reg (mm_shuffle_epi32 0xff) (of_le t1)) = of_le (mm_xor (mm_xor s2 (mm_bslli 4 s2)) (mm_shuffle_epi32 0xff t1))); rewrite on_reg_ok by assumption; apply (xor_le 16); [exact B|now apply shuffle_bytes]).
  eexists. split; [reflexivity|]. split; [reflexivity|]. split; [reflexivity|]. split; [|reflexivity].
  intros x N1 N2. cbn [set_var vars]. rewrite !upd_other by congruence. reflexivity.
Qed.
Lemma part_192_run rc1 rc2 j st s1 s2 s1' s2' k1 k2 k3 l : In j [1; 4; 7; 10]%nat -> rc1 < 256 -> rc2 < 256 -> is_bytes 16 s1 -> is_bytes 16 s2 ->
  vars st "state1" = of_le s1 -> vars st "state2" = of_le s2 -> x86_keyexp_192 rc1 rc2 (s1, s2) = ((s1', s2'), (k1, k2, k3)) ->
  exists st', final (block (ss_keyexp_192 rc1 rc2 j ++ l)) st = final (block l) st' /\
  is_bytes 16 s1' /\ is_bytes 16 s2' /\ vars st' "state1" = of_le s1' /\ vars st' "state2" = of_le s2' /\
  vars st' (key_name j) = of_le k1 /\ vars st' (key_name (j + 1)) = of_le k2 /\ vars st' (key_name (j + 2)) = of_le k3 /\
  (forall x, ~ In x ["state1"; "state2"; "prev_state"; key_name j; key_name (j + 1); key_name (j + 2)] -> vars st' x = vars st x) /\ arrs st' = arrs st.
Proof.
  intros Hj R1 R2 B1 B2 E1 E2 E. unfold x86_keyexp_192 in E. cbv zeta in E. cbn [snd] in E.
  destruct (fwd_bytes rc1 s1 s2 R1 B1 B2) as [C1 C2].
  assert (HF : forall st, vars st "state1" = of_le s1 -> vars st "state2" = of_le s2 -> forall l, exists st', final (block (ss_fwd rc1 ++ l)) st = final (block l) st' /\ vars st' "state1" = of_le (fst (x86_fwd rc1 (s1, s2))) /\ vars st' "state2" = of_le (snd (x86_fwd rc1 (s1, s2))) /\
     (forall x, x <> "state1" -> x <> "state2" -> vars st' x = vars st x) /\ arrs st' = arrs st) by (intros st0 V1 V2 l0; now apply fwd_run).
  destruct (x86_fwd rc1 (s1, s2)) as [t1 t2]. cbn [fst snd] in *.
  destruct (fwd_bytes rc2 t1 t2 R2 C1 C2) as [D1 D2].
  assert (HG : forall st, vars st "state1" = of_le t1 -> vars st "state2" = of_le t2 -> forall l, exists st', final (block (ss_fwd rc2 ++ l)) st = final (block l) st' /\ vars st' "state1" = of_le (fst (x86_fwd rc2 (t1, t2))) /\ vars st' "state2" = of_le (snd (x86_fwd rc2 (t1, t2))) /\
     (forall x, x <> "state1" -> x <> "state2" -> vars st' x = vars st x) /\ arrs st' = arrs st) by (intros st0 V1 V2 l0; now apply fwd_run).
  destruct (x86_fwd rc2 (t1, t2)) as [u1 u2]. cbn [fst snd] in *.
  assert (Es : s1' = u1 /\ s2' = u2 /\ k1 = mm_unpacklo_epi64 s2 t1 /\ k2 = mm_alignr_epi8 8 t2 t1 /\ k3 = u1).
  { clear - E. injection E as <- <- <- <- <-. repeat split; reflexivity. }
  destruct Es as (-> & -> & -> & -> & ->). clear E.
  unfold ss_keyexp_192. rewrite <- !app_assoc. cbn [app]. rewrite final_block_cons, final_assign. set (st1 := set_var st "prev_state" (value st $"state2")).
  assert (P1 : vars st1 "prev_state" = of_le s2) by exact E2.
  assert (F1 : forall x, x <> "prev_state" -> vars st1 x = vars st x) by (intros x Hx; unfold st1; cbn [set_var vars]; rewrite upd_other by congruence; reflexivity).
  assert (A1 : arrs st1 = arrs st) by reflexivity. clearbody st1.
  match goal with |- context [final (block (ss_fwd rc1 ++ ?m)) st1] => destruct (HF st1) with (l := m) as (st2 & Q2 & V1 & V2 & F2 & A2); [rewrite F1 by discriminate; exact E1|rewrite F1 by discriminate; exact E2|] end.
  rewrite Q2. clear Q2. assert (P2 : vars st2 "prev_state" = of_le s2) by (rewrite F2 by discriminate; exact P1).
  rewrite !final_block_cons, !final_assign.
  set (st3 := set_var st2 (key_name j) _). assert (W3 : vars st3 (key_name j) = of_le (mm_unpacklo_epi64 s2 t1)).
  { unfold st3. cbn [set_var vars]. rewrite upd_same. change (on_regs 16 mm_unpacklo_epi64 (vars st2 "prev_state") (vars st2 "state1") = of_le (mm_unpacklo_epi64 s2 t1)).
    rewrite P2, V1. now apply on_regs_ok. }
  assert (Hn : forall d, (d < 3)%nat -> ~ In (key_name (j + d)) ["state1"; "state2"; "prev_state"]).
  { intros d Hd. destruct d as [|[|[|d]]]; [| | |lia]; destruct Hj as [<-|[<-|[<-|[<-|[]]]]]; cbn [key_name key_names nth Nat.add In]; intuition discriminate. }
  assert (Hd : key_name j <> key_name (j + 1) /\ key_name j <> key_name (j + 2) /\ key_name (j + 1) <> key_name (j + 2))
    by (destruct Hj as [<-|[<-|[<-|[<-|[]]]]]; cbn [key_name key_names nth Nat.add]; repeat split; discriminate).
  pose proof (Hn 0%nat ltac:(lia)) as N0. pose proof (Hn 1%nat ltac:(lia)) as N1. pose proof (Hn 2%nat ltac:(lia)) as N2. rewrite Nat.add_0_r in N0.
  generalize dependent (key_name j). generalize dependent (key_name (j + 1)). generalize dependent (key_name (j + 2)). clear Hj Hn j.
  intros n3 N2 n2 N1 n1 st3 W3 (X1 & X2 & X3) N0. cbn [In] in N0, N1, N2.
  assert (F3 : forall x, x <> n1 -> vars st3 x = vars st2 x) by (intros x Hx; unfold st3; cbn [set_var vars]; rewrite upd_other by congruence; reflexivity).
  assert (A3 : arrs st3 = arrs st2) by reflexivity. clearbody st3.
  set (st4 := set_var st3 n2 _). assert (W4 : vars st4 n2 = of_le (mm_alignr_epi8 8 t2 t1)).
  { unfold st4. cbn [set_var vars]. rewrite upd_same. change (on_regs 16 (mm_alignr_epi8 8) (vars st3 "state2") (vars st3 "state1") = of_le (mm_alignr_epi8 8 t2 t1)).
    rewrite !F3 by intuition congruence. rewrite V1, V2. now apply on_regs_ok. }
  assert (F4 : forall x, x <> n2 -> vars st4 x = vars st3 x) by (intros x Hx; unfold st4; cbn [set_var vars]; rewrite upd_other by congruence; reflexivity).
  assert (A4 : arrs st4 = arrs st3) by reflexivity. clearbody st4.
  match goal with |- context [final (block (ss_fwd rc2 ++ ?m)) st4] => destruct (HG st4) with (l := m) as (st5 & Q5 & V5 & V6 & F5 & A5);
    [rewrite F4, F3 by (intuition congruence); exact V1|rewrite F4, F3 by (intuition congruence); exact V2|] end.
  rewrite Q5. clear Q5. cbn [app]. rewrite final_block_cons, final_assign. eexists. split; [reflexivity|]. cbn [set_var vars arrs].
  split; [assumption|]. split; [assumption|]. split; [rewrite upd_other by (intuition congruence); exact V5|]. split; [rewrite upd_other by (intuition congruence); exact V6|].
  split; [rewrite upd_other, F5, F4 by (intuition congruence); exact W3|]. split; [rewrite upd_other, F5 by (intuition congruence); exact W4|]. split; [rewrite upd_same; exact V5|].
  split; [|congruence]. intros x Hx. cbn [In] in Hx. rewrite upd_other, F5, F4, F3, F2, F1 by intuition congruence. reflexivity.
Qed.
Lemma x86_keyed_192 key msg : is_bytes 24 key ->
  let st := final sx_keygen_192 (start key msg) in arrs st "keys" = map of_le (round_keys K192 key) /\ arrs st "in" = msg.
Proof.
  intros H. cbn zeta. pose proof (x86_key_192 false key H) as E. unfold xb in E. rewrite map_id in E. unfold x86_keygen_192 in E.
  unfold slice_to, slice_from in E. rewrite (proj1 H) in E. cbn [Nat.leb bind] in E.
  pose proof (key_bytes_lo 16 8 key H) as B0. pose proof (key_bytes_hi 16 8 key H) as B1.
  rewrite try_from_exact in E by apply B0. rewrite load_x86 in E by assumption. cbn [bind unwrap omap] in E. rewrite (proj1 B1) in E. cbn [Nat.eqb rust_assert bind] in E.
  rewrite key_block_ok in E by apply B1. pose proof (app_bytes 8 8 _ _ B1 (zeros_bytes 8)) as B2. rewrite load_x86 in E by exact B2. cbn [bind] in E.
  assert (L : (16 + 8 <= length key)%nat) by (rewrite (proj1 H); lia).
  assert (V0 : forall st, arrs st "key" = key -> value st (x_load 0 16 0) = of_le (firstn 16 key)) by (intros st Hs; rewrite (load_value st key 0 16 0) by (assumption || lia); cbn [skipn repeat]; now rewrite app_nil_r).
  assert (V1 : forall st, arrs st "key" = key -> value st (x_load 16 8 8) = of_le (skipn 16 key ++ repeat 0 8)).
  { intros st Hs. rewrite (load_value st key 16 8 8) by (assumption || lia). rewrite (firstn_all2 (skipn 16 key)) by (rewrite (proj1 B1); lia). reflexivity. }
  set (k0 := firstn 16 key) in *. set (b := skipn 16 key ++ repeat 0 8) in *. clearbody k0 b.
  destruct (x86_keyexp_192 1 2 (k0, b)) as [[s1 s2] [[k1 k2] k3]] eqn:E1. destruct (x86_keyexp_192 4 8 (s1, s2)) as [[s3 s4] [[k4 k5] k6]] eqn:E2.
  destruct (x86_keyexp_192 16 32 (s3, s4)) as [[s5 s6] [[k7 k8] k9]] eqn:E3. destruct (x86_keyexp_192 64 128 (s5, s6)) as [[s7 s8] [[k10 k11] k12]] eqn:E4.
  apply Ret_eq in E. rewrite <- E. unfold sx_keygen_192. cbn [app].
  run_step (of_le k0) ltac:(now apply V0). run_step (of_le k0) ltac:(reflexivity). run_step (of_le b) ltac:(now apply V1).
  set (st := set_var (set_var (set_var _ "key0" _) "state1" _) "state2" _).
  assert (S0 : vars st "key0" = of_le k0) by reflexivity. assert (S1 : vars st "state1" = of_le k0) by reflexivity. assert (S2 : vars st "state2" = of_le b) by reflexivity.
  assert (SA : arrs st "in" = msg) by reflexivity. clearbody st. clear V0 V1.
  match goal with |- context [final (block (ss_keyexp_192 1 2 1 ++ ?l)) st] =>
    destruct (part_192_run 1 2 1 st k0 b s1 s2 k1 k2 k3 l ltac:(cbn; tauto) ltac:(reflexivity) ltac:(reflexivity) B0 B2 S1 S2 E1) as (sta & -> & Ba1 & Ba2 & Sa1 & Sa2 & K1 & K2 & K3 & Fa & Aa) end.
  match goal with |- context [final (block (ss_keyexp_192 4 8 4 ++ ?l)) sta] =>
    destruct (part_192_run 4 8 4 sta s1 s2 s3 s4 k4 k5 k6 l ltac:(cbn; tauto) ltac:(reflexivity) ltac:(reflexivity) Ba1 Ba2 Sa1 Sa2 E2) as (stb & -> & Bb1 & Bb2 & Sb1 & Sb2 & K4 & K5 & K6 & Fb & Ab) end.
  match goal with |- context [final (block (ss_keyexp_192 16 32 7 ++ ?l)) stb] =>
    destruct (part_192_run 16 32 7 stb s3 s4 s5 s6 k7 k8 k9 l ltac:(cbn; tauto) ltac:(reflexivity) ltac:(reflexivity) Bb1 Bb2 Sb1 Sb2 E3) as (stc & -> & Bc1 & Bc2 & Sc1 & Sc2 & K7 & K8 & K9 & Fc & Ac) end.
  match goal with |- context [final (block (ss_keyexp_192 64 128 10 ++ ?l)) stc] =>
    destruct (part_192_run 64 128 10 stc s5 s6 s7 s8 k10 k11 k12 l ltac:(cbn; tauto) ltac:(reflexivity) ltac:(reflexivity) Bc1 Bc2 Sc1 Sc2 E4) as (std & -> & Bd1 & Bd2 & Sd1 & Sd2 & K10 & K11 & K12 & Fd & Ad) end.
  cbn [key_name key_names nth Nat.add In] in *.
  finish 13%nat.
  - cbn [firstn key_names map]. rewrite K10, K11, K12.
    rewrite !Fd by intuition discriminate. rewrite K7, K8, K9. rewrite !Fc by intuition discriminate. rewrite K4, K5, K6.
    rewrite !Fb by intuition discriminate. rewrite K1, K2, K3. rewrite !Fa by intuition discriminate. now rewrite S0.
  - now rewrite Ad, Ac, Ab, Aa.
Qed.
Lemma x86_keyed : keyed_ok x86_engine (fips_sem None round_keys).
Proof.
  intros k key msg H. cbn [x86_engine g_keygen g_be s_keys fips_sem]. destruct k; [now apply x86_keyed_128|now apply x86_keyed_192|now apply x86_keyed_256].
Qed.

(** ** RV64 *)
Lemma r64_keyexp_128_value st r e w : value st e = pk w -> unpk (pk w) = w -> value st (xr_keyexp_128 r e) = pk (r64_keyexp_128 r w).
Proof. intros He Hw. change (value st (xr_keyexp_128 r e)) with (pk (r64_keyexp_128 r (unpk (value st e)))). now rewrite He, Hw. Qed.
Lemma r64_keyexp_256_value st r e f w v : value st e = pk w -> value st f = pk v -> unpk (pk w) = w -> unpk (pk v) = v ->
  value st (xr_keyexp_256 r e f) = pk (r64_keyexp_256_1 r w v).
Proof. intros He Hf Hw Hv. change (value st (xr_keyexp_256 r e f)) with (pk (r64_keyexp_256_1 r (unpk (value st e)) (unpk (value st f)))). now rewrite He, Hf, Hw, Hv. Qed.
Lemma map_pk k key : is_bytes (key_len k) key -> map of_le (round_keys k key) = map pk (map r64_of (round_keys k key)).
Proof.
  intros H. rewrite map_map. apply map_ext_in. intros b Hb. symmetry. apply pk_of.
  destruct (round_keys_good k key H) as [_ F]. rewrite Forall_forall in F. now apply F.
Qed.
Lemma unpk_keys k key w : is_bytes (key_len k) key -> In w (map r64_of (round_keys k key)) -> unpk (pk w) = w.
Proof.
  intros H Hw. apply in_map_iff in Hw as (b & <- & Hb). destruct (round_keys_good k key H) as [_ F]. rewrite Forall_forall in F.
  rewrite pk_of, unpk_le by now apply F. reflexivity.
Qed.
Lemma rv64_keyed_128 key msg : is_bytes 16 key ->
  let st := final sr_keygen_128 (start key msg) in arrs st "keys" = map of_le (round_keys K128 key) /\ arrs st "in" = msg.
Proof.
  intros H. cbn zeta. pose proof (r64_key_128 key H) as E. unfold r64_keygen_128 in E. change (r64_new key) with (Ret (r64_of key)) in E. cbn [bind] in E. apply Ret_eq in E.
  rewrite (map_pk K128 key H). pose proof (unpk_keys K128 key) as U. rewrite <- E in *. specialize (fun w => U w H).
  set (k0 := r64_of key) in *.
  set (k1 := r64_keyexp_128 0 k0) in *.
  set (k2 := r64_keyexp_128 1 k1) in *.
  set (k3 := r64_keyexp_128 2 k2) in *.
  set (k4 := r64_keyexp_128 3 k3) in *.
  set (k5 := r64_keyexp_128 4 k4) in *.
  set (k6 := r64_keyexp_128 5 k5) in *.
  set (k7 := r64_keyexp_128 6 k6) in *.
  set (k8 := r64_keyexp_128 7 k7) in *.
  set (k9 := r64_keyexp_128 8 k8) in *.
  set (k10 := r64_keyexp_128 9 k9) in *.
  cbv zeta in U |- *.
  assert (U0 : unpk (pk k0) = k0) by (apply U; cbn [In]; tauto).
  assert (U1 : unpk (pk k1) = k1) by (apply U; cbn [In]; tauto).
  assert (U2 : unpk (pk k2) = k2) by (apply U; cbn [In]; tauto).
  assert (U3 : unpk (pk k3) = k3) by (apply U; cbn [In]; tauto).
  assert (U4 : unpk (pk k4) = k4) by (apply U; cbn [In]; tauto).
  assert (U5 : unpk (pk k5) = k5) by (apply U; cbn [In]; tauto).
  assert (U6 : unpk (pk k6) = k6) by (apply U; cbn [In]; tauto).
  assert (U7 : unpk (pk k7) = k7) by (apply U; cbn [In]; tauto).
  assert (U8 : unpk (pk k8) = k8) by (apply U; cbn [In]; tauto).
  assert (U9 : unpk (pk k9) = k9) by (apply U; cbn [In]; tauto).
  unfold sr_keygen_128. cbn [seq map app].
  run_step (pk k0) ltac:(rewrite (load_value _ key 0 16 0) by (reflexivity || (rewrite (proj1 H); lia)); cbn [skipn repeat]; rewrite app_nil_r, firstn_all2 by (rewrite (proj1 H); lia); symmetry; now apply pk_of).
  run_step (pk k1) ltac:(apply (r64_keyexp_128_value _ _ _ k0); [look|assumption]).
  run_step (pk k2) ltac:(apply (r64_keyexp_128_value _ _ _ k1); [look|assumption]).
  run_step (pk k3) ltac:(apply (r64_keyexp_128_value _ _ _ k2); [look|assumption]).
  run_step (pk k4) ltac:(apply (r64_keyexp_128_value _ _ _ k3); [look|assumption]).
  run_step (pk k5) ltac:(apply (r64_keyexp_128_value _ _ _ k4); [look|assumption]).
  run_step (pk k6) ltac:(apply (r64_keyexp_128_value _ _ _ k5); [look|assumption]).
  run_step (pk k7) ltac:(apply (r64_keyexp_128_value _ _ _ k6); [look|assumption]).
  run_step (pk k8) ltac:(apply (r64_keyexp_128_value _ _ _ k7); [look|assumption]).
  run_step (pk k9) ltac:(apply (r64_keyexp_128_value _ _ _ k8); [look|assumption]).
  run_step (pk k10) ltac:(apply (r64_keyexp_128_value _ _ _ k9); [look|assumption]).
  clear U; clearbody k0 k1 k2 k3 k4 k5 k6 k7 k8 k9 k10. finish 11%nat; reflexivity.
Qed.
Lemma rv64_keyed_256 key msg : is_bytes 32 key ->
  let st := final sr_keygen_256 (start key msg) in arrs st "keys" = map of_le (round_keys K256 key) /\ arrs st "in" = msg.
Proof.
  intros H. cbn zeta. pose proof (r64_key_256 false key H) as E. unfold r64_keygen_256 in E.
  unfold slice_to, slice_from in E. rewrite (proj1 H) in E. cbn [Nat.leb bind] in E.
  pose proof (key_bytes_lo 16 16 key H) as B0. pose proof (key_bytes_hi 16 16 key H) as B1.
  rewrite !try_from_exact in E by (apply B0 || apply B1).
  change (r64_new (firstn 16 key)) with (Ret (r64_of (firstn 16 key))) in E. change (r64_new (skipn 16 key)) with (Ret (r64_of (skipn 16 key))) in E. cbn [bind unwrap omap] in E. apply Ret_eq in E.
  rewrite (map_pk K256 key H). pose proof (unpk_keys K256 key) as U. rewrite <- E in *. specialize (fun w => U w H).
  set (k0 := r64_of (firstn 16 key)) in *. set (k1 := r64_of (skipn 16 key)) in *.
  set (k2 := r64_keyexp_256_1 0 k0 k1) in *.
  set (k3 := r64_keyexp_256_2 k1 k2) in *.
  set (k4 := r64_keyexp_256_1 1 k2 k3) in *.
  set (k5 := r64_keyexp_256_2 k3 k4) in *.
  set (k6 := r64_keyexp_256_1 2 k4 k5) in *.
  set (k7 := r64_keyexp_256_2 k5 k6) in *.
  set (k8 := r64_keyexp_256_1 3 k6 k7) in *.
  set (k9 := r64_keyexp_256_2 k7 k8) in *.
  set (k10 := r64_keyexp_256_1 4 k8 k9) in *.
  set (k11 := r64_keyexp_256_2 k9 k10) in *.
  set (k12 := r64_keyexp_256_1 5 k10 k11) in *.
  set (k13 := r64_keyexp_256_2 k11 k12) in *.
  set (k14 := r64_keyexp_256_1 6 k12 k13) in *.
  cbv zeta in U |- *.
  assert (U0 : unpk (pk k0) = k0) by (apply U; cbn [In]; tauto).
  assert (U1 : unpk (pk k1) = k1) by (apply U; cbn [In]; tauto).
  assert (U2 : unpk (pk k2) = k2) by (apply U; cbn [In]; tauto).
  assert (U3 : unpk (pk k3) = k3) by (apply U; cbn [In]; tauto).
  assert (U4 : unpk (pk k4) = k4) by (apply U; cbn [In]; tauto).
  assert (U5 : unpk (pk k5) = k5) by (apply U; cbn [In]; tauto).
  assert (U6 : unpk (pk k6) = k6) by (apply U; cbn [In]; tauto).
  assert (U7 : unpk (pk k7) = k7) by (apply U; cbn [In]; tauto).
  assert (U8 : unpk (pk k8) = k8) by (apply U; cbn [In]; tauto).
  assert (U9 : unpk (pk k9) = k9) by (apply U; cbn [In]; tauto).
  assert (U10 : unpk (pk k10) = k10) by (apply U; cbn [In]; tauto).
  assert (U11 : unpk (pk k11) = k11) by (apply U; cbn [In]; tauto).
  assert (U12 : unpk (pk k12) = k12) by (apply U; cbn [In]; tauto).
  assert (U13 : unpk (pk k13) = k13) by (apply U; cbn [In]; tauto).
  unfold sr_keygen_256. cbn [seq combine map app fst snd].
  run_step (pk k0) ltac:(rewrite (load_value _ key 0 16 0) by (reflexivity || (rewrite (proj1 H); lia)); cbn [skipn repeat]; rewrite app_nil_r; symmetry; now apply pk_of).
  run_step (pk k1) ltac:(rewrite (load_value _ key 16 16 0) by (reflexivity || (rewrite (proj1 H); lia)); cbn [repeat]; rewrite app_nil_r, firstn_all2 by (rewrite skipn_length, (proj1 H); lia); symmetry; now apply pk_of).
  run_step (pk k2) ltac:(apply (r64_keyexp_256_value _ _ _ _ k0 k1); [look|look|assumption|assumption]).
  run_step (pk k3) ltac:(apply (r64_keyexp_256_value _ _ _ _ k1 k2); [look|look|assumption|assumption]).
  run_step (pk k4) ltac:(apply (r64_keyexp_256_value _ _ _ _ k2 k3); [look|look|assumption|assumption]).
  run_step (pk k5) ltac:(apply (r64_keyexp_256_value _ _ _ _ k3 k4); [look|look|assumption|assumption]).
  run_step (pk k6) ltac:(apply (r64_keyexp_256_value _ _ _ _ k4 k5); [look|look|assumption|assumption]).
  run_step (pk k7) ltac:(apply (r64_keyexp_256_value _ _ _ _ k5 k6); [look|look|assumption|assumption]).
  run_step (pk k8) ltac:(apply (r64_keyexp_256_value _ _ _ _ k6 k7); [look|look|assumption|assumption]).
  run_step (pk k9) ltac:(apply (r64_keyexp_256_value _ _ _ _ k7 k8); [look|look|assumption|assumption]).
  run_step (pk k10) ltac:(apply (r64_keyexp_256_value _ _ _ _ k8 k9); [look|look|assumption|assumption]).
  run_step (pk k11) ltac:(apply (r64_keyexp_256_value _ _ _ _ k9 k10); [look|look|assumption|assumption]).
  run_step (pk k12) ltac:(apply (r64_keyexp_256_value _ _ _ _ k10 k11); [look|look|assumption|assumption]).
  run_step (pk k13) ltac:(apply (r64_keyexp_256_value _ _ _ _ k11 k12); [look|look|assumption|assumption]).
  run_step (pk k14) ltac:(apply (r64_keyexp_256_value _ _ _ _ k12 k13); [look|look|assumption|assumption]).
  clear U; clearbody k0 k1 k2 k3 k4 k5 k6 k7 k8 k9 k10 k11 k12 k13 k14. finish 15%nat; reflexivity.
Qed.
Lemma rv64_keyed_192 key msg : is_bytes 24 key ->
  let st := final sr_keygen_192 (start key msg) in arrs st "keys" = map of_le (round_keys K192 key) /\ arrs st "in" = msg.
Proof.
  intros H. cbn zeta. pose proof (r64_key_192 key H) as E. unfold r64_keygen_192 in E.
  assert (L : forall off st, In off [0; 8; 16]%nat -> arrs st "key" = key -> exists v, u64_at key off = Ret v /\ value st (x_load off 8 0) = v).
  { intros off st Ho Hs. eexists. split; [unfold u64_at, slice_to, slice_from; rewrite (proj1 H); destruct Ho as [<-|[<-|[<-|[]]]]; cbn [Nat.add Nat.leb bind]; rewrite ?firstn_length, ?(proj1 H); reflexivity|].
    rewrite (load_value st key off 8 0) by (assumption || (rewrite (proj1 H); destruct Ho as [<-|[<-|[<-|[]]]]; lia)). cbn [repeat]. rewrite app_nil_r. f_equal.
    destruct Ho as [<-|[<-|[<-|[]]]]; rewrite firstn_skipn_comm; reflexivity. }
  destruct (u64_at key 0) as [a0| |] eqn:La; [|now destruct (L 0%nat (start key msg)) as (? & ? & _); [cbn; tauto|reflexivity|congruence]..].
  destruct (u64_at key 8) as [b0| |] eqn:Lb; [|now destruct (L 8%nat (start key msg)) as (? & ? & _); [cbn; tauto|reflexivity|congruence]..].
  destruct (u64_at key 16) as [c0| |] eqn:Lc; [|now destruct (L 16%nat (start key msg)) as (? & ? & _); [cbn; tauto|reflexivity|congruence]..].
  assert (V0 : forall st, arrs st "key" = key -> value st (x_load 0 8 0) = a0) by (intros st Hs; destruct (L 0%nat st) as (v & E1 & E2); [cbn; tauto|assumption|congruence]).
  assert (V1 : forall st, arrs st "key" = key -> value st (x_load 8 8 0) = b0) by (intros st Hs; destruct (L 8%nat st) as (v & E1 & E2); [cbn; tauto|assumption|congruence]).
  assert (V2 : forall st, arrs st "key" = key -> value st (x_load 16 8 0) = c0) by (intros st Hs; destruct (L 16%nat st) as (v & E1 & E2); [cbn; tauto|assumption|congruence]).
  cbn [bind] in E. unfold r64_keyexp_192 in E. cbv beta iota in E.
  set (a1 := aes64ks2 (aes64ks1i c0 0) a0) in *. set (b1 := aes64ks2 a1 b0) in *. set (c1 := aes64ks2 b1 c0) in *.
  set (a2 := aes64ks2 (aes64ks1i c1 1) a1) in *. set (b2 := aes64ks2 a2 b1) in *. set (c2 := aes64ks2 b2 c1) in *.
  set (a3 := aes64ks2 (aes64ks1i c2 2) a2) in *. set (b3 := aes64ks2 a3 b2) in *. set (c3 := aes64ks2 b3 c2) in *.
  set (a4 := aes64ks2 (aes64ks1i c3 3) a3) in *. set (b4 := aes64ks2 a4 b3) in *. set (c4 := aes64ks2 b4 c3) in *.
  set (a5 := aes64ks2 (aes64ks1i c4 4) a4) in *. set (b5 := aes64ks2 a5 b4) in *. set (c5 := aes64ks2 b5 c4) in *.
  set (a6 := aes64ks2 (aes64ks1i c5 5) a5) in *. set (b6 := aes64ks2 a6 b5) in *. set (c6 := aes64ks2 b6 c5) in *.
  set (a7 := aes64ks2 (aes64ks1i c6 6) a6) in *. set (b7 := aes64ks2 a7 b6) in *. set (c7 := aes64ks2 b7 c6) in *.
  set (s24 := aes64ks2 (aes64ks1i c7 7) a7) in *. set (s25 := aes64ks2 s24 b7) in *. cbv zeta in E. apply Ret_eq in E.
  rewrite (map_pk K192 key H), <- E. clear E L La Lb Lc. unfold sr_keygen_192, sr_keyexp_192, a_, b_, c_. cbn [app nth a_names b_names c_names].
  run_step a0 ltac:(now apply V0). run_step b0 ltac:(now apply V1). run_step c0 ltac:(now apply V2).
  run_step a1 ltac:(reflexivity). run_step b1 ltac:(reflexivity). run_step c1 ltac:(reflexivity).
  run_step a2 ltac:(reflexivity). run_step b2 ltac:(reflexivity). run_step c2 ltac:(reflexivity).
  run_step a3 ltac:(reflexivity). run_step b3 ltac:(reflexivity). run_step c3 ltac:(reflexivity).
  run_step a4 ltac:(reflexivity). run_step b4 ltac:(reflexivity). run_step c4 ltac:(reflexivity).
  run_step a5 ltac:(reflexivity). run_step b5 ltac:(reflexivity). run_step c5 ltac:(reflexivity).
  run_step a6 ltac:(reflexivity). run_step b6 ltac:(reflexivity). run_step c6 ltac:(reflexivity).
  run_step a7 ltac:(reflexivity). run_step b7 ltac:(reflexivity). run_step c7 ltac:(reflexivity).
  run_step s24 ltac:(reflexivity). run_step s25 ltac:(reflexivity).
  clear V0 V1 V2. clearbody a1 b1 c1 a2 b2 c2 a3 b3 c3 a4 b4 c4 a5 b5 c5 a6 b6 c6 a7 b7 c7 s24 s25.
  rewrite final_block_cons, block_nil.
  match goal with |- context [final (s_keys_array ?es) ?st] => destruct (keys_array_run es st) as [A B] end.
  - repeat constructor; intros st st' Ev; unfold value; cbn [u64s val]; now rewrite Ev.
  - split; [rewrite A|rewrite B]; reflexivity.
Qed.
Lemma rv64_keyed : keyed_ok rv64_engine (fips_sem None round_keys).
Proof.
  intros k key msg H. cbn [rv64_engine g_keygen g_be s_keys fips_sem]. destruct k; [now apply rv64_keyed_128|now apply rv64_keyed_192|now apply rv64_keyed_256].
Qed.
