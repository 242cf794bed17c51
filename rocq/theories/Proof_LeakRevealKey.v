(** The table look-ups of key set-up with the default software backend (Model_LeakSoft.v: table_engine) give the key away. *)
From Coq Require Import Lia Arith String.
From Coq Require Import List.
From Verif Require Import Word Interface Fips197 Spec_Api Spec_Actual Spec_Leak Model_Table Model_Leak Model_LeakAccel Model_LeakSoft.
From Verif Require Import Proof_Shape Proof_Word Proof_LeakAccel Proof_Shift Proof_Fips Proof_Ok Proof_Sem Proof_Lib Proof_Table Proof_KeySpec Proof_Inst Proof_KeyTable Proof_Cipher Proof_KeyGen Proof_Leak Proof_LeakRun Proof_LeakEngine Proof_LeakKeys Proof_LeakSoft Proof_LeakTable Proof_LeakReveal.
From Verif Require Import Props_Keys.
Open Scope string_scope.
Open Scope list_scope.
Open Scope N_scope.

(** ** Words of the expanded key that determine the key *)
Section Words.
Context (k : key_size) (key key' : list N) (Hk : is_bytes (key_len k) key) (Hk' : is_bytes (key_len k) key').
Notation W := (XW std_first (nk_of k) key). Notation W' := (XW std_first (nk_of k) key').
Definition plain (i : nat) : bool := negb (Nat.eqb (i mod nk_of k) 0) && negb (Nat.ltb 6 (nk_of k) && Nat.eqb (i mod nk_of k) 4).
Lemma word_step i : (nk_of k <= i < 100)%nat -> plain i = true -> W i = W' i -> W (i - nk_of k) = W' (i - nk_of k) -> W (i - 1) = W' (i - 1).
Proof.
  intros Hi P E E0. assert (K0 : (0 < nk_of k)%nat) by (destruct k; cbn; lia).
  assert (T : forall t, xtmp std_first (nk_of k) i t = t).
  { intros t. unfold plain in P. apply andb_true_iff in P as [P1 P2]. apply negb_true_iff in P1, P2. unfold xtmp. rewrite P1, P2. reflexivity. }
  rewrite (XW_rec std_first (nk_of k) key i), (XW_rec std_first (nk_of k) key' i), !T, E0 in E by lia.
  change (key_len k) with (4 * nk_of k)%nat in *.
  assert (B : is_bytes 4 (W' (i - nk_of k))) by (apply XW_bytes; [apply std_first_ok|assumption|assumption|lia]).
  assert (B1 : is_bytes 4 (W (i - 1))) by (apply XW_bytes; [apply std_first_ok|assumption|assumption|lia]).
  assert (B2 : is_bytes 4 (W' (i - 1))) by (apply XW_bytes; [apply std_first_ok|assumption|assumption|lia]).
  revert E B B1 B2. clear. generalize (W' (i - nk_of k)) (W (i - 1)) (W' (i - 1)). intros a b c E B B1 B2.
  apply (xor_word_cancel b c a); try assumption. unfold xor_word in *. rewrite (map2_comm N.lxor b), (map2_comm N.lxor c) by apply N.lxor_comm. exact E.
Qed.
End Words.
Definition subword_at (k : key_size) (j : nat) : nat := match k with K128 => 4 * j + 3 | K192 => 6 * j + 5 | K256 => 4 * j + 7 end.
Lemma words_tell k key key' : is_bytes (key_len k) key -> is_bytes (key_len k) key' ->
  (forall j, (j < 8)%nat -> XW std_first (nk_of k) key (subword_at k j) = XW std_first (nk_of k) key' (subword_at k j)) -> key = key'.
Proof.
  intros Hk Hk' H. pose proof (word_step k key key' Hk Hk') as S.
  apply (key_of_words std_first (nk_of k)); [exact Hk|exact Hk'|].
  destruct k; cbn [nk_of key_len] in *.
  - pose proof (H 0%nat ltac:(lia)) as E3; cbn [subword_at Nat.mul Nat.add] in E3.
    pose proof (H 1%nat ltac:(lia)) as E7; cbn [subword_at Nat.mul Nat.add] in E7.
    pose proof (H 2%nat ltac:(lia)) as E11; cbn [subword_at Nat.mul Nat.add] in E11.
    pose proof (H 3%nat ltac:(lia)) as E15; cbn [subword_at Nat.mul Nat.add] in E15.
    pose proof (S 15%nat ltac:(lia) eq_refl E15 E11) as E14; cbn [Nat.sub] in E14.
    pose proof (S 11%nat ltac:(lia) eq_refl E11 E7) as E10; cbn [Nat.sub] in E10.
    pose proof (S 14%nat ltac:(lia) eq_refl E14 E10) as E13; cbn [Nat.sub] in E13.
    pose proof (S 7%nat ltac:(lia) eq_refl E7 E3) as E6; cbn [Nat.sub] in E6.
    pose proof (S 10%nat ltac:(lia) eq_refl E10 E6) as E9; cbn [Nat.sub] in E9.
    pose proof (S 13%nat ltac:(lia) eq_refl E13 E9) as E12; cbn [Nat.sub] in E12.
    apply (words_back std_first 4 key key' std_first_ok ltac:(lia) Hk Hk' 12); [lia|]. intros j Hj. do 4 (destruct j as [|j]; [assumption|]). lia.
  - pose proof (H 0%nat ltac:(lia)) as E5; cbn [subword_at Nat.mul Nat.add] in E5.
    pose proof (H 1%nat ltac:(lia)) as E11; cbn [subword_at Nat.mul Nat.add] in E11.
    pose proof (H 2%nat ltac:(lia)) as E17; cbn [subword_at Nat.mul Nat.add] in E17.
    pose proof (H 3%nat ltac:(lia)) as E23; cbn [subword_at Nat.mul Nat.add] in E23.
    pose proof (H 4%nat ltac:(lia)) as E29; cbn [subword_at Nat.mul Nat.add] in E29.
    pose proof (H 5%nat ltac:(lia)) as E35; cbn [subword_at Nat.mul Nat.add] in E35.
    pose proof (S 35%nat ltac:(lia) eq_refl E35 E29) as E34; cbn [Nat.sub] in E34.
    pose proof (S 29%nat ltac:(lia) eq_refl E29 E23) as E28; cbn [Nat.sub] in E28.
    pose proof (S 34%nat ltac:(lia) eq_refl E34 E28) as E33; cbn [Nat.sub] in E33.
    pose proof (S 23%nat ltac:(lia) eq_refl E23 E17) as E22; cbn [Nat.sub] in E22.
    pose proof (S 28%nat ltac:(lia) eq_refl E28 E22) as E27; cbn [Nat.sub] in E27.
    pose proof (S 33%nat ltac:(lia) eq_refl E33 E27) as E32; cbn [Nat.sub] in E32.
    pose proof (S 17%nat ltac:(lia) eq_refl E17 E11) as E16; cbn [Nat.sub] in E16.
    pose proof (S 22%nat ltac:(lia) eq_refl E22 E16) as E21; cbn [Nat.sub] in E21.
    pose proof (S 27%nat ltac:(lia) eq_refl E27 E21) as E26; cbn [Nat.sub] in E26.
    pose proof (S 32%nat ltac:(lia) eq_refl E32 E26) as E31; cbn [Nat.sub] in E31.
    pose proof (S 11%nat ltac:(lia) eq_refl E11 E5) as E10; cbn [Nat.sub] in E10.
    pose proof (S 16%nat ltac:(lia) eq_refl E16 E10) as E15; cbn [Nat.sub] in E15.
    pose proof (S 21%nat ltac:(lia) eq_refl E21 E15) as E20; cbn [Nat.sub] in E20.
    pose proof (S 26%nat ltac:(lia) eq_refl E26 E20) as E25; cbn [Nat.sub] in E25.
    pose proof (S 31%nat ltac:(lia) eq_refl E31 E25) as E30; cbn [Nat.sub] in E30.
    apply (words_back std_first 6 key key' std_first_ok ltac:(lia) Hk Hk' 30); [lia|]. intros j Hj. do 6 (destruct j as [|j]; [assumption|]). lia.
  - pose proof (H 0%nat ltac:(lia)) as E7; cbn [subword_at Nat.mul Nat.add] in E7.
    pose proof (H 1%nat ltac:(lia)) as E11; cbn [subword_at Nat.mul Nat.add] in E11.
    pose proof (H 2%nat ltac:(lia)) as E15; cbn [subword_at Nat.mul Nat.add] in E15.
    pose proof (H 3%nat ltac:(lia)) as E19; cbn [subword_at Nat.mul Nat.add] in E19.
    pose proof (H 4%nat ltac:(lia)) as E23; cbn [subword_at Nat.mul Nat.add] in E23.
    pose proof (H 5%nat ltac:(lia)) as E27; cbn [subword_at Nat.mul Nat.add] in E27.
    pose proof (H 6%nat ltac:(lia)) as E31; cbn [subword_at Nat.mul Nat.add] in E31.
    pose proof (H 7%nat ltac:(lia)) as E35; cbn [subword_at Nat.mul Nat.add] in E35.
    pose proof (S 31%nat ltac:(lia) eq_refl E31 E23) as E30; cbn [Nat.sub] in E30.
    pose proof (S 23%nat ltac:(lia) eq_refl E23 E15) as E22; cbn [Nat.sub] in E22.
    pose proof (S 30%nat ltac:(lia) eq_refl E30 E22) as E29; cbn [Nat.sub] in E29.
    pose proof (S 15%nat ltac:(lia) eq_refl E15 E7) as E14; cbn [Nat.sub] in E14.
    pose proof (S 22%nat ltac:(lia) eq_refl E22 E14) as E21; cbn [Nat.sub] in E21.
    pose proof (S 29%nat ltac:(lia) eq_refl E29 E21) as E28; cbn [Nat.sub] in E28.
    pose proof (S 35%nat ltac:(lia) eq_refl E35 E27) as E34; cbn [Nat.sub] in E34.
    pose proof (S 27%nat ltac:(lia) eq_refl E27 E19) as E26; cbn [Nat.sub] in E26.
    pose proof (S 34%nat ltac:(lia) eq_refl E34 E26) as E33; cbn [Nat.sub] in E33.
    pose proof (S 19%nat ltac:(lia) eq_refl E19 E11) as E18; cbn [Nat.sub] in E18.
    pose proof (S 26%nat ltac:(lia) eq_refl E26 E18) as E25; cbn [Nat.sub] in E25.
    pose proof (S 33%nat ltac:(lia) eq_refl E33 E25) as E32; cbn [Nat.sub] in E32.
    apply (words_back std_first 8 key key' std_first_ok ltac:(lia) Hk Hk' 28); [lia|]. intros j Hj. do 8 (destruct j as [|j]; [assumption|]). lia.
Qed.

(** ** What SubWord looks up *)
Definition sub_indices (v : N) : list N := [as_u8 (shr v 16); as_u8 (shr v 8); as_u8 v; as_u8 (shr v 24)].
Lemma sub_leak st e : exists l, leak st (xt_sub_word e) = leak st e ++ l /\ map index_of l = sub_indices (value st e).
Proof. eexists. split; reflexivity. Qed.
Lemma sub_indices_inj u v : u < 2 ^ 32 -> v < 2 ^ 32 -> sub_indices u = sub_indices v -> u = v.
Proof.
  intros Hu Hv E. 
  pose proof (f_equal (fun l => nth 0 l 0) E) as E2. pose proof (f_equal (fun l => nth 1 l 0) E) as E1. pose proof (f_equal (fun l => nth 2 l 0) E) as E0. pose proof (f_equal (fun l => nth 3 l 0) E) as E3.
  cbv beta delta [sub_indices] in E0, E1, E2, E3. cbn [nth] in E0, E1, E2, E3. clear E.
  apply N.bits_inj. intros i. destruct (N.ltb_spec i 32) as [Hi|Hi]; [|rewrite (bit_high u 32), (bit_high v 32) by assumption; reflexivity].
  assert (G : forall q, q <= i < q + 8 -> as_u8 (shr u q) = as_u8 (shr v q) -> N.testbit u i = N.testbit v i).
  { intros q Hq E. apply (f_equal (fun z => N.testbit z (i - q))) in E. unfold as_u8 in E. rewrite !trunc_testbit, !shr_testbit in E.
    destruct (N.ltb_spec (i - q) 8); [|lia]. cbn [andb] in E. now replace (i - q + q) with i in E by lia. }
  change (as_u8 u) with (as_u8 (shr u 0)) in E0. change (as_u8 v) with (as_u8 (shr v 0)) in E0.
  destruct (N.ltb_spec i 8); [apply (G 0); [lia|exact E0]|]. destruct (N.ltb_spec i 16); [apply (G 8); [lia|exact E1]|].
  destruct (N.ltb_spec i 24); [apply (G 16); [lia|exact E2]|]. apply (G 24); [lia|exact E3].
Qed.
Lemma rotr8_inj u v : u < 2 ^ 32 -> v < 2 ^ 32 -> rotr 32 u 8 = rotr 32 v 8 -> u = v.
Proof.
  intros Hu Hv E. apply N.bits_inj. intros i. destruct (N.ltb_spec i 32) as [Hi|Hi]; [|rewrite (bit_high u 32), (bit_high v 32) by assumption; reflexivity].
  assert (R : forall w n, w < 2 ^ 32 -> n < 32 -> N.testbit (rotr 32 w 8) n = if n <? 24 then N.testbit w (n + 8) else N.testbit w (n - 24)).
  { intros w n Hw Hn. unfold rotr. rewrite N.lor_spec, shr_testbit, shl_testbit. change (32 - 8) with 24. destruct (N.ltb_spec n 32); [|lia]. cbn [andb].
    destruct (N.ltb_spec n 24).
    - destruct (N.leb_spec 24 n); [lia|]. cbn [andb]. apply orb_false_r.
    - destruct (N.leb_spec 24 n); [|lia]. cbn [andb]. rewrite (bit_high w 32 (n + 8)) by (assumption || lia). reflexivity. }
  destruct (N.ltb_spec i 8).
  - apply (f_equal (fun z => N.testbit z (i + 24))) in E. rewrite !R in E by (assumption || lia). destruct (N.ltb_spec (i + 24) 24); [lia|]. now replace (i + 24 - 24) with i in E by lia.
  - apply (f_equal (fun z => N.testbit z (i - 8))) in E. rewrite !R in E by (assumption || lia). destruct (N.ltb_spec (i - 8) 24); [|lia]. now replace (i - 8 + 8) with i in E by lia.
Qed.
Lemma rotr8_lt u : u < 2 ^ 32 -> rotr 32 u 8 < 2 ^ 32.
Proof.
  intros H. apply lt_pow2_testbit. intros n Hn. unfold rotr. rewrite N.lor_spec, shr_testbit, shl_testbit. rewrite (bit_high u 32 (n + 8)) by (assumption || lia).
  destruct (N.ltb_spec n 32); [lia|]. reflexivity.
Qed.
(** Equal observations of SubWord(e) in two states that look alike: equal operands. *)
Lemma sub_tells st st' e u u' : low_equal st st' -> quiet false e = true -> value st e = u -> value st' e = u' -> u < 2 ^ 32 -> u' < 2 ^ 32 ->
  leak st (xt_sub_word e) = leak st' (xt_sub_word e) -> u = u'.
Proof.
  intros LE Q <- <- Hu Hu' E. destruct (sub_leak st e) as (l & E1 & M). destruct (sub_leak st' e) as (l' & E1' & M'). rewrite E1, E1' in E.
  apply app_split in E as [_ ->]; [|pose proof (leak_low false st st' e LE Q) as T; apply (f_equal (@length _)) in T; now rewrite !map_length in T].
  apply sub_indices_inj; try assumption. congruence.
Qed.

(** ** Statements in a sequence *)
Lemma split_block l1 s l2 st st' : quiet_stmt false (block (l1 ++ s :: l2)) = true -> low_equal st st' -> trace (block (l1 ++ s :: l2)) st = trace (block (l1 ++ s :: l2)) st' ->
  let a := final (block l1) st in let b := final (block l1) st' in low_equal a b /\ trace s a = trace s b.
Proof.
  revert st st'. induction l1 as [|t l1 IH]; intros st st' Q LE E; cbn zeta.
  - change (quiet_stmt false s && quiet_stmt false (block l2) = true)%bool in Q. apply andb_true_iff in Q as [Q _].
    apply (split_seq s (block l2)) in E as (E & _ & _); [|exact Q|exact LE]. split; [exact LE|exact E].
  - change (quiet_stmt false t && quiet_stmt false (block (l1 ++ s :: l2)) = true)%bool in Q. apply andb_true_iff in Q as [Q Q2].
    apply (split_seq t (block (l1 ++ s :: l2))) in E as (_ & E & LE'); [|exact Q|exact LE]. rewrite !final_block_cons. exact (IH _ _ Q2 LE' E).
Qed.
Definition assigns (s : stmt) : option string := match s with Assign x _ => Some x | _ => None end.
Lemma not_assigned l x st : Forall (fun s => exists y, assigns s = Some y /\ y <> x) l -> vars (final (block l) st) x = vars st x.
Proof.
  intros F. revert st. induction F as [|s l (y & Hy & Ne) _ IH]; intros st; [reflexivity|]. rewrite final_block_cons, IH. destruct s; try discriminate. injection Hy as ->.
  rewrite final_assign. cbn [set_var vars]. now apply upd_other.
Qed.
(** A variable of the round keys, wherever it is not assigned any more, holds the round key that key set-up returns. *)
Lemma key_var k n l1 l2 key msg j : is_bytes (key_len k) key -> g_keygen table_engine k = block ((l1 ++ l2) ++ [s_return_keys n]) -> (n = nr_of k + 1)%nat -> (j < n)%nat ->
  Forall (fun s => exists y, assigns s = Some y /\ y <> key_name j) l2 ->
  vars (final (block l1) (start key msg)) (key_name j) = of_be (nth j (round_keys k key) []).
Proof.
  intros Hk E Hn Hj F. rewrite <- (not_assigned l2 (key_name j)) by exact F. rewrite <- final_block_app.
  destruct (table_keyed k key msg Hk) as [T _]. rewrite E, final_block_app, final_block_cons, block_nil in T.
  set (st := final (block (l1 ++ l2)) (start key msg)) in *. destruct (return_keys_run n st) as [A _]. rewrite A in T. cbn [g_be table_engine of_ne s_keys fips_sem] in T.
  destruct (round_keys_good k key Hk) as [L _].
  apply (f_equal (fun l => nth j l (of_be []))) in T. rewrite map_nth in T. rewrite <- T.
  assert (Ln : (j < length (firstn n key_names))%nat) by (rewrite firstn_length; subst n; destruct k; cbn [key_names length nr_of] in *; lia).
  rewrite (nth_indep _ _ (vars st "")) by now rewrite map_length. rewrite map_nth. f_equal. unfold key_name.
  rewrite <- (firstn_skipn n key_names) at 1. now rewrite app_nth1.
Qed.

(** ** Key set-up *)
Lemma field3 b : is_bytes 16 b -> trunc 32 (shr (of_be b) 0) = w_be b 3.
Proof. intros H. exact (f_equal w_3 (unpkb_be b H)). Qed.
Lemma w_be_lt b i : is_bytes 16 b -> (i < 4)%nat -> w_be b i < 2 ^ 32.
Proof.
  intros [L B] Hi. unfold w_be, of_be. pose proof (of_le_lt (rev (firstn 4 (skipn (4 * i) b)))) as H. rewrite rev_length, firstn_length, skipn_length, L in H.
  replace (Nat.min 4 (16 - 4 * i)) with 4%nat in H by lia. apply H, bytes_ok_rev, Forall_firstn'. now apply bytes_ok_skipn.
Qed.
Lemma w_be_word k key r t : is_bytes (key_len k) key -> (r <= nr_of k)%nat -> (t < 4)%nat -> w_be (nth r (round_keys k key) []) t = of_be (XW std_first (nk_of k) key (4 * r + t)).
Proof.
  intros Hk Hr Ht. rewrite <- round_keys_std, rks_nth by assumption. rewrite xrk_words by (apply std_first_ok || assumption || (destruct k; cbn [nk_of nr_of] in *; lia)). reflexivity.
Qed.
Lemma of_be_inj4 a b : is_bytes 4 a -> is_bytes 4 b -> of_be a = of_be b -> a = b.
Proof. intros Ha Hb E. rewrite <- (of_ne_bytes' true 4 a Ha), <- (of_ne_bytes' true 4 b Hb). cbn [of_ne]. now rewrite E. Qed.
(** Look-ups of the same word. *)
Lemma word_from k key key' r t : is_bytes (key_len k) key -> is_bytes (key_len k) key' -> (r <= nr_of k)%nat -> (t < 4)%nat ->
  w_be (nth r (round_keys k key) []) t = w_be (nth r (round_keys k key') []) t -> XW std_first (nk_of k) key (4 * r + t) = XW std_first (nk_of k) key' (4 * r + t).
Proof.
  intros Hk Hk' Hr Ht E. rewrite !w_be_word in E by assumption. apply of_be_inj4; [| |exact E]; apply XW_bytes; (apply std_first_ok || assumption || (destruct k; cbn [nk_of nr_of] in *; lia)).
Qed.
Lemma start_low' key msg key' msg' : length key = length key' -> length msg = length msg' -> low_equal (start key msg) (start key' msg').
Proof. intros L M. split; [reflexivity|]. intros x. cbn. destruct (String.eqb x "key"); [exact L|]. destruct (String.eqb x "in"); [exact M|reflexivity]. Qed.
Section Setup.
Context (k : key_size) (key key' : list N) (Hk : is_bytes (key_len k) key) (Hk' : is_bytes (key_len k) key').
Let B j : (j <= nr_of k)%nat -> is_bytes 16 (nth j (round_keys k key) []) /\ is_bytes 16 (nth j (round_keys k key') []).
Proof. intros H. destruct (round_keys_good k key Hk) as [L F]. destruct (round_keys_good k key' Hk') as [L' F']. split; apply nth_bytes16; (assumption || lia). Qed.
(** One assignment of key set-up that looks up SubWord of the last word of round key [j] ([rot]: rotated). *)
Lemma setup_tells l1 s l2 n j x e (rot : bool) msg msg' : length msg = length msg' -> g_keygen table_engine k = block ((l1 ++ s :: l2) ++ [s_return_keys n]) -> (n = nr_of k + 1)%nat -> (j < n)%nat ->
  s = Assign x e -> (forall st, exists l, leak st e = l /\ map index_of l = sub_indices (let v := trunc 32 (shr (vars st (key_name j)) 0) in if rot then rotr 32 v 8 else v)) ->
  Forall (fun s => exists y, assigns s = Some y /\ y <> key_name j) (s :: l2) -> quiet_stmt false (g_keygen table_engine k) = true ->
  trace (g_keygen table_engine k) (start key msg) = trace (g_keygen table_engine k) (start key' msg') ->
  XW std_first (nk_of k) key (4 * j + 3) = XW std_first (nk_of k) key' (4 * j + 3).
Proof.
  intros Lm E Hn Hj Es He F Q T. pose proof (key_var k n l1 (s :: l2) key msg j Hk E Hn Hj F) as V. pose proof (key_var k n l1 (s :: l2) key' msg' j Hk' E Hn Hj F) as V'.
  rewrite E in T, Q. rewrite <- app_assoc, <- app_comm_cons in T, Q.
  destruct (split_block l1 s (l2 ++ [s_return_keys n]) _ _ Q (start_low' key msg key' msg' (eq_trans (proj1 Hk) (eq_sym (proj1 Hk'))) Lm) T) as [LE E1].
  subst s. change (leak (final (block l1) (start key msg)) e = leak (final (block l1) (start key' msg')) e) in E1.
  destruct (He (final (block l1) (start key msg))) as (l & E2 & M). destruct (He (final (block l1) (start key' msg'))) as (l' & E2' & M'). rewrite E2, E2' in E1. subst l'. rewrite M in M'. clear M E2 E2'.
  rewrite V, V' in M'. destruct (B j ltac:(lia)) as [B1 B2]. rewrite !field3 in M' by assumption.
  apply word_from; [assumption|assumption|lia|lia|]. pose proof (w_be_lt _ 3 B1 ltac:(lia)) as U1. pose proof (w_be_lt _ 3 B2 ltac:(lia)) as U2. cbv zeta in M'. destruct rot.
  - apply sub_indices_inj in M'; [|now apply rotr8_lt|now apply rotr8_lt]. now apply rotr8_inj in M'.
  - now apply sub_indices_inj in M'.
Qed.
End Setup.
Ltac others := repeat (constructor; [eexists; split; [reflexivity|vm_compute; discriminate]|]); constructor.
Definition before_return (s : list stmt) : list stmt := removelast s.
Lemma setup_128 key key' msg msg' : is_bytes 16 key -> is_bytes 16 key' -> length msg = length msg' -> trace st_keygen_128 (start key msg) = trace st_keygen_128 (start key' msg') -> key = key'.
Proof.
  intros Hk Hk' Lm T. apply (words_tell K128 key key' Hk Hk'). intros j Hj. cbn [subword_at].
  set (l := [Assign "key0" (xt_load 0 16)] ++ map (fun jr => Assign (key_name (fst jr)) (xt_keyexp_128 (snd jr) (Var (key_name (fst jr - 1)))))
             (combine (seq 1 10) [0x01000000; 0x02000000; 0x04000000; 0x08000000; 0x10000000; 0x20000000; 0x40000000; 0x80000000; 0x1b000000; 0x36000000])).
  destruct j as [|[|[|[|[|[|[|[|j]]]]]]]]; [..|exfalso; lia].
  all: match goal with |- XW _ _ _ (4 * ?j + 3) = _ => 
    eapply (setup_tells K128 key key' Hk Hk' (firstn (S j) l) (nth (S j) l Skip) (skipn (S (S j)) l) 11 j _ _ false msg msg' Lm);
      [reflexivity|reflexivity|lia|reflexivity|intros st; eexists; split; reflexivity|others|vm_compute; reflexivity|exact T] end.
Qed.
Lemma setup_256 key key' msg msg' : is_bytes 32 key -> is_bytes 32 key' -> length msg = length msg' -> trace st_keygen_256 (start key msg) = trace st_keygen_256 (start key' msg') -> key = key'.
Proof.
  intros Hk Hk' Lm T. apply (words_tell K256 key key' Hk Hk'). intros j Hj. cbn [subword_at]. replace (4 * j + 7)%nat with (4 * (S j) + 3)%nat by lia.
  set (l := [Assign "key0" (xt_load 0 16); Assign "key1" (xt_load 16 16)] ++
         map (fun jr => Assign (key_name (fst jr))
               (match snd jr with
                | Some rc => xt_keyexp_256_1 rc (Var (key_name (fst jr - 2))) (Var (key_name (fst jr - 1)))
                | None => xt_keyexp_256_2 (Var (key_name (fst jr - 2))) (Var (key_name (fst jr - 1))) end))
             (combine (seq 2 13) [Some 0x01000000; None; Some 0x02000000; None; Some 0x04000000; None; Some 0x08000000; None; Some 0x10000000; None; Some 0x20000000; None; Some 0x40000000])).
  destruct j as [|[|[|[|[|[|[|[|j]]]]]]]]; [..|exfalso; lia].
  all: match goal with |- XW _ _ _ (4 * ?j + 3) = _ => let rot := eval cbv in (Nat.even j) in
    eapply (setup_tells K256 key key' Hk Hk' (firstn (S j) l) (nth (S j) l Skip) (skipn (S (S j)) l) 15 j _ _ rot msg msg' Lm);
      [reflexivity|reflexivity|lia|reflexivity|intros st; eexists; split; reflexivity|others|vm_compute; reflexivity|exact T] end.
Qed.
(** AES-192: three round keys at a time. *)
Lemma part_tells r1 r2 j l st st' w w' : In j [0; 3; 6; 9]%nat -> holds6 st w -> holds6 st' w' -> low_equal st st' -> 
  trace (block (st_keys_192 r1 j ++ st_keyexp_192 r2 p_names k_names ++ l)) st = trace (block (st_keys_192 r1 j ++ st_keyexp_192 r2 p_names k_names ++ l)) st' ->
  let part := block (st_keys_192 r1 j ++ st_keyexp_192 r2 p_names k_names) in
  (v_5 w < 2 ^ 32 -> v_5 w' < 2 ^ 32 -> v_5 w = v_5 w') /\
  (let p := tb_keyexp_192 r1 w in let p' := tb_keyexp_192 r1 w' in v_5 p < 2 ^ 32 -> v_5 p' < 2 ^ 32 -> v_5 p = v_5 p') /\
  trace (block l) (final part st) = trace (block l) (final part st') /\ low_equal (final part st) (final part st').
Proof.
  intros Hj ((K0 & K1 & K2) & K3 & K4 & K5) ((K0' & K1' & K2') & K3' & K4' & K5') LE E part. rewrite app_assoc in E.
  assert (A : forall l1 s, trace (block (l1 ++ l)) s = trace (block l1) s ++ trace (block l) (final (block l1) s)).
  { induction l1 as [|t l1 IH]; intros s; [reflexivity|]. rewrite <- app_comm_cons, !trace_block_cons, IH, final_block_cons. apply app_assoc. }
  rewrite !A in E. fold part in E. assert (Q : quiet_stmt false part = true) by (subst part; destruct Hj as [<-|[<-|[<-|[<-|[]]]]]; reflexivity).
  destruct (low_step part st st' Q LE) as [L LE']. apply app_split in E as [E1 E2]; [|exact L].
  assert (T : forall s x, holds6 s x -> exists a b, trace part s = a ++ b /\ length a = 4%nat /\ map index_of a = sub_indices (v_5 x) /\ map index_of b = sub_indices (v_5 (tb_keyexp_192 r1 x))).
  { clear - Hj. intros s x ((K0 & K1 & K2) & K3 & K4 & K5). destruct x as [x0 x1 x2 x3 x4 x5]. cbn [v_0 v_1 v_2 v_3 v_4 v_5] in *. subst.
    exists (firstn 4 (trace part s)), (skipn 4 (trace part s)). split; [symmetry; apply firstn_skipn|]. subst part.
    destruct Hj as [<-|[<-|[<-|[<-|[]]]]]; (split; [reflexivity|]; split; reflexivity). }
  destruct (T st w) as (a & b & X & La & Xa & Xb); [repeat split; assumption|]. destruct (T st' w') as (a' & b' & X' & La' & Xa' & Xb'); [repeat split; assumption|].
  rewrite X, X' in E1. apply app_split in E1 as [<- <-]; [|congruence].
  split; [|split; [|split; [exact E2|exact LE']]].
  - intros U U'. apply sub_indices_inj; try assumption. congruence.
  - intros p p' U U'. apply sub_indices_inj; try assumption. unfold p, p'. congruence.
Qed.
(** The state after the six loads, and the words of each step of the expansion. *)
Definition loads_192 : list stmt := map (fun j => Assign (nth j k_names "") (xt_load (4 * j) 4)) (seq 0 6).
Lemma loads_run key msg : is_bytes 24 key ->
  holds6 (final (block loads_192) (start key msg)) (W6 (of_be (firstn 4 (skipn 0 key))) (of_be (firstn 4 (skipn 4 key))) (of_be (firstn 4 (skipn 8 key))) (of_be (firstn 4 (skipn 12 key)))
    (of_be (firstn 4 (skipn 16 key))) (of_be (firstn 4 (skipn 20 key)))).
Proof.
  intros H. assert (V : forall off st, (off + 4 <= 24)%nat -> arrs st "key" = key -> value st (xt_load off 4) = of_be (firstn 4 (skipn off key))).
  { intros off st Ho Hs. apply load_be_value; [assumption|]. now rewrite (proj1 H). }
  unfold loads_192. cbn [seq map app nth k_names Nat.add Nat.mul].
  run_step (of_be (firstn 4 (skipn 0 key))) ltac:(apply V; [lia|reflexivity]).
  run_step (of_be (firstn 4 (skipn 4 key))) ltac:(apply V; [lia|reflexivity]).
  run_step (of_be (firstn 4 (skipn 8 key))) ltac:(apply V; [lia|reflexivity]).
  run_step (of_be (firstn 4 (skipn 12 key))) ltac:(apply V; [lia|reflexivity]).
  run_step (of_be (firstn 4 (skipn 16 key))) ltac:(apply V; [lia|reflexivity]).
  run_step (of_be (firstn 4 (skipn 20 key))) ltac:(apply V; [lia|reflexivity]).
  repeat split.
Qed.
(** The i-th group of six words. *)
Fixpoint six (key : list N) (rcons : list N) : w6 :=
  match rcons with
  | [] => W6 (of_be (firstn 4 (skipn 0 key))) (of_be (firstn 4 (skipn 4 key))) (of_be (firstn 4 (skipn 8 key))) (of_be (firstn 4 (skipn 12 key))) (of_be (firstn 4 (skipn 16 key))) (of_be (firstn 4 (skipn 20 key)))
  | r :: l => tb_keyexp_192 r (six key l)
  end.
Definition rcons (i : nat) : list N := rev (firstn i [0x01000000; 0x02000000; 0x04000000; 0x08000000; 0x10000000; 0x20000000; 0x40000000; 0x80000000]).
Definition sixth (key : list N) (i : nat) : N := let r := nth ((6 * i + 5) / 4) (round_keys K192 key) [] in w_be r ((6 * i + 5) mod 4).
Lemma six_words key i : is_bytes 24 key -> (i < 8)%nat -> v_5 (six key (rcons i)) = sixth key i.
Proof.
  intros H Hi. pose proof (tb_key_192 key H) as E. unfold tb_keygen_192 in E. rewrite !load_ok in E by (apply H || (rewrite (proj1 H); lia)). cbn [bind] in E.
  set (a0 := of_be (firstn 4 (skipn 0 key))) in *.
  set (a1 := of_be (firstn 4 (skipn 4 key))) in *.
  set (a2 := of_be (firstn 4 (skipn 8 key))) in *.
  set (a3 := of_be (firstn 4 (skipn 12 key))) in *.
  set (a4 := of_be (firstn 4 (skipn 16 key))) in *.
  set (a5 := of_be (firstn 4 (skipn 20 key))) in *.
  set (w0 := W6 a0 a1 a2 a3 a4 a5) in *.
  cbv zeta in E.
  set (w1 := tb_keyexp_192 16777216 w0) in *.
  set (w2 := tb_keyexp_192 33554432 w1) in *.
  set (w3 := tb_keyexp_192 67108864 w2) in *.
  set (w4 := tb_keyexp_192 134217728 w3) in *.
  set (w5 := tb_keyexp_192 268435456 w4) in *.
  set (w6 := tb_keyexp_192 536870912 w5) in *.
  set (w7 := tb_keyexp_192 1073741824 w6) in *.
  set (w8 := tb_keyexp_192 2147483648 w7) in *.
  assert (S0 : six key (rcons 0) = w0) by reflexivity.
  assert (S1 : six key (rcons 1) = w1) by (change (six key (rcons 1)) with (tb_keyexp_192 16777216 (six key (rcons 0))); now rewrite S0).
  assert (S2 : six key (rcons 2) = w2) by (change (six key (rcons 2)) with (tb_keyexp_192 33554432 (six key (rcons 1))); now rewrite S1).
  assert (S3 : six key (rcons 3) = w3) by (change (six key (rcons 3)) with (tb_keyexp_192 67108864 (six key (rcons 2))); now rewrite S2).
  assert (S4 : six key (rcons 4) = w4) by (change (six key (rcons 4)) with (tb_keyexp_192 134217728 (six key (rcons 3))); now rewrite S3).
  assert (S5 : six key (rcons 5) = w5) by (change (six key (rcons 5)) with (tb_keyexp_192 268435456 (six key (rcons 4))); now rewrite S4).
  assert (S6 : six key (rcons 6) = w6) by (change (six key (rcons 6)) with (tb_keyexp_192 536870912 (six key (rcons 5))); now rewrite S5).
  assert (S7 : six key (rcons 7) = w7) by (change (six key (rcons 7)) with (tb_keyexp_192 1073741824 (six key (rcons 6))); now rewrite S6).
  apply Ret_eq in E. clearbody w0 w1 w2 w3 w4 w5 w6 w7 w8. pose proof (fun j => f_equal (fun l => nth j l (tb_of [])) E) as N. clear E.
  assert (Z : forall q t j, (6 * j + 5)%nat = (4 * q + t)%nat -> (t < 4)%nat -> sixth key j = w_be (nth q (round_keys K192 key) []) t).
  { intros q t j e Ht. unfold sixth. rewrite e. rewrite (Nat.mul_comm 4 q), Nat.div_add_l, Nat.div_small, Nat.add_0_r by lia. rewrite Nat.add_comm, Nat.mod_add, Nat.mod_small by lia. reflexivity. }
  generalize dependent (sixth key). intros f Z. generalize dependent (round_keys K192 key). intros RK N Z.
  destruct i as [|[|[|[|[|[|[|[|i]]]]]]]]; [..|exfalso; lia].
  - pose proof (N 1%nat) as X. cbv beta in X. rewrite map_nth in X. apply (f_equal w_1) in X. cbn [nth w_1] in X. rewrite S0, (Z 1%nat 1%nat 0%nat eq_refl ltac:(lia)). exact X.
  - pose proof (N 2%nat) as X. cbv beta in X. rewrite map_nth in X. apply (f_equal w_3) in X. cbn [nth w_3] in X. rewrite S1, (Z 2%nat 3%nat 1%nat eq_refl ltac:(lia)). exact X.
  - pose proof (N 4%nat) as X. cbv beta in X. rewrite map_nth in X. apply (f_equal w_1) in X. cbn [nth w_1] in X. rewrite S2, (Z 4%nat 1%nat 2%nat eq_refl ltac:(lia)). exact X.
  - pose proof (N 5%nat) as X. cbv beta in X. rewrite map_nth in X. apply (f_equal w_3) in X. cbn [nth w_3] in X. rewrite S3, (Z 5%nat 3%nat 3%nat eq_refl ltac:(lia)). exact X.
  - pose proof (N 7%nat) as X. cbv beta in X. rewrite map_nth in X. apply (f_equal w_1) in X. cbn [nth w_1] in X. rewrite S4, (Z 7%nat 1%nat 4%nat eq_refl ltac:(lia)). exact X.
  - pose proof (N 8%nat) as X. cbv beta in X. rewrite map_nth in X. apply (f_equal w_3) in X. cbn [nth w_3] in X. rewrite S5, (Z 8%nat 3%nat 5%nat eq_refl ltac:(lia)). exact X.
  - pose proof (N 10%nat) as X. cbv beta in X. rewrite map_nth in X. apply (f_equal w_1) in X. cbn [nth w_1] in X. rewrite S6, (Z 10%nat 1%nat 6%nat eq_refl ltac:(lia)). exact X.
  - pose proof (N 11%nat) as X. cbv beta in X. rewrite map_nth in X. apply (f_equal w_3) in X. cbn [nth w_3] in X. rewrite S7, (Z 11%nat 3%nat 7%nat eq_refl ltac:(lia)). exact X.
Qed.
Lemma sixth_lt key i : is_bytes 24 key -> (i < 8)%nat -> sixth key i < 2 ^ 32.
Proof.
  intros H Hi. unfold sixth. destruct (round_keys_good K192 key H) as [L F]. apply w_be_lt; [|apply Nat.mod_upper_bound; lia].
  apply nth_bytes16; [exact F|]. rewrite L. cbn [nr_of]. apply Nat.div_lt_upper_bound; lia.
Qed.
Lemma setup_192 key key' msg msg' : is_bytes 24 key -> is_bytes 24 key' -> length msg = length msg' -> trace st_keygen_192 (start key msg) = trace st_keygen_192 (start key' msg') -> key = key'.
Proof.
  intros H H' Lm T. pose proof (start_low' key msg key' msg' (eq_trans (proj1 H) (eq_sym (proj1 H'))) Lm) as LE.
  assert (A : forall l1 l s, trace (block (l1 ++ l)) s = trace (block l1) s ++ trace (block l) (final (block l1) s)).
  { induction l1 as [|t l1 IH]; intros l s; [reflexivity|]. rewrite <- app_comm_cons, !trace_block_cons, IH, final_block_cons. apply app_assoc. }
  unfold st_keygen_192 in T. fold loads_192 in T. rewrite !(A loads_192) in T.
  destruct (low_step (block loads_192) _ _ ltac:(vm_compute; reflexivity) LE) as [L0 LE0]. apply app_split in T as [_ T]; [|exact L0]. clear L0 LE.
  pose proof (loads_run key msg H) as S. pose proof (loads_run key' msg' H') as S'.
  set (st := final (block loads_192) (start key msg)) in *. set (st' := final (block loads_192) (start key' msg')) in *. clearbody st st'.
  assert (G : forall i, (i < 8)%nat -> sixth key i = sixth key' i).
  { assert (P : forall r1 r2 j i l s s', In j [0; 3; 6; 9]%nat -> (i < 7)%nat -> rcons (i + 1) = r1 :: rcons i -> rcons (i + 2) = r2 :: rcons (i + 1) ->
       holds6 s (six key (rcons i)) -> holds6 s' (six key' (rcons i)) -> low_equal s s' ->
       trace (block (st_keys_192 r1 j ++ st_keyexp_192 r2 p_names k_names ++ l)) s = trace (block (st_keys_192 r1 j ++ st_keyexp_192 r2 p_names k_names ++ l)) s' ->
       exists u u', sixth key i = sixth key' i /\ sixth key (i + 1) = sixth key' (i + 1) /\ trace (block l) u = trace (block l) u' /\ low_equal u u' /\
         holds6 u (six key (rcons (i + 2))) /\ holds6 u' (six key' (rcons (i + 2)))).
    { clear - H H'. intros r1 r2 j i l s s' Hj Hi R1 R2 S S' LE T. destruct (part_tells r1 r2 j l s s' _ _ Hj S S' LE T) as (X & Y & T' & LE').
      set (part := block (st_keys_192 r1 j ++ st_keyexp_192 r2 p_names k_names)) in *. exists (final part s), (final part s').
      pose proof (six_words key i H ltac:(lia)) as W. pose proof (six_words key' i H' ltac:(lia)) as W'. pose proof (six_words key (i + 1) H ltac:(lia)) as V. pose proof (six_words key' (i + 1) H' ltac:(lia)) as V'.
      rewrite R1 in V, V'. cbn [six] in V, V'. rewrite W, W' in X. cbv zeta in Y. rewrite V, V' in Y.
      split; [apply X; apply sixth_lt; (assumption || lia)|]. split; [apply Y; apply sixth_lt; (assumption || lia)|]. split; [exact T'|]. split; [exact LE'|].
      rewrite R2, R1. cbn [six].
      destruct (part_192 r1 r2 j s _ _ _ [] Hj S eq_refl eq_refl) as (q & Eq & Hq & _). destruct (part_192 r1 r2 j s' _ _ _ [] Hj S' eq_refl eq_refl) as (q' & Eq' & Hq' & _).
      rewrite app_nil_r in Eq, Eq'. rewrite block_nil in Eq, Eq'. fold part in Eq, Eq'. rewrite Eq, Eq'. split; assumption. }
    destruct (P _ _ 0%nat 0%nat _ st st' ltac:(cbn; tauto) ltac:(lia) eq_refl eq_refl S S' LE0 T) as (s1 & s1' & G0 & G1 & T1 & LE1 & S1 & S1'). clear T S S' LE0.
    destruct (P _ _ 3%nat 2%nat _ s1 s1' ltac:(cbn; tauto) ltac:(lia) eq_refl eq_refl S1 S1' LE1 T1) as (s2 & s2' & G2 & G3 & T2 & LE2 & S2 & S2'). clear T1 S1 S1' LE1.
    destruct (P _ _ 6%nat 4%nat _ s2 s2' ltac:(cbn; tauto) ltac:(lia) eq_refl eq_refl S2 S2' LE2 T2) as (s3 & s3' & G4 & G5 & T3 & LE3 & S3 & S3'). clear T2 S2 S2' LE2.
    destruct (P _ _ 9%nat 6%nat _ s3 s3' ltac:(cbn; tauto) ltac:(lia) eq_refl eq_refl S3 S3' LE3 T3) as (s4 & s4' & G6 & G7 & _). cbn [Nat.add] in *.
    intros i Hi. destruct i as [|[|[|[|[|[|[|[|i]]]]]]]]; try assumption. exfalso; lia. }
  apply (words_tell K192 key key' H H'). intros j Hj. cbn [subword_at]. pose proof (G j Hj) as X. unfold sixth in X.
  pose proof (Nat.div_mod (6 * j + 5) 4 ltac:(lia)) as D. pose proof (Nat.mod_upper_bound (6 * j + 5) 4 ltac:(lia)) as M. rewrite D.
  apply (word_from K192 key key'); try assumption. cbn [nr_of]. pose proof (Nat.div_lt_upper_bound (6 * j + 5) 4 13 ltac:(lia) ltac:(lia)). lia.
Qed.
(** Key set-up alone. *)
Lemma setup_reveals k key key' msg msg' : is_bytes (key_len k) key -> is_bytes (key_len k) key' -> length msg = length msg' ->
  trace (g_keygen table_engine k) (start key msg) = trace (g_keygen table_engine k) (start key' msg') -> key = key'.
Proof. destruct k; [apply setup_128|apply setup_192|apply setup_256]. Qed.
