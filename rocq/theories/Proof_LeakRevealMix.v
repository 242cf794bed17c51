(** The table look-ups of mixing, of key conversion and of single rounds with the default software backend (Model_LeakSoft.v). *)
From Coq Require Import Lia Arith String.
From Coq Require Import List.
From Verif Require Import Word Interface Fips197 Spec_Api Spec_Leak Model_Table Model_Leak Model_LeakAccel Model_LeakSoft Model_LeakBlock.
From Verif Require Import Proof_Shape Proof_Word Proof_Fips Proof_Ok Proof_Sem Proof_Lib Proof_Lanes Proof_Wide Proof_Table Proof_Inst Proof_Cipher Proof_Leak Proof_LeakRun Proof_LeakEngine Proof_LeakSoft Proof_LeakTable Proof_LeakBlock Proof_LeakReveal.
Open Scope string_scope.
Open Scope list_scope.
Open Scope N_scope.

(** ** Mixing one block *)
Fixpoint evens {A} (l : list A) : list A := match l with a :: _ :: l => a :: evens l | _ => [] end.
Definition indices_mix (w : w4) : list N :=
  [as_u8 (shr (w_0 w) 24); as_u8 (shr (w_0 w) 16); as_u8 (shr (w_0 w) 8); as_u8 (w_0 w);
   as_u8 (shr (w_1 w) 24); as_u8 (shr (w_1 w) 16); as_u8 (shr (w_1 w) 8); as_u8 (w_1 w);
   as_u8 (shr (w_2 w) 24); as_u8 (shr (w_2 w) 16); as_u8 (shr (w_2 w) 8); as_u8 (w_2 w);
   as_u8 (shr (w_3 w) 24); as_u8 (shr (w_3 w) 16); as_u8 (shr (w_3 w) 8); as_u8 (w_3 w)].
Lemma indices_mix_inj x y : is_bytes 16 x -> is_bytes 16 y -> indices_mix (tb_of x) = indices_mix (tb_of y) -> x = y.
Proof.
  intros Hx Hy. bytes_tac Hx. bytes_tac Hy. unfold indices_mix. tb_unfold. rewrite !byte3, !byte2, !byte1, !byte0 by assumption.
  intros E. injection E. intros. subst. reflexivity.
Qed.
Definition tells1 (f : exp -> exp) : Prop := forall st st' e X X', is_bytes 16 X -> is_bytes 16 X' -> value st e = of_be X -> value st' e = of_be X' ->
  length (leak st e) = length (leak st' e) -> leak st (f e) = leak st' (f e) -> X = X'.
Lemma tells1_by f : (forall st e, exists l, leak st (f e) = leak st e ++ l /\ evens (map index_of l) = indices_mix (unpkb (value st e))) -> tells1 f.
Proof.
  intros H st st' e X X' B B' V V' L E. destruct (H st e) as (l & E1 & M). destruct (H st' e) as (l' & E1' & M'). rewrite E1, E1' in E.
  apply app_split in E as [_ ->]; [|exact L]. apply indices_mix_inj; try assumption. rewrite V, unpkb_be in M by assumption. rewrite V', unpkb_be in M' by assumption. congruence.
Qed.
Lemma tells_mc : tells1 (g_mc table_engine).
Proof. apply tells1_by. intros st e. eexists. split; [reflexivity|]. reflexivity. Qed.
Lemma tells_imc : tells1 (g_imc table_engine).
Proof. apply tells1_by. intros st e. eexists. split; [reflexivity|]. reflexivity. Qed.

(** ** Key conversion: every round key but the first and the last is mixed *)
Lemma seen_store a i e st : trace (Store a i e) st = leak st i ++ leak st e ++ [Access a (value st i)]. Proof. reflexivity. Qed.
Lemma mix_loop f src dst c n : tells1 f -> (forall e, quiet false (f e) = quiet false e) -> src <> dst -> forall a st st' rks rks',
  Forall (is_bytes 16) rks -> Forall (is_bytes 16) rks' -> (c < length rks)%nat -> (c < length rks')%nat -> N.of_nat c < 2 ^ 64 -> (a + n <= c)%nat ->
  arrs st src = map of_be rks -> arrs st' src = map of_be rks' -> low_equal st st' ->
  let loop := For "i" (N.of_nat a) 1 n (Store dst (Ctr "i") (f (Index src (Bin (WrappingSub 64) (Lit (N.of_nat c)) (Ctr "i"))))) in
  trace loop st = trace loop st' -> forall j, (j < n)%nat -> nth (c - (a + j)) rks [] = nth (c - (a + j)) rks' [].
Proof.
  intros T Qf Ne. induction n as [|n IH]; intros a st st' rks rks' F F' L L' C Ha A A' LE loop E j Hj; [lia|]. subst loop.
  set (body := Store dst (Ctr "i") (f (Index src (Bin (WrappingSub 64) (Lit (N.of_nat c)) (Ctr "i"))))) in *.
  assert (Qb : quiet_stmt false body = true) by (unfold body; cbn [quiet_stmt]; rewrite Qf; reflexivity).
  destruct (split_for "i" (N.of_nat a) 1 n body st st' Qb LE E) as (E1 & E2 & LE2).
  assert (V : forall s rks, (c < length rks)%nat -> arrs s src = map of_be rks ->
    value (set_ctr s "i" (N.of_nat a)) (Index src (Bin (WrappingSub 64) (Lit (N.of_nat c)) (Ctr "i"))) = of_be (nth (c - a) rks [])).
  { clear - C Ha. intros s rks L A. rewrite (value_index _ _ _ (c - a)%nat).
    - cbn [set_ctr arrs]. rewrite A. rewrite (nth_indep _ 0 (of_be [])) by (rewrite map_length; lia). apply map_nth.
    - unfold value. rewrite val_bin. cbn [val2]. change (val _ _ _ (Lit (N.of_nat c))) with (N.of_nat c).
      change (val _ _ _ (Ctr "i")) with (N.of_nat a). unfold wrapping_sub.
      replace (N.of_nat c + 2 ^ 64 - N.of_nat a) with (N.of_nat (c - a) + 1 * 2 ^ 64) by lia. rewrite N.mod_add by discriminate. apply N.mod_small. lia. }
  assert (H0 : nth (c - a) rks [] = nth (c - a) rks' []).
  { unfold body in E1. rewrite !seen_store in E1. cbn [leak] in E1.
    assert (L0 : length (leak (set_ctr st "i" (N.of_nat a)) (Ctr "i")) = length (leak (set_ctr st' "i" (N.of_nat a)) (Ctr "i"))) by reflexivity.
    apply app_split in E1 as [_ E1]; [|exact L0]. apply app_inj_tail in E1 as [E1 _].
    refine (T _ _ _ _ _ _ _ (V st rks L A) (V st' rks' L' A') _ E1); try (apply nth_bytes16; [assumption|lia]). reflexivity. }
  destruct j as [|j]; [now rewrite Nat.add_0_r|]. replace (N.of_nat a + 1) with (N.of_nat (S a)) in E2 by lia.
  replace (a + S j)%nat with (S a + j)%nat by lia. refine (IH (S a) _ _ rks rks' F F' L L' C ltac:(lia) _ _ LE2 E2 j ltac:(lia)).
  - unfold body. rewrite final_store. cbn [set_arr set_ctr arrs]. rewrite upd_other by congruence. exact A.
  - unfold body. rewrite final_store. cbn [set_arr set_ctr arrs]. rewrite upd_other by congruence. exact A'.
Qed.
Lemma swap_tells f src dst k rks rks' st st' : tells1 f -> (forall e, quiet false (f e) = quiet false e) -> src <> dst -> good_keys k rks -> good_keys k rks' ->
  arrs st src = map of_be rks -> arrs st' src = map of_be rks' -> low_equal st st' ->
  trace (s_swap_keys f src dst (nr_of k + 1)) st = trace (s_swap_keys f src dst (nr_of k + 1)) st' ->
  forall j, (0 < j < nr_of k)%nat -> nth j rks [] = nth j rks' [].
Proof.
  intros T Qf Ne [L F] [L' F'] A A' LE E j Hj. unfold s_swap_keys in E.
  set (z := Zeroed dst (nr_of k + 1)) in *. set (s0 := Store dst (Lit 0) _) in *. set (loop := For "i" 1 1 _ _) in *. set (s1 := Store dst (Lit (N.of_nat _)) _) in *.
  apply (split_seq z (block [s0; loop; s1])) in E as (_ & E & LE1); [|reflexivity|exact LE]. clear LE.
  apply (split_seq s0 (block [loop; s1])) in E as (_ & E & LE2); [|reflexivity|exact LE1]. clear LE1.
  apply (split_seq loop (block [s1])) in E as (E & _ & _); [|unfold loop; cbn [quiet_stmt]; rewrite Qf; reflexivity|exact LE2].
  assert (Z : forall s, arrs (final s0 (final z s)) src = arrs s src).
  { intros s. unfold s0, z, final. cbn [exec fst set_arr arrs]. rewrite !upd_other by congruence. reflexivity. }
  pose proof (mix_loop f src dst (nr_of k + 1 - 1) (nr_of k + 1 - 1 - 1) T Qf Ne 1 _ _ rks rks' F F' ltac:(lia) ltac:(lia) ltac:(destruct k; reflexivity) ltac:(destruct k; cbn; lia)
    (eq_trans (Z st) A) (eq_trans (Z st') A') LE2 E (nr_of k - j - 1)%nat ltac:(lia)) as X.
  replace (nr_of k + 1 - 1 - (1 + (nr_of k - j - 1)))%nat with j in X by lia. exact X.
Qed.

(** ** One operation on blocks: a round shows its first operand and nothing else, mixing shows its operand *)
Definition shows (f : exp -> exp -> exp) : Prop := exists (L : N -> list event) (idx : w4 -> list N),
  (forall st x k, leak st (f (Var x) (Var k)) = L (vars st x)) /\ (forall v, length (L v) = 16%nat) /\ (forall v, map index_of (L v) = idx (unpkb v)) /\
  (forall x y, is_bytes 16 x -> is_bytes 16 y -> idx (tb_of x) = idx (tb_of y) -> x = y).
Ltac show f idx := exists (fun v => leak (set_var (start [] []) "x" v) (f (Var "x") (Lit 0))), idx; split; [intros st x k; reflexivity|]; split; [intros v; reflexivity|]; split; [intros v; reflexivity|].
Lemma shows_rounds f : In f [g_enc; g_enc_last; g_dec; g_dec_last] -> shows (f table_engine 1%nat).
Proof.
  intros [<-|[<-|[<-|[<-|[]]]]].
  - show (g_enc table_engine 1%nat) indices. exact indices_inj.
  - show (g_enc_last table_engine 1%nat) indices. exact indices_inj.
  - show (g_dec table_engine 1%nat) indices_back. exact indices_back_inj.
  - show (g_dec_last table_engine 1%nat) indices_back. exact indices_back_inj.
Qed.
Lemma pairs_trace f (L : N -> list event) (l : list (string * string)) : (forall st x k, leak st (f (Var x) (Var k)) = L (vars st x)) -> NoDup (map fst l) -> forall st,
  trace (block (map (fun xk => Assign (fst xk) (f (Var (fst xk)) (Var (snd xk)))) l)) st = concat (map (fun xk => L (vars st (fst xk))) l).
Proof.
  intros H. induction l as [|[x k] l IH]; intros Nd st; [reflexivity|]. inversion Nd as [|y l' Hx Nd' Eq]; subst. cbn [map fst snd concat].
  rewrite trace_block_cons, IH by assumption. f_equal; [apply H|]. f_equal. apply map_ext_in. intros [y q] Hy. cbn [fst]. f_equal. rewrite final_assign. cbn [set_var vars].
  apply upd_other. intros ->. apply Hx. apply in_map_iff. now exists (y, q).
Qed.
Lemma concat_same {A} (l : list nat) (u v : nat -> list A) w : (forall j, length (u j) = w /\ length (v j) = w) -> concat (map u l) = concat (map v l) -> forall j, In j l -> u j = v j.
Proof.
  intros H. induction l as [|i l IH]; intros E j Hj; [destruct Hj|]. cbn [map concat] in E. apply app_split in E as [E1 E2]; [|destruct (H i); congruence].
  destruct Hj as [<-|Hj]; [exact E1|now apply IH].
Qed.
Lemma public_same s st st' : quiet_stmt true s = true -> low_equal st st' -> trace s st = trace s st' /\ low_equal (final s st) (final s st').
Proof. intros Q LE. destruct (exec_low true s Q st st' LE) as [T LE']. rewrite !veil_true in T. split; assumption. Qed.
Lemma only_vars {A} (e : A -> exp) (name : A -> string) (l : list A) : forall st,
  arrs (final (block (map (fun a => Assign (name a) (e a)) l)) st) = arrs st /\ ctrs (final (block (map (fun a => Assign (name a) (e a)) l)) st) = ctrs st.
Proof.
  induction l as [|a l IH]; intros st; [split; reflexivity|]. cbn [map]. rewrite final_block_cons. destruct (IH (final (Assign (name a) (e a)) st)) as [-> ->]. split; reflexivity.
Qed.
Lemma binary_shows f m a b a' b' : shows f -> (m <= 4)%nat -> is_bytes (16 * m) a -> is_bytes (16 * m) b -> is_bytes (16 * m) a' -> is_bytes (16 * m) b' ->
  let prog := binary_program true 1 m f in trace prog (start b a) = trace prog (start b' a') <-> a = a'.
Proof.
  intros (L & idx & HL & Ll & Li & J) Hm Ha Hb Ha' Hb' prog. subst prog. unfold binary_program. change (w 1) with (16 * 1)%nat.
  assert (LE : low_equal (start b a) (start b' a')).
  { split; [reflexivity|]. intros x. cbn. destruct Ha as [La _], Ha' as [La' _], Hb as [Lb _], Hb' as [Lb' _]. destruct (String.eqb x "key"); [congruence|]. destruct (String.eqb x "in"); [congruence|reflexivity]. }
  destruct (public_same (s_input true (16 * 1) m) _ _ ltac:(clear - Hm; do 5 (destruct m as [|m]; [reflexivity|]); lia) LE) as [T1 LE1].
  destruct (input_xs true 1 m Hm a (start b a) eq_refl (proj1 Ha)) as [A1 X1]. destruct (input_xs true 1 m Hm a' (start b' a') eq_refl (proj1 Ha')) as [A1' X1'].
  rewrite !(trace_block_cons (s_input true (16 * 1) m)), T1.
  set (s1 := final (s_input true (16 * 1) m) (start b a)) in *. set (s1' := final (s_input true (16 * 1) m) (start b' a')) in *. clearbody s1 s1'.
  destruct (operand_ks true 1 m Hm b (Lit 0) 0 s1 a) as (_ & _ & X2 & _); [rewrite A1; reflexivity|reflexivity|destruct Hb as [Lb _]; rewrite Lb; lia|exact X1|].
  destruct (operand_ks true 1 m Hm b' (Lit 0) 0 s1' a') as (_ & _ & X2' & _); [rewrite A1'; reflexivity|reflexivity|destruct Hb' as [Lb _]; rewrite Lb; lia|exact X1'|].
  destruct (public_same (s_operand true (16 * 1) m (Lit 0)) _ _ ltac:(clear - Hm; do 5 (destruct m as [|m]; [reflexivity|]); lia) LE1) as [T2 LE2].
  rewrite !(trace_block_cons (s_operand true (16 * 1) m (Lit 0))), T2.
  set (s2 := final (s_operand true (16 * 1) m (Lit 0)) s1) in *. set (s2' := final (s_operand true (16 * 1) m (Lit 0)) s1') in *. clearbody s2 s2'.
  rewrite !(trace_block_cons (s_pairs m f)).
  assert (P : forall s v, xs true 1 m s v -> trace (s_pairs m f) s = concat (map (fun j => L (of_be (piece 16 j v))) (seq 0 m))).
  { intros s v X. unfold s_pairs. rewrite (pairs_trace f L) by (exact HL || (clear - Hm; do 5 (destruct m as [|m]; [repeat (constructor; [cbn; intuition discriminate|]); constructor|]); lia)).
    rewrite pairs_are, map_map by assumption. f_equal. apply map_ext_in. intros j Hj. apply in_seq in Hj. cbn [fst]. rewrite X by lia. reflexivity. }
  rewrite (P _ _ X2), (P _ _ X2'). split.
  - intros E. apply app_inv_head in E. apply app_inv_head in E. apply app_split in E as [E _].
    + assert (Q : forall j, In j (seq 0 m) -> L (of_be (piece 16 j a)) = L (of_be (piece 16 j a'))) by (apply (concat_same _ _ _ 16%nat); [intros j; split; apply Ll|exact E]).
      rewrite <- (pieces_concat 16 m a) by apply Ha. rewrite <- (pieces_concat 16 m a') by apply Ha'. f_equal. apply map_ext_in. intros j Hj.
      pose proof (f_equal (map index_of) (Q j Hj)) as X. rewrite !Li in X. apply in_seq in Hj. rewrite !unpkb_be in X by (apply (piece_bytes 16 m); [assumption|lia]).
      apply J in X; [exact X|apply (piece_bytes 16 m); [assumption|lia]|apply (piece_bytes 16 m); [assumption|lia]].
    + clear - Ll. induction (seq 0 m) as [|j l IH]; [reflexivity|]. cbn [map concat]. rewrite !app_length, !Ll, IH. reflexivity.
  - intros <-. f_equal. f_equal. f_equal.
    apply (public_same (block [s_output true (16 * 1) m])); [clear - Hm; do 5 (destruct m as [|m]; [reflexivity|]); lia|].
    unfold s_pairs. destruct (only_vars (fun xk => f (Var (fst xk)) (Var (snd xk))) fst (combine (firstn m lane_names) (firstn m key_names)) s2) as [Q1 Q2].
    destruct (only_vars (fun xk => f (Var (fst xk)) (Var (snd xk))) fst (combine (firstn m lane_names) (firstn m key_names)) s2') as [Q1' Q2'].
    destruct LE2 as [C2 L2]. split; intros x; rewrite ?Q1, ?Q2, ?Q1', ?Q2'; auto.
Qed.
Lemma unary_shows f a a' : tells1 f -> (forall e, quiet false (f e) = quiet false e) -> is_bytes 16 a -> is_bytes 16 a' ->
  let prog := unary_program true 1 1 f in trace prog (start [] a) = trace prog (start [] a') <-> a = a'.
Proof.
  intros T Qf Ha Ha' prog. split; [|now intros ->]. subst prog. unfold unary_program. change (w 1) with 16%nat. intros E.
  assert (LE : low_equal (start [] a) (start [] a')).
  { split; [reflexivity|]. intros x. cbn. destruct Ha as [La _], Ha' as [La' _]. destruct (String.eqb x "key"); [congruence|]. destruct (String.eqb x "in"); [congruence|reflexivity]. }
  apply (split_seq (s_input true 16 1) (block [s_lanes 1 (fun x => f (Var x)); s_output true 16 1])) in E as (_ & E & LE1); [|reflexivity|exact LE].
  apply (split_seq (s_lanes 1 (fun x => f (Var x))) (block [s_output true 16 1])) in E as (E & _ & _); [|unfold s_lanes; apply quiet_block; intros x; rewrite Qf; reflexivity|exact LE1].
  destruct (input_xs true 1 1 ltac:(lia) a (start [] a) eq_refl (proj1 Ha)) as [_ X1]. destruct (input_xs true 1 1 ltac:(lia) a' (start [] a') eq_refl (proj1 Ha')) as [_ X1'].
  change (16 * 1)%nat with 16%nat in X1, X1'. pose proof (X1 0%nat ltac:(lia)) as V. pose proof (X1' 0%nat ltac:(lia)) as V'.
  assert (Pz : forall v, is_bytes 16 v -> piece (16 * 1) 0 v = v) by (intros v [Lv _]; change (piece (16 * 1) 0 v) with (firstn 16 v); apply firstn_all2; lia).
  rewrite Pz in V, V' by assumption.
  set (s1 := final (s_input true 16 1) (start [] a)) in *. set (s1' := final (s_input true 16 1) (start [] a')) in *. clearbody s1 s1'.
  apply (split_seq (Assign "x0" (f (Var "x0"))) (block [])) in E as (E & _ & _); [|cbn [quiet_stmt]; rewrite Qf; reflexivity|exact LE1].
  exact (T s1 s1' (Var "x0") a a' Ha Ha' V V' eq_refl E).
Qed.
Lemma quiet_mixes f : In f [g_mc; g_imc] -> forall e, quiet false (f table_engine e) = quiet false e.
Proof. intros [<-|[<-|[]]] e; cbn; now rewrite ?andb_true_r. Qed.
