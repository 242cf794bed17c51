(** The program of Model_LeakTable.v computes block encryption, and its trace determines the state of
    every round. *)
From Coq Require Import Lia Arith String.
From Coq Require Import List.
From Verif Require Import Word Interface Fips197 Spec_Api Spec_Leak Tables Model_Table Model_Leak Model_LeakTable.
From Verif Require Import Proof_Shape Proof_Word Proof_Fips Proof_Ok Proof_Sem Proof_Lib Proof_Reach Proof_Inst Proof_Table Proof_Leak Proof_LeakRun.
Open Scope string_scope.
Open Scope list_scope.
Open Scope N_scope.

Definition regs (st : state) : w4 := W4 (vars st "s0") (vars st "s1") (vars st "s2") (vars st "s3").
Definition rk_at (st : state) (i : nat) : w4 :=
  W4 (nth (4 * i) (arrs st "rk") 0) (nth (4 * i + 1) (arrs st "rk") 0) (nth (4 * i + 2) (arrs st "rk") 0) (nth (4 * i + 3) (arrs st "rk") 0).
(** Constant tables in place. *)
Record tables (st : state) : Prop := {
  T0 : arrs st "TE0" = TE0; T1' : arrs st "TE1" = TE1; T2' : arrs st "TE2" = TE2; T3 : arrs st "TE3" = TE3; T4' : arrs st "TE4" = TE4 }.

Lemma trace_seq s t st : trace (Seq s t) st = trace s st ++ trace t (final s st).
Proof. unfold trace, final. cbn [exec]. destruct (exec s st) as [a l]. cbn [fst snd]. destruct (exec t a). reflexivity. Qed.
Lemma trace_forS i a step n b st : trace (For i a step (S n) b) st =
  Branch true :: trace b (set_ctr st i a) ++ trace (For i (a + step) step n b) (final b (set_ctr st i a)).
Proof.
  unfold trace, final. cbn [exec]. destruct (exec b (set_ctr st i a)) as [st1 l1]. cbn [fst snd].
  match goal with |- snd (let (_, _) := ?x in _) = _ => now destruct x end.
Qed.

(** The indices of the table look-ups. *)
Definition is_table (a : string) : bool := existsb (String.eqb a) ["TE0"; "TE1"; "TE2"; "TE3"; "TE4"].
Definition lookups (l : list event) : list N :=
  flat_map (fun e => match e with Access a i => if is_table a then [i] else [] | _ => [] end) l.
Lemma lookups_app l m : lookups (l ++ m) = lookups l ++ lookups m.
Proof. apply flat_map_app. Qed.

Definition indices (w : w4) : list N :=
  [as_u8 (shr (w_0 w) 24); as_u8 (shr (w_1 w) 16); as_u8 (shr (w_2 w) 8); as_u8 (w_3 w);
   as_u8 (shr (w_1 w) 24); as_u8 (shr (w_2 w) 16); as_u8 (shr (w_3 w) 8); as_u8 (w_0 w);
   as_u8 (shr (w_2 w) 24); as_u8 (shr (w_3 w) 16); as_u8 (shr (w_0 w) 8); as_u8 (w_1 w);
   as_u8 (shr (w_3 w) 24); as_u8 (shr (w_0 w) 16); as_u8 (shr (w_1 w) 8); as_u8 (w_2 w)].

Lemma val_rk st i n j : value st i = N.of_nat n -> value st (x_rk i j) = nth (4 * n + N.to_nat j) (arrs st "rk") 0.
Proof.
  intros E. unfold x_rk. apply value_index. rewrite value_plus, value_lit. unfold value in *. cbn [Spec_Leak.val val2]. rewrite E. lia.
Qed.
Definition stable (i : exp) : Prop := forall st x v, value (set_var st x v) i = value st i.
Lemma stable_ctr x : stable (Ctr x). Proof. intros ? ? ?. reflexivity. Qed.
Lemma stable_lit n : stable (Lit n). Proof. intros ? ? ?. reflexivity. Qed.
(** One round. *)
Lemma lookups_cons_quiet l : (forall e, In e l -> match e with Access a _ => is_table a = false | _ => True end) -> lookups l = [].
Proof.
  induction l as [|e l IH]; intros H; [reflexivity|]. cbn [lookups flat_map]. fold (lookups l). rewrite IH by (intros; apply H; now right).
  specialize (H e (or_introl eq_refl)). destruct e; try reflexivity. now rewrite H.
Qed.
Section Round.
Context (i : exp) (st : state) (n : nat) (Hi : i = Ctr "i" \/ exists m, i = Lit m) (En : value st i = N.of_nat n).
Lemma rk_value j : value st (x_rk i j) = nth (4 * n + N.to_nat j) (arrs st "rk") 0.
Proof. now apply val_rk. Qed.
Lemma round_regs : tables st -> regs (final (s_round x_te i) st) = tb_enc (regs st) (rk_at st n) /\ arrs (final (s_round x_te i) st) = arrs st /\ ctrs (final (s_round x_te i) st) = ctrs st.
Proof.
  intros [E0 E1 E2 E3 E4]. split; [|split; destruct Hi as [->|[m ->]]; reflexivity].
  pose proof (rk_value 0) as R0. pose proof (rk_value 1) as R1. pose proof (rk_value 2) as R2. pose proof (rk_value 3) as R3.
  unfold rk_at. rewrite Nat.add_0_r in R0. change (N.to_nat 1) with 1%nat in R1. change (N.to_nat 2) with 2%nat in R2. change (N.to_nat 3) with 3%nat in R3.
  rewrite <- R0, <- R1, <- R2, <- R3. unfold tb_enc, te0, te1, te2, te3, lut. rewrite <- E0, <- E1, <- E2, <- E3.
  destruct Hi as [->|[m ->]]; reflexivity.
Qed.
Lemma last_regs : tables st -> regs (final (s_round x_te4 i) st) = tb_enc_last (regs st) (rk_at st n) /\ arrs (final (s_round x_te4 i) st) = arrs st.
Proof.
  intros [E0 E1 E2 E3 E4]. split; [|destruct Hi as [->|[m ->]]; reflexivity].
  pose proof (rk_value 0) as R0. pose proof (rk_value 1) as R1. pose proof (rk_value 2) as R2. pose proof (rk_value 3) as R3.
  unfold rk_at. rewrite Nat.add_0_r in R0. change (N.to_nat 1) with 1%nat in R1. change (N.to_nat 2) with 2%nat in R2. change (N.to_nat 3) with 3%nat in R3.
  rewrite <- R0, <- R1, <- R2, <- R3. unfold tb_enc_last, te4_0, te4_1, te4_2, te4_3, lut. rewrite <- E4.
  destruct Hi as [->|[m ->]]; reflexivity.
Qed.
Lemma round_lookups : lookups (trace (s_round x_te i) st) = indices (regs st).
Proof. destruct Hi as [->|[m ->]]; reflexivity. Qed.
End Round.

(** Key words. *)
Lemma key_words_nth rks j t : Forall (is_bytes 16) rks -> (j < length rks)%nat -> (t < 4)%nat ->
  nth (4 * j + t) (key_words rks) 0 = w_be (nth j rks []) t.
Proof.
  intros F. revert j. induction F as [|b rks Hb F IH]; intros j Hj Ht; [cbn in Hj; lia|].
  unfold key_words. cbn [map List.concat]. fold (key_words rks). destruct j as [|j].
  - rewrite app_nth1 by (rewrite map_length, chunks_length; lia). cbn [nth]. rewrite Nat.mul_0_r, Nat.add_0_l.
    do 4 (destruct t as [|t]; [unfold w_be; cbn [chunks map nth]; rewrite ?skipn_skipn'; reflexivity|]). lia.
  - rewrite app_nth2 by (rewrite map_length, chunks_length; lia). rewrite map_length, chunks_length. cbn [nth].
    replace (4 * S j + t - 4)%nat with (4 * j + t)%nat by lia. apply IH; [cbn in Hj; lia|assumption].
Qed.
Definition keyed_t (rks : list (list N)) (st : state) : Prop := arrs st "rk" = key_words rks.
Lemma rk_at_ok rks st j : Forall (is_bytes 16) rks -> keyed_t rks st -> (j < length rks)%nat -> rk_at st j = tb_of (nth j rks []).
Proof.
  intros F E Hj. unfold rk_at. rewrite E. rewrite <- (Nat.add_0_r (4 * j)) at 1. rewrite !key_words_nth by (assumption || lia). reflexivity.
Qed.
Lemma input_regs st p : arrs st "in" = p -> is_bytes 16 p -> regs (final t_input st) = tb_of p /\ arrs (final t_input st) = arrs st /\ lookups (trace t_input st) = [].
Proof.
  intros E H. split; [|split; reflexivity].
  transitivity (W4 (value st (x_load 0)) (value st (x_load 4)) (value st (x_load 8)) (value st (x_load 12))); [reflexivity|].
  unfold value, x_load. cbn [Spec_Leak.val val1 val2]. rewrite E. clear E. bytes_tac H. tb_unfold.
  cbn [N.add Pos.add Pos.succ N.to_nat Pos.to_nat Pos.iter_op Nat.add nth]. now rewrite !word_be by assumption.
Qed.
Lemma whiten_regs st rks x : Forall (is_bytes 16) rks -> (0 < length rks)%nat -> keyed_t rks st -> regs st = tb_of x -> is_bytes 16 x ->
  regs (final t_whiten st) = tb_of (map2 N.lxor x (nth 0 rks [])) /\ arrs (final t_whiten st) = arrs st /\ lookups (trace t_whiten st) = [].
Proof.
  intros F L K E Hx. split; [|split; reflexivity].
  transitivity (w4_map2 N.lxor (regs st) (rk_at st 0)); [reflexivity|]. rewrite E, (rk_at_ok rks) by assumption.
  apply tb_map2_ok; [assumption| |apply (of_ne_lxor true)]. rewrite Forall_forall in F. apply F, nth_In, L.
Qed.
(** Rounds. *)
Lemma nth_bytes16 rks j : Forall (is_bytes 16) rks -> (j < length rks)%nat -> is_bytes 16 (nth j rks []).
Proof. intros F H. rewrite Forall_forall in F. apply F, nth_In, H. Qed.
Lemma tables_arrs st st' : arrs st' = arrs st -> tables st -> tables st'.
Proof. intros E [A B C D G]. split; rewrite E; assumption. Qed.
Lemma round_step rks st j x : Forall (is_bytes 16) rks -> keyed_t rks st -> tables st -> regs st = tb_of x -> is_bytes 16 x -> (j < length rks)%nat ->
  let st' := final (s_round x_te (Ctr "i")) (set_ctr st "i" (N.of_nat j)) in
  regs st' = tb_of (spec_enc x (nth j rks [])) /\ arrs st' = arrs st /\
  lookups (trace (s_round x_te (Ctr "i")) (set_ctr st "i" (N.of_nat j))) = indices (tb_of x).
Proof.
  intros F K T E Hx Hj st'. destruct (round_regs (Ctr "i") (set_ctr st "i" (N.of_nat j)) j (or_introl eq_refl)) as (A & B & _).
  - reflexivity.
  - now apply (tables_arrs st).
  - unfold st'. rewrite A, B. split; [|split; [reflexivity|]].
    + change (regs (set_ctr st "i" (N.of_nat j))) with (regs st). change (rk_at (set_ctr st "i" (N.of_nat j)) j) with (rk_at st j).
      rewrite E, (rk_at_ok rks) by assumption. apply tb_enc_ok; [assumption|now apply nth_bytes16].
    + rewrite (round_lookups (Ctr "i") (set_ctr st "i" (N.of_nat j)) j (or_introl eq_refl) eq_refl). change (regs (set_ctr st "i" (N.of_nat j))) with (regs st). now rewrite E.
Qed.
Lemma rounds_run rks n : forall j st x, Forall (is_bytes 16) rks -> keyed_t rks st -> tables st -> regs st = tb_of x -> is_bytes 16 x -> (j + n <= length rks)%nat ->
  let st' := final (For "i" (N.of_nat j) 1 n (s_round x_te (Ctr "i"))) st in
  regs st' = tb_of (fold_left spec_enc (firstn n (skipn j rks)) x) /\ arrs st' = arrs st.
Proof.
  induction n as [|n IH]; intros j st x F K T E Hx Hj st'; [now split|]. unfold st'. rewrite final_forS.
  destruct (round_step rks st j x F K T E Hx ltac:(lia)) as (A & B & _).
  replace (N.of_nat j + 1) with (N.of_nat (S j)) by lia.
  destruct (IH (S j) (final (s_round x_te (Ctr "i")) (set_ctr st "i" (N.of_nat j))) (spec_enc x (nth j rks [])) F) as [C D].
  - unfold keyed_t. now rewrite B.
  - now apply (tables_arrs st).
  - exact A.
  - apply spec_enc_bop; [assumption|]. apply nth_bytes16; [assumption|lia].
  - lia.
  - rewrite C, D, B. split; [|reflexivity]. f_equal.
    rewrite <- (firstn_skipn j rks) at 2.
    assert (H : skipn j rks = nth j rks [] :: skipn (S j) rks).
    { clear - Hj. revert j Hj. induction rks as [|r rks IH]; intros j Hj; [cbn in Hj; lia|]. destruct j; [reflexivity|]. cbn in *. apply IH. lia. }
    rewrite (firstn_skipn j rks). rewrite H. reflexivity.
Qed.
Lemma output_t st x : regs st = tb_of x -> is_bytes 16 x -> arrs (final t_output st) "out" = x.
Proof.
  intros E Hx.
  transitivity (map (fun e => value st e) (map (fun e => Un (As 8) e)
     [Un (Shr 24) (Var "s0"); Un (Shr 16) (Var "s0"); Un (Shr 8) (Var "s0"); Var "s0"; Un (Shr 24) (Var "s1"); Un (Shr 16) (Var "s1"); Un (Shr 8) (Var "s1"); Var "s1";
      Un (Shr 24) (Var "s2"); Un (Shr 16) (Var "s2"); Un (Shr 8) (Var "s2"); Var "s2"; Un (Shr 24) (Var "s3"); Un (Shr 16) (Var "s3"); Un (Shr 8) (Var "s3"); Var "s3"])); [reflexivity|].
  unfold value. cbn [map Spec_Leak.val val1]. unfold regs in E. revert E. bytes_tac Hx. tb_unfold. intros E.
  assert (E0 := f_equal w_0 E). assert (E1 := f_equal w_1 E). assert (E2 := f_equal w_2 E). assert (E3 := f_equal w_3 E).
  cbn [w_0 w_1 w_2 w_3] in E0, E1, E2, E3. rewrite E0, E1, E2, E3. change (trunc 8) with as_u8. now rewrite !byte3, !byte2, !byte1, !byte0 by assumption.
Qed.
Lemma start_tables rks p : tables (start_table rks p) /\ keyed_t rks (start_table rks p) /\ arrs (start_table rks p) "in" = p.
Proof. repeat split. Qed.
Lemma table_run k rks p : good_keys k rks -> is_bytes 16 p ->
  arrs (final (table_encrypt k) (start_table rks p)) "out" = b_run None spec_enc spec_enc_last (nr_of k) rks p.
Proof.
  intros G Hp. destruct (good_first k rks G) as (F1 & Ne & F2). destruct G as [L F]. unfold table_encrypt. rewrite !final_block_cons, block_nil.
  destruct (start_tables rks p) as (T & K & I). set (st := start_table rks p) in *. clearbody st.
  destruct (input_regs st p I Hp) as (A1 & B1 & _). set (st1 := final t_input st) in *. clearbody st1.
  apply (tables_arrs st st1) in T; [|exact B1]. assert (K1 : keyed_t rks st1) by (unfold keyed_t; now rewrite B1).
  destruct (whiten_regs st1 rks p F ltac:(lia) K1 A1 Hp) as (A2 & B2 & _). set (st2 := final t_whiten st1) in *. clearbody st2.
  apply (tables_arrs st1 st2) in T; [|exact B2]. assert (K2 : keyed_t rks st2) by (unfold keyed_t; now rewrite B2).
  assert (X0 : is_bytes 16 (map2 N.lxor p (nth 0 rks []))) by (apply xor_bytes; [assumption|apply nth_bytes16; [assumption|lia]]).
  destruct (rounds_run rks (nr_of k - 1) 1 st2 _ F K2 T A2 X0) as (A3 & B3); [destruct k; cbn in *; lia|]. change (N.of_nat 1) with 1 in *.
  set (st3 := final (For _ _ _ _ _) st2) in *. clearbody st3.
  apply (tables_arrs st2 st3) in T; [|exact B3]. assert (K3 : keyed_t rks st3) by (unfold keyed_t; now rewrite B3).
  assert (X1 : is_bytes 16 (fold_left spec_enc (firstn (nr_of k - 1) (skipn 1 rks)) (map2 N.lxor p (nth 0 rks [])))).
  { apply foldg_bytes; [apply spec_enc_bop| |assumption]. apply Forall_firstn'. destruct rks; [constructor|]. now inversion F. }
  destruct (last_regs (Lit (N.of_nat (nr_of k))) st3 (nr_of k) (or_intror (ex_intro _ _ eq_refl)) eq_refl T) as (A4 & B4).
  rewrite (rk_at_ok rks) in A4 by (assumption || lia). rewrite A3, tb_enc_last_ok in A4 by (first [assumption|apply nth_bytes16; [assumption|lia]]).
  erewrite output_t; [|exact A4|].
  - unfold b_run, b_chain. destruct rks as [|k0 rks]; [cbn in L; lia|].
    assert (En : nr_of k = S (nr_of k - 1)) by (destruct k; reflexivity).
    replace (firstn (nr_of k) (k0 :: rks)) with (k0 :: firstn (nr_of k - 1) rks) by (rewrite En at 2; reflexivity). reflexivity.
  - apply spec_enc_last_bop; [assumption|]. apply nth_bytes16; [assumption|lia].
Qed.

(** ** What the trace gives away *)
Lemma indices_inj x y : is_bytes 16 x -> is_bytes 16 y -> indices (tb_of x) = indices (tb_of y) -> x = y.
Proof.
  intros Hx Hy. bytes_tac Hx. bytes_tac Hy. unfold indices. tb_unfold. rewrite !byte3, !byte2, !byte1, !byte0 by assumption.
  intros E. injection E. intros. subst. reflexivity.
Qed.
Lemma trace_block_cons s l st : trace (block (s :: l)) st = trace s st ++ trace (block l) (final s st).
Proof. apply trace_seq. Qed.
Lemma loop_lookups rks j n st x : Forall (is_bytes 16) rks -> keyed_t rks st -> tables st -> regs st = tb_of x -> is_bytes 16 x -> (j < length rks)%nat ->
  exists st', lookups (trace (For "i" (N.of_nat j) 1 (S n) (s_round x_te (Ctr "i"))) st) =
    indices (tb_of x) ++ lookups (trace (For "i" (N.of_nat (S j)) 1 n (s_round x_te (Ctr "i"))) st') /\
    regs st' = tb_of (spec_enc x (nth j rks [])) /\ keyed_t rks st' /\ tables st' /\ is_bytes 16 (spec_enc x (nth j rks [])).
Proof.
  intros F K T E Hx Hj. destruct (round_step rks st j x F K T E Hx Hj) as (A & B & C). rewrite trace_forS.
  replace (N.of_nat j + 1) with (N.of_nat (S j)) by lia.
  set (st1 := final _ _) in *. exists st1. change (lookups (Branch true :: ?l)) with (lookups l). rewrite lookups_app, C.
  split; [reflexivity|]. split; [exact A|]. split; [unfold keyed_t; now rewrite B|]. split; [now apply (tables_arrs st)|].
  apply spec_enc_bop; [assumption|now apply nth_bytes16].
Qed.
Lemma table_lookups k rks p : good_keys k rks -> is_bytes 16 p ->
  let x0 := map2 N.lxor p (nth 0 rks []) in
  exists rest, lookups (trace (table_encrypt k) (start_table rks p)) = indices (tb_of x0) ++ indices (tb_of (spec_enc x0 (nth 1 rks []))) ++ rest.
Proof.
  intros [L F] Hp x0. assert (L2 : (2 < length rks)%nat) by (rewrite L; destruct k; cbn; lia).
  assert (En : exists n, (nr_of k - 1 = S (S n))%nat) by (destruct k; cbn; eauto). destruct En as [n En].
  unfold table_encrypt. rewrite En. rewrite 3 trace_block_cons. rewrite !lookups_app.
  destruct (start_tables rks p) as (T & K & I). set (st := start_table rks p) in *. clearbody st.
  destruct (input_regs st p I Hp) as (A1 & B1 & C1). rewrite C1. set (st1 := final t_input st) in *. clearbody st1.
  apply (tables_arrs st st1) in T; [|exact B1]. assert (K1 : keyed_t rks st1) by (unfold keyed_t; now rewrite B1).
  destruct (whiten_regs st1 rks p F ltac:(lia) K1 A1 Hp) as (A2 & B2 & C2). rewrite C2. set (st2 := final t_whiten st1) in *. clearbody st2.
  apply (tables_arrs st1 st2) in T; [|exact B2]. assert (K2 : keyed_t rks st2) by (unfold keyed_t; now rewrite B2).
  assert (X0 : is_bytes 16 x0) by (apply xor_bytes; [assumption|apply nth_bytes16; [assumption|lia]]).
  destruct (loop_lookups rks 1 (S n) st2 x0 F K2 T A2 X0 ltac:(lia)) as (st3 & C3 & A3 & K3 & T3' & X1). change (N.of_nat 1) with 1 in C3. rewrite C3.
  destruct (loop_lookups rks 2 n st3 _ F K3 T3' A3 X1 ltac:(lia)) as (st4 & C4 & _). rewrite C4.
  cbn [app]. eexists. rewrite <- !app_assoc. reflexivity.
Qed.
Lemma app_inj16 (a b c d : list N) : length a = 16%nat -> length b = 16%nat -> a ++ c = b ++ d -> a = b /\ c = d.
Proof.
  intros La Lb. rewrite <- Lb in La. clear Lb. revert b La. induction a as [|u a IH]; intros [|v b] L E; try discriminate; [now split|].
  cbn [app] in E. injection E as -> E. injection L as L. destruct (IH b L E) as [-> ->]. now split.
Qed.
Lemma xor_cancel x a b : is_bytes 16 x -> is_bytes 16 a -> is_bytes 16 b -> map2 N.lxor x a = map2 N.lxor x b -> a = b.
Proof.
  intros Hx Ha Hb E. apply (f_equal (map2 N.lxor x)) in E.
  assert (G : forall c, is_bytes 16 c -> map2 N.lxor x (map2 N.lxor x c) = c).
  { intros c Hc. clear - Hx Hc. destruct Hx as [Lx _]. destruct Hc as [Lc _]. rewrite <- Lc in Lx. clear Lc. revert c Lx.
    induction x as [|u x IH]; intros [|v c] L; try discriminate; [reflexivity|]. cbn [map2]. rewrite <- N.lxor_assoc, N.lxor_nilpotent, N.lxor_0_l. f_equal. apply IH. now injection L. }
  now rewrite !G in E.
Qed.
(** One known block: equal traces only for equal first two round keys. *)
Lemma table_leak k rks rks' p : good_keys k rks -> good_keys k rks' -> is_bytes 16 p ->
  trace (table_encrypt k) (start_table rks p) = trace (table_encrypt k) (start_table rks' p) ->
  nth 0 rks [] = nth 0 rks' [] /\ nth 1 rks [] = nth 1 rks' [].
Proof.
  intros G G' Hp E. destruct (table_lookups k rks p G Hp) as [r H]. destruct (table_lookups k rks' p G' Hp) as [r' H']. cbv zeta in H, H'. rewrite E, H' in H. clear E H'.
  assert (B : forall j, (j <= nr_of k)%nat -> is_bytes 16 (nth j rks []) /\ is_bytes 16 (nth j rks' [])).
  { intros j Hj. destruct G as [L F], G' as [L' F']. split; apply nth_bytes16; try assumption; lia. }
  destruct (B 0%nat) as [B0 B0']; [lia|]. destruct (B 1%nat) as [B1 B1']; [destruct k; cbn; lia|].
  apply app_inj16 in H as [H1 H]; [|reflexivity|reflexivity]. apply app_inj16 in H as [H2 _]; [|reflexivity|reflexivity].
  apply indices_inj in H1; [|now apply xor_bytes|now apply xor_bytes]. pose proof (xor_cancel p _ _ Hp B0' B0 H1) as E0.
  split; [now symmetry|]. rewrite E0 in H2. assert (X : is_bytes 16 (map2 N.lxor p (nth 0 rks []))) by now apply xor_bytes.
  apply indices_inj in H2; [|now apply spec_enc_bop|now apply spec_enc_bop]. unfold spec_enc, add_round_key in H2. symmetry. revert H2. apply xor_cancel; [|assumption|assumption].
  apply mix_columns_bytes, sub_bytes_bytes, shift_rows_bytes. exact X.
Qed.
