(** What the table look-ups of the default software backend give away: the state before every round of every block, hence the key and
    the message. *)
From Coq Require Import Lia Arith String.
From Coq Require Import List.
From Verif Require Import Word Interface Fips197 Spec_Api Spec_Leak Model_Table Model_Leak Model_LeakAccel Model_LeakSoft.
From Verif Require Import Proof_Shape Proof_Word Proof_Fips Proof_Ok Proof_Sem Proof_Lib Proof_Lanes Proof_Wide Proof_X86 Proof_Bitslice Proof_Table Proof_KeySpec Proof_Inst Proof_KeyTable Proof_Cipher Proof_Leak Proof_LeakRun Proof_LeakEngine Proof_LeakSoft Proof_LeakTable.
Open Scope string_scope.
Open Scope list_scope.
Open Scope N_scope.

(** ** Equal traces of a sequence are equal traces of its parts *)
Lemma app_split {A} (a b c d : list A) : length a = length b -> a ++ c = b ++ d -> a = b /\ c = d.
Proof.
  revert b. induction a as [|u a IH]; intros [|v b] L E; try discriminate; [now split|].
  cbn [app] in E. injection E as -> E. injection L as L. destruct (IH b L E) as [-> ->]. now split.
Qed.
Lemma low_step s a b : quiet_stmt false s = true -> low_equal a b -> length (trace s a) = length (trace s b) /\ low_equal (final s a) (final s b).
Proof.
  intros Q H. destruct (exec_low false s Q a b H) as [T L]. split; [|exact L]. apply (f_equal (@length _)) in T. rewrite !map_length in T. exact T.
Qed.
Lemma split_seq s t a b : quiet_stmt false s = true -> low_equal a b -> trace (Seq s t) a = trace (Seq s t) b ->
  trace s a = trace s b /\ trace t (final s a) = trace t (final s b) /\ low_equal (final s a) (final s b).
Proof.
  intros Q H E. rewrite !trace_seq in E. destruct (low_step s a b Q H) as [L H']. apply app_split in E as [E1 E2]; [|exact L]. auto.
Qed.
Lemma split_for i a step n body u v : quiet_stmt false body = true -> low_equal u v ->
  trace (For i a step (S n) body) u = trace (For i a step (S n) body) v ->
  let u1 := final body (set_ctr u i a) in let v1 := final body (set_ctr v i a) in
  trace body (set_ctr u i a) = trace body (set_ctr v i a) /\
  trace (For i (a + step) step n body) u1 = trace (For i (a + step) step n body) v1 /\ low_equal u1 v1.
Proof.
  intros Q H E. cbn zeta. rewrite !trace_forS in E. injection E as E. pose proof (low_set_ctr u v i a H) as H1.
  destruct (low_step body _ _ Q H1) as [L H']. apply app_split in E as [E1 E2]; [|exact L]. auto.
Qed.
Lemma trace_if_taken c s t st : value st c <> 0 -> trace (If c s t) st = leak st c ++ Branch true :: trace s st.
Proof. intros Hc. unfold trace. cbn [exec]. destruct (N.eqb_spec (value st c) 0); [contradiction|]. cbn [negb]. now destruct (exec s st). Qed.
Lemma final_if_taken c s t st : value st c <> 0 -> final (If c s t) st = final s st.
Proof. intros Hc. unfold final. cbn [exec]. destruct (N.eqb_spec (value st c) 0); [contradiction|]. cbn [negb]. now destruct (exec s st). Qed.

Lemma quiet_block (f : string -> exp) l : (forall x, quiet false (f x) = true) -> quiet_stmt false (block (map (fun x => Assign x (f x)) l)) = true.
Proof.
  intros H. induction l as [|y l IH]; [reflexivity|]. change (quiet false (f y) && quiet_stmt false (block (map (fun x => Assign x (f x)) l)) = true)%bool. now rewrite H, IH.
Qed.

(** ** One round of each lane *)
Definition held (l : list string) (X : string -> list N) (st : state) : Prop := forall x, In x l -> is_bytes 16 (X x) /\ vars st x = of_be (X x).
(** The trace of [e x k] tells the block in [x]. *)
Definition tells (e : exp -> exp -> exp) : Prop := forall st st' x k X X', is_bytes 16 X -> is_bytes 16 X' -> vars st x = of_be X -> vars st' x = of_be X' ->
  length (leak st k) = length (leak st' k) -> leak st (e (Var x) k) = leak st' (e (Var x) k) -> X = X'.
Lemma lanes_tell (e : exp -> exp -> exp) k l : tells e -> quiet false (e (Var "") k) = true -> (forall x, quiet false (e (Var x) k) = quiet false (e (Var "") k)) -> NoDup l ->
  quiet false k = true ->
  forall st st' X X', low_equal st st' -> held l X st -> held l X' st' ->
  trace (block (map (fun x => Assign x (e (Var x) k)) l)) st = trace (block (map (fun x => Assign x (e (Var x) k)) l)) st' ->
  forall x, In x l -> X x = X' x.
Proof.
  intros HT Q Qx Nd Qk. induction Nd as [|y l Hy Nd IH]; intros st st' X X' LE H H' E x Hx; [destruct Hx|].
  cbn [map] in E. apply (split_seq (Assign y (e (Var y) k))) in E as (E1 & E2 & LE'); [|cbn [quiet_stmt]; now rewrite Qx|exact LE].
  destruct (H y (or_introl eq_refl)) as [B V]. destruct (H' y (or_introl eq_refl)) as [B' V'].
  assert (Lk : length (leak st k) = length (leak st' k)) by (pose proof (leak_low false st st' k LE Qk) as T; apply (f_equal (@length _)) in T; now rewrite !map_length in T).
  destruct Hx as [<-|Hx]; [exact (HT st st' y k (X y) (X' y) B B' V V' Lk E1)|].
  refine (IH _ _ X X' LE' _ _ E2 x Hx).
  - intros z Hz. destruct (H z (or_intror Hz)) as [Bz Vz]. split; [exact Bz|]. rewrite final_assign. cbn [set_var vars]. rewrite upd_other; [exact Vz|]. intros ->. contradiction.
  - intros z Hz. destruct (H' z (or_intror Hz)) as [Bz Vz]. split; [exact Bz|]. rewrite final_assign. cbn [set_var vars]. rewrite upd_other; [exact Vz|]. intros ->. contradiction.
Qed.

(** The indices a round looks up. *)
Definition indices_back (w : w4) : list N :=
  [as_u8 (shr (w_0 w) 24); as_u8 (shr (w_3 w) 16); as_u8 (shr (w_2 w) 8); as_u8 (w_1 w);
   as_u8 (shr (w_1 w) 24); as_u8 (shr (w_0 w) 16); as_u8 (shr (w_3 w) 8); as_u8 (w_2 w);
   as_u8 (shr (w_2 w) 24); as_u8 (shr (w_1 w) 16); as_u8 (shr (w_0 w) 8); as_u8 (w_3 w);
   as_u8 (shr (w_3 w) 24); as_u8 (shr (w_2 w) 16); as_u8 (shr (w_1 w) 8); as_u8 (w_0 w)].
Lemma indices_back_inj x y : is_bytes 16 x -> is_bytes 16 y -> indices_back (tb_of x) = indices_back (tb_of y) -> x = y.
Proof.
  intros Hx Hy. bytes_tac Hx. bytes_tac Hy. unfold indices_back. tb_unfold. rewrite !byte3, !byte2, !byte1, !byte0 by assumption.
  intros E. injection E. intros. subst. reflexivity.
Qed.
Definition index_of (e : event) : N := match e with Lookup _ i => i | _ => 0 end.
Lemma tells_by (e : exp -> exp -> exp) (idx : w4 -> list N) :
  (forall st x k, exists l, leak st (e (Var x) k) = leak st k ++ l /\ map index_of l = idx (unpkb (vars st x))) ->
  (forall x y, is_bytes 16 x -> is_bytes 16 y -> idx (tb_of x) = idx (tb_of y) -> x = y) -> tells e.
Proof.
  intros H J st st' x k X X' B B' V V' L E. destruct (H st x k) as (l & E1 & M). destruct (H st' x k) as (l' & E1' & M'). rewrite E1, E1' in E.
  apply app_split in E as [_ ->]; [|exact L]. apply J; try assumption. rewrite V, unpkb_be in M by assumption. rewrite V', unpkb_be in M' by assumption. congruence.
Qed.
Ltac tell := intros st x k; eexists; split; [reflexivity|]; reflexivity.
Lemma tells_enc : tells (xt_forward xt_enc). Proof. apply (tells_by _ indices); [tell|exact indices_inj]. Qed.
Lemma tells_enc_last : tells (xt_forward xt_enc_last). Proof. apply (tells_by _ indices); [tell|exact indices_inj]. Qed.
Lemma tells_dec : tells (xt_backward xt_dec). Proof. apply (tells_by _ indices_back); [tell|exact indices_back_inj]. Qed.
Lemma tells_dec_last : tells (xt_backward xt_dec_last). Proof. apply (tells_by _ indices_back); [tell|exact indices_back_inj]. Qed.

(** ** All rounds *)
Lemma skipn_nth {A} (d : A) l j : (j < length l)%nat -> skipn j l = nth j l d :: skipn (S j) l.
Proof. revert j. induction l as [|r l IH]; intros j H; [cbn in H; lia|]. destruct j; [reflexivity|]. cbn in *. apply IH. lia. Qed.
Section Rounds.
Context (e el : exp -> exp -> exp) (G : bop) (keys : string) (m : nat).
Context (HG : bop_ok G) (V : vop table_engine e 1 G) (T : tells e) (Tl : tells el).
Context (Q : forall x k, quiet false k = true -> quiet false (e (Var x) k) = true) (Ql : forall x k, quiet false k = true -> quiet false (el (Var x) k) = true).
Notation names := (firstn m lane_names).
Lemma one_round i n rks st X : Forall (is_bytes 16) rks -> arrs st keys = map of_be rks -> (n < length rks)%nat ->
  (forall st', arrs st' = arrs st -> ctrs st' = ctrs st -> value st' i = N.of_nat n) -> held names X st ->
  let st1 := final (s_lanes m (fun x => e (Var x) (Index keys i))) st in
  held names (fun x => G (X x) (nth n rks [])) st1 /\ arrs st1 = arrs st.
Proof.
  intros F Ak Hn Hi H. cbn zeta. destruct V as (r & C & Hr). change (16 * 1)%nat with 16%nat in Hr. cbn [g_be table_engine of_ne] in Hr.
  assert (Bn : is_bytes 16 (nth n rks [])) by now apply nth_bytes16.
  destruct (assigns_ok names (fun x => e (Var x) (Index keys i)) (fun v => r v (of_be (nth n rks []))) (lane_names_nodup m) st) as (A & _ & I1 & _).
  { intros st' x Ea Ec. rewrite C, (value_index _ _ _ n) by now apply Hi. rewrite Ea, Ak. f_equal. rewrite (nth_indep _ 0 (of_be [])) by now rewrite map_length. apply map_nth. }
  split; [|exact A]. intros x Hx. destruct (H x Hx) as [B E]. split; [now apply HG|]. unfold s_lanes. rewrite I1, E, Hr by assumption.
  rewrite on_lanes_1 by (apply B || apply Bn). reflexivity.
Qed.
(** The states before round [start], [start + 1], .. and after the last of [n] rounds. *)
Definition before (rks : list (list N)) (start : nat) (X : list N) (j : nat) : list N := fold_left G (firstn j (skipn start rks)) X.
Lemma before_S rks start X j : (start < length rks)%nat -> before rks start X (S j) = before rks (S start) (G X (nth start rks [])) j.
Proof. intros H. unfold before. rewrite (skipn_nth []) by assumption. reflexivity. Qed.
Lemma loop_tells n : forall start st st' rks rks' X X', Forall (is_bytes 16) rks -> Forall (is_bytes 16) rks' ->
  arrs st keys = map of_be rks -> arrs st' keys = map of_be rks' -> (start + n <= length rks)%nat -> (start + n <= length rks')%nat ->
  low_equal st st' -> held names X st -> held names X' st' ->
  let loop := For "i" (N.of_nat start) 1 n (s_lanes m (fun x => e (Var x) (Index keys (Ctr "i")))) in
  trace loop st = trace loop st' ->
  (forall x j, In x names -> (j < n)%nat -> before rks start (X x) j = before rks' start (X' x) j) /\
  held names (fun x => before rks start (X x) n) (final loop st) /\ held names (fun x => before rks' start (X' x) n) (final loop st') /\
  arrs (final loop st) = arrs st /\ arrs (final loop st') = arrs st' /\ low_equal (final loop st) (final loop st').
Proof.
  induction n as [|n IH]; intros start st st' rks rks' X X' F F' Ak Ak' L L' LE H H' loop E; subst loop.
  - rewrite !final_for0. split; [intros x j _ Hj; lia|]. split; [exact H|]. split; [exact H'|]. split; [reflexivity|]. split; [reflexivity|exact LE].
  - assert (Qb : quiet_stmt false (s_lanes m (fun x => e (Var x) (Index keys (Ctr "i")))) = true).
    { apply quiet_block. intros x. now apply Q. }
    pose proof (split_for _ _ _ _ _ st st' Qb LE E) as S. cbn zeta in S. destruct S as (E1 & E2 & LE'). rewrite !final_forS.
    replace (N.of_nat start + 1) with (N.of_nat (S start)) in * by lia.
    destruct (one_round (Ctr "i") start rks (set_ctr st "i" (N.of_nat start)) X F Ak ltac:(lia)) as [O1 A1]; [|exact H|].
    { intros s0 _ Ec. rewrite value_ctr, Ec. cbn [set_ctr ctrs]. apply upd_same. }
    destruct (one_round (Ctr "i") start rks' (set_ctr st' "i" (N.of_nat start)) X' F' Ak' ltac:(lia)) as [O1' A1']; [|exact H'|].
    { intros s0 _ Ec. rewrite value_ctr, Ec. cbn [set_ctr ctrs]. apply upd_same. }
    assert (X0 : forall x, In x names -> X x = X' x).
    { apply (lanes_tell e (Index keys (Ctr "i")) names T) with (st := set_ctr st "i" (N.of_nat start)) (st' := set_ctr st' "i" (N.of_nat start));
        [now apply Q|intros x; rewrite !Q by reflexivity; reflexivity|apply lane_names_nodup|reflexivity|now apply low_set_ctr|exact H|exact H'|exact E1]. }
    destruct (IH (S start) _ _ rks rks' _ _ F F' (eq_trans (f_equal (fun a => a keys) A1) Ak) (eq_trans (f_equal (fun a => a keys) A1') Ak') ltac:(lia) ltac:(lia) LE' O1 O1' E2) as (J & K1 & K2 & A2 & A2' & LE2).
    split; [|split; [|split; [|split; [|split]]]].
    + intros x [|j] Hx Hj; [exact (X0 x Hx)|]. rewrite !before_S by lia. apply J; [exact Hx|lia].
    + intros x Hx. rewrite before_S by lia. now apply K1.
    + intros x Hx. rewrite before_S by lia. now apply K2.
    + now rewrite A2, A1.
    + now rewrite A2', A1'.
    + exact LE2.
Qed.
Lemma before_last rks start X j : (start + j < length rks)%nat -> before rks start X (S j) = G (before rks start X j) (nth (start + j) rks []).
Proof.
  revert start X. induction j as [|j IH]; intros start X H.
  - rewrite before_S by lia. rewrite Nat.add_0_r. reflexivity.
  - rewrite before_S by lia. rewrite IH by lia. rewrite <- before_S by lia. f_equal. f_equal. lia.
Qed.
(** chain and last round *)
Lemma run_tells k st st' rks rks' Y Y' : (m <= 4)%nat -> (0 < m)%nat -> good_keys k rks -> good_keys k rks' -> arrs st keys = map of_be rks -> arrs st' keys = map of_be rks' ->
  low_equal st st' -> held names Y st -> held names Y' st' ->
  trace (s_run None e el (fun x => x) keys (nr_of k) m) st = trace (s_run None e el (fun x => x) keys (nr_of k) m) st' ->
  (forall x, In x names -> map2 N.lxor (Y x) (nth 0 rks []) = map2 N.lxor (Y' x) (nth 0 rks' [])) /\
  (forall x j, In x names -> (j < nr_of k)%nat -> before rks 1 (map2 N.lxor (Y x) (nth 0 rks [])) j = before rks' 1 (map2 N.lxor (Y' x) (nth 0 rks' [])) j).
Proof.
  intros Hm Hm0 [L F] [L' F'] Ak Ak' LE H H' E. unfold s_run in E. cbv zeta in E.
  assert (N1 : (1 <= nr_of k)%nat) by (destruct k; cbn; lia).
  assert (C1 : value st (Len keys) <> 0) by (unfold value; cbn [Spec_Leak.val]; rewrite Ak, map_length; lia).
  assert (C2 : value st' (Len keys) <> 0) by (unfold value; cbn [Spec_Leak.val]; rewrite Ak', map_length; lia).
  set (whiten := s_lanes m (fun x => Bin Xor (Var x) (Index keys (Lit 0)))) in *.
  set (loop := For "i" 1 1 (nr_of k - 1) (s_lanes m (fun x => e (Var x) (Index keys (Ctr "i"))))) in *.
  set (lastl := s_lanes m (fun x => el (Var x) (Index keys (Lit (N.of_nat (nr_of k)))))) in *.
  assert (Qb : quiet_stmt false (s_lanes m (fun x => e (Var x) (Index keys (Ctr "i")))) = true).
  { apply quiet_block. intros x. now apply Q. }
  assert (Qw : quiet_stmt false whiten = true) by (apply quiet_block; reflexivity).
  apply (split_seq (If (Len keys) (block [whiten; loop]) Skip) (block [lastl])) in E as (E1 & E2 & LE2); [| |exact LE].
  2: { change (quiet_stmt false (If (Len keys) (block [whiten; loop]) Skip)) with (true && true && (quiet_stmt false whiten && (quiet_stmt false loop && true)) && true)%bool.
       rewrite Qw. change (quiet_stmt false loop) with (quiet_stmt false (s_lanes m (fun x => e (Var x) (Index keys (Ctr "i"))))). rewrite Qb. reflexivity. }
  rewrite !trace_if_taken in E1 by assumption. rewrite !final_if_taken in E2, LE2 by assumption.
  change (leak st (Len keys)) with (@nil event) in E1. change (leak st' (Len keys)) with (@nil event) in E1. cbn [app] in E1. injection E1 as E1.
  apply (split_seq whiten (block [loop])) in E1 as (_ & E1 & LE1); [|exact Qw|exact LE].
  rewrite !final_block_cons in E2, LE2. change (final (block []) ?x) with x in E2, LE2. rewrite !trace_block_cons in E1. change (trace (block []) ?x) with (@nil event) in E1. rewrite !app_nil_r in E1.
  assert (W : forall st0 rks0 Y0, arrs st0 keys = map of_be rks0 -> Forall (is_bytes 16) rks0 -> (0 < length rks0)%nat -> held names Y0 st0 ->
     held names (fun x => map2 N.lxor (Y0 x) (nth 0 rks0 [])) (final whiten st0) /\ arrs (final whiten st0) = arrs st0).
  { intros st0 rks0 Y0 A0 F0 L0 H0. destruct (round_once (fun a b => Bin Xor a b) N.lxor (fun s a b => value_xor s a b) keys 0 m st0) as [A V0]. split; [|exact A].
    intros x Hx. destruct (H0 x Hx) as [B0 E0]. pose proof (nth_bytes16 rks0 0 F0 L0) as B1. split; [now apply xor_bytes|]. fold whiten in V0. unfold whiten. change (Lit 0) with (Lit (N.of_nat 0)). rewrite V0 by assumption.
    rewrite A0, E0. rewrite (nth_indep _ 0 (of_be [])) by now rewrite map_length. rewrite map_nth. apply (of_ne_xor true 16); assumption. }
  destruct (W st rks Y Ak F ltac:(lia) H) as [W1 A1]. destruct (W st' rks' Y' Ak' F' ltac:(lia) H') as [W1' A1'].
  pose proof (loop_tells (nr_of k - 1) 1 _ _ rks rks' _ _ F F' (eq_trans (f_equal (fun a => a keys) A1) Ak) (eq_trans (f_equal (fun a => a keys) A1') Ak') ltac:(lia) ltac:(lia) LE1 W1 W1' E1) as X.
  change (N.of_nat 1) with 1 in X. cbv zeta in X. fold loop in X. destruct X as (J & K1 & K2 & _ & _ & LE3).
  rewrite !trace_block_cons in E2. change (trace (block []) ?x) with (@nil event) in E2. rewrite !app_nil_r in E2.
  assert (XL : forall x, In x names -> before rks 1 (map2 N.lxor (Y x) (nth 0 rks [])) (nr_of k - 1) = before rks' 1 (map2 N.lxor (Y' x) (nth 0 rks' [])) (nr_of k - 1)).
  { apply (lanes_tell el (Index keys (Lit (N.of_nat (nr_of k)))) names Tl) with (st := final loop (final whiten st)) (st' := final loop (final whiten st'))
      (X := fun x => before rks 1 (map2 N.lxor (Y x) (nth 0 rks [])) (nr_of k - 1)) (X' := fun x => before rks' 1 (map2 N.lxor (Y' x) (nth 0 rks' [])) (nr_of k - 1));
      [now apply Ql|intros x; rewrite !Ql by reflexivity; reflexivity|apply lane_names_nodup|reflexivity|exact LE2|exact K1|exact K2|exact E2]. }
  assert (XA : forall x j, In x names -> (j < nr_of k)%nat -> before rks 1 (map2 N.lxor (Y x) (nth 0 rks [])) j = before rks' 1 (map2 N.lxor (Y' x) (nth 0 rks' [])) j).
  { intros x j Hx Hj. destruct (Nat.eq_dec j (nr_of k - 1)) as [->|Hne]; [now apply XL|]. apply J; [exact Hx|lia]. }
  split; [|exact XA]. intros x Hx. apply (XA x 0%nat Hx). lia.
Qed.
Context (Inj : forall a k k', is_bytes 16 a -> is_bytes 16 k -> is_bytes 16 k' -> G a k = G a k' -> k = k').
(** Hence all round keys but the first and the last. *)
Lemma states_keys k rks rks' X X' : good_keys k rks -> good_keys k rks' -> is_bytes 16 X ->
  (forall j, (j < nr_of k)%nat -> before rks 1 X j = before rks' 1 X' j) -> forall j, (0 < j < nr_of k)%nat -> nth j rks [] = nth j rks' [].
Proof.
  intros [L F] [L' F'] B H j Hj. pose proof (H (j - 1)%nat ltac:(lia)) as H1. pose proof (H (S (j - 1)) ltac:(lia)) as H2.
  rewrite !before_last in H2 by lia. rewrite <- H1 in H2. replace (1 + (j - 1))%nat with j in H2 by lia. revert H2. apply Inj.
  - apply foldg_bytes; [assumption| |assumption]. apply Forall_firstn'. destruct rks; [constructor|]. now inversion F.
  - apply nth_bytes16; [assumption|lia].
  - apply nth_bytes16; [assumption|lia].
Qed.
End Rounds.

(** ** Block encryption and decryption *)
Lemma chunk_bytes w j m msg : is_bytes (w * m) msg -> (j < m)%nat -> is_bytes w (firstn w (skipn (w * j) msg)).
Proof.
  intros [L F] Hj. assert (Hw : (w * (j + 1) <= w * m)%nat) by (apply Nat.mul_le_mono_l; lia). split; [rewrite firstn_length, skipn_length; lia|].
  apply Forall_firstn'. now apply bytes_ok_skipn.
Qed.
Definition lane_of (x : string) : nat := if String.eqb x "x0" then 0 else if String.eqb x "x1" then 1 else if String.eqb x "x2" then 2 else 3.
Lemma lane_list_of m j x : In (j, x) (lane_list m) <-> In x (firstn m lane_names) /\ j = lane_of x.
Proof.
  do 5 (destruct m as [|m]; [cbn; split; [intros H; repeat (destruct H as [H|H]; [injection H as <- <-; cbn; intuition|]); destruct H|intros [H ->]; repeat (destruct H as [<-|H]; [cbn; intuition|]); destruct H]|]).
  cbn; destruct m; (split; [intros H; repeat (destruct H as [H|H]; [injection H as <- <-; cbn; intuition|]); destruct H|intros [H ->]; repeat (destruct H as [<-|H]; [cbn; intuition|]); destruct H]).
Qed.
Lemma lane_name m j : (m <= 4)%nat -> (j < m)%nat -> exists x, In x (firstn m lane_names) /\ j = lane_of x.
Proof.
  intros Hm Hj. exists (nth j lane_names ""). do 5 (destruct m as [|m]; [do 4 (destruct j as [|j]; [(cbn; intuition) || lia|]); lia|]). lia.
Qed.
Definition rest_of (msg : list N) (x : string) : list N := firstn 16 (skipn (16 * lane_of x) msg).
Lemma crypt_tells (dec : bool) keys k m rks rks' msg msg' st st' : (m <= 4)%nat -> (0 < m)%nat -> good_keys k rks -> good_keys k rks' ->
  is_bytes (16 * m) msg -> is_bytes (16 * m) msg' -> arrs st "in" = msg -> arrs st' "in" = msg' -> arrs st keys = map of_be rks -> arrs st' keys = map of_be rks' ->
  low_equal st st' -> trace (s_crypt table_engine k 1 m dec keys) st = trace (s_crypt table_engine k 1 m dec keys) st' ->
  (forall j, (j < m)%nat -> map2 N.lxor (firstn 16 (skipn (16 * j) msg)) (nth 0 rks []) = map2 N.lxor (firstn 16 (skipn (16 * j) msg')) (nth 0 rks' [])) /\
  (forall j, (0 < j < nr_of k)%nat -> nth j rks [] = nth j rks' []).
Proof.
  intros Hm Hm0 GK GK' B B' I I' A A' LE E. pose proof (fips_rk_ok None (or_introl eq_refl)) as S0.
  unfold s_crypt in E. change (16 * 1)%nat with 16%nat in E. cbn [g_be table_engine option_map g_pre g_wide] in E.
  set (inp := s_input true 16 m) in *. set (e := if dec then g_dec table_engine 1 else g_enc table_engine 1) in *. set (el := if dec then g_dec_last table_engine 1 else g_enc_last table_engine 1) in *.
  set (G := if dec then spec_dec else spec_enc).
  assert (HG : bop_ok G) by (unfold G; destruct dec; [apply spec_dec_bop|apply spec_enc_bop]).
  assert (V : vop table_engine e 1 G) by (unfold e, G; destruct dec; [exact (v_dec _ _ _ table_vec)|exact (v_enc _ _ _ table_vec)]).
  assert (T : tells e) by (unfold e; destruct dec; [exact tells_dec|exact tells_enc]).
  assert (Tl : tells el) by (unfold el; destruct dec; [exact tells_dec_last|exact tells_enc_last]).
  assert (Q : forall x i, quiet false i = true -> quiet false (e (Var x) i) = true) by (intros x i Hi; unfold e; destruct dec; cbn; rewrite Hi; reflexivity).
  assert (Ql : forall x i, quiet false i = true -> quiet false (el (Var x) i) = true) by (intros x i Hi; unfold el; destruct dec; cbn; rewrite Hi; reflexivity).
  set (run := s_run None e el (fun x => x) keys (nr_of k) m) in *.
  apply (split_seq inp (block [run; s_output true 16 m])) in E as (_ & E & LE1); [|clear; unfold inp; do 5 (destruct m as [|m]; [reflexivity|]); vm_compute; destruct m; reflexivity|exact LE].
  destruct (input_run true 16 m msg st Hm I) as [A1 V1]; [apply B|]. destruct (input_run true 16 m msg' st' Hm I') as [A1' V1']; [apply B'|].
  cbv zeta in A1, V1, A1', V1'. fold inp in A1, V1, A1', V1'.
  assert (Qr : quiet_stmt false run = true).
  { unfold run, s_run. change (quiet_stmt false (block [?a; ?b])) with (quiet_stmt false a && (quiet_stmt false b && true))%bool.
    change (quiet_stmt false (If (Len keys) (block [?a; For "i" 1 1 (nr_of k - 1) ?b]) Skip)) with (true && true && (quiet_stmt false a && (quiet_stmt false b && true)) && true)%bool.
    cbn [quiet_stmt block]. unfold s_lanes. rewrite !quiet_block by (intros x; first [reflexivity|now apply Q|now apply Ql]). reflexivity. }
  apply (split_seq run (block [s_output true 16 m])) in E as (E & _ & _); [|exact Qr|exact LE1].
  assert (H1 : held (firstn m lane_names) (rest_of msg) (final inp st)).
  { intros x Hx. assert (In (lane_of x, x) (lane_list m)) as Hj by now apply lane_list_of. split; [|exact (V1 _ _ Hj)]. apply lane_list_in in Hj as [Hj _]. now apply (chunk_bytes 16 _ m). }
  assert (H1' : held (firstn m lane_names) (rest_of msg') (final inp st')).
  { intros x Hx. assert (In (lane_of x, x) (lane_list m)) as Hj by now apply lane_list_of. split; [|exact (V1' _ _ Hj)]. apply lane_list_in in Hj as [Hj _]. now apply (chunk_bytes 16 _ m). }
  destruct (run_tells e el G keys m HG V T Tl Q Ql k _ _ rks rks' _ _ Hm Hm0 GK GK' (eq_trans (f_equal (fun a => a keys) A1) A) (eq_trans (f_equal (fun a => a keys) A1') A') LE1 H1 H1' E) as [R1 R2].
  split.
  - intros j Hj. destruct (lane_name m j Hm Hj) as (x & Hx & ->). exact (R1 x Hx).
  - destruct (lane_name m 0 Hm Hm0) as (x & Hx & _).
    assert (Inj : forall a u v, is_bytes 16 a -> is_bytes 16 u -> is_bytes 16 v -> G a u = G a v -> u = v).
    { intros a u v Ha Hu Hv. unfold G. destruct dec; unfold spec_enc, spec_dec, add_round_key; apply xor_cancel; try assumption.
      - now apply inv_mix_columns_bytes, inv_sub_bytes_bytes, inv_shift_rows_bytes.
      - now apply mix_columns_bytes, sub_bytes_bytes, shift_rows_bytes. }
    apply (states_keys G HG Inj k rks rks' (map2 N.lxor (rest_of msg x) (nth 0 rks [])) (map2 N.lxor (rest_of msg' x) (nth 0 rks' [])) GK GK').
    + destruct (H1 x Hx) as [Bx _]. apply xor_bytes; [exact Bx|]. destruct GK as [L F]. apply nth_bytes16; [exact F|lia].
    + intros j Hj. exact (R2 x j Hx Hj).
Qed.
(** The same blocks under the same first round key. *)
Lemma blocks_equal m r msg msg' : is_bytes 16 r -> is_bytes (16 * m) msg -> is_bytes (16 * m) msg' ->
  (forall j, (j < m)%nat -> map2 N.lxor (firstn 16 (skipn (16 * j) msg)) r = map2 N.lxor (firstn 16 (skipn (16 * j) msg')) r) -> msg = msg'.
Proof.
  intros Hr. revert msg msg'. induction m as [|m IH]; intros msg msg' B B' H.
  - destruct B as [L _], B' as [L' _]. destruct msg, msg'; try discriminate. reflexivity.
  - pose proof (H 0%nat ltac:(lia)) as H0. cbn [Nat.mul skipn] in H0. pose proof (chunk_bytes 16 0 (S m) msg B ltac:(lia)) as C. pose proof (chunk_bytes 16 0 (S m) msg' B' ltac:(lia)) as C'.
    rewrite Nat.mul_0_r in C, C'. cbn [skipn] in C, C'.
    assert (X : firstn 16 msg = firstn 16 msg').
    { apply (xor_cancel r); try assumption. rewrite (map2_comm _ r (firstn 16 msg)), (map2_comm _ r (firstn 16 msg')) by apply N.lxor_comm. exact H0. }
    rewrite <- (firstn_skipn 16 msg), <- (firstn_skipn 16 msg'), X. f_equal. apply IH.
    + destruct B as [L F]. split; [rewrite skipn_length; lia|now apply bytes_ok_skipn].
    + destruct B' as [L F]. split; [rewrite skipn_length; lia|now apply bytes_ok_skipn].
    + intros j Hj. rewrite !skipn_skipn'. replace (16 + 16 * j)%nat with (16 * S j)%nat by lia. replace (16 * j + 16)%nat with (16 * S j)%nat by lia. apply H. lia.
Qed.
