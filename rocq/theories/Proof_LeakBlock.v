(** What the programs of Model_LeakBlock.v compute, and what comparison shows. *)
From Coq Require Import Lia Arith String.
From Coq Require Import List.
From Verif Require Import Word Interface Fips197 Spec_Api Spec_Leak Model_Bitslice Model_Leak Model_LeakBlock.
From Verif Require Import Proof_Shape Proof_Word Proof_Fips Proof_Ok Proof_Sem Proof_X86 Proof_Bitslice Proof_Leak Proof_KeySpec Proof_LeakRun Proof_LeakEngine.
Open Scope string_scope.
Open Scope list_scope.
Open Scope N_scope.

Definition piece (w j : nat) (l : list N) : list N := firstn w (skipn (w * j) l).
Lemma piece_bytes w m j l : is_bytes (w * m) l -> (j < m)%nat -> is_bytes w (piece w j l).
Proof.
  intros [L B] H. assert (Hw : (w * (j + 1) <= w * m)%nat) by (apply Nat.mul_le_mono_l; lia).
  split; [unfold piece; rewrite firstn_length, skipn_length; lia|]. apply Forall_firstn'. now apply bytes_ok_skipn.
Qed.
Lemma pieces_concat w m l : length l = (w * m)%nat -> concat (map (fun j => piece w j l) (seq 0 m)) = l.
Proof. intros H. unfold piece. rewrite seq_lanes. now apply chunks_concat. Qed.

(** ** Names *)
Definition x_ (j : nat) : string := nth j lane_names "".
Definition k_ (j : nat) : string := nth j key_names "".
Lemma lanes_are m : (m <= 4)%nat -> lane_list m = map (fun j => (j, x_ j)) (seq 0 m).
Proof. intros H. do 5 (destruct m as [|m]; [reflexivity|]). lia. Qed.
Lemma keys_are m : (m <= 4)%nat -> combine (seq 0 m) (firstn m key_names) = map (fun j => (j, k_ j)) (seq 0 m).
Proof. intros H. do 5 (destruct m as [|m]; [reflexivity|]). lia. Qed.
Lemma names_are m : (m <= 4)%nat -> firstn m lane_names = map x_ (seq 0 m).
Proof. intros H. do 5 (destruct m as [|m]; [reflexivity|]). lia. Qed.
Lemma pairs_are m : (m <= 4)%nat -> combine (firstn m lane_names) (firstn m key_names) = map (fun j => (x_ j, k_ j)) (seq 0 m).
Proof. intros H. do 5 (destruct m as [|m]; [reflexivity|]). lia. Qed.
Lemma x_inj i j : (i < 4)%nat -> (j < 4)%nat -> x_ i = x_ j -> i = j.
Proof. intros Hi Hj. do 4 (destruct i as [|i]; [do 4 (destruct j as [|j]; [try reflexivity; discriminate|]); lia|]). lia. Qed.
Lemma k_inj i j : (i < 4)%nat -> (j < 4)%nat -> k_ i = k_ j -> i = j.
Proof. intros Hi Hj. do 4 (destruct i as [|i]; [do 4 (destruct j as [|j]; [try reflexivity; discriminate|]); lia|]). lia. Qed.
Lemma x_not_k i j : (i < 4)%nat -> (j < 4)%nat -> x_ i <> k_ j.
Proof. intros Hi Hj. do 4 (destruct i as [|i]; [do 4 (destruct j as [|j]; [discriminate|]); lia|]). lia. Qed.
Lemma not_r i : (i < 4)%nat -> x_ i <> "r" /\ k_ i <> "r".
Proof. intros Hi. do 4 (destruct i as [|i]; [split; discriminate|]). lia. Qed.

(** ** Assignments to distinct variables from arrays and counters *)
Lemma fills_ok (name : nat -> string) (e : nat -> exp) (v : nat -> N) l : (forall i j, In i l -> In j l -> name i = name j -> i = j) -> NoDup l ->
  forall st, (forall st' j, In j l -> arrs st' = arrs st -> ctrs st' = ctrs st -> value st' (e j) = v j) ->
  let st' := final (block (map (fun j => Assign (name j) (e j)) l)) st in
  arrs st' = arrs st /\ ctrs st' = ctrs st /\ (forall j, In j l -> vars st' (name j) = v j) /\ (forall x, (forall j, In j l -> x <> name j) -> vars st' x = vars st x).
Proof.
  induction l as [|i l IH]; intros Inj Nd st H; cbn zeta.
  - repeat split; auto. intros j [].
  - cbn [map]. rewrite final_block_cons. inversion Nd as [|? ? Hi Nd']; subst. rewrite final_assign, (H st i) by (auto; now left).
    destruct (IH (fun a b Ha Hb => Inj a b (or_intror Ha) (or_intror Hb)) Nd' (set_var st (name i) (v i))) as (A & C & V & O).
    { intros st' j Hj Ea Ec. apply H; [now right|exact Ea|exact Ec]. }
    split; [exact A|]. split; [exact C|]. split.
    + intros j [<-|Hj]; [|now apply V]. rewrite O; [apply upd_same|]. intros j Hj E. apply Hi. now rewrite (Inj i j (or_introl eq_refl) (or_intror Hj) E).
    + intros x Hx. rewrite O by (intros j Hj; apply Hx; now right). apply upd_other. intros E. now apply (Hx i (or_introl eq_refl)).
Qed.
(** Each updated from itself and another one. *)
Lemma pairs_ok (f : exp -> exp -> exp) r l : computes2 f r -> (forall j, In j l -> (j < 4)%nat) -> NoDup l ->
  forall st, let st' := final (block (map (fun j => Assign (x_ j) (f (Var (x_ j)) (Var (k_ j)))) l)) st in
  arrs st' = arrs st /\ ctrs st' = ctrs st /\ (forall j, In j l -> vars st' (x_ j) = r (vars st (x_ j)) (vars st (k_ j))) /\
  (forall x, (forall j, In j l -> x <> x_ j) -> vars st' x = vars st x).
Proof.
  intros Cf. induction l as [|i l IH]; intros Hl Nd st; cbn zeta.
  - repeat split; auto. intros j [].
  - cbn [map]. rewrite final_block_cons. inversion Nd as [|? ? Hi Nd']; subst. 
    assert (E1 : final (Assign (x_ i) (f (Var (x_ i)) (Var (k_ i)))) st = set_var st (x_ i) (r (vars st (x_ i)) (vars st (k_ i)))) by (rewrite final_assign, Cf; reflexivity). rewrite !E1. clear E1.
    set (st1 := set_var st (x_ i) _). assert (H4 : forall j, In j l -> (j < 4)%nat) by (intros j Hj; apply Hl; now right).
    destruct (IH H4 Nd' st1) as (A & C & V & O). pose proof (Hl i (or_introl eq_refl)) as Hi4.
    split; [exact A|]. split; [exact C|]. split.
    + intros j [<-|Hj].
      * rewrite O; [apply upd_same|]. intros j Hj E. apply Hi. now rewrite (x_inj i j Hi4 (H4 j Hj) E).
      * rewrite V by assumption. unfold st1. cbn [set_var vars]. rewrite !upd_other; [reflexivity|now apply x_not_k; auto|].
        intros E. apply Hi. now rewrite (x_inj i j Hi4 (H4 j Hj) E).
    + intros x Hx. rewrite O by (intros j Hj; apply Hx; now right). apply upd_other. intros E. now apply (Hx i (or_introl eq_refl)).
Qed.

Section Run.
Context (be : bool) (n m : nat) (Hm : (m <= 4)%nat).
Notation F := (of_ne be).
Notation W := (16 * n)%nat.
(** The lanes (the operand's variables) hold the bytes [v]. *)
Definition xs (st : state) (v : list N) : Prop := forall j, (j < m)%nat -> vars st (x_ j) = F (piece W j v).
Definition ks (st : state) (v : list N) : Prop := forall j, (j < m)%nat -> vars st (k_ j) = F (piece W j v).

Lemma input_xs msg st : arrs st "in" = msg -> length msg = (W * m)%nat ->
  let st' := final (s_input be W m) st in arrs st' = arrs st /\ xs st' msg.
Proof.
  intros Hi L. destruct (input_run be W m msg st Hm Hi L) as [A V]. split; [exact A|]. intros j Hj. apply V.
  rewrite lanes_are by assumption. apply in_map_iff. exists j. split; [reflexivity|]. apply in_seq. lia.
Qed.
Lemma operand_ks key at_ pos st v : arrs st "key" = key -> (forall st', arrs st' = arrs st -> ctrs st' = ctrs st -> value st' at_ = N.of_nat pos) ->
  (pos + W * m <= length key)%nat -> xs st v ->
  let st' := final (s_operand be W m at_) st in arrs st' = arrs st /\ ctrs st' = ctrs st /\ xs st' v /\ ks st' (firstn (W * m) (skipn pos key)).
Proof.
  intros Hk Ha L Hx. unfold s_operand. rewrite keys_are, map_map by assumption. cbn [fst snd].
  destruct (fills_ok k_ (fun j => x_from_ne be (map (fun t => Index "key" (Bin Plus at_ (Lit (N.of_nat (W * j + t))))) (seq 0 W)))
      (fun j => F (piece W j (firstn (W * m) (skipn pos key)))) (seq 0 m)) with (st := st) as (A & C & V & O).
  - intros i j Hi Hj. apply in_seq in Hi, Hj. apply k_inj; lia.
  - apply seq_NoDup.
  - intros st' j Hj Ea Ec. apply in_seq in Hj. unfold value. rewrite val_from_ne, map_map. f_equal.
    assert (Hw : (W * (j + 1) <= W * m)%nat) by (apply Nat.mul_le_mono_l; lia).
    assert (E : piece W j (firstn (W * m) (skipn pos key)) = firstn W (skipn (pos + W * j) key)).
    { unfold piece. rewrite skipn_firstn_comm, firstn_firstn, skipn_skipn'. rewrite Nat.min_l by lia. reflexivity. }
    rewrite E, (firstn_seq_nth 0) by lia. rewrite <- (seq_shift' (pos + W * j) W), map_map. apply map_ext. intros t.
    change (value st' (Index "key" (Bin Plus at_ (Lit (N.of_nat (W * j + t))))) = nth (pos + W * j + t) key 0).
    rewrite (value_index _ _ _ (pos + W * j + t)%nat); [now rewrite Ea, Hk|]. rewrite value_plus, (Ha st' Ea Ec), value_lit. lia.
  - split; [exact A|]. split; [exact C|]. split.
    + intros j Hj. rewrite O; [now apply Hx|]. intros i Hi. apply in_seq in Hi. apply x_not_k; lia.
    + intros j Hj. apply V. apply in_seq. lia.
Qed.
(** [H] on the whole value is [h] on each vector. *)
Definition vectorwise (h H : list N -> list N -> list N) : Prop := forall a b, is_bytes (W * m) a -> is_bytes (W * m) b ->
  is_bytes (W * m) (H a b) /\ forall j, (j < m)%nat -> piece W j (H a b) = h (piece W j a) (piece W j b).
Definition vec2 (e : exp -> exp -> exp) (h : list N -> list N -> list N) : Prop :=
  exists r, computes2 e r /\ forall a b, is_bytes W a -> is_bytes W b -> r (F a) (F b) = F (h a b).
Lemma pairs_xs e h H a b st : vec2 e h -> vectorwise h H -> is_bytes (W * m) a -> is_bytes (W * m) b -> xs st a -> ks st b ->
  let st' := final (s_pairs m e) st in arrs st' = arrs st /\ ctrs st' = ctrs st /\ xs st' (H a b).
Proof.
  intros (r & Cr & Hr) HV Ha Hb Xa Kb. unfold s_pairs. rewrite pairs_are, map_map by assumption. cbn [fst snd].
  destruct (pairs_ok e r (seq 0 m) Cr) with (st := st) as (A & C & V & _); [intros j Hj; apply in_seq in Hj; lia|apply seq_NoDup|].
  split; [exact A|]. split; [exact C|]. intros j Hj. rewrite V by (apply in_seq; lia). rewrite (Xa j Hj), (Kb j Hj), Hr by now apply (piece_bytes W m).
  now rewrite (proj2 (HV a b Ha Hb)).
Qed.
Lemma output_xs st v : is_bytes (W * m) v -> xs st v -> arrs (final (s_output be W m) st) "out" = v.
Proof.
  intros Hv X. rewrite output_run by assumption. rewrite names_are, map_map by assumption. rewrite <- (pieces_concat W m v) at 1 by apply Hv.
  f_equal. apply map_ext_in. intros j Hj. apply in_seq in Hj. rewrite X by lia. apply of_ne_bytes', (piece_bytes W m); [assumption|lia].
Qed.

(** ** Two operands, one operand *)
Lemma start_in key msg : arrs (start key msg) "in" = msg. Proof. reflexivity. Qed.
Lemma binary_run e h H key msg : vec2 e h -> vectorwise h H -> is_bytes (W * m) msg -> is_bytes (W * m) key ->
  arrs (final (binary_program be n m e) (start key msg)) "out" = H msg key.
Proof.
  intros V2 HV Ha Hb. unfold binary_program. rewrite !final_block_cons. change (w n) with W.
  destruct (input_xs msg (start key msg) eq_refl (proj1 Ha)) as [A1 X1]. set (st1 := final (s_input be W m) _) in *. clearbody st1.
  destruct (operand_ks key (Lit 0) 0 st1 msg) as (A2 & C2 & X2 & K2).
  { rewrite A1. reflexivity. } { reflexivity. } { destruct Hb as [Lb _]. rewrite Lb. lia. } { exact X1. }
  set (st2 := final (s_operand be W m (Lit 0)) _) in *. clearbody st2. cbn [skipn] in K2. rewrite firstn_all2 in K2 by (destruct Hb as [Lb _]; rewrite Lb; lia).
  destruct (pairs_xs e h H msg key st2 V2 HV Ha Hb X2 K2) as (A3 & C3 & X3). set (st3 := final (s_pairs m e) _) in *. clearbody st3.
  change (final (block []) ?x) with x. apply output_xs; [now apply HV|exact X3].
Qed.
Definition vec1 (e : exp -> exp) (h : list N -> list N) : Prop := exists r, computes1 e r /\ forall a, is_bytes W a -> r (F a) = F (h a).
Definition vectorwise1 (h H : list N -> list N) : Prop := forall a, is_bytes (W * m) a -> is_bytes (W * m) (H a) /\ forall j, (j < m)%nat -> piece W j (H a) = h (piece W j a).
Lemma unary_run e h H key msg : vec1 e h -> vectorwise1 h H -> is_bytes (W * m) msg ->
  arrs (final (unary_program be n m e) (start key msg)) "out" = H msg.
Proof.
  intros (r & Cr & Hr) HV Ha. unfold unary_program. rewrite !final_block_cons. change (w n) with W.
  destruct (input_xs msg (start key msg) eq_refl (proj1 Ha)) as [A1 X1]. set (st1 := final (s_input be W m) _) in *. clearbody st1.
  destruct (assigns_ok (firstn m lane_names) (fun x => e (Var x)) r (lane_names_nodup m) st1) as (A & _ & V & _).
  { intros st' x _ _. apply (Cr st' (Var x)). }
  fold (s_lanes m (fun x => e (Var x))) in A, V. set (st2 := final (s_lanes m _) st1) in *. clearbody st2. change (final (block []) ?x) with x.
  apply output_xs; [now apply HV|]. intros j Hj. rewrite V.
  - rewrite (X1 j Hj), Hr by now apply (piece_bytes W m). now rewrite (proj2 (HV msg Ha)).
  - rewrite names_are by assumption. apply in_map. apply in_seq. lia.
Qed.

(** ** Chains *)
Lemma key_number j keys : Forall (is_bytes (W * m)) keys -> (j < length keys)%nat ->
  firstn (W * m) (skipn (W * m * j) (concat keys)) = nth j keys [] /\ (W * m * j + W * m <= length (concat keys))%nat.
Proof.
  intros H. revert j. induction H as [|k keys Hk Hks IH]; intros j Hj; [cbn in Hj; lia|]. cbn [concat]. pose proof (proj1 Hk) as Lk. rewrite app_length, Lk.
  destruct j as [|j].
  - rewrite Nat.mul_0_r. cbn [skipn nth]. rewrite firstn_app, Lk, Nat.sub_diag. cbn [firstn]. rewrite app_nil_r, firstn_all2 by lia. split; [reflexivity|lia].
  - cbn [length nth] in *. destruct (IH j) as [E L]; [lia|]. split; [|lia]. rewrite <- E. f_equal. rewrite skipn_app, Lk.
    rewrite skipn_all2 by lia. cbn [app]. f_equal. lia.
Qed.
Lemma step_xs i j e h H keys v st : vec2 e h -> vectorwise h H -> Forall (is_bytes (W * m)) keys -> (j < length keys)%nat ->
  arrs st "key" = concat keys -> (forall st', arrs st' = arrs st -> ctrs st' = ctrs st -> value st' i = N.of_nat j) -> is_bytes (W * m) v -> xs st v ->
  let st' := final (s_step be n m i e) st in arrs st' = arrs st /\ ctrs st' = ctrs st /\ xs st' (H v (nth j keys [])).
Proof.
  intros V2 HV Hks Hj Hk Hi Hv X. unfold s_step. rewrite final_seq. change (w n) with W. destruct (key_number j keys Hks Hj) as [E L].
  destruct (operand_ks (concat keys) (key_at n m i) (W * m * j) st v Hk) as (A & C & X1 & K1).
  { intros st' Ea Ec. change (N.of_nat (W * m) * value st' i = N.of_nat (W * m * j)). rewrite (Hi st' Ea Ec). lia. } { exact L. } { exact X. }
  set (st1 := final (s_operand _ _ _ _) st) in *. clearbody st1. rewrite E in K1.
  destruct (pairs_xs e h H v (nth j keys []) st1 V2 HV Hv) as (A2 & C2 & X2); [|exact X1|exact K1|].
  { rewrite Forall_forall in Hks. apply Hks. now apply nth_In. }
  split; [now rewrite A2|]. split; [now rewrite C2|exact X2].
Qed.
Lemma steps_xs e h H keys : vec2 e h -> vectorwise h H -> Forall (is_bytes (W * m)) keys -> forall k j v st, (j + k <= length keys)%nat ->
  arrs st "key" = concat keys -> is_bytes (W * m) v -> xs st v ->
  let st' := final (For "i" (N.of_nat j) 1 k (s_step be n m (Ctr "i") e)) st in
  arrs st' = arrs st /\ is_bytes (W * m) (fold_left H (firstn k (skipn j keys)) v) /\ xs st' (fold_left H (firstn k (skipn j keys)) v).
Proof.
  intros V2 HV Hks. induction k as [|k IH]; intros j v st L Hk Hv X; cbn zeta.
  - rewrite final_for0. now split; [|split].
  - rewrite final_forS. set (st1 := set_ctr st "i" (N.of_nat j)).
    destruct (step_xs (Ctr "i") j e h H keys v st1 V2 HV Hks) as (A & C & X1); [lia|exact Hk| |exact Hv|exact X|].
    { intros st' _ Ec. rewrite value_ctr, Ec. unfold st1. cbn [set_ctr ctrs]. apply upd_same. }
    set (st2 := final (s_step _ _ _ _ _) st1) in *. clearbody st2. replace (N.of_nat j + 1) with (N.of_nat (S j)) by lia.
    assert (Hn : is_bytes (W * m) (nth j keys [])) by (rewrite Forall_forall in Hks; apply Hks, nth_In; lia).
    destruct (IH (S j) (H v (nth j keys [])) st2) as (A2 & B2 & X2); [lia|now rewrite A|now apply HV|exact X1|].
    assert (Es : firstn (S k) (skipn j keys) = nth j keys [] :: firstn k (skipn (S j) keys)).
    { assert (Hj : (j < length keys)%nat) by lia. clear - Hj. revert keys Hj. induction j as [|j IHj]; intros [|y q] Hj; cbn in Hj; try lia; [reflexivity|]. cbn [skipn nth]. apply IHj. lia. }
    rewrite Es. cbn [fold_left]. split; [now rewrite A2, A|]. split; assumption.
Qed.
Definition n_chain (pre : option (list N -> list N -> list N)) (H X : list N -> list N -> list N) (v : list N) (keys : list (list N)) : list N :=
  match pre with
  | None => match keys with [] => v | k0 :: r => fold_left H r (X v k0) end
  | Some P => match keys with [] => v | _ => X (fold_left P (removelast keys) v) (last keys []) end
  end.
Definition vec_opt (e : option (exp -> exp -> exp)) (P : option (list N -> list N -> list N)) : Prop :=
  match e, P with None, None => True | Some e, Some P => exists h, vec2 e h /\ vectorwise h P | _, _ => False end.
Lemma nth_pred_last {A} (l : list A) d : l <> [] -> nth (length l - 1) l d = last l d.
Proof.
  induction l as [|x l IH]; [congruence|]. intros _. destruct l as [|y l]; [reflexivity|]. change (last (x :: y :: l) d) with (last (y :: l) d).
  rewrite <- IH by discriminate. cbn [length]. rewrite !Nat.sub_succ, !Nat.sub_0_r. reflexivity.
Qed.
Lemma chain_run pre round P h H X hx keys msg : (1 <= n)%nat -> (1 <= m)%nat -> vec_opt pre P -> vec2 round h -> vectorwise h H -> vec2 (Bin Xor) hx -> vectorwise hx X ->
  keys <> [] -> Forall (is_bytes (W * m)) keys -> is_bytes (W * m) msg ->
  arrs (final (chain_program be n m pre round (length keys)) (start (concat keys) msg)) "out" = n_chain P H X msg keys.
Proof.
  intros Hn Hm1 Vp Vr HH Vx HX Ne Hks Ha. unfold chain_program. rewrite !final_block_cons. change (w n) with W.
  destruct (input_xs msg (start (concat keys) msg) eq_refl (proj1 Ha)) as [A1 X1]. set (st1 := final (s_input be W m) _) in *. clearbody st1.
  assert (Hk : arrs st1 "key" = concat keys) by (rewrite A1; reflexivity). assert (Lk : (0 < length keys)%nat) by (destruct keys; [congruence|cbn; lia]).
  assert (EI : forall c s t, value st1 c <> 0 -> final (If c s t) st1 = final s st1).
  { intros c s t Hc. unfold final. cbn [exec]. destruct (N.eqb_spec (value st1 c) 0); [contradiction|]. cbn [negb]. now destruct (exec s st1). }
  rewrite EI. 2: { unfold value. cbn [Spec_Leak.val]. rewrite Hk. destruct (key_number 0 keys Hks Lk) as [_ L]. assert (1 <= W * m)%nat by (apply (Nat.mul_le_mono 1 W 1 m); lia). lia. }
  clear EI. change (final (block []) ?x) with x.
  assert (Hl : forall d, is_bytes (W * m) (last keys d)) by (intros d; now apply Forall_last).
  destruct pre as [pe|], P as [P|]; try contradiction; rewrite !final_block_cons; change (final (block []) ?x) with x.
  - destruct Vp as (hp & V2 & HV). pose proof (steps_xs pe hp P keys V2 HV Hks (length keys - 1) 0 msg st1 ltac:(lia) Hk Ha X1) as (A2 & B2 & X2). change (N.of_nat 0) with 0 in *.
    set (st2 := final (For _ _ _ _ _) st1) in *. clearbody st2. cbn [skipn] in B2, X2.
    destruct (step_xs (Lit (N.of_nat (length keys - 1))) (length keys - 1) (Bin Xor) hx X keys _ st2 Vx HX Hks ltac:(lia) ltac:(now rewrite A2) ltac:(reflexivity) B2 X2) as (A3 & _ & X3).
    set (st3 := final (s_step _ _ _ _ _) st2) in *. clearbody st3. rewrite <- removelast_firstn_pred, nth_pred_last in X3 by assumption.
    rewrite <- removelast_firstn_pred in B2.
    assert (E : n_chain (Some P) H X msg keys = X (fold_left P (removelast keys) msg) (last keys [])) by (destruct keys; [congruence|reflexivity]).
    rewrite E. apply output_xs; [apply HX; [exact B2|apply Hl]|exact X3].
  - destruct keys as [|k0 r]; [congruence|]. cbn [n_chain].
    destruct (step_xs (Lit 0) 0 (Bin Xor) hx X (k0 :: r) msg st1 Vx HX Hks ltac:(exact Lk) Hk ltac:(reflexivity) Ha X1) as (A2 & _ & X2). cbn [nth] in X2.
    set (st2 := final (s_step _ _ _ _ _) st1) in *. clearbody st2. inversion Hks as [|? ? Hk0 Hr0]; subst.
    pose proof (steps_xs round h H (k0 :: r) Vr HH Hks (length (k0 :: r) - 1) 1 (X msg k0) st2 ltac:(cbn [length]; lia) ltac:(now rewrite A2) ltac:(now apply HX) X2) as (A3 & B3 & X3).
    change (N.of_nat 1) with 1 in *. change (skipn 1 (k0 :: r)) with r in B3, X3. cbn [length] in B3, X3. rewrite Nat.sub_succ, Nat.sub_0_r in B3, X3.
    change (length (k0 :: r) - 1)%nat with (length r - 0)%nat in *. rewrite ?Nat.sub_0_r in *. rewrite firstn_all in B3, X3.
    set (st3 := final (For _ _ _ _ _) st2) in *. clearbody st3. now apply output_xs.
Qed.
End Run.
