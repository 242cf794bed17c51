(** The constant-time checker of Spec_Leak.v is sound, and the programs of Model_Leak.v compute what the
    model of the bitslice backend computes. *)
From Coq Require Import Lia Arith String.
From Coq Require Import List.
From Verif Require Import Word Fips197 Spec_Leak Model_Bitslice Model_Columns Model_Leak Proof_Word.
Open Scope string_scope.
Open Scope list_scope.
Open Scope N_scope.

(** ** Soundness of the checker *)
Section Sound.
Context (tables : bool) (c c' : string -> N) (a a' : string -> list N) (Hc : forall x, c x = c' x) (Ha : forall x, length (a x) = length (a' x)).
Lemma public_val e : public e = true -> forall v v', val c a v e = val c' a' v' e.
Proof.
  induction e; cbn [public]; intros H v v'; try discriminate; cbn [val].
  - apply Hc.
  - reflexivity.
  - now rewrite (IHe H v v').
  - apply andb_true_iff in H as [H1 H2]. now rewrite (IHe1 H1 v v'), (IHe2 H2 v v').
  - now rewrite Ha.
Qed.
Notation V := (map (veil tables)).
Lemma quiet_seen e : quiet tables e = true -> forall v v', V (seen c a v e) = V (seen c' a' v' e).
Proof.
  induction e; cbn [quiet]; intros H v v'; cbn [seen]; rewrite ?map_app; auto.
  - apply andb_true_iff in H as [H H3]. apply andb_true_iff in H as [H1 H2]. rewrite (IHe1 H1 v v'), (IHe2 H2 v v'). f_equal. f_equal.
    destruct (slow o); [|reflexivity]. cbn in H3. apply andb_true_iff in H3 as [P1 P2]. now rewrite (public_val e1 P1 v v'), (public_val e2 P2 v v').
  - apply andb_true_iff in H as [H P]. now rewrite (IHe H v v'), (public_val e P v v').
  - apply andb_true_iff in H as [H P]. rewrite (IHe H v v'). f_equal. cbn [map veil hide]. destruct tables; [|reflexivity]. now rewrite (public_val e P v v').
  - apply andb_true_iff in H as [H1 H2]. rewrite (IHe1 H1 v v'). f_equal. apply IHe2, H2.
  - apply andb_true_iff in H as [H1 H2]. rewrite (IHe1 H1 v v'). f_equal. apply IHe2, H2.
  - apply andb_true_iff in H as [H H3]. apply andb_true_iff in H as [H1 H2]. rewrite (IHe1 H1 v v'), (IHe2 H2 v v'). f_equal. f_equal. apply IHe3, H3.
Qed.
End Sound.
Lemma write_length l i v : length (write l i v) = length l.
Proof.
  unfold write. destruct (Nat.ltb_spec i (length l)); [|reflexivity]. rewrite app_length, firstn_length. cbn [length]. rewrite skipn_length. lia.
Qed.
Lemma chunks_length {A} k n (l : list A) : length (chunks k n l) = n.
Proof. revert l. induction n; intros; cbn; auto. Qed.
Lemma low_set_var a b x u v : low_equal a b -> low_equal (set_var a x u) (set_var b x v).
Proof. exact (fun H => H). Qed.
Lemma low_set_ctr a b x v : low_equal a b -> low_equal (set_ctr a x v) (set_ctr b x v).
Proof. intros [H1 H2]. split; [|exact H2]. intros y. cbn. unfold upd. now destruct (String.eqb x y). Qed.
Lemma low_set_arr a b x u v : length u = length v -> low_equal a b -> low_equal (set_arr a x u) (set_arr b x v).
Proof. intros L [H1 H2]. split; [exact H1|]. intros y. cbn. unfold upd. now destruct (String.eqb x y). Qed.
Lemma value_low a b e : low_equal a b -> public e = true -> value a e = value b e.
Proof. intros [H1 H2] P. now apply public_val. Qed.
Lemma leak_low tables a b e : low_equal a b -> quiet tables e = true -> map (veil tables) (leak a e) = map (veil tables) (leak b e).
Proof. intros [H1 H2] P. now apply quiet_seen. Qed.
Lemma exec_low tables s : quiet_stmt tables s = true -> forall a b, low_equal a b ->
  map (veil tables) (snd (exec s a)) = map (veil tables) (snd (exec s b)) /\ low_equal (fst (exec s a)) (fst (exec s b)).
Proof.
  induction s as [|s IHs t IHt|x e|ar i e|ar n|d be n ar|e s IHs t IHt|i st step n body IH]; cbn [quiet_stmt]; intros Q a b H.
  - now split.
  - apply andb_true_iff in Q as [Q1 Q2]. cbn [exec]. destruct (IHs Q1 a b H) as [T1 L1]. destruct (exec s a) as [a1 la], (exec s b) as [b1 lb]. cbn [fst snd] in T1, L1.
    destruct (IHt Q2 a1 b1 L1) as [T2 L2]. destruct (exec t a1), (exec t b1). cbn [fst snd] in *. rewrite !map_app. split; [congruence|assumption].
  - cbn [exec fst snd]. split; [now apply leak_low|now apply low_set_var].
  - apply andb_true_iff in Q as [Q Q2]. apply andb_true_iff in Q as [Q1 P]. cbn [exec fst snd]. split.
    + rewrite !map_app. now rewrite (leak_low tables a b i), (leak_low tables a b e), (value_low a b i).
    + apply low_set_arr; [|assumption]. rewrite !write_length. apply H.
  - cbn [exec fst snd]. split; [reflexivity|now apply low_set_arr].
  - cbn [exec fst snd]. split; [reflexivity|]. apply low_set_arr; [|assumption]. unfold view. now rewrite !map_length, !chunks_length.
  - apply andb_true_iff in Q as [Q Q3]. apply andb_true_iff in Q as [Q Q2]. apply andb_true_iff in Q as [Q1 P]. cbn [exec]. cbv zeta.
    rewrite (value_low a b e) by assumption. pose proof (leak_low tables a b e H Q1) as T0. destruct (negb (value b e =? 0)).
    + destruct (IHs Q2 a b H) as [T1 L1]. destruct (exec s a), (exec s b). cbn [fst snd] in *. rewrite !map_app. cbn [map]. split; [congruence|assumption].
    + destruct (IHt Q3 a b H) as [T1 L1]. destruct (exec t a), (exec t b). cbn [fst snd] in *. rewrite !map_app. cbn [map]. split; [congruence|assumption].
  - cbn [exec]. revert st a b H. induction n as [|n IHn]; intros st a b H; [now split|].
    destruct (IH Q _ _ (low_set_ctr a b i st H)) as [T1 L1]. destruct (exec body (set_ctr a i st)) as [a1 la], (exec body (set_ctr b i st)) as [b1 lb]. cbn [fst snd] in T1, L1.
    specialize (IHn (st + step) a1 b1 L1). match type of IHn with map _ (snd ?x) = map _ (snd ?y) /\ _ => destruct x, y end. cbn [fst snd] in *. destruct IHn. cbn [map]. rewrite !map_app. split; [congruence|assumption].
Qed.
Lemma veil_true l : map (veil true) l = l. Proof. apply map_id. Qed.
Theorem checker_sound s : quiet_stmt true s = true -> constant_time s.
Proof. intros Q a b H. destruct (exec_low true s Q a b H) as [T _]. now rewrite !veil_true in T. Qed.
Theorem veiled_checker_sound s : quiet_stmt false s = true -> constant_time_but_lookups s.
Proof. intros Q a b H. now apply (exec_low false s Q a b H). Qed.

(** ** Values of the expressions *)
Section Val.
Context (c : string -> N) (ar : string -> list N).
Notation val := (val c ar).
Local Opaque rep.
Lemma val_call v x a b : val v (Call x a b) = val (upd (fun _ => 0) x (val v a)) b. Proof. reflexivity. Qed.
Lemma val_bin v o a b : val v (Bin o a b) = val2 o (val v a) (val v b). Proof. reflexivity. Qed.
Lemma val_un v o a : val v (Un o a) = val1 o (val v a). Proof. reflexivity. Qed.
Lemma let_step (F : N -> N) v x a b w k : val v a = w -> (forall u, val (upd v x u) b = F (k u)) -> val v (Let x a b) = F (let_in w k).
Proof. intros <- H. cbn [Spec_Leak.val]. apply H. Qed.
Lemma let_last (F : N -> N) v x a b w : val v a = w -> (forall u, val (upd v x u) b = F u) -> val v (Let x a b) = F w.
Proof. intros <- H. cbn [Spec_Leak.val]. apply H. Qed.
Lemma val_ror1 v e : val v (x_ror1 e) = ror1 16 (val v e). Proof. reflexivity. Qed.
Lemma val_swap2 v e : val v (x_swap2 e) = swap2 16 (val v e). Proof. reflexivity. Qed.
Lemma val_step_a v a b m : val v (x_step_a a b (x_rep m)) = step_a 16 (val v a) (val v b) (rep 16 m). Proof. reflexivity. Qed.
Lemma val_step_b v a m : val v (x_step_b a (x_rep m)) = step_b 16 (val v a) (rep 16 m). Proof. reflexivity. Qed.
Lemma val_swap16 v e : val v (x_swap16 e) = swap16 (val v e). Proof. reflexivity. Qed.
Lemma val_swap8 v e : val v (x_swap8 e) = swap8 (val v e). Proof. reflexivity. Qed.
Lemma val_ror8 be v e : val v (x_ror8_32 be e) = ror8_32 be (val v e). Proof. destruct be; reflexivity. Qed.
Lemma val_xtime v e : val v (x_xtime e) = xtime (val v e). Proof. reflexivity. Qed.
Local Opaque let_in x_ror1 x_swap2 x_step_a x_step_b x_swap16 x_swap8 x_ror8_32 x_xtime ror1 swap2 step_a step_b swap16 swap8 ror8_32 xtime.
Ltac look := cbn [Spec_Leak.val val1 val2 x_rep]; rewrite ?val_ror1, ?val_swap2, ?val_step_a, ?val_step_b, ?val_swap16, ?val_swap8, ?val_ror8, ?val_xtime;
  cbn [Spec_Leak.val val1 val2]; unfold upd; cbn [String.eqb Ascii.eqb Bool.eqb]; reflexivity.
Ltac steps F := repeat (lazymatch goal with |- _ = ?r => lazymatch r with context [let_in] => apply (let_step F); [look|intros ?] end end).
Local Open Scope leak_scope.
Definition y_in (tail : exp) : exp :=
  "y" ::= (x_ror1 $"x") ;;;
  "x" ::= ($"x" :&: (x_rep 0xdd)) :^: ($"y" :&: (x_rep 0x57)) ;;;
  "y" ::= (x_ror1 $"y") ;;;
  "x" ::= $"x" :^: ($"y" :&: (x_rep 0x1c)) ;;;
  "y" ::= (x_ror1 $"y") ;;;
  "x" ::= $"x" :^: ($"y" :&: (x_rep 0x4a)) ;;;
  "y" ::= (x_ror1 $"y") ;;;
  "x" ::= $"x" :^: ($"y" :&: (x_rep 0x42)) ;;;
  "y" ::= (x_ror1 $"y") ;;;
  "x" ::= $"x" :^: ($"y" :&: (x_rep 0x64)) ;;;
  "y" ::= (x_ror1 $"y") ;;;
  "x" ::= $"x" :^: ($"y" :&: (x_rep 0xe0)) ;;; tail.
Definition y_invert (tail : exp) : exp :=
  "a1" ::= $"x" :^: (($"x" :&: (x_rep 0xf0)) :>>: 4) ;;;
  "a2" ::= (x_swap2 $"x") ;;;
  "a3" ::= (x_step_a $"x" $"a1" (x_rep 0xaa)) ;;;
  "a4" ::= (x_step_a $"a1" $"a2" (x_rep 0xaa)) ;;;
  "a5" ::= ($"a3" :&: (x_rep 0xcc)) :>>: 2 ;;;
  "a3" ::= $"a3" :^: ((($"a4" :<<: 2) :^: $"a4") :&: (x_rep 0xcc)) ;;;
  "a4" ::= (x_step_b $"a5" (x_rep 0x22)) ;;;
  "a3" ::= $"a3" :^: $"a4" ;;;
  "a5" ::= (x_step_b $"a3" (x_rep 0xa0)) ;;;
  "a4" ::= $"a5" :&: (x_rep 0xc0) ;;;
  "a6" ::= $"a4" :>>: 2 ;;;
  "a4" ::= $"a4" :^: (($"a5" :<<: 2) :&: (x_rep 0xc0)) ;;;
  "a5" ::= (x_step_b $"a6" (x_rep 0x20)) ;;;
  "a4" ::= $"a4" :|: $"a5" ;;;
  "a3" ::= ($"a3" :^: ($"a4" :>>: 4)) :&: (x_rep 0x0f) ;;;
  "a2" ::= $"a3" :^: (($"a3" :&: (x_rep 0x0c)) :>>: 2) ;;;
  "a4" ::= (x_step_a $"a2" $"a3" (x_rep 0x0a)) ;;;
  "a5" ::= (x_step_b $"a4" (x_rep 0x08)) ;;;
  "a4" ::= ($"a4" :^: ($"a5" :>>: 2)) :&: (x_rep 0x03) ;;;
  "a4" ::= $"a4" :^: (($"a4" :&: (x_rep 0x02)) :>>: 1) ;;;
  "a4" ::= $"a4" :|: ($"a4" :<<: 2) ;;;
  "a3" ::= (x_step_a $"a2" $"a4" (x_rep 0x0a)) ;;;
  "a3" ::= $"a3" :|: ($"a3" :<<: 4) ;;;
  "a2" ::= (x_swap2 $"a1") ;;;
  "x" ::= (x_step_a $"a1" $"a3" (x_rep 0xaa)) ;;;
  "a4" ::= (x_step_a $"a2" $"a3" (x_rep 0xaa)) ;;;
  "a5" ::= ($"x" :&: (x_rep 0xcc)) :>>: 2 ;;;
  "x" ::= $"x" :^: ((($"a4" :<<: 2) :^: $"a4") :&: (x_rep 0xcc)) ;;;
  "a4" ::= (x_step_b $"a5" (x_rep 0x22)) ;;;
  "x" ::= $"x" :^: $"a4" ;;; tail.
Definition y_out : exp :=
  "y" ::= (x_ror1 $"x") ;;;
  "x" ::= ($"x" :&: (x_rep 0x39)) :^: ($"y" :&: (x_rep 0x3f)) ;;;
  "y" ::= (($"y" :&: (x_rep 0xfc)) :>>: 2) :|: (($"y" :&: (x_rep 0x03)) :<<: 6) ;;;
  "x" ::= $"x" :^: ($"y" :&: (x_rep 0x97)) ;;;
  "y" ::= (x_ror1 $"y") ;;;
  "x" ::= $"x" :^: ($"y" :&: (x_rep 0x9b)) ;;;
  "y" ::= (x_ror1 $"y") ;;;
  "x" ::= $"x" :^: ($"y" :&: (x_rep 0x3c)) ;;;
  "y" ::= (x_ror1 $"y") ;;;
  "x" ::= $"x" :^: ($"y" :&: (x_rep 0xdd)) ;;;
  "y" ::= (x_ror1 $"y") ;;;
  "x" ::= $"x" :^: ($"y" :&: (x_rep 0x72)) ;;;
  $"x" :^: (x_rep 0x63).
Definition y_inv_in (tail : exp) : exp :=
  "x" ::= $"x" :^: (x_rep 0x63) ;;;
  "y" ::= (x_ror1 $"x") ;;;
  "x" ::= ($"x" :&: (x_rep 0xfd)) :^: ($"y" :&: (x_rep 0x5e)) ;;;
  "y" ::= (x_ror1 $"y") ;;;
  "x" ::= $"x" :^: ($"y" :&: (x_rep 0xf3)) ;;;
  "y" ::= (x_ror1 $"y") ;;;
  "x" ::= $"x" :^: ($"y" :&: (x_rep 0xf5)) ;;;
  "y" ::= (x_ror1 $"y") ;;;
  "x" ::= $"x" :^: ($"y" :&: (x_rep 0x78)) ;;;
  "y" ::= (x_ror1 $"y") ;;;
  "x" ::= $"x" :^: ($"y" :&: (x_rep 0x77)) ;;;
  "y" ::= (x_ror1 $"y") ;;;
  "x" ::= $"x" :^: ($"y" :&: (x_rep 0x15)) ;;;
  "y" ::= (x_ror1 $"y") ;;;
  "x" ::= $"x" :^: ($"y" :&: (x_rep 0xa5)) ;;; tail.
Definition y_inv_out : exp :=
  "y" ::= (x_ror1 $"x") ;;;
  "x" ::= ($"x" :&: (x_rep 0xb5)) :^: ($"y" :&: (x_rep 0x40)) ;;;
  "y" ::= (x_ror1 $"y") ;;;
  "x" ::= $"x" :^: ($"y" :&: (x_rep 0x80)) ;;;
  "y" ::= (x_ror1 $"y") ;;;
  "x" ::= $"x" :^: ($"y" :&: (x_rep 0x16)) ;;;
  "y" ::= (x_ror1 $"y") ;;;
  "x" ::= $"x" :^: ($"y" :&: (x_rep 0xeb)) ;;;
  "y" ::= (x_ror1 $"y") ;;;
  "x" ::= $"x" :^: ($"y" :&: (x_rep 0x97)) ;;;
  "y" ::= (x_ror1 $"y") ;;;
  "x" ::= $"x" :^: ($"y" :&: (x_rep 0xfb)) ;;;
  "y" ::= (x_ror1 $"y") ;;;
  $"x" :^: ($"y" :&: (x_rep 0x7d)).

Lemma split_sub : x_subbytes_body = y_in (y_invert y_out). Proof. reflexivity. Qed.
Lemma split_inv : x_invsubbytes_body = y_inv_in (y_invert y_inv_out). Proof. reflexivity. Qed.
Lemma val_y_in (F : N -> N) v tail : (forall v', val v' tail = F (v' "x")) -> val v (y_in tail) = F (bs_basis_in 16 (v "x")).
Proof. intros H. unfold y_in, bs_basis_in. steps F. apply (let_last F); [look|intros ?]. rewrite H. look. Qed.
Lemma val_y_invert (F : N -> N) v tail : (forall v', val v' tail = F (v' "x")) -> val v (y_invert tail) = F (bs_invert 16 (v "x")).
Proof. intros H. unfold y_invert, bs_invert. steps F. apply (let_last F); [look|intros ?]. rewrite H. look. Qed.
Lemma val_y_inv_in (F : N -> N) v tail : (forall v', val v' tail = F (v' "x")) -> val v (y_inv_in tail) = F (bs_inv_basis_in 16 (v "x")).
Proof. intros H. unfold y_inv_in, bs_inv_basis_in. steps F. apply (let_last F); [look|intros ?]. rewrite H. look. Qed.
Lemma val_y_out v : val v y_out = bs_basis_out 16 (v "x").
Proof. unfold y_out, bs_basis_out. steps (fun u : N => u). look. Qed.
Lemma val_y_inv_out v : val v y_inv_out = bs_inv_basis_out 16 (v "x").
Proof. unfold y_inv_out, bs_inv_basis_out. steps (fun u : N => u). look. Qed.
Local Opaque bs_basis_in bs_invert bs_basis_out bs_inv_basis_in bs_inv_basis_out y_in y_invert y_out y_inv_in y_inv_out.
Lemma val_subbytes v e : val v (x_subbytes e) = subbytes 16 (val v e).
Proof. unfold x_subbytes. rewrite val_call. rewrite split_sub. apply (val_y_in (fun u => bs_basis_out 16 (bs_invert 16 u))). intros v1. apply (val_y_invert (bs_basis_out 16)). exact val_y_out. Qed.
Local Opaque x_subbytes subbytes.
Lemma val_invsubbytes v e : val v (x_invsubbytes e) = invsubbytes 16 (val v e).
Proof. unfold x_invsubbytes. rewrite val_call. rewrite split_inv. apply (val_y_inv_in (fun u => bs_inv_basis_out 16 (bs_invert 16 u))). intros v1. apply (val_y_invert (bs_inv_basis_out 16)). exact val_y_inv_out. Qed.
Local Opaque x_invsubbytes invsubbytes.
Lemma val_sub_word v e : val v (x_sub_word e) = bs_sub_word (val v e).
Proof. unfold x_sub_word. rewrite val_un. now rewrite val_subbytes. Qed.
Lemma val_pack v es : val v (fold_right (fun e acc => Bin Pack e acc) (Lit 0) es) = of_le (map (val v) es).
Proof. induction es as [|e es IH]; [reflexivity|]. cbn [fold_right Spec_Leak.val val2 map of_le]. now rewrite IH. Qed.
Lemma val_from_ne be v es : val v (x_from_ne be es) = of_ne be (map (val v) es).
Proof. unfold x_from_ne, of_ne, of_be. destruct be; rewrite val_pack; [now rewrite map_rev|reflexivity]. Qed.
Lemma val_shiftrows be v e : val v (x_shiftrows be e) = shiftrows be (to_ne be 16 (val v e)).
Proof. unfold x_shiftrows, shiftrows. rewrite val_call, val_from_ne, map_map. reflexivity. Qed.
Lemma val_invshiftrows be v e : val v (x_invshiftrows be e) = invshiftrows be (to_ne be 16 (val v e)).
Proof. unfold x_invshiftrows, invshiftrows. rewrite val_call, val_from_ne, map_map. reflexivity. Qed.
Lemma val_mixcolumns be v e : val v (x_mixcolumns be e) = mixcolumns be (val v e).
Proof. unfold x_mixcolumns, mixcolumns. cbn [Spec_Leak.val val2]. rewrite val_ror8, !val_swap16, !val_swap8, !val_xtime. reflexivity. Qed.
Lemma val_invmixcolumns be v e : val v (x_invmixcolumns be e) = invmixcolumns be (val v e).
Proof.
  unfold x_invmixcolumns. rewrite val_call. set (x := val v e). clearbody x.
  transitivity (let_in (N.lxor x (swap16 x)) (fun s => let_in (N.lxor (N.lxor s (swap8 s)) x) (fun s => let_in (xtime x) (fun t =>
    let_in (N.lxor (N.lxor s t) (ror8_32 be t)) (fun s => let_in (xtime t) (fun t => let_in (N.lxor t (swap16 t)) (fun t =>
    let_in (N.lxor s t) (fun s => let_in (xtime t) (fun t => N.lxor (N.lxor s t) (swap8 t)))))))))); [|with_strategy transparent [let_in] (unfold let_in; reflexivity)].
  steps (fun u : N => u). look.
Qed.
Lemma val_enc be v s k : val v (x_enc be s k) = bs_enc be (val v s) (val v k).
Proof. unfold x_enc, bs_enc. rewrite val_bin. cbn [val2]. now rewrite val_mixcolumns, val_subbytes, val_shiftrows. Qed.
Lemma val_dec be v s k : val v (x_dec be s k) = bs_dec be (val v s) (val v k).
Proof. unfold x_dec, bs_dec. rewrite val_bin. cbn [val2]. now rewrite val_invmixcolumns, val_invsubbytes, val_invshiftrows. Qed.
Lemma val_enc_last be v s k : val v (x_enc_last be s k) = bs_enc_last be (val v s) (val v k).
Proof. unfold x_enc_last, bs_enc_last. rewrite val_bin. cbn [val2]. now rewrite val_subbytes, val_shiftrows. Qed.
Lemma val_dec_last be v s k : val v (x_dec_last be s k) = bs_dec_last be (val v s) (val v k).
Proof. unfold x_dec_last, bs_dec_last. rewrite val_bin. cbn [val2]. now rewrite val_invsubbytes, val_invshiftrows. Qed.
End Val.
