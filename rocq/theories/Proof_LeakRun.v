(** The whole programs of Model_Leak.v compute what lib.rs over the bitslice backend computes. *)
From Coq Require Import Lia Arith String.
From Coq Require Import List.
From Verif Require Import Word Interface Fips197 Spec_Leak Model_Bitslice Model_Columns Model_Leak.
From Verif Require Import Proof_Word Proof_KeySpec Proof_KeyTable Proof_Leak.
Open Scope string_scope.
Open Scope list_scope.
Open Scope N_scope.

(** ** Sequencing and loops *)
Lemma final_seq s t st : final (Seq s t) st = final t (final s st).
Proof. unfold final. cbn [exec]. destruct (exec s st) as [a l]. cbn [fst]. now destruct (exec t a). Qed.
Lemma final_for0 i a step b st : final (For i a step 0 b) st = st.
Proof. reflexivity. Qed.
Lemma final_forS i a step n b st : final (For i a step (S n) b) st = final (For i (a + step) step n b) (final b (set_ctr st i a)).
Proof.
  unfold final. cbn [exec]. destruct (exec b (set_ctr st i a)) as [st1 l1]. cbn [fst].
  match goal with |- fst (let (_, _) := ?x in _) = _ => now destruct x end.
Qed.
Lemma final_store a i e st : final (Store a i e) st = set_arr st a (write (arrs st a) (N.to_nat (value st i)) (value st e)).
Proof. reflexivity. Qed.
Lemma final_assign x e st : final (Assign x e) st = set_var st x (value st e).
Proof. reflexivity. Qed.
Lemma final_block_cons s l st : final (block (s :: l)) st = final (block l) (final s st).
Proof. apply final_seq. Qed.
Lemma final_block_app l m st : final (block (l ++ m)) st = final (block m) (final (block l) st).
Proof. revert st. induction l as [|s l IH]; intros st; [reflexivity|]. change ((s :: l) ++ m) with (s :: (l ++ m)). now rewrite !final_block_cons, IH. Qed.

Lemma for_ofold {A B} (P : A -> state -> Prop) (f : A -> B -> outcome A) i step body l :
  (forall x st v, P x st -> P x (set_ctr st i v)) ->
  forall start x x' st,
  (forall j b y y' st, nth_error l j = Some b -> P y st -> ctrs st i = start + N.of_nat j * step -> f y b = Ret y' -> P y' (final body st)) ->
  ofold f l x = Ret x' -> P x st -> P x' (final (For i start step (length l) body) st).
Proof.
  intros Hc. induction l as [|b l IH]; intros start x x' st H E Px; cbn [ofold length] in *.
  - now injection E as <-.
  - rewrite final_forS. destruct (f x b) as [y| |] eqn:Ey; try discriminate. cbn [bind] in E.
    apply (IH _ y).
    + intros j b' z z' st' Hj Pz Hz Ez. apply (H (S j) b' z); [exact Hj|exact Pz|rewrite Hz; lia|exact Ez].
    + exact E.
    + apply (H 0%nat b x); [reflexivity|now apply Hc| |exact Ey]. cbn. unfold upd. rewrite String.eqb_refl. lia.
Qed.

(** ** Arrays *)
Lemma get_nth l i x : get l i = Ret x -> nth i l 0 = x.
Proof. unfold get. destruct (nth_error l i) eqn:E; [|discriminate]. intros [= ->]. now apply nth_error_nth. Qed.
Lemma set_write l i v l' : set l i v = Ret l' -> write l i v = l'.
Proof. unfold set, write. destruct (Nat.ltb i (length l)); [intros H; injection H; auto|discriminate]. Qed.
Lemma value_index st a i n : value st i = N.of_nat n -> value st (Index a i) = nth n (arrs st a) 0.
Proof. intros E. unfold value in *. cbn [Spec_Leak.val]. rewrite E, Nat2N.id. reflexivity. Qed.
Lemma value_lit st n : value st (Lit n) = n. Proof. reflexivity. Qed.
Lemma value_ctr st x : value st (Ctr x) = ctrs st x. Proof. reflexivity. Qed.
Lemma value_plus st a b : value st (Bin Plus a b) = value st a + value st b. Proof. reflexivity. Qed.
Lemma value_xor st a b : value st (Bin Xor a b) = N.lxor (value st a) (value st b). Proof. reflexivity. Qed.
Lemma value_div st a b : value st (Bin Divide a b) = value st a / value st b. Proof. reflexivity. Qed.

(** The arrays are [base], except that "columns" holds [cols]. *)
Definition holds (base : string -> list N) (a : string) (l : list N) (st : state) : Prop := forall x, arrs st x = upd base a l x.
Lemma upd_same {A} (f : string -> A) x v : upd f x v x = v. Proof. unfold upd. now rewrite String.eqb_refl. Qed.
Lemma upd_other {A} (f : string -> A) x y v : x <> y -> upd f x v y = f y.
Proof. unfold upd. destruct (String.eqb_spec x y); [contradiction|reflexivity]. Qed.
Lemma holds_arr base a l st : holds base a l st -> arrs st a = l.
Proof. intros H. now rewrite H, upd_same. Qed.
Lemma holds_set base a l l' st : holds base a l st -> holds base a l' (set_arr st a l').
Proof. intros H x. cbn. unfold upd. destruct (String.eqb_spec a x); [reflexivity|]. rewrite H. now apply upd_other. Qed.
Lemma holds_store base a l l' st i e n : holds base a l st -> value st i = N.of_nat n -> write l n (value st e) = l' ->
  holds base a l' (final (Store a i e) st).
Proof. intros H Ei E. rewrite final_store, Ei, Nat2N.id, (holds_arr _ _ _ _ H), E. now apply (holds_set _ _ l). Qed.
Lemma holds_ctr base a l i st v : holds base a l st -> holds base a l (set_ctr st i v).
Proof. exact (fun H => H). Qed.
Lemma ctrs_store a i e st : ctrs (final (Store a i e) st) = ctrs st. Proof. reflexivity. Qed.

(** ** Key schedules *)
Section Keys.
Context (base : string -> list N) (HR : base "RCON" = RCON).
Notation K := (holds base "columns").
Lemma xor_step cols cols' st k a b k' a' b' : K cols st -> value st k = N.of_nat k' -> value st a = N.of_nat a' -> value st b = N.of_nat b' ->
  col_xor cols k' a' b' = Ret cols' -> K cols' (final (s_xor k a b) st).
Proof.
  intros H Ek Ea Eb E. unfold col_xor in E. destruct (get cols a') as [x| |] eqn:Gx; try discriminate. destruct (get cols b') as [y| |] eqn:Gy; try discriminate.
  cbn [bind] in E. apply get_nth in Gx, Gy. apply set_write in E. unfold s_xor. apply (holds_store _ _ cols _ _ _ _ k'); [assumption|assumption|].
  rewrite value_xor. unfold columns. rewrite (value_index _ _ _ _ Ea), (value_index _ _ _ _ Eb), (holds_arr _ _ _ _ H), Gx, Gy. exact E.
Qed.
Definition computes3 (e : exp -> exp -> exp -> exp) (f : N -> N -> N -> N) : Prop := forall st a b c, value st (e a b c) = f (value st a) (value st b) (value st c).
Definition computes2 (e : exp -> exp -> exp) (f : N -> N -> N) : Prop := forall st a b, value st (e a b) = f (value st a) (value st b).
Lemma first_step xf f cols cols' st k a b r k' a' b' r' : computes3 xf f -> K cols st -> value st k = N.of_nat k' -> value st a = N.of_nat a' -> value st b = N.of_nat b' -> value st r = N.of_nat r' ->
  col_first f cols k' a' b' r' = Ret cols' -> K cols' (final (s_first xf k a b r) st).
Proof.
  intros Hf H Ek Ea Eb Er E. unfold col_first in E. destruct (get cols a') as [x| |] eqn:Gx; try discriminate. destruct (get cols b') as [y| |] eqn:Gy; try discriminate.
  destruct (get RCON r') as [c| |] eqn:Gc; try discriminate. cbn [bind] in E. apply get_nth in Gx, Gy, Gc. apply set_write in E.
  unfold s_first. apply (holds_store _ _ cols _ _ _ _ k'); [assumption|assumption|]. rewrite Hf. unfold columns.
  rewrite (value_index _ _ _ _ Ea), (value_index _ _ _ _ Eb), (value_index _ _ _ _ Er), (holds_arr _ _ _ _ H), Gx, Gy, (H "RCON"), upd_other, HR, Gc by discriminate.
  exact E.
Qed.
Lemma mid_step xm g cols cols' st k a b k' a' b' : computes2 xm g -> K cols st -> value st k = N.of_nat k' -> value st a = N.of_nat a' -> value st b = N.of_nat b' ->
  col_mid g cols k' a' b' = Ret cols' -> K cols' (final (s_mid xm k a b) st).
Proof.
  intros Hf H Ek Ea Eb E. unfold col_mid in E. destruct (get cols a') as [x| |] eqn:Gx; try discriminate. destruct (get cols b') as [y| |] eqn:Gy; try discriminate.
  cbn [bind] in E. apply get_nth in Gx, Gy. apply set_write in E. unfold s_mid. apply (holds_store _ _ cols _ _ _ _ k'); [assumption|assumption|].
  rewrite Hf. unfold columns. rewrite (value_index _ _ _ _ Ea), (value_index _ _ _ _ Eb), (holds_arr _ _ _ _ H), Gx, Gy. exact E.
Qed.
Lemma x_first_ok : computes3 x_first (rot_first bs_sub_word).
Proof. intros st a b c. unfold x_first. rewrite !value_xor. unfold value. rewrite val_un, val_sub_word. reflexivity. Qed.
Lemma x_mid_ok : computes2 x_mid (sub_mid bs_sub_word).
Proof. intros st a b. unfold x_mid. rewrite value_xor. unfold value. rewrite val_sub_word. reflexivity. Qed.
Lemma i_value st i k : ctrs st "i" = N.of_nat i -> value st (i_ k) = N.of_nat (i + N.to_nat k).
Proof. intros E. unfold i_. rewrite value_plus, value_ctr, value_lit, E. lia. Qed.
Lemma i_div st i k : (k <> 0)%nat -> ctrs st "i" = N.of_nat i -> value st (Bin Divide (Ctr "i") (Lit (N.of_nat k))) = N.of_nat (i / k).
Proof. intros Hk E. rewrite value_div, value_ctr, value_lit, E. symmetry. apply Nat2N.inj_div. Qed.

Lemma load_ok' be n nk key cols st : base "key" = key -> length key = (4 * nk)%nat -> (exists c, K c st) -> col_load be n key = Ret cols ->
  K cols (final (s_load be n nk) st).
Proof.
  intros Hk L (c0 & H) E. unfold s_load. rewrite final_seq. set (st1 := final (Zeroed "columns" n) st).
  assert (H1 : K (repeat 0 n) st1) by (apply (holds_set _ _ c0), H). clearbody st1. clear H.
  unfold col_load in E. rewrite L, (Nat.mul_comm 4), Nat.div_mul in E by lia.
  set (l := combine (seq 0 nk) (chunks 4 nk key)) in *.
  assert (Ll : length l = nk) by (unfold l; rewrite combine_length, seq_length, chunks_length; lia).
  rewrite <- Ll. apply (for_ofold (holds base "columns") _ "i" 1 _ l (fun x st v H => H)) with (x := repeat 0 n) (2 := E); [|exact H1].
  clear - Hk L Ll. intros j [p w] cols cols' st Hj Pc Ej Ew. assert (Hlt : (j < nk)%nat) by (rewrite <- Ll; apply nth_error_Some; congruence).
  assert (Ep : p = j /\ w = firstn 4 (skipn (4 * j) key)).
  { rewrite (nth_error_nth' l (0%nat, [])) in Hj by lia. injection Hj as Hj. unfold l in Hj.
    rewrite combine_nth in Hj by (rewrite seq_length, chunks_length; lia). rewrite seq_nth in Hj by lia. rewrite firstn_nth_chunk in Hj by lia.
    injection Hj as <- <-. split; [lia|reflexivity]. }
  destruct Ep as [-> ->]. cbn [fst snd] in Ew. apply set_write in Ew.
  assert (Ei : ctrs st "i" = N.of_nat j) by (rewrite Ej; lia).
  apply (holds_store _ _ cols _ _ _ _ j); [exact Pc|exact Ei|]. rewrite <- Ew. f_equal. unfold value. rewrite val_from_ne, map_map. f_equal.
  rewrite (firstn_seq_nth 0) by lia. cbn [seq map].
  assert (G : forall t, val (ctrs st) (arrs st) (vars st) (Index "key" (Bin Plus (Bin Times (Lit 4) (Ctr "i")) (Lit t))) = nth (4 * j + N.to_nat t) key 0).
  { intros t. cbn [Spec_Leak.val val2]. rewrite Ei, (Pc "key"), upd_other, Hk by discriminate. f_equal. lia. }
  rewrite !G. cbn [N.to_nat Pos.to_nat Pos.iter_op Nat.add]. rewrite Nat.add_0_r. repeat (f_equal; try lia).
Qed.


(** One assignment of a loop body or of the lines after it: [P st] is "counter is [i]" or nothing. *)
Lemma block_nil st : final (block []) st = st. Proof. reflexivity. Qed.
Ltac idx := lazymatch goal with
  | |- value _ (Lit _) = _ => reflexivity
  | H : ctrs ?st "i" = N.of_nat ?i |- value ?st (i_ _) = _ => refine (eq_trans (i_value _ i _ H) _); reflexivity
  | H : ctrs ?st "i" = N.of_nat ?i |- value ?st (Bin Divide _ _) = N.of_nat (_ / ?k) => exact (i_div _ i k ltac:(discriminate) H) end.
Ltac apply_step H := lazymatch goal with
  | |- holds _ _ _ (final (s_first _ _ _ _ _) _) => eapply first_step; [eassumption|exact H|..|eassumption]; idx
  | |- holds _ _ _ (final (s_xor _ _ _) _) => eapply xor_step; [exact H|..|eassumption]; idx
  | |- holds _ _ _ (final (s_mid _ _ _ _) _) => eapply mid_step; [eassumption|exact H|..|eassumption]; idx end.
Lemma view_step be n cols st ks : K cols st -> ks = map (of_ne be) (col_blocks be n cols) ->
  forall x, arrs (final (block [View "keys" be n "columns"]) st) x = upd (upd base "columns" cols) "keys" ks x.
Proof.
  intros H -> x. rewrite final_block_cons, block_nil. unfold final. cbn [exec fst set_arr arrs]. unfold upd at 1 2.
  destruct (String.eqb "keys" x); [|exact (H x)]. rewrite (holds_arr _ _ _ _ H). reflexivity.
Qed.
Lemma ctrs_first xf k a b r st : ctrs (final (s_first xf k a b r) st) = ctrs st. Proof. reflexivity. Qed.
Lemma ctrs_xor k a b st : ctrs (final (s_xor k a b) st) = ctrs st. Proof. reflexivity. Qed.
Lemma ctrs_mid xm k a b st : ctrs (final (s_mid xm k a b) st) = ctrs st. Proof. reflexivity. Qed.
Local Opaque s_first s_xor s_mid final s_load value exec.
Ltac step :=
  lazymatch goal with
  | E : bind ?m _ = Ret _, H : holds _ _ _ ?st |- holds _ _ _ (final (block (?s :: _)) ?st) =>
    rewrite final_block_cons;
    let c := fresh "c" in let Ec := fresh "Ec" in destruct m as [c| |] eqn:Ec; try discriminate E; cbn [bind] in E;
    let H' := fresh "H" in assert (H' : K c (final s st)) by apply_step H;
    try match goal with Hi : ctrs st "i" = ?v |- _ => let Hj := fresh "Hi" in assert (Hj : ctrs (final s st) "i" = v) by (rewrite ?ctrs_first, ?ctrs_xor, ?ctrs_mid; exact Hi); clear Hi end;
    let st' := fresh "st" in set (st' := final s st) in *; clearbody st'; clear H Ec
  | H : holds _ _ _ ?st |- holds _ _ _ (final (block [?s]) ?st) =>
    rewrite final_block_cons, block_nil; apply_step H
  end.
Lemma ctr_mult st j n : ctrs st "i" = 0 + N.of_nat j * N.of_nat n -> ctrs st "i" = N.of_nat (j * n).
Proof. intros ->. lia. Qed.
Lemma nth_step_by n s j b : nth_error (step_by n s) j = Some b -> b = (j * s)%nat.
Proof.
  unfold step_by. rewrite nth_error_map. destruct (nth_error (seq 0 _) j) eqn:E; [|discriminate]. cbn. intros H. injection H as <-. f_equal.
  assert (Hl : (j < length (seq 0 ((n + s - 1) / s)))%nat) by (apply nth_error_Some; congruence).
  rewrite (nth_error_nth' _ 0%nat Hl) in E. injection E as <-. rewrite seq_length in Hl. now rewrite seq_nth.
Qed.
(** The state after key set-up. *)
Definition keyed (ks : list N) (st : state) : Prop := exists cols, forall x, arrs st x = upd (upd base "columns" cols) "keys" ks x.
Section Loops.
Context (xf xl : exp -> exp -> exp -> exp) (xm : exp -> exp -> exp) (first firstl : N -> N -> N -> N) (mid : N -> N -> N).
Context (HF : computes3 xf first) (HFl : computes3 xl firstl) (HM : computes2 xm mid).
Ltac loop n s := let H := fresh "HL" in
  lazymatch goal with E : ofold ?f (step_by n s) ?c = Ret ?d |- context [final (For "i" 0 ?step ?m ?body) ?st] =>
   assert (H : K d (final (For "i" 0 step m body) st));
   [ change m with (length (step_by n s)); apply (for_ofold (holds base "columns") f "i" step body (step_by n s) (fun x st v H => H)) with (x := c) (2 := E);
     [ clear - HR HF HM; intros j b y y' st Hj H Hi E; apply nth_step_by in Hj; subst b; apply (ctr_mult _ _ s) in Hi | assumption ] | ]
  end.

Lemma run_128 be key cols st : base "key" = key -> length key = 16%nat -> (exists c, K c st) ->
  col_keygen_128 be first key = Ret cols -> keyed (map (of_ne be) (col_blocks be 11 cols)) (final (s_keygen_128 be xf) st).
Proof.
  intros Hk L H E. unfold col_keygen_128 in E. unfold s_keygen_128. rewrite final_block_cons.
  destruct (col_load be 44 key) as [c1| |] eqn:E1; try discriminate E. cbn [bind] in E.
  pose proof (load_ok' be 44 4 key c1 st Hk L H E1) as H1. set (st1 := final (s_load be 44 4) st) in *. clearbody st1. clear H E1.
  rewrite final_block_cons. loop 40%nat 4%nat.
  - do 4 step.
  - match goal with |- context [block [View _ _ _ _]] => eexists; apply (view_step be 11 _ _ _ HL eq_refl) end.
Qed.
Lemma run_192 be key cols st : base "key" = key -> length key = 24%nat -> (exists c, K c st) ->
  col_keygen_192 be first key = Ret cols -> keyed (map (of_ne be) (col_blocks be 13 cols)) (final (s_keygen_192 be xf) st).
Proof.
  intros Hk L H E. unfold col_keygen_192 in E. unfold s_keygen_192. rewrite final_block_cons.
  destruct (col_load be 52 key) as [c1| |] eqn:E1; try discriminate E. cbn [bind] in E.
  pose proof (load_ok' be 52 6 key c1 st Hk L H E1) as H1. set (st1 := final (s_load be 52 6) st) in *. clearbody st1. clear H E1.
  rewrite final_block_cons.
  match type of E with bind ?m _ = _ => destruct m as [c2| |] eqn:E2; try discriminate E; cbn [bind] in E end. loop 42%nat 6%nat.
  - do 6 step.
  - clear H1 E2. match type of HL with K _ ?st => set (st2 := st) in *; clearbody st2 end.
    change [s_first xf (Lit 48) (Lit 42) (Lit 47) (Lit 7); s_xor (Lit 49) (Lit 43) (Lit 48); s_xor (Lit 50) (Lit 44) (Lit 49); s_xor (Lit 51) (Lit 45) (Lit 50); View "keys" be 13 "columns"]
      with ([s_first xf (Lit 48) (Lit 42) (Lit 47) (Lit 7); s_xor (Lit 49) (Lit 43) (Lit 48); s_xor (Lit 50) (Lit 44) (Lit 49); s_xor (Lit 51) (Lit 45) (Lit 50)] ++ [View "keys" be 13 "columns"]).
    rewrite final_block_app. eexists. apply (view_step be 13 cols); [|reflexivity]. do 4 step.
Qed.
Lemma run_256 be key cols st : base "key" = key -> length key = 32%nat -> (exists c, K c st) ->
  col_keygen_256 be first firstl mid key = Ret cols -> keyed (map (of_ne be) (col_blocks be 15 cols)) (final (s_keygen_256 be xf xl xm) st).
Proof.
  intros Hk L H E. unfold col_keygen_256 in E. unfold s_keygen_256. rewrite final_block_cons.
  destruct (col_load be 60 key) as [c1| |] eqn:E1; try discriminate E. cbn [bind] in E.
  pose proof (load_ok' be 60 8 key c1 st Hk L H E1) as H1. set (st1 := final (s_load be 60 8) st) in *. clearbody st1. clear H E1.
  rewrite final_block_cons.
  match type of E with bind ?m _ = _ => destruct m as [c2| |] eqn:E2; try discriminate E; cbn [bind] in E end. loop 48%nat 8%nat.
  - do 8 step.
  - clear H1 E2. match type of HL with K _ ?st => set (st2 := st) in *; clearbody st2 end.
    change [s_first xl (Lit 56) (Lit 48) (Lit 55) (Lit 6); s_xor (Lit 57) (Lit 49) (Lit 56); s_xor (Lit 58) (Lit 50) (Lit 57); s_xor (Lit 59) (Lit 51) (Lit 58); View "keys" be 15 "columns"]
      with ([s_first xl (Lit 56) (Lit 48) (Lit 55) (Lit 6); s_xor (Lit 57) (Lit 49) (Lit 56); s_xor (Lit 58) (Lit 50) (Lit 57); s_xor (Lit 59) (Lit 51) (Lit 58)] ++ [View "keys" be 15 "columns"]).
    rewrite final_block_app. eexists. apply (view_step be 15 cols); [|reflexivity]. do 4 step.
Qed.
End Loops.
Lemma Ret_eq {A} (a b : A) : Ret a = Ret b -> a = b. Proof. now intros [=]. Qed.
(** Key set-up leaves the round keys the model computes. *)
Lemma keygen_run be k key rks st : base "key" = key -> length key = key_len k -> (exists c, K c st) ->
  match k with K128 => bs_keygen_128 be key | K192 => bs_keygen_192 be key | K256 => bs_keygen_256 be key end = Ret rks ->
  keyed rks (final (s_keygen be k) st).
Proof.
  intros Hk L H E. destruct k; unfold s_keygen, bs_keygen_128, bs_keygen_192, bs_keygen_256, bs_keygen in *;
    match type of E with bind ?m _ = _ => destruct m as [cols| |] eqn:Ec; try discriminate E; cbn [bind] in E end;
    apply Ret_eq in E; subst rks.
  - now apply (run_128 x_first (rot_first bs_sub_word) x_first_ok be key).
  - now apply (run_192 x_first (rot_first bs_sub_word) x_first_ok be key).
  - now apply (run_256 x_first x_first x_mid (rot_first bs_sub_word) (rot_first bs_sub_word) (sub_mid bs_sub_word) x_first_ok x_first_ok x_mid_ok be key).
Qed.
End Keys.

(** ** Inverting the order of the round keys *)
Section Swap.
Context (base : string -> list N) (src dst : string) (Hne : src <> dst) (f : exp -> exp) (g : N -> N).
Context (Hf : forall st e, value st (f e) = g (value st e)).
Lemma swap_run n ks drk st : (1 < n)%nat -> N.of_nat n < 2 ^ 64 -> base src = ks -> (forall x, arrs st x = base x) ->
  (k <- get ks (n - 1) ;; drk <- set (repeat 0 n) 0 k ;;
   drk <- ofold (fun drk j => k <- get ks (n - 1 - j) ;; set drk j (g k)) (seq 1 (n - 1 - 1)) drk ;;
   k <- get ks 0 ;; set drk (n - 1) k) = Ret drk ->
  holds base dst drk (final (s_swap_keys f src dst n) st).
Proof.
  intros Hn Hb Hs H E. unfold s_swap_keys.
  assert (Src : forall l st, holds base dst l st -> arrs st src = ks) by (intros l st' Hl; rewrite Hl, upd_other; auto).
  rewrite final_block_cons. set (st1 := final (Zeroed dst n) st). assert (H1 : holds base dst (repeat 0 n) st1).
  { intros x. unfold st1, final. cbn. unfold upd. destruct (String.eqb dst x); [reflexivity|apply H]. }
  clearbody st1. clear H.
  destruct (get ks (n - 1)) as [k1| |] eqn:E1; try discriminate E. cbn [bind] in E. apply get_nth in E1.
  destruct (set (repeat 0 n) 0 k1) as [d1| |] eqn:E2; try discriminate E. cbn [bind] in E. apply set_write in E2.
  match type of E with bind ?m _ = _ => destruct m as [d2| |] eqn:E3; try discriminate E; cbn [bind] in E end.
  destruct (get ks 0) as [k0| |] eqn:E4; try discriminate E. cbn [bind] in E. apply get_nth in E4. apply set_write in E.
  rewrite final_block_cons. set (st2 := final (Store _ _ _) st1). assert (H2 : holds base dst d1 st2).
  { apply (holds_store _ _ (repeat 0 n) _ _ _ _ 0%nat); [exact H1|reflexivity|]. rewrite (value_index _ _ _ (n - 1)%nat) by reflexivity.
    now rewrite (Src _ _ H1), E1. }
  clearbody st2. rewrite final_block_cons. set (st3 := final (For _ _ _ _ _) st2). assert (H3 : holds base dst d2 st3).
  { unfold st3. replace (n - 1 - 1)%nat with (length (seq 1 (n - 1 - 1))) at 1 by apply seq_length.
    apply (for_ofold (holds base dst) _ "i" 1 _ (seq 1 (n - 1 - 1)) (fun x st v H => H)) with (x := d1) (2 := E3); [|exact H2].
    clear - Src Hn Hb Hf. intros j b y y' st Hj H Hi E.
    assert (Hl : (j < length (seq 1 (n - 1 - 1)))%nat) by (apply nth_error_Some; congruence).
    rewrite (nth_error_nth' _ 0%nat Hl) in Hj. injection Hj as <-. rewrite seq_length in Hl. rewrite seq_nth in E by assumption.
    destruct (get ks _) as [k| |] eqn:Ek; try discriminate E. cbn [bind] in E. apply get_nth in Ek. apply set_write in E.
    apply (holds_store _ _ y _ _ _ _ (1 + j)%nat); [exact H|rewrite value_ctr, Hi; lia|]. rewrite Hf.
    rewrite (value_index _ _ _ (n - 1 - (1 + j))%nat).
    - rewrite (Src _ _ H), Ek. exact E.
    - unfold value. rewrite val_bin. cbn [val2]. change (val _ _ _ (Lit (N.of_nat (n - 1)))) with (N.of_nat (n - 1)).
      change (val _ _ _ (Ctr "i")) with (ctrs st "i"). rewrite Hi. unfold wrapping_sub.
      replace (N.of_nat (n - 1) + 2 ^ 64 - (1 + N.of_nat j * 1)) with (N.of_nat (n - 1 - (1 + j)) + 1 * 2 ^ 64) by lia.
      rewrite N.mod_add by discriminate. apply N.mod_small. lia. }
  clearbody st3. rewrite final_block_cons. apply (holds_store _ _ d2 _ _ _ _ (n - 1)%nat); [exact H3|reflexivity|].
  rewrite (value_index _ _ _ 0%nat) by reflexivity. now rewrite (Src _ _ H3), E4.
Qed.
End Swap.

(** ** Lanes *)
Lemma assigns_ok (l : list string) (f : string -> exp) (g : N -> N) : NoDup l ->
  forall st, (forall st' x, arrs st' = arrs st -> ctrs st' = ctrs st -> value st' (f x) = g (vars st' x)) ->
  let st' := final (block (map (fun x => Assign x (f x)) l)) st in
  arrs st' = arrs st /\ ctrs st' = ctrs st /\ (forall x, In x l -> vars st' x = g (vars st x)) /\ (forall x, ~ In x l -> vars st' x = vars st x).
Proof.
  intros Nd. induction Nd as [|y l Hy Nd IH]; intros st H; cbn zeta.
  - split; [reflexivity|split; [reflexivity|split; [intros x []|reflexivity]]].
  - cbn [map]. rewrite final_block_cons. set (st1 := final (Assign y (f y)) st).
    assert (V1 : forall x, vars st1 x = upd (vars st) y (g (vars st y)) x).
    { intros x. unfold st1. rewrite final_assign. cbn [set_var vars]. now rewrite (H st y). }
    destruct (IH st1) as (A & C & I1 & I2).
    { intros st' x Ea Ec. now apply H. }
    split; [exact A|]. split; [exact C|]. split.
    + intros x [<-|Hx].
      * rewrite I2 by assumption. rewrite V1. apply upd_same.
      * rewrite I1 by assumption. rewrite V1. f_equal. apply upd_other. intros ->. contradiction.
    + intros x Hx. rewrite I2 by (intros ?; apply Hx; now right). rewrite V1. apply upd_other. intros ->. apply Hx. now left.
Qed.
Lemma lane_names_nodup m : NoDup (firstn m lane_names).
Proof.
  do 5 (destruct m as [|m]; [cbn [firstn lane_names]; repeat constructor; cbn [In]; intuition discriminate|]).
  cbn [firstn lane_names]; repeat constructor; cbn [In]; intuition discriminate.
Qed.
Lemma inputs_ok (l : list (nat * string)) (e : nat -> exp) (v : nat -> N) : NoDup (map snd l) ->
  forall st, (forall st' j x, In (j, x) l -> arrs st' = arrs st -> value st' (e j) = v j) ->
  let st' := final (block (map (fun jx => Assign (snd jx) (e (fst jx))) l)) st in
  arrs st' = arrs st /\ (forall j x, In (j, x) l -> vars st' x = v j) /\ (forall x, ~ In x (map snd l) -> vars st' x = vars st x).
Proof.
  induction l as [|[j0 y] l IH]; intros Nd st H; cbn zeta.
  - split; [reflexivity|split; [intros ? ? []|reflexivity]].
  - cbn [map fst snd] in *. inversion Nd as [|? ? Hy Nd']; subst. rewrite final_block_cons. set (st1 := final (Assign y (e j0)) st).
    assert (V1 : forall x, vars st1 x = upd (vars st) y (v j0) x).
    { intros x. unfold st1. rewrite final_assign. cbn [set_var vars]. rewrite (H st j0 y); [reflexivity|now left|reflexivity]. }
    destruct (IH Nd' st1) as (A & I1 & I2).
    { intros st' j x Hj Ea. apply (H st' j x); [now right|exact Ea]. }
    split; [exact A|]. split.
    + intros j x [Eq|Hx].
      * injection Eq as <- <-. rewrite I2 by assumption. rewrite V1. apply upd_same.
      * now apply I1.
    + intros x Hx. rewrite I2 by (intros ?; apply Hx; now right). rewrite V1. apply upd_other. intros ->. apply Hx. now left.
Qed.
Definition lane_list (m : nat) : list (nat * string) := combine (seq 0 m) (firstn m lane_names).
Lemma lane_list_snd m : (m <= 4)%nat -> map snd (lane_list m) = firstn m lane_names.
Proof. intros H. do 5 (destruct m as [|m]; [reflexivity|]). lia. Qed.
Lemma lane_list_in m j x : In (j, x) (lane_list m) -> (j < m)%nat /\ In x (firstn m lane_names).
Proof. intros H. split; [apply in_combine_l in H; apply in_seq in H; lia|now apply in_combine_r in H]. Qed.

Lemma seq_shift' n w : map (fun t => (n + t)%nat) (seq 0 w) = seq n w.
Proof.
  assert (H : forall z, map (fun t => (n + t)%nat) (seq z w) = seq (n + z) w).
  { induction w as [|w IH]; intros z; [reflexivity|]. cbn [seq map]. f_equal. rewrite IH. f_equal. lia. }
  rewrite H. f_equal. lia.
Qed.
Lemma input_run be w m msg st : (m <= 4)%nat -> arrs st "in" = msg -> length msg = (w * m)%nat ->
  let st' := final (s_input be w m) st in
  arrs st' = arrs st /\ forall j x, In (j, x) (lane_list m) -> vars st' x = of_ne be (firstn w (skipn (w * j) msg)).
Proof.
  intros Hm Hi L. pose proof (lane_names_nodup m) as Nd. rewrite <- lane_list_snd in Nd by assumption.
  destruct (inputs_ok (lane_list m) (fun j => x_from_ne be (map (fun t => Index "in" (Lit (N.of_nat (w * j + t)))) (seq 0 w)))
      (fun j => of_ne be (firstn w (skipn (w * j) msg))) Nd st) as (A & I1 & _).
  - intros st' j x Hj Ea. apply lane_list_in in Hj as [Hj _]. unfold value. rewrite val_from_ne, map_map. f_equal.
    rewrite (firstn_seq_nth 0).
    2: { rewrite L. assert (Hw : (w * (j + 1) <= w * m)%nat) by (apply Nat.mul_le_mono_l; lia). lia. }
    rewrite <- (seq_shift' (w * j) w), map_map. apply map_ext. intros t. change (value st' (Index "in" (Lit (N.of_nat (w * j + t)))) = nth (w * j + t) msg 0).
    rewrite (value_index _ _ _ (w * j + t)%nat) by reflexivity. now rewrite Ea, Hi.
  - split; [exact A|exact I1].
Qed.

(** One vector, as a function on words. *)
Definition n_run (pre : option (N -> N -> N)) (round last add : N -> N -> N) (nr : nat) (ks : list N) (x : N) : N :=
  last (match pre with
        | None => fold_left round (firstn (nr - 1) (skipn 1 ks)) (add x (nth 0 ks 0))
        | Some p => add (fold_left p (firstn (nr - 1) ks) x) (nth (nr - 1) ks 0)
        end) (nth nr ks 0).
Section Round.
Context (round : exp -> exp -> exp) (r : N -> N -> N).
Context (Hr : forall st a b, value st (round a b) = r (value st a) (value st b)).
Lemma rounds_loop keys m : forall n start st0,
  (start + n <= length (arrs st0 keys))%nat ->
  let st' := final (For "i" (N.of_nat start) 1 n (s_lanes m (fun x => round (Var x) (Index keys (Ctr "i"))))) st0 in
  arrs st' = arrs st0 /\ forall x, In x (firstn m lane_names) -> vars st' x = fold_left r (firstn n (skipn start (arrs st0 keys))) (vars st0 x).
Proof.
  induction n as [|n IH]; intros start st0 L; cbn zeta.
  - rewrite final_for0. split; [reflexivity|]. intros x _. reflexivity.
  - rewrite final_forS. set (st1 := set_ctr st0 "i" (N.of_nat start)).
    set (k := nth start (arrs st0 keys) 0).
    destruct (assigns_ok (firstn m lane_names) (fun x => round (Var x) (Index keys (Ctr "i"))) (fun v => r v k) (lane_names_nodup m) st1) as (A & C & I1 & _).
    { intros st' x Ea Ec. rewrite Hr, (value_index _ _ _ start).
      - unfold k. rewrite Ea. reflexivity.
      - rewrite value_ctr, Ec. unfold st1. cbn [set_ctr ctrs]. apply upd_same. }
    set (st2 := final (s_lanes m (fun x => round (Var x) (Index keys (Ctr "i")))) st1) in *.
    assert (A2 : arrs st2 = arrs st0) by exact A.
    replace (N.of_nat start + 1) with (N.of_nat (S start)) by lia.
    destruct (IH (S start) st2) as [A3 V3]; [rewrite A2; lia|]. split; [now rewrite A3, A2|].
    intros x Hx. rewrite V3 by assumption. rewrite A2. change (vars st2 x) with (vars (final (block (map (fun x => Assign x (round (Var x) (Index keys (Ctr "i")))) (firstn m lane_names))) st1) x).
    rewrite I1 by assumption. change (vars st1 x) with (vars st0 x). unfold k.
    assert (Es : skipn start (arrs st0 keys) = nth start (arrs st0 keys) 0 :: skipn (S start) (arrs st0 keys)).
    { clear - L. generalize dependent (arrs st0 keys). intros q L. assert (H : (start < length q)%nat) by lia. clear L. revert q H.
      induction start as [|s IHs]; intros [|y q] H; cbn in H; try lia; [reflexivity|]. cbn [skipn nth]. apply IHs. lia. }
    rewrite Es. reflexivity.
Qed.
Lemma round_once keys i m st : 
  let st' := final (s_lanes m (fun x => round (Var x) (Index keys (Lit (N.of_nat i))))) st in
  arrs st' = arrs st /\ forall x, In x (firstn m lane_names) -> vars st' x = r (vars st x) (nth i (arrs st keys) 0).
Proof.
  destruct (assigns_ok (firstn m lane_names) (fun x => round (Var x) (Index keys (Lit (N.of_nat i)))) (fun v => r v (nth i (arrs st keys) 0)) (lane_names_nodup m) st) as (A & _ & V & _).
  { intros st' x Ea Ec. rewrite Hr. rewrite (value_index _ _ _ i) by reflexivity. rewrite Ea. reflexivity. }
  split; [exact A|exact V].
Qed.
End Round.
Definition computes_opt (pre : option (exp -> exp -> exp)) (p : option (N -> N -> N)) : Prop :=
  match pre, p with None, None => True | Some e, Some f => computes2 e f | _, _ => False end.
Definition widened (wide : exp -> exp) (round : exp -> exp -> exp) : exp -> exp -> exp := fun a b => round a (wide b).
Lemma run_run pre round last wide p r l add keys nr m st ks :
  computes_opt (option_map (widened wide) pre) p -> computes2 (widened wide round) r -> computes2 (widened wide last) l ->
  computes2 (widened wide (Bin Xor)) add ->
  arrs st keys = ks -> (1 <= nr)%nat -> length ks = (nr + 1)%nat ->
  let st' := final (s_run pre round last wide keys nr m) st in
  arrs st' = arrs st /\ forall x, In x (firstn m lane_names) -> vars st' x = n_run p r l add nr ks (vars st x).
Proof.
  intros Hp Hr Hl Ha Hk Hn L. unfold s_run. cbn zeta. rewrite final_block_cons.
  assert (EI : forall c s t, value st c <> 0 -> final (If c s t) st = final s st).
  { intros c s t Hc. unfold final. cbn [exec]. destruct (N.eqb_spec (value st c) 0); [contradiction|]. cbn [negb]. now destruct (exec s st). }
  rewrite EI.
  2: { unfold value. cbn [Spec_Leak.val]. rewrite Hk, L. lia. }
  match goal with |- context [final (match pre with None => ?a | Some p => _ end) st] => set (st2 := final _ st) end.
  assert (H2 : arrs st2 = arrs st /\ forall x, In x (firstn m lane_names) -> vars st2 x =
     match p with None => fold_left r (firstn (nr - 1) (skipn 1 ks)) (add (vars st x) (nth 0 ks 0))
                | Some p => add (fold_left p (firstn (nr - 1) ks) (vars st x)) (nth (nr - 1) ks 0) end).
  { subst st2. destruct pre as [pe|], p as [p|]; try contradiction; rewrite !final_block_cons.
    - destruct (rounds_loop (widened wide pe) p Hp keys m (nr - 1) 0 st) as [A1 V1]; [rewrite Hk, L; lia|].
      change (N.of_nat 0) with 0 in *. unfold widened in A1, V1. set (st1 := final (For "i" 0 1 (nr - 1) _) st) in *. clearbody st1.
      destruct (round_once (widened wide (Bin Xor)) add Ha keys (nr - 1) m st1) as [A2 V2].
      change (final (block []) ?x) with x. unfold widened in A2, V2. split; [now rewrite A2|]. intros x Hx. rewrite V2, V1, A1, Hk by assumption. reflexivity.
    - destruct (round_once (widened wide (Bin Xor)) add Ha keys 0 m st) as [A1 V1].
      change (N.of_nat 0) with 0 in *. unfold widened in A1, V1. set (st1 := final (s_lanes m _) st) in *. clearbody st1.
      destruct (rounds_loop (widened wide round) r Hr keys m (nr - 1) 1 st1) as [A2 V2]; [rewrite A1, Hk, L; lia|].
      change (N.of_nat 1) with 1 in *. change (final (block []) ?x) with x. unfold widened in A2, V2. split; [now rewrite A2|].
      intros x Hx. rewrite V2, V1, A1, Hk by assumption. reflexivity. }
  destruct H2 as [A2 V2]. clearbody st2. rewrite final_block_cons. change (final (block []) ?x) with x.
  destruct (round_once (widened wide last) l Hl keys nr m st2) as [A3 V3]. unfold widened in A3, V3.
  split; [now rewrite A3|]. intros x Hx. rewrite V3, V2, A2, Hk by assumption. reflexivity.
Qed.

(** ** Output *)
Lemma write_at (pre : list N) v r rest : write (pre ++ r :: rest) (length pre) v = pre ++ v :: rest.
Proof.
  unfold write. rewrite app_length. cbn [length]. destruct (Nat.ltb_spec (length pre) (length pre + S (length rest))); [|lia].
  rewrite firstn_app, Nat.sub_diag, firstn_all, skipn_app. cbn [firstn]. rewrite app_nil_r. f_equal. f_equal.
  rewrite skipn_all2 by lia. replace (S (length pre) - length pre)%nat with 1%nat by lia. reflexivity.
Qed.
Lemma stores_ok (e : nat -> exp) (v : nat -> N) pos n : forall s st pre rest,
  (forall st' t, vars st' = vars st -> value st' (e t) = v t) ->
  arrs st "out" = pre ++ rest -> length pre = (pos + s)%nat -> (n <= length rest)%nat ->
  let st' := final (block (map (fun t => Store "out" (Lit (N.of_nat (pos + t))) (e t)) (seq s n))) st in
  vars st' = vars st /\ arrs st' "out" = pre ++ map v (seq s n) ++ skipn n rest.
Proof.
  induction n as [|n IH]; intros s st pre rest He Ho Lp Ln; cbn zeta.
  - split; [reflexivity|exact Ho].
  - cbn [seq map]. rewrite final_block_cons, final_store, value_lit, Nat2N.id, (He st s eq_refl), Ho.
    destruct rest as [|q rest]; [cbn in Ln; lia|]. rewrite <- Lp, write_at.
    destruct (IH (S s) (set_arr st "out" (pre ++ v s :: rest)) (pre ++ [v s]) rest) as [V O].
    + intros st' t E. apply He. exact E.
    + cbn. now rewrite <- app_assoc.
    + rewrite app_length. cbn [length]. lia.
    + cbn in Ln. lia.
    + split; [exact V|]. rewrite O, <- app_assoc. reflexivity.
Qed.
Lemma outputs_ok be w names : forall j st pre rest,
  arrs st "out" = pre ++ rest -> length pre = (w * j)%nat -> length rest = (w * length names)%nat ->
  let st' := final (block (map (fun jx => block (map (fun t => Store "out" (Lit (N.of_nat (w * fst jx + t))) (Un (Byte be w t) (Var (snd jx)))) (seq 0 w)))
                  (combine (seq j (length names)) names))) st in
  arrs st' "out" = pre ++ concat (map (fun x => to_ne be w (vars st x)) names).
Proof.
  induction names as [|x names IH]; intros j st pre rest Ho Lp Lr; cbn zeta.
  - destruct rest; [|cbn [length] in Lr; lia]. exact Ho.
  - cbn [length]. change (combine (seq j (S (length names))) (x :: names)) with ((j, x) :: combine (seq (S j) (length names)) names).
    rewrite !map_cons, final_block_cons. change (fst (j, x)) with j. change (snd (j, x)) with x.
    destruct (stores_ok (fun t => Un (Byte be w t) (Var x)) (fun t => nth t (to_ne be w (vars st x)) 0) (w * j) w 0 st pre rest) as [V O].
    + intros st' t E. unfold value. cbn [Spec_Leak.val val1]. now rewrite E.
    + exact Ho.
    + lia.
    + cbn [length] in Lr. lia.
    + match type of V with vars ?s = _ => set (st1 := s) in * end. clearbody st1.
      assert (Ew : map (fun t => nth t (to_ne be w (vars st x)) 0) (seq 0 w) = to_ne be w (vars st x)).
      { rewrite <- (firstn_seq_nth 0 _ 0 w); [|rewrite to_ne_length; lia]. cbn [skipn]. apply firstn_all2. rewrite to_ne_length. lia. }
      rewrite Ew, app_assoc in O.
      rewrite (IH (S j) st1 _ _ O).
      * rewrite <- app_assoc, V. reflexivity.
      * rewrite app_length, to_ne_length. lia.
      * rewrite skipn_length. cbn [length] in Lr. lia.
Qed.
Lemma output_run be w m st : (m <= 4)%nat ->
  arrs (final (s_output be w m) st) "out" = concat (map (fun x => to_ne be w (vars st x)) (firstn m lane_names)).
Proof.
  intros Hm. unfold s_output. rewrite final_seq. set (st1 := final (Zeroed "out" (w * m)) st).
  assert (L : length (firstn m lane_names) = m) by (rewrite firstn_length; unfold lane_names; cbn [length]; lia).
  change (vars st) with (vars st1). pose proof (outputs_ok be w (firstn m lane_names) 0 st1 [] (repeat 0 (w * m))) as O.
  rewrite L in O. apply O; [reflexivity|cbn [length]; lia|]. now rewrite repeat_length.
Qed.
