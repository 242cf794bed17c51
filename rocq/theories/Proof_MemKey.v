(** Key set-up over bytes of memory does to them what key set-up over a list of columns does to the list. *)
From Coq Require Import Lia Arith.
From Verif Require Import Word Interface Fips197 Spec_Cfg Spec_Layout Spec_Mem Spec_MemKey Model_Layout Model_Columns Model_Bitslice Model_Arm Model_Rv32 Model_MemKey.
From Verif Require Import Proof_Word Proof_Fips Proof_Ok Proof_KeySpec Proof_Columns Proof_Shape Proof_Mem.
Open Scope N_scope.

Definition img (be : bool) (cols : list N) : list N := concat (map (to_ne be 4) cols).
Lemma img_app be a b : img be (a ++ b) = img be a ++ img be b.
Proof. unfold img. now rewrite map_app, concat_app. Qed.
Lemma img_length be cols : length (img be cols) = (4 * length cols)%nat.
Proof. unfold img. induction cols as [|x l IH]; [reflexivity|]. cbn [map concat length]. rewrite app_length, to_ne_length, IH. lia. Qed.
Lemma img_at be cols i : (i < length cols)%nat ->
  img be cols = img be (firstn i cols) ++ to_ne be 4 (nth i cols 0) ++ img be (skipn (S i) cols).
Proof.
  intros H. assert (E : cols = firstn i cols ++ nth i cols 0 :: skipn (S i) cols).
  { rewrite <- (firstn_skipn i cols) at 1. f_equal. revert i H. induction cols as [|x l IH]; intros i H; [cbn in H; lia|]. destruct i; [reflexivity|]. cbn [skipn nth]. apply IH. cbn in H. lia. }
  rewrite E at 1. rewrite img_app. reflexivity.
Qed.
Lemma contents_inner m a j l L : (j + l <= L)%nat -> contents m (Slice (a + j) l) = firstn l (skipn j (contents m (Slice a L))).
Proof.
  intros H. unfold contents. cbn [s_addr s_len]. rewrite skipn_firstn_comm, firstn_firstn, skipn_skipn. f_equal; [lia|]. f_equal. lia.
Qed.

Section Run.
  Context (be : bool) (n : nat) (m0 : mem) (a : nat) (Hroom : (a + 4 * n <= length m0)%nat).
  Let s := Words a n.
  (** memory with the columns in it *)
  Definition put (cols : list N) : mem := overwrite m0 a (img be cols).
  Lemma put_length cols : length cols = n -> length (put cols) = length m0.
  Proof. intros L. unfold put. apply overwrite_length. rewrite img_length. lia. Qed.
  Lemma put_contents cols : length cols = n -> contents (put cols) (Slice a (4 * n)) = img be cols.
  Proof. intros L. unfold put. apply (contents_overwrite m0 (Slice a (4 * n))); [exact Hroom|]. cbn [s_len]. now rewrite img_length, L. Qed.
  Lemma word_ok cols i : good_cols n cols -> word_at be (put cols) s i = get cols i.
  Proof.
    intros [L F]. unfold word_at, s. cbn [w_len w_addr]. destruct (Nat.ltb_spec i n) as [H|H].
    - rewrite (contents_inner _ a (4 * i) 4 (4 * n)) by lia. rewrite put_contents by exact L. rewrite (img_at be cols i) by lia.
      assert (Li : length (img be (firstn i cols)) = (4 * i)%nat) by (rewrite img_length, firstn_length; lia).
      rewrite <- Li, skipn_app, skipn_all, Nat.sub_diag. cbn [app skipn]. rewrite firstn_app, to_ne_length, Nat.sub_diag.
      rewrite firstn_all2 by (rewrite to_ne_length; lia). cbn [firstn]. rewrite app_nil_r. unfold get.
      assert (E : nth_error cols i = Some (nth i cols 0)) by (apply nth_error_nth'; lia). rewrite E. f_equal. apply of_ne_to_ne.
      apply (proj1 (Forall_forall _ _) F). apply nth_In. lia.
    - unfold get. now rewrite (proj2 (nth_error_None cols i)) by lia.
  Qed.
  Lemma put_ok cols i v : length cols = n -> word_put be (put cols) s i v = (c <- set cols i v ;; Ret (put c)).
  Proof.
    intros L. unfold word_put, s, set. cbn [w_len w_addr]. rewrite L. destruct (Nat.ltb_spec i n) as [H|H]; [|reflexivity]. cbn [bind]. f_equal.
    assert (Li : length (img be (firstn i cols)) = (4 * i)%nat) by (rewrite img_length, firstn_length; lia).
    assert (Lc : length (img be cols) = (4 * n)%nat) by (rewrite img_length; lia).
    pose proof (put_contents cols L) as C. rewrite <- Lc in C. rewrite (img_at be cols i) in C by lia. rewrite <- Li.
    rewrite (overwrite_sub _ a _ (to_ne be 4 (nth i cols 0)) (img be (skipn (S i) cols)) (to_ne be 4 v)); [|now rewrite !to_ne_length| |exact C].
    - unfold put. rewrite overwrite_twice.
      + f_equal. rewrite img_app. reflexivity.
      + rewrite !app_length, !to_ne_length, !img_length, firstn_length, skipn_length. lia.
      + lia.
    - rewrite <- img_at by lia. rewrite put_length by exact L. lia.
  Qed.
  (** [q] over memory does what [c] does over the columns. *)
  Definition does (q : outcome mem) (c : outcome (list N)) : Prop := q = (x <- c ;; Ret (put x)).
  Lemma does_bind (P : list N -> Prop) q c q' c' : does q c -> yields P c -> (forall x, P x -> does (q' (put x)) (c' x)) -> does (bind q q') (bind c c').
  Proof. unfold does. intros -> (x & -> & Hx) H. cbn [bind]. exact (H x Hx). Qed.
  Lemma does_xor cols k x y : good_cols n cols -> does (m_xor be s (put cols) k x y) (col_xor cols k x y).
  Proof.
    intros G. unfold does, m_xor, col_xor. rewrite !word_ok by exact G. destruct (get cols x); try reflexivity. destruct (get cols y); try reflexivity. cbn [bind]. apply put_ok, G.
  Qed.
  Lemma does_first f cols k x y r : good_cols n cols -> does (m_first be f s (put cols) k x y r) (col_first f cols k x y r).
  Proof.
    intros G. unfold does, m_first, col_first. rewrite !word_ok by exact G. destruct (get cols x); try reflexivity. destruct (get cols y); try reflexivity. destruct (get RCON r); try reflexivity.
    cbn [bind]. apply put_ok, G.
  Qed.
  Lemma does_mid g cols k x y : good_cols n cols -> does (m_mid be g s (put cols) k x y) (col_mid g cols k x y).
  Proof.
    intros G. unfold does, m_mid, col_mid. rewrite !word_ok by exact G. destruct (get cols x); try reflexivity. destruct (get cols y); try reflexivity. cbn [bind]. apply put_ok, G.
  Qed.
  Lemma does_fold {A} (P : list N -> Prop) (q : mem -> A -> outcome mem) c l :
    (forall x b, In b l -> P x -> does (q (put x) b) (c x b) /\ yields P (c x b)) -> forall x, P x -> does (ofold q l (put x)) (ofold c l x) /\ yields P (ofold c l x).
  Proof.
    induction l as [|b l IH]; intros H x Hx; cbn [ofold].
    - split; [reflexivity|now exists x].
    - destruct (H x b (or_introl eq_refl) Hx) as [D Y]. assert (H' : forall x b, In b l -> P x -> does (q (put x) b) (c x b) /\ yields P (c x b)) by (intros; apply H; [now right|assumption]).
      split.
      + apply (does_bind P); [exact D|exact Y|]. intros y Hy. exact (proj1 (IH H' y Hy)).
      + apply (yields_bind P); [exact Y|]. intros y Hy. exact (proj2 (IH H' y Hy)).
  Qed.
  Lemma zero_put : zeroed_at m0 a (4 * n) = put (repeat 0 n).
  Proof.
    unfold zeroed_at, put. f_equal. unfold img. clear. induction n as [|k IH]; [reflexivity|]. replace (4 * S k)%nat with (4 + 4 * k)%nat by lia. rewrite repeat_app, IH. cbn [repeat map concat]. f_equal. now destruct be.
  Qed.
  Lemma does_load nk key : is_bytes (4 * nk) key -> (nk <= n)%nat -> does (m_load be s key (put (repeat 0 n))) (col_load be n key) /\ yields (good_cols n) (col_load be n key).
  Proof.
    intros H Hn. split; [|now apply (good_load be n nk)]. unfold m_load, col_load. apply (does_fold (good_cols n)).
    - intros cols [i w] Hin G. cbn [fst snd]. split; [apply put_ok, G|]. rewrite (proj1 H), (Nat.mul_comm 4), Nat.div_mul in Hin by lia. apply good_set; [exact G| |].
      + apply in_combine_l in Hin. apply in_seq in Hin. lia.
      + apply in_combine_r in Hin. pose proof (proj1 (Forall_forall _ _) (key_words nk key H) w Hin) as [L F]. unfold w32. pose proof (of_ne_lt be w F) as P. rewrite L in P. exact P.
    - split; [apply repeat_length|]. apply Forall_forall. intros x Hx. apply repeat_spec in Hx. now subst.
  Qed.
End Run.
Ltac does_step := first
  [ eapply does_bind; [does_step|good_step|intros ? ?; does_step]
  | apply does_xor; assumption | apply does_first; assumption | apply does_mid; assumption ].

Lemma does_128 be m a f key : (a + 176 <= length m)%nat -> good3 f -> is_bytes 16 key ->
  does be m a (m_keygen_128 be f (Words a 44) key (put be m a (repeat 0 44))) (col_keygen_128 be f key).
Proof.
  intros R Gf H. unfold m_keygen_128, col_keygen_128. destruct (does_load be 44 m a ltac:(lia) 4 key H ltac:(lia)) as [D Y].
  apply (does_bind be m a (good_cols 44)); [exact D|exact Y|]. intros cols G. apply (does_fold be m a (good_cols 44)); [|exact G].
  clear cols G D Y. intros cols i Hi G. unfold step_by in Hi. change (Nat.div (40 + 4 - 1) 4) with 10%nat in Hi. apply in_map_iff in Hi. destruct Hi as (k & <- & Hk). apply in_seq in Hk.
  rewrite Nat.div_mul by lia. split; [|good_step]. does_step.
Qed.
Lemma does_192 be m a f key : (a + 208 <= length m)%nat -> good3 f -> is_bytes 24 key ->
  does be m a (m_keygen_192 be f (Words a 52) key (put be m a (repeat 0 52))) (col_keygen_192 be f key).
Proof.
  intros R Gf H. unfold m_keygen_192, col_keygen_192. destruct (does_load be 52 m a ltac:(lia) 6 key H ltac:(lia)) as [D Y].
  apply (does_bind be m a (good_cols 52)); [exact D|exact Y|]. intros cols G. clear D Y.
  match goal with |- does _ _ _ (bind (ofold ?q _ _) _) (bind (ofold ?c _ _) _) => assert (S : does be m a (ofold q (step_by 42 6) (put be m a cols)) (ofold c (step_by 42 6) cols) /\ yields (good_cols 52) (ofold c (step_by 42 6) cols)) end.
  { apply (does_fold be m a (good_cols 52)); [|exact G].
    clear cols G. intros cols i Hi G. unfold step_by in Hi. change (Nat.div (42 + 6 - 1) 6) with 7%nat in Hi. apply in_map_iff in Hi. destruct Hi as (k & <- & Hk). apply in_seq in Hk.
    rewrite Nat.div_mul by lia. split; [|good_step]. does_step. }
  apply (does_bind be m a (good_cols 52)); [apply S|apply S|]. clear cols G S. intros cols G. does_step.
Qed.
Lemma does_256 be m a f f' g key : (a + 240 <= length m)%nat -> good3 f -> good3 f' -> good2 g -> is_bytes 32 key ->
  does be m a (m_keygen_256 be f f' g (Words a 60) key (put be m a (repeat 0 60))) (col_keygen_256 be f f' g key).
Proof.
  intros R Gf Gf' Gg H. unfold m_keygen_256, col_keygen_256. destruct (does_load be 60 m a ltac:(lia) 8 key H ltac:(lia)) as [D Y].
  apply (does_bind be m a (good_cols 60)); [exact D|exact Y|]. intros cols G. clear D Y.
  match goal with |- does _ _ _ (bind (ofold ?q _ _) _) (bind (ofold ?c _ _) _) => assert (S : does be m a (ofold q (step_by 48 8) (put be m a cols)) (ofold c (step_by 48 8) cols) /\ yields (good_cols 60) (ofold c (step_by 48 8) cols)) end.
  { apply (does_fold be m a (good_cols 60)); [|exact G].
    clear cols G. intros cols i Hi G. unfold step_by in Hi. change (Nat.div (48 + 8 - 1) 8) with 6%nat in Hi. apply in_map_iff in Hi. destruct Hi as (k & <- & Hk). apply in_seq in Hk.
    rewrite Nat.div_mul by lia. split; [|good_step]. does_step. }
  apply (does_bind be m a (good_cols 60)); [apply S|apply S|]. clear cols G S. intros cols G. does_step.
Qed.

(** The formulas of the three files keep to 32 bits. *)
Lemma arm_sub_w32 x : w32 x -> w32 (arm_sub_word x).
Proof.
  intros H. unfold w32 in *. assert (E : x = of_le (to_le 4 x)) by (symmetry; apply of_le_to_le; exact H).
  assert (B : is_bytes 4 (to_le 4 x)) by (split; [apply to_le_length|apply to_le_ok]).
  rewrite E, (arm_sub_ok _ B). pose proof (of_ne_lt false (sub_word (to_le 4 x))) as P. cbn [of_ne] in P.
  assert (W : is_bytes 4 (sub_word (to_le 4 x))) by (now apply sub_word_bytes).
  specialize (P (proj2 W)). rewrite (proj1 W) in P. exact P.
Qed.
Lemma formulas_good p fo : formulas_of p = Some fo -> good3 (fo_12 fo) /\ good3 (fo_loop fo) /\ good3 (fo_last fo) /\ good2 (fo_mid fo).
Proof.
  assert (A : good3 (rot_first arm_sub_word)) by (apply rot_first_good; exact arm_sub_w32).
  assert (A2 : good2 (sub_mid arm_sub_word)) by (intros a b Ha Hb; apply lxor_lt; [exact Ha|now apply arm_sub_w32]).
  assert (S : forall x, w32 x -> w32 (bs_sub_word x)) by (intros; apply trunc_lt).
  assert (B : good3 (rot_first bs_sub_word)) by (now apply rot_first_good).
  assert (B2 : good2 (sub_mid bs_sub_word)) by (intros a b Ha Hb; apply lxor_lt; [exact Ha|apply S, Hb]).
  assert (Sw : forall x w, w32 x -> w32 (r32_sub_word x w)) by (intros; unfold r32_sub_word; cbv zeta; repeat apply esi_w32; assumption).
  assert (X : forall a c, w32 a -> c < 256 -> w32 (N.lxor a c)) by (intros a c Ha Hc; apply lxor_lt; [exact Ha|]; apply N.lt_trans with 256; [assumption|reflexivity]).
  destruct p; intros H; try discriminate H; injection H as <-; cbn [fo_12 fo_loop fo_last fo_mid]; (split; [|split; [|split]]); try assumption;
    first [intros a b c Ha Hb Hc; apply Sw, X; assumption|intros a b Ha Hb; apply Sw; assumption].
Qed.
