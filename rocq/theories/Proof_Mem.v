(** The pointer-level code of Model_Mem.v does to memory what the list-level code does to the slice's contents. *)
From Coq Require Import Lia Arith.
From Verif Require Import Word Interface Spec_Mem Model_Mem Spec_Reach Spec_User Model_Lib Model_Cfg.
From Verif Require Import Isa_x86 Isa_arm Model_Table Model_Bitslice Model_X86 Model_Vaes Model_Arm Model_Rv64 Model_Rv32 Model_Wide.
From Verif Require Import Proof_Word.
Open Scope N_scope.

Lemma skipn_skipn {A} a b (l : list A) : skipn a (skipn b l) = skipn (a + b) l.
Proof. revert a l. induction b as [|b IH]; intros a l; [now rewrite Nat.add_0_r|]. rewrite Nat.add_succ_r. destruct l; [now rewrite !skipn_nil|]. cbn [skipn]. apply IH. Qed.
Lemma nth_skipn {A} a x (l : list A) d : nth x (skipn a l) d = nth (a + x) l d.
Proof. revert l. induction a as [|a IH]; intros l; [reflexivity|]. destruct l; [now destruct x|]. cbn [skipn Nat.add nth]. apply IH. Qed.
Lemma Forall_skipn' {A} (P : A -> Prop) a l : Forall P l -> Forall P (skipn a l).
Proof. intros H. rewrite <- (firstn_skipn a l) in H. now apply Forall_app in H. Qed.
Lemma Forall_firstn' {A} (P : A -> Prop) a l : Forall P l -> Forall P (firstn a l).
Proof. intros H. rewrite <- (firstn_skipn a l) in H. now apply Forall_app in H. Qed.
Lemma aligned_1 a : aligned a 1 = true.
Proof. unfold aligned. now rewrite Nat.mod_1_r. Qed.
Lemma contents_length m s : inside m s -> length (contents m s) = s_len s.
Proof. unfold inside, contents. intros H. rewrite firstn_length, skipn_length. lia. Qed.
Lemma overwrite_length m a d : (a + length d <= length m)%nat -> length (overwrite m a d) = length m.
Proof. intros H. unfold overwrite. rewrite !app_length, firstn_length, skipn_length. lia. Qed.
Lemma overwrite_contents m s : inside m s -> overwrite m (s_addr s) (contents m s) = m.
Proof.
  intros H. unfold overwrite. rewrite contents_length by assumption. unfold contents.
  rewrite <- (firstn_skipn (s_addr s) m) at 4. f_equal.
  rewrite <- (firstn_skipn (s_len s) (skipn (s_addr s) m)) at 2. f_equal. rewrite skipn_skipn. f_equal. lia.
Qed.
(** [d] put at [a + k] of memory where [u ++ v ++ w] lies at [a]. *)
Lemma overwrite_sub m a u v w d : length d = length v -> (a + length (u ++ v ++ w) <= length m)%nat ->
  contents m (Slice a (length (u ++ v ++ w))) = u ++ v ++ w ->
  overwrite m (a + length u) d = overwrite m a (u ++ d ++ w).
Proof.
  intros Hd Hm Hc. unfold contents in Hc. cbn [s_len s_addr] in Hc.
  assert (E : m = firstn a m ++ u ++ v ++ w ++ skipn (a + length (u ++ v ++ w)) m).
  { rewrite <- (firstn_skipn a m) at 1. f_equal. rewrite <- (firstn_skipn (length (u ++ v ++ w)) (skipn a m)). rewrite Hc, skipn_skipn, <- !app_assoc.
    do 3 f_equal. f_equal. lia. }
  assert (La : length (firstn a m) = a) by (rewrite firstn_length; lia).
  unfold overwrite. rewrite !app_length in *. rewrite Hd.
  assert (F : firstn (a + length u) m = firstn a m ++ u).
  { rewrite E at 1. rewrite firstn_app, La. replace (a + length u - a)%nat with (length u) by lia.
    rewrite firstn_all2 by lia. f_equal. rewrite firstn_app, firstn_all, Nat.sub_diag. cbn. apply app_nil_r. }
  assert (G : skipn (a + length u + length v) m = w ++ skipn (a + (length u + (length v + length w))) m).
  { rewrite E at 1. rewrite skipn_app, La. rewrite skipn_all2 by lia. cbn [app].
    replace (a + length u + length v - a)%nat with (length u + length v)%nat by lia.
    rewrite skipn_app. rewrite skipn_all2 by lia. cbn [app]. replace (length u + length v - length u)%nat with (length v) by lia.
    rewrite skipn_app, skipn_all, Nat.sub_diag. reflexivity. }
  rewrite F, G, <- !app_assoc. reflexivity.
Qed.
Lemma contents_overwrite m s d : inside m s -> length d = s_len s -> contents (overwrite m (s_addr s) d) s = d.
Proof.
  unfold inside. intros H L. unfold contents, overwrite. assert (La : length (firstn (s_addr s) m) = s_addr s) by (rewrite firstn_length; lia).
  rewrite skipn_app, La, Nat.sub_diag. rewrite skipn_all2 by lia. cbn [app skipn]. rewrite <- L, firstn_app, Nat.sub_diag, firstn_all. apply app_nil_r.
Qed.
Lemma overwrite_twice m a d d' : length d = length d' -> (a + length d <= length m)%nat -> overwrite (overwrite m a d) a d' = overwrite m a d'.
Proof.
  intros L H. unfold overwrite. assert (La : length (firstn a m) = a) by (rewrite firstn_length; lia).
  rewrite firstn_app, La, Nat.sub_diag, firstn_all2 by lia. cbn [firstn]. rewrite app_nil_r. f_equal. f_equal. rewrite skipn_app, La.
  rewrite skipn_all2 by lia. cbn [app]. replace (a + length d' - a)%nat with (length d) by lia. rewrite skipn_app, skipn_all, Nat.sub_diag. cbn. f_equal. lia.
Qed.

(** [p] does to memory what [w] does to the contents of the slice. *)
Definition implements (p : mcode) (w : writer) : Prop :=
  forall m s, inside m s -> p m s = (fst (w (contents m s)), overwrite m (s_addr s) (snd (w (contents m s)))) /\ length (snd (w (contents m s))) = s_len s.
Lemma imp_then p q v w : implements p v -> implements q w -> implements (m_then p q) (w_then v w).
Proof.
  intros Hp Hq m s H. unfold m_then, w_then. destruct (Hp m s H) as [E L]. rewrite E. destruct (v (contents m s)) as [r d] eqn:V. cbn [fst snd] in *.
  destruct r as [[]| |]; cbn [fst snd]; auto.
  assert (H' : inside (overwrite m (s_addr s) d) s) by (unfold inside in *; rewrite overwrite_length by lia; lia).
  destruct (Hq _ s H') as [E2 L2]. rewrite E2, (contents_overwrite m s d H L) in *. split; [|assumption]. f_equal.
  apply overwrite_twice; unfold inside in H; lia.
Qed.
Lemma imp_assert n : implements (m_assert_len n) (w_assert_len n).
Proof. intros m s H. unfold m_assert_len, w_assert_len. cbn [fst snd]. rewrite contents_length, overwrite_contents by assumption. auto. Qed.
Lemma sub_prefix m s v d : inside m s -> length d = length v -> (exists w, contents m s = v ++ w) ->
  overwrite m (s_addr s) d = overwrite m (s_addr s) (d ++ skipn (length v) (contents m s)).
Proof.
  intros H L [w E]. rewrite E. rewrite skipn_app, skipn_all, Nat.sub_diag. cbn [app skipn].
  pose proof (contents_length m s H) as Lc. rewrite E in Lc. unfold inside in H.
  rewrite <- (Nat.add_0_r (s_addr s)) at 1. apply (overwrite_sub m (s_addr s) [] v w d L); cbn [app]; [lia|]. rewrite Lc.
  destruct s as [sa sl]. cbn [s_addr s_len] in *. now rewrite E.
Qed.
Lemma imp_ptr_write v : implements (m_ptr_write 1 v) (w_step (fun d => raw_write d v)).
Proof.
  intros m s H. unfold m_ptr_write, w_step, raw_write. rewrite aligned_1, andb_true_r, contents_length by assumption. destruct (Nat.leb_spec (length v) (s_len s)) as [L|L]; cbn [fst snd].
  - pose proof (contents_length m s H) as Lc. split.
    + f_equal. rewrite (sub_prefix m s (firstn (length v) (contents m s)) v H); [|rewrite firstn_length; lia|exists (skipn (length v) (contents m s)); now rewrite firstn_skipn].
      rewrite firstn_length. rewrite Nat.min_l by lia. reflexivity.
    + rewrite app_length, skipn_length. lia.
  - rewrite overwrite_contents, contents_length by assumption. auto.
Qed.
Lemma imp_copy v : implements (m_copy v) (w_copy v).
Proof.
  intros m s H. unfold m_copy, w_copy, w_step. rewrite contents_length by assumption. destruct (Nat.eqb_spec (s_len s) (length v)) as [E|E]; cbn [fst snd]; auto.
  rewrite overwrite_contents, contents_length by assumption. auto.
Qed.
Lemma imp_index i v : implements (m_index i v) (w_step (fun d => set d i v)).
Proof.
  intros m s H. unfold m_index, w_step, set. pose proof (contents_length m s H) as Lc. rewrite Lc. destruct (Nat.ltb_spec i (s_len s)) as [L|L]; cbn [fst snd].
  - set (c := contents m s) in *. assert (Ec : c = firstn i c ++ firstn 1 (skipn i c) ++ skipn (S i) c).
    { rewrite <- (firstn_skipn i c) at 1. f_equal. rewrite <- (firstn_skipn 1 (skipn i c)) at 1. f_equal. rewrite skipn_skipn. f_equal. }
    assert (L1 : length (firstn i c) = i) by (rewrite firstn_length; lia).
    assert (L2 : length (firstn 1 (skipn i c)) = 1%nat) by (rewrite firstn_length, skipn_length; lia). split.
    + f_equal. rewrite <- L1 at 1. change (v :: skipn (S i) c) with ([v] ++ skipn (S i) c).
      apply (overwrite_sub m (s_addr s) (firstn i c) (firstn 1 (skipn i c)) (skipn (S i) c) [v]); [now rewrite L2|rewrite <- Ec; unfold inside in H; lia|].
      rewrite <- Ec, Lc. destruct s; reflexivity.
    + rewrite app_length, L1. cbn [length]. rewrite skipn_length. lia.
  - rewrite overwrite_contents by assumption. auto.
Qed.
Lemma contents_from m s a : (a <= s_len s)%nat -> contents m (Slice (s_addr s + a) (s_len s - a)) = skipn a (contents m s).
Proof. intros L. unfold contents. cbn [s_addr s_len]. rewrite skipn_firstn_comm, skipn_skipn. do 2 f_equal. lia. Qed.
Lemma contents_to m s b : (b <= s_len s)%nat -> contents m (Slice (s_addr s) b) = firstn b (contents m s).
Proof. intros L. unfold contents. cbn [s_addr s_len]. rewrite firstn_firstn. f_equal. lia. Qed.
Lemma imp_from a p w : implements p w -> implements (m_from a p) (w_from a w).
Proof.
  intros Hp m s H. unfold m_from, w_from. pose proof (contents_length m s H) as Lc. rewrite Lc. destruct (Nat.leb_spec a (s_len s)) as [L|L]; cbn [fst snd].
  - destruct (Hp m (Slice (s_addr s + a) (s_len s - a))) as [E1 E2]; [unfold inside in *; cbn; lia|]. rewrite contents_from in E1, E2 by assumption. cbn [s_addr s_len] in *.
    set (c := contents m s) in *. destruct (w (skipn a c)) as [r d]. cbn [fst snd] in *. rewrite E1. assert (L1 : length (firstn a c) = a) by (rewrite firstn_length; lia). split.
    + f_equal. rewrite <- L1 at 1. rewrite <- (app_nil_r d) at 2.
      apply (overwrite_sub m (s_addr s) (firstn a c) (skipn a c) [] d); [rewrite skipn_length; lia| |]; rewrite app_nil_r, firstn_skipn; [unfold inside in H; lia|rewrite Lc; destruct s; reflexivity].
    + rewrite app_length, L1. lia.
  - rewrite overwrite_contents by assumption. auto.
Qed.
Lemma imp_to b p w : implements p w -> implements (m_to b p) (w_to b w).
Proof.
  intros Hp m s H. unfold m_to, w_to. pose proof (contents_length m s H) as Lc. rewrite Lc. destruct (Nat.leb_spec b (s_len s)) as [L|L]; cbn [fst snd].
  - destruct (Hp m (Slice (s_addr s) b)) as [E1 E2]; [unfold inside in *; cbn; lia|]. rewrite contents_to in E1, E2 by assumption. cbn [s_addr s_len] in *.
    set (c := contents m s) in *. destruct (w (firstn b c)) as [r d]. cbn [fst snd] in *. rewrite E1. assert (L1 : length (firstn b c) = b) by (rewrite firstn_length; lia). split.
    + f_equal. rewrite (sub_prefix m s (firstn b c) d H); [|lia|exists (skipn b c); now rewrite firstn_skipn]. now rewrite L1.
    + rewrite app_length, skipn_length. lia.
  - rewrite overwrite_contents by assumption. auto.
Qed.

(** Every block type. *)
Lemma store_implements T (o : ops T) p : pointer_code o p -> forall x, implements (q_store p x) (o_store o x).
Proof.
  induction 1; intros x; cbn [q_store o_store].
  1: { change (implements (q_store table_ptr x) (tb_store_to x)). unfold tb_store_to, store_u32_be. cbn [q_store table_ptr]. unfold m_store_u32_be.
       repeat first [apply imp_then|apply imp_from|apply imp_index|apply imp_assert]. }
  1: { change (implements (q_store (bitslice_ptr be) x) (bs_store_to be x)). cbn [q_store bitslice_ptr]. unfold bs_store_to.
       repeat first [apply imp_then|apply imp_to|apply imp_copy|apply imp_assert]. }
  all: try (cbn [q_store vec_ptr arm_ptr r64_ptr r32_ptr]; apply imp_then; [apply imp_assert|apply imp_ptr_write]).
  change (implements (q_store (pair_ptr dbg half p) x) (p_store_to half o x)). unfold p_store_to. cbn [q_store pair_ptr].
  apply imp_then; [apply imp_assert|]. apply imp_then; [apply imp_to|apply imp_from]; auto.
Qed.
Lemma local_read_1 off n la v : local_read 1 off n la v = raw_read v off n.
Proof. unfold local_read, raw_read. now rewrite aligned_1, andb_true_r. Qed.
Lemma local_array_ok dbg n la v off : local_array dbg n la v off = array_from_slice dbg n v off.
Proof. unfold local_array, array_from_slice. now rewrite local_read_1. Qed.
Lemma new_implements T (o : ops T) p : pointer_code o p -> forall la v, q_new p la v = o_new o v /\ q_from p la v = o_from o v.
Proof.
  induction 1; intros la v; try (split; reflexivity); try (split; [reflexivity|exact (local_read_1 0 _ (la 0%nat) v)]).
  assert (E : q_new (pair_ptr dbg half p) la v = p_new dbg half o v).
  { cbn [q_new pair_ptr]. unfold p_new. rewrite !local_array_ok. destruct (array_from_slice dbg half v 0) as [a| |]; cbn [bind]; try reflexivity.
    rewrite (proj1 (IHpointer_code _ a)). destruct (o_new o a) as [x| |]; cbn [bind]; try reflexivity.
    destruct (array_from_slice dbg half v half) as [b| |]; cbn [bind]; try reflexivity. now rewrite (proj1 (IHpointer_code _ b)). }
  split; exact E.
Qed.
Lemma try_from_implements T (o : ops T) p dbg la m s : pointer_code o p -> inside m s ->
  q_try_from dbg (o_size o) p la m s = try_from o dbg (contents m s).
Proof.
  intros H Hs. unfold q_try_from, try_from, try_from_slice, array_from_slice. rewrite contents_length by assumption. cbn [Nat.add].
  destruct (Nat.leb_spec (o_size o) (s_len s)) as [L|L]; [|reflexivity].
  replace (ptr_read 1 0 (o_size o) m s) with (raw_read (contents m s) 0 (o_size o)).
  - destruct (dbg && negb true); [reflexivity|]. destruct (raw_read (contents m s) 0 (o_size o)) as [a| |]; cbn [bind]; try reflexivity.
    now rewrite (proj2 (new_implements T o p H la a)).
  - unfold raw_read, ptr_read. rewrite contents_length, aligned_1, andb_true_r by assumption. cbn [Nat.add skipn].
    rewrite (proj2 (Nat.leb_le _ _) L). rewrite Nat.add_0_r, <- contents_to by assumption. reflexivity.
Qed.
(** Every configuration's three block types have pointer code. *)
Lemma pointer_total c i : impl_of c = Some i ->
  (exists p, pointer_code (i_ops1 i) p) /\ (exists p, pointer_code (i_ops2 i) p) /\ (exists p, pointer_code (i_ops4 i) p).
Proof.
  assert (D : forall T (o : ops T) e pre, (exists p, pointer_code o p) -> default_impl (c_dbg c) o e pre = Some i ->
     (exists p, pointer_code (i_ops1 i) p) /\ (exists p, pointer_code (i_ops2 i) p) /\ (exists p, pointer_code (i_ops4 i) p)).
  { intros T o e pre [p Hp] E. unfold default_impl in E. assert (X : exists q, i = default_of (c_dbg c) o e q)
      by (destruct pre; [destruct (e_pre e); [|discriminate]|]; injection E as <-; eexists; reflexivity).
    destruct X as [q ->]. cbn [i_ops1 i_ops2 i_ops4 default_of].
    split; [now exists p|split; eexists; [constructor; exact Hp|do 2 constructor; exact Hp]]. }
  unfold impl_of. destruct (select_x2 c), (select_x4 c), (select_block c); try discriminate; intros E;
    try (refine (D _ _ _ _ _ E); eexists; constructor);
    destruct (select_pre_chain c); try discriminate; injection E as <-; cbn [i_ops1 i_ops2 i_ops4 vaes2_impl vaes4_impl];
    repeat split; eexists; repeat constructor.
Qed.
