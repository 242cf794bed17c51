(** C38: pointers, addresses and alignment.  The calls that take a slice work at every address, touch exactly the
    bytes they should, and never make an invalid access. *)
From Coq Require Import Lia Arith.
From Verif Require Import Word Interface Fips197 Spec_Api Spec_Reach Spec_Cfg Spec_User Spec_Mem Spec_MemUser Model_Mem Model_Lib Model_Cfg.
From Verif Require Import Proof_Word Proof_Fips Proof_Ok Proof_Sem Proof_Lib Proof_Reach Proof_Inst Proof_Cipher Proof_Main Proof_Mem Props_Blocks Props_Batch Props_Total.
From Verif Require Import Samples.
Open Scope N_scope.

Lemma overwrite_with m a b : (a + length b <= length m)%nat -> with_bytes m (overwrite m a b) a b.
Proof.
  intros H. split; [now apply overwrite_length|]. intros x. unfold overwrite. assert (La : length (firstn a m) = a) by (rewrite firstn_length; lia).
  destruct (Nat.leb_spec a x) as [L1|L1]; cbn [andb].
  - rewrite app_nth2 by lia. rewrite La. destruct (Nat.ltb_spec x (a + length b)) as [L2|L2].
    + now rewrite app_nth1 by lia.
    + rewrite app_nth2 by lia. rewrite nth_skipn. f_equal. lia.
  - rewrite app_nth1 by lia. rewrite <- (firstn_skipn a m) at 2. now rewrite app_nth1 by lia.
Qed.
Lemma pointer_by_width c i : impl_of c = Some i -> for_all_widths i (fun T o _ _ => exists p, pointer_code o p).
Proof. intros E. exact (pointer_total c i E). Qed.

(** ** store_to *)
(** On a slice at any address: too short - panics before touching memory; otherwise the block's bytes are at the
    start of the slice and every other byte of memory is what it was.  Never undefined behaviour. *)
Definition stores_anywhere (T : Type) (o : ops T) (n : nat) (reach : T -> Prop) : Prop :=
  (exists p, pointer_code o p) /\
  forall p x b m s, pointer_code o p -> reach x -> shows o x b -> inside m s ->
  if Nat.ltb (s_len s) n then q_store p x m s = (Panic, m)
  else exists m', q_store p x m s = (Ret tt, m') /\ length b = n /\ with_bytes m m' (s_addr s) b.
Theorem C38_store_to_any_address : forall c i, impl_of c = Some i -> for_all_widths i stores_anywhere.
Proof.
  intros c i E.
  assert (H : for_all_widths i (fun T o n reach => forall p x b m s, pointer_code o p -> reach x -> shows o x b -> inside m s ->
    if Nat.ltb (s_len s) n then q_store p x m s = (Panic, m) else exists m', q_store p x m s = (Ret tt, m') /\ length b = n /\ with_bytes m m' (s_addr s) b)).
  { apply (by_width c i _ E). intros T o n f reach D HR p x b m s Hp Hx Hb Hs. unimg HR. unshow D.
    destruct (store_implements T o p Hp (f b0) m s Hs) as [Q _]. rewrite Q. rewrite (dk_store _ _ _ D) by assumption.
    rewrite contents_length by assumption. rewrite Nat.ltb_antisym. destruct (Nat.leb_spec n (s_len s)) as [L|L]; cbn [negb fst snd].
    - match goal with B : is_bytes n ?v |- _ => pose proof (proj1 B) as Lb end.
      eexists. split; [reflexivity|]. split; [exact Lb|]. pose proof (contents_length m s Hs) as Lc. rewrite <- Lb at 1.
      replace (length b0) with (length (firstn n (contents m s))) by (rewrite firstn_length; lia).
      rewrite <- (sub_prefix m s (firstn n (contents m s)) b0 Hs); [|rewrite firstn_length; lia|exists (skipn n (contents m s)); now rewrite firstn_skipn].
      apply overwrite_with. unfold inside in Hs. lia.
    - now rewrite overwrite_contents. }
  destruct H as (H1 & H2 & H4). destruct (pointer_total c i E) as (P1 & P2 & P4). split; [|split]; (split; [assumption|]); assumption.
Qed.
Print Assumptions C38_store_to_any_address.
(** An odd address, three backends. *)
Example C38_store_case : forall c k, In c samples -> with_values c k (fun i u =>
  exists p m', pointer_code (i_ops1 i) p /\ q_store p (u_x u) (repeat 9 40) (Slice 5 20) = (Ret tt, m') /\ nth 4 m' 0 = 9 /\ nth 21 m' 0 = 9 /\ nth 5 m' 0 = hd 0 fips_block).
Proof.
  intros c k H. apply case_any; [exact H|]. intros i u E. destruct (C38_store_to_any_address c i E) as (([p Hp] & A) & _).
  assert (Hs : inside (repeat 9 40) (Slice 5 20)) by (unfold inside; cbn; lia).
  destruct (A p (u_x u) fips_block (repeat 9 40) (Slice 5 20) Hp) as (m' & B1 & B2 & B3 & B4); auto with cases.
  exists p, m'. rewrite !B4. auto.
Qed.

(** ** TryFrom<&[u8]>, wherever the slice and the temporaries are *)
Definition reads_anywhere (T : Type) (o : ops T) (n : nat) (reach : T -> Prop) : Prop :=
  (exists p, pointer_code o p) /\
  forall p dbg la m s, pointer_code o p -> Forall (fun b => b < 256) m -> inside m s ->
  if Nat.ltb (s_len s) n then q_try_from dbg n p la m s = Ret (Err (s_len s))
  else exists x, reach x /\ q_try_from dbg n p la m s = Ret (Ok x) /\ shows o x (contents m (Slice (s_addr s) n)).
Lemma contents_bytes m s : Forall (fun b => b < 256) m -> Forall (fun b => b < 256) (contents m s).
Proof. intros H. unfold contents. apply Forall_firstn'. now apply Forall_skipn'. Qed.
Theorem C38_try_from_any_address : forall c i, impl_of c = Some i -> for_all_widths i reads_anywhere.
Proof.
  intros c i E. destruct (pointer_total c i E) as (P1 & P2 & P4). destruct (C17_try_from_total_and_exact c i E) as (A1 & A2 & A4).
  destruct (C15_byte_conversions_lossless c i E) as ((S1 & _) & (S2 & _) & (S4 & _)).
  split; [|split]; (split; [assumption|]); intros p dbg la m s Hp Hm Hs.
  - pose proof (A1 dbg (contents m s) (contents_bytes m s Hm)) as Q. rewrite contents_length in Q by assumption. pose proof (try_from_implements _ _ _ dbg la m s Hp Hs) as W. rewrite S1 in W. rewrite W.
    destruct (Nat.ltb_spec (s_len s) 16); [exact Q|]. rewrite contents_to by assumption. exact Q.
  - pose proof (A2 dbg (contents m s) (contents_bytes m s Hm)) as Q. rewrite contents_length in Q by assumption. pose proof (try_from_implements _ _ _ dbg la m s Hp Hs) as W. rewrite S2 in W. rewrite W.
    destruct (Nat.ltb_spec (s_len s) 32); [exact Q|]. rewrite contents_to by assumption. exact Q.
  - pose proof (A4 dbg (contents m s) (contents_bytes m s Hm)) as Q. rewrite contents_length in Q by assumption. pose proof (try_from_implements _ _ _ dbg la m s Hp Hs) as W. rewrite S4 in W. rewrite W.
    destruct (Nat.ltb_spec (s_len s) 64); [exact Q|]. rewrite contents_to by assumption. exact Q.
Qed.
Print Assumptions C38_try_from_any_address.
Example C38_try_from_case : forall c k, In c samples -> with_values c k (fun i u =>
  exists p x, pointer_code (i_ops1 i) p /\ q_try_from true 16 p (fun j => (3 * j + 1)%nat) ([7] ++ fips_block ++ [8]) (Slice 1 17) = Ret (Ok x) /\ shows (i_ops1 i) x fips_block).
Proof.
  intros c k H. apply case_any; [exact H|]. intros i u E. destruct (C38_try_from_any_address c i E) as (([p Hp] & A) & _).
  destruct (A p true (fun j => (3 * j + 1)%nat) ([7] ++ fips_block ++ [8]) (Slice 1 17) Hp) as (x & _ & B1 & B2); [vm_compute; repeat constructor|unfold inside; cbn; lia|].
  exists p, x. split; [exact Hp|]. split; [exact B1|exact B2].
Qed.

(** ** A buffer encrypted where it lies *)
Lemma with_bytes_overwrite m m' a b : (a + length b <= length m)%nat -> with_bytes m m' a b -> m' = overwrite m a b.
Proof.
  intros H [L W]. destruct (overwrite_with m a b H) as [L' W']. apply nth_ext with 0 0; [lia|]. intros x _. now rewrite W, W'.
Qed.
Lemma overwrite_bytes m a b : Forall (fun b => b < 256) m -> Forall (fun b => b < 256) b -> Forall (fun b => b < 256) (overwrite m a b).
Proof. intros Hm Hb. unfold overwrite. apply Forall_app. split; [now apply Forall_firstn'|]. apply Forall_app. split; [assumption|now apply Forall_skipn']. Qed.
Lemma overwrite_seq m a b b' : (a + (length b + length b') <= length m)%nat -> overwrite (overwrite m a b) (a + length b) b' = overwrite m a (b ++ b').
Proof.
  intros H. unfold overwrite at 1 3. assert (La : length (firstn a m) = a) by (rewrite firstn_length; lia). unfold overwrite.
  rewrite firstn_app, La, firstn_all2 by lia. replace (a + length b - a)%nat with (length b) by lia. rewrite firstn_app, firstn_all, Nat.sub_diag. cbn [firstn].
  rewrite app_nil_r, <- !app_assoc. do 3 f_equal. rewrite skipn_app, La, skipn_all2 by lia. cbn [app]. rewrite skipn_app, skipn_all2 by lia. cbn [app].
  rewrite skipn_skipn, app_length. f_equal. lia.
Qed.
Lemma contents_after m a b n : (a + length b + n <= length m)%nat -> contents (overwrite m a b) (Slice (a + length b) n) = contents m (Slice (a + length b) n).
Proof.
  intros H. unfold contents, overwrite. cbn [s_addr s_len]. assert (La : length (firstn a m) = a) by (rewrite firstn_length; lia). f_equal.
  rewrite skipn_app, La, skipn_all2 by lia. cbn [app]. rewrite skipn_app, skipn_all2 by lia. cbn [app]. replace (a + length b - a - length b)%nat with 0%nat by lia. reflexivity.
Qed.
Lemma contents_split m a n n' : contents m (Slice a (n + n')) = contents m (Slice a n) ++ contents m (Slice (a + n) n').
Proof.
  unfold contents. cbn [s_addr s_len]. rewrite <- (Nat.add_comm n a), <- skipn_skipn.
  generalize (skipn a m). clear. intros l. revert l. induction n as [|n IH]; intros l; [reflexivity|]. destruct l as [|x l]; [cbn; now rewrite firstn_nil|]. cbn [Nat.add firstn skipn app]. f_equal. apply IH.
Qed.

(** [f] run on a slice does what [run] does to the [n] bytes at its start. *)
Definition group_step (n : nat) (run : list N -> outcome (list N)) (f : mcode) : Prop :=
  forall m s, Forall (fun b => b < 256) m -> inside m s ->
  if Nat.ltb (s_len s) n then f m s = (Panic, m)
  else exists out, run (contents m (Slice (s_addr s) n)) = Ret out /\ is_bytes n out /\ f m s = (Ret tt, overwrite m (s_addr s) out).
Lemma in_place_step T (o : ops T) n (reach : T -> Prop) p dbg la call :
  lossless T o n reach -> stores_anywhere T o n reach -> reads_anywhere T o n reach -> pointer_code o p ->
  (forall x, reach x -> returns (call x) reach) ->
  group_step n (fun b => x <- o_from o b ;; y <- call x ;; to_bytes o y) (in_place dbg n p la call).
Proof.
  intros (_ & L1 & L2 & _ & L4) [_ St] [_ Rd] Hp Hc m s Hm Hs. unfold in_place. pose proof (Rd p dbg la m s Hp Hm Hs) as R.
  destruct (Nat.ltb_spec (s_len s) n) as [L|L]; [now rewrite R|]. destruct R as (x & Hx & Ex & Sx). rewrite Ex.
  destruct (L2 x Hx) as (b & Hb & Sb & Fb). assert (b = contents m (Slice (s_addr s) n)) as -> by (unfold shows in *; congruence).
  destruct (Hc x Hx) as (y & Ey & Hy). rewrite Ey. destruct (L2 y Hy) as (out & Ho & So & _).
  exists out. rewrite Fb. cbn [bind]. rewrite Ey. cbn [bind]. split; [exact So|]. split; [exact Ho|].
  pose proof (St p y out m s Hp Hy So Hs) as W. apply Nat.ltb_ge in L as L'. rewrite L' in W. destruct W as (m' & W1 & Lo & W2). rewrite W1. f_equal.
  apply with_bytes_overwrite; [unfold inside in Hs; lia|exact W2].
Qed.
Lemma groups_step (run : group -> list N -> outcome (list N)) (f : group -> mcode) :
  (forall g, group_step (group_len g) (run g) (f g)) -> forall gs m s, Forall (fun b => b < 256) m -> inside m s ->
  if Nat.ltb (s_len s) (groups_len gs) then exists m' out, groups_in_place f gs m s = (Panic, m') /\ m' = overwrite m (s_addr s) out /\ (length out <= s_len s)%nat
  else exists out, by_groups run gs (contents m (Slice (s_addr s) (groups_len gs))) = Ret out /\ is_bytes (groups_len gs) out /\
    groups_in_place f gs m s = (Ret tt, overwrite m (s_addr s) out).
Proof.
  intros Hf. induction gs as [|g gs IH]; intros m s Hm Hs.
  - cbn [groups_len fold_right Nat.ltb Nat.leb]. exists []. split; [reflexivity|]. split; [now split|]. cbn [groups_in_place]. f_equal. unfold overwrite. cbn [app length]. now rewrite Nat.add_0_r, firstn_skipn.
  - cbn [groups_len fold_right groups_in_place]. fold (groups_len gs). pose proof (Hf g m s Hm Hs) as G. unfold inside in Hs. destruct (Nat.ltb_spec (s_len s) (group_len g)) as [L|L].
    + assert ((s_len s <? group_len g + groups_len gs)%nat = true) as -> by (apply Nat.ltb_lt; lia). exists m, []. unfold m_then. rewrite G. split; [reflexivity|].
      split; [unfold overwrite; cbn [app length]; now rewrite Nat.add_0_r, firstn_skipn|cbn; lia].
    + destruct G as (o1 & G1 & G2 & G3). set (m1 := overwrite m (s_addr s) o1) in *. pose proof (proj1 G2) as Lo.
      assert (Lm : length m1 = length m) by (apply overwrite_length; lia).
      assert (Hm1 : Forall (fun b => b < 256) m1) by (apply overwrite_bytes; [assumption|apply G2]).
      assert (E : m_then (f g) (m_from (group_len g) (groups_in_place f gs)) m s = groups_in_place f gs m1 (Slice (s_addr s + group_len g) (s_len s - group_len g))).
      { unfold m_then, m_from. rewrite G3. now rewrite (proj2 (Nat.leb_le _ _) L). }
      rewrite E. pose proof (IH m1 (Slice (s_addr s + group_len g) (s_len s - group_len g)) Hm1) as Q. cbn [s_addr s_len] in Q.
      specialize (Q ltac:(unfold inside; cbn; lia)).
      destruct (Nat.ltb_spec (s_len s) (group_len g + groups_len gs)) as [L2|L2].
      * assert ((s_len s - group_len g <? groups_len gs)%nat = true) as Eq by (apply Nat.ltb_lt; lia). rewrite Eq in Q. destruct Q as (m' & o2 & Q1 & -> & Q2).
        exists (overwrite m (s_addr s) (o1 ++ o2)), (o1 ++ o2). rewrite Q1. split; [|split; [reflexivity|rewrite app_length; lia]]. f_equal. unfold m1. rewrite <- Lo. apply overwrite_seq. lia.
      * assert ((s_len s - group_len g <? groups_len gs)%nat = false) as Eq by (apply Nat.ltb_ge; lia). rewrite Eq in Q. destruct Q as (o2 & Q1 & Q2 & Q3).
        exists (o1 ++ o2). rewrite contents_split. assert (Lc : length (contents m (Slice (s_addr s) (group_len g))) = group_len g) by (apply contents_length; unfold inside; cbn; lia).
        cbn [by_groups]. rewrite firstn_app, Lc, Nat.sub_diag. cbn [firstn]. rewrite app_nil_r, (firstn_all2 (n := group_len g)) by lia. rewrite G1. cbn [bind].
        rewrite skipn_app, Lc, Nat.sub_diag. rewrite (skipn_all2 (n := group_len g)) by lia. cbn [app skipn].
        unfold m1 in Q1. rewrite <- Lo in Q1 at 1. rewrite contents_after in Q1 by lia. rewrite Lo in Q1. rewrite Q1. cbn [bind]. split; [reflexivity|].
        split; [now apply is_bytes_app|]. rewrite Q3. f_equal. unfold m1. rewrite <- Lo. apply overwrite_seq. pose proof (proj1 Q2). lia.
Qed.

(** A buffer (slice) at any address in a memory that holds bytes; the temporaries and the message groups anywhere.
    A long enough buffer ends up holding what the list-level message function returns, nothing else changes; a buffer
    that is too short makes it panic, and memory outside the buffer is still what it was. *)
Definition works_in_place (run : list N -> outcome (list N)) (f : mcode) (n : nat) (m : mem) (s : slice) : Prop :=
  exists m', length m' = length m /\ (forall a, (a < s_addr s)%nat \/ (s_addr s + Nat.min n (s_len s) <= a)%nat -> nth a m' 0 = nth a m 0) /\
  if Nat.ltb (s_len s) n then f m s = (Panic, m')
  else exists out, run (contents m (Slice (s_addr s) n)) = Ret out /\ f m s = (Ret tt, m') /\ contents m' (Slice (s_addr s) n) = out.
Lemma works_in_place_of (run : group -> list N -> outcome (list N)) (f : group -> mcode) gs m s :
  (forall g, group_step (group_len g) (run g) (f g)) -> Forall (fun b => b < 256) m -> inside m s ->
  works_in_place (by_groups run gs) (groups_in_place f gs) (groups_len gs) m s.
Proof.
  intros Hf Hm Hs. pose proof (groups_step run f Hf gs m s Hm Hs) as Q. unfold works_in_place. unfold inside in Hs.
  assert (O : forall out a, (length out <= Nat.min (groups_len gs) (s_len s))%nat -> (a < s_addr s)%nat \/ (s_addr s + Nat.min (groups_len gs) (s_len s) <= a)%nat -> nth a (overwrite m (s_addr s) out) 0 = nth a m 0).
  { intros out a L H. destruct (overwrite_with m (s_addr s) out ltac:(lia)) as [_ W]. rewrite W.
    destruct (Nat.leb_spec (s_addr s) a), (Nat.ltb_spec a (s_addr s + length out)); cbn [andb]; try reflexivity; lia. }
  destruct (Nat.ltb_spec (s_len s) (groups_len gs)) as [L|L].
  - destruct Q as (m' & out & Q1 & -> & Q2). exists (overwrite m (s_addr s) out). split; [apply overwrite_length; lia|]. split; [intros a Ha; apply O; [lia|exact Ha]|exact Q1].
  - destruct Q as (out & Q1 & Q2 & Q3). pose proof (proj1 Q2) as Lo. exists (overwrite m (s_addr s) out). split; [apply overwrite_length; lia|]. split; [intros a Ha; apply O; [lia|exact Ha]|]. exists out. split; [exact Q1|]. split; [exact Q3|].
    change (s_addr s) with (s_addr (Slice (s_addr s) (groups_len gs))) at 1. apply contents_overwrite; [unfold inside; cbn; lia|exact Lo].
Qed.

Theorem C38_message_in_place : forall c i k key gs p dbg la m s,
  impl_of c = Some i -> pointers_of i p -> is_bytes (key_len k) key -> Forall (fun b => b < 256) m -> inside m s ->
  works_in_place (encrypt_message i k key gs) (encrypt_in_place i k p dbg la key gs) (groups_len gs) m s /\
  works_in_place (decrypt_message i k key gs) (decrypt_in_place i k p dbg la key gs) (groups_len gs) m s.
Proof.
  intros c i k key gs p dbg la m s E (P1 & P2 & P4) Hk Hm Hs.
  destruct (C15_byte_conversions_lossless c i E) as (L1 & L2 & L4). destruct (C38_store_to_any_address c i E) as (S1 & S2 & S4).
  destruct (C38_try_from_any_address c i E) as (R1 & R2 & R4). destruct (C26_cipher_calls_return c i k E) as (N & _ & _ & E1 & E2 & E4 & D1 & D2 & D4).
  destruct (N key Hk) as ((e & Ee & He) & (d & Ed & Hd)). unfold works_in_place, encrypt_message, decrypt_message, encrypt_in_place, decrypt_in_place.
  rewrite Ee, Ed. cbn [bind]. split; apply works_in_place_of; try assumption; intros []; cbn [group_len encrypt_group decrypt_group encrypt_group_in_place decrypt_group_in_place];
    eapply in_place_step; eauto.
Qed.
Print Assumptions C38_message_in_place.

(** For a buffer of exactly the message's length: the whole memory afterwards. *)
Lemma contents_nth m s a : inside m s -> (s_addr s <= a < s_addr s + s_len s)%nat -> nth (a - s_addr s) (contents m s) 0 = nth a m 0.
Proof.
  intros H L. unfold contents. replace (nth a m 0) with (nth (a - s_addr s) (skipn (s_addr s) m) 0) by (rewrite nth_skipn; f_equal; lia).
  generalize (skipn (s_addr s) m) as l. assert (Q : (a - s_addr s < s_len s)%nat) by lia. revert Q. generalize (a - s_addr s)%nat (s_len s). clear.
  induction n as [|n IH]; intros [|q] Q l; try lia; (destruct l; [reflexivity|]); cbn [firstn nth]; [reflexivity|apply IH; lia].
Qed.
Lemma in_place_with run f m s : inside m s -> works_in_place run f (s_len s) m s ->
  exists out m', run (contents m s) = Ret out /\ f m s = (Ret tt, m') /\ length out = s_len s /\ with_bytes m m' (s_addr s) out /\ contents m' s = out.
Proof.
  intros Hs (m' & L & O & W). rewrite (proj2 (Nat.ltb_ge _ _) (Nat.le_refl _)) in W. rewrite Nat.min_id in O.
  assert (Es : Slice (s_addr s) (s_len s) = s) by (destruct s; reflexivity). rewrite Es in W. destruct W as (out & W1 & W2 & W3). exists out, m'.
  assert (Hs' : inside m' s) by (unfold inside in *; lia). pose proof (contents_length m' s Hs') as Lo. rewrite W3 in Lo.
  split; [assumption|]. split; [assumption|]. split; [assumption|]. split; [|assumption]. split; [assumption|]. intros a. rewrite Lo.
  destruct (Nat.leb_spec (s_addr s) a), (Nat.ltb_spec a (s_addr s + s_len s)); cbn [andb]; try (apply O; lia). rewrite <- W3. symmetry. apply contents_nth; [assumption|lia].
Qed.
(** In the configurations that conform to FIPS-197, the buffer then holds the FIPS-197 result, block by block. *)
Theorem C38_buffer_holds_fips197 : forall c i k key gs p dbg la m s,
  impl_of c = Some i -> conforming c = true -> pointers_of i p -> is_bytes (key_len k) key -> Forall (fun b => b < 256) m -> inside m s ->
  s_len s = groups_len gs -> exists m' m'',
  encrypt_in_place i k p dbg la key gs m s = (Ret tt, m') /\ with_bytes m m' (s_addr s) (each_block (aes_encrypt k key) (contents m s)) /\
  decrypt_in_place i k p dbg la key gs m s = (Ret tt, m'') /\ with_bytes m m'' (s_addr s) (each_block (aes_decrypt k key) (contents m s)).
Proof.
  intros c i k key gs p dbg la m s E C P Hk Hm Hs L. destruct (C38_message_in_place c i k key gs p dbg la m s E P Hk Hm Hs) as [A B]. rewrite <- L in A, B.
  destruct (in_place_with _ _ m s Hs A) as (o1 & m1 & A1 & A2 & _ & A3 & _). destruct (in_place_with _ _ m s Hs B) as (o2 & m2 & B1 & B2 & _ & B3 & _).
  destruct (C27_batching_is_fips197 c i k key gs (contents m s) E C Hk) as [F G].
  { rewrite <- L. split; [now apply contents_length|now apply contents_bytes]. }
  exists m1, m2. rewrite F in A1. rewrite G in B1. injection A1 as <-. injection B1 as <-. auto.
Qed.
Print Assumptions C38_buffer_holds_fips197.
(** Encrypting a buffer where it lies and decrypting it there, in any groupings, leaves memory exactly as it was. *)
Theorem C38_in_place_round_trip : forall c i k key gs gs' p dbg la la' m s,
  impl_of c = Some i -> rv32_zk c = false -> pointers_of i p -> is_bytes (key_len k) key -> Forall (fun b => b < 256) m -> inside m s ->
  s_len s = groups_len gs -> s_len s = groups_len gs' -> exists m',
  encrypt_in_place i k p dbg la key gs m s = (Ret tt, m') /\ decrypt_in_place i k p dbg la' key gs' m' s = (Ret tt, m).
Proof.
  intros c i k key gs gs' p dbg la la' m s E C P Hk Hm Hs L L'. destruct (C38_message_in_place c i k key gs p dbg la m s E P Hk Hm Hs) as [A _]. rewrite <- L in A.
  destruct (in_place_with _ _ m s Hs A) as (o1 & m1 & A1 & A2 & A3 & A4 & A5).
  destruct (C27_round_trip_any_grouping c i k key gs gs' (contents m s) E C Hk) as (ct & C1 & C2 & C3); [congruence|rewrite <- L; split; [now apply contents_length|now apply contents_bytes]|].
  assert (Eo : o1 = ct) by congruence. rewrite Eo in *. clear Eo.
  assert (m1 = overwrite m (s_addr s) ct) by (apply with_bytes_overwrite; [unfold inside in Hs; lia|assumption]). subst m1.
  assert (Hm1 : Forall (fun b => b < 256) (overwrite m (s_addr s) ct)) by (apply overwrite_bytes; [assumption|apply C1]).
  assert (Hs1 : inside (overwrite m (s_addr s) ct) s) by (unfold inside in *; rewrite overwrite_length; lia).
  destruct (C38_message_in_place c i k key gs' p dbg la' _ s E P Hk Hm1 Hs1) as [_ B]. rewrite <- L' in B.
  destruct (in_place_with _ _ _ s Hs1 B) as (o2 & m2 & B1 & B2 & B3 & B4 & _). rewrite A5, C3 in B1. injection B1 as <-.
  exists (overwrite m (s_addr s) ct). split; [exact A2|]. rewrite B2. f_equal.
  pose proof (contents_length m s Hs) as Lc. apply with_bytes_overwrite in B4; [|unfold inside in *; lia]. rewrite B4.
  rewrite overwrite_twice by (unfold inside in *; lia). now apply overwrite_contents.
Qed.
Print Assumptions C38_in_place_round_trip.
(** Hypotheses are met: 112 bytes at address 3 of a memory of 120, as one, two and four blocks, then as four, one and two. *)
Lemma pointers_exist c i : impl_of c = Some i -> exists p, pointers_of i p.
Proof. intros E. destruct (pointer_total c i E) as ([p1 H1] & [p2 H2] & [p4 H4]). now exists (Pointers i p1 p2 p4). Qed.
Example C38_in_place_case : forall c k, In c fips_samples -> with_values c k (fun i u =>
  exists p m' m'', pointers_of i p /\ s_len (Slice 3 112) = groups_len [One; Two; Four] /\
  encrypt_in_place i k p true (fun j => (7 * j)%nat) (fips_key k) [One; Two; Four] (repeat 9 120) (Slice 3 112) = (Ret tt, m') /\ nth 2 m' 0 = 9 /\ nth 115 m' 0 = 9 /\
  decrypt_in_place i k p true (fun j => (7 * j)%nat) (fips_key k) [Four; One; Two] m' (Slice 3 112) = (Ret tt, m'') /\ m'' = repeat 9 120).
Proof.
  intros c k H. apply case_fips; [exact H|]. intros i u E C. destruct (pointers_exist c i E) as [p P].
  assert (Hm : Forall (fun b => b < 256) (repeat 9 120)) by (apply Forall_forall; intros x Hx; apply repeat_spec in Hx; now subst x).
  assert (Hs : inside (repeat 9 120) (Slice 3 112)) by (unfold inside; rewrite repeat_length; cbn; lia).
  destruct (C38_in_place_round_trip c i k (fips_key k) [One; Two; Four] [Four; One; Two] p true (fun j => (7 * j)%nat) (fun j => (7 * j)%nat) _ _ E C P (fips_key_ok k) Hm Hs eq_refl eq_refl) as (m' & A & B).
  destruct (C38_message_in_place c i k (fips_key k) [One; Two; Four] p true (fun j => (7 * j)%nat) _ _ E P (fips_key_ok k) Hm Hs) as [(m1 & _ & O & W) _].
  cbn [groups_len fold_right group_len Nat.add s_len Nat.ltb Nat.leb] in W. destruct W as (out & _ & W & _). rewrite A in W. injection W as <-.
  exists p, m', (repeat 9 120). split; [exact P|]. split; [reflexivity|]. split; [exact A|].
  split; [rewrite O by (left; cbn; lia); reflexivity|]. split; [rewrite O by (right; cbn; lia); reflexivity|]. split; [exact B|reflexivity].
Qed.
