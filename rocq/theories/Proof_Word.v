(** Lemmas about machine words and byte lists. *)
From Coq Require Import Lia Arith.
From Verif Require Import Word.
Open Scope N_scope.

Definition bytes_ok (l : list N) : Prop := Forall (fun b => b < 256) l.

Lemma byte_testbit_high b j : b < 256 -> 8 <= j -> N.testbit b j = false.
Proof.
  intros Hb Hj. destruct (N.eq_dec b 0) as [->|Hz]; [apply N.bits_0|].
  apply N.bits_above_log2. apply N.log2_lt_pow2; [lia|].
  apply N.lt_le_trans with (2 ^ 8); [exact Hb|]. apply N.pow_le_mono_r; lia.
Qed.

Lemma lt_pow2_testbit x n : x < 2 ^ n <-> (forall m, n <= m -> N.testbit x m = false).
Proof.
  split.
  - intros H m Hm. destruct (N.eq_dec x 0) as [->|Hz]; [apply N.bits_0|].
    apply N.bits_above_log2. apply N.log2_lt_pow2; [lia|].
    apply N.lt_le_trans with (2 ^ n); [exact H|]. apply N.pow_le_mono_r; lia.
  - intros H. destruct (N.eq_dec x 0) as [->|Hz]; [apply N.neq_0_lt_0, N.pow_nonzero; lia|].
    apply N.log2_lt_pow2; [lia|].
    destruct (N.lt_ge_cases (N.log2 x) n) as [|Hge]; [assumption|].
    specialize (H _ Hge). rewrite N.bit_log2 in H by lia. discriminate.
Qed.

Lemma lxor_lt x y n : x < 2 ^ n -> y < 2 ^ n -> N.lxor x y < 2 ^ n.
Proof. rewrite !lt_pow2_testbit. intros Hx Hy m Hm. rewrite N.lxor_spec, Hx, Hy by lia. reflexivity. Qed.
Lemma lor_lt x y n : x < 2 ^ n -> y < 2 ^ n -> N.lor x y < 2 ^ n.
Proof. rewrite !lt_pow2_testbit. intros Hx Hy m Hm. rewrite N.lor_spec, Hx, Hy by lia. reflexivity. Qed.
Lemma land_lt x y n : y < 2 ^ n -> N.land x y < 2 ^ n.
Proof. rewrite !lt_pow2_testbit. intros Hy m Hm. rewrite N.land_spec, Hy by lia. apply andb_false_r. Qed.
Lemma land_lt_l x y n : x < 2 ^ n -> N.land x y < 2 ^ n.
Proof. rewrite !lt_pow2_testbit. intros Hy m Hm. rewrite N.land_spec, Hy by lia. reflexivity. Qed.
Lemma shr_lt x k n : x < 2 ^ n -> shr x k < 2 ^ n.
Proof. unfold shr. rewrite !lt_pow2_testbit. intros Hy m Hm. rewrite N.shiftr_spec by lia. apply Hy. lia. Qed.
Lemma trunc_lt w x : trunc w x < 2 ^ w.
Proof. unfold trunc. rewrite N.land_ones. apply N.mod_lt. apply N.pow_nonzero; lia. Qed.
Lemma shl_lt w x k : shl w x k < 2 ^ w.
Proof. apply trunc_lt. Qed.
Lemma trunc_small w x : x < 2 ^ w -> trunc w x = x.
Proof. intros. unfold trunc. rewrite N.land_ones. apply N.mod_small. assumption. Qed.
Lemma ones_lt w : N.ones w < 2 ^ w.
Proof. rewrite N.ones_equiv. apply N.lt_pred_l, N.pow_nonzero. lia. Qed.
Lemma bnot_lt w x : x < 2 ^ w -> bnot w x < 2 ^ w.
Proof. intros. apply lxor_lt; [assumption|apply ones_lt]. Qed.

Lemma trunc_testbit w x n : N.testbit (trunc w x) n = (n <? w) && N.testbit x n.
Proof.
  unfold trunc. rewrite N.land_spec.
  destruct (N.ltb_spec n w).
  - rewrite N.ones_spec_low by lia. apply andb_true_r.
  - rewrite N.ones_spec_high by lia. apply andb_false_r.
Qed.
Lemma shl_testbit w x k n : N.testbit (shl w x k) n = (n <? w) && (k <=? n) && N.testbit x (n - k).
Proof.
  unfold shl. rewrite trunc_testbit. destruct (N.leb_spec k n).
  - rewrite N.shiftl_spec_high' by lia. now rewrite andb_true_r.
  - rewrite N.shiftl_spec_low by lia. now rewrite !andb_false_r.
Qed.
Lemma shr_testbit x k n : N.testbit (shr x k) n = N.testbit x (n + k).
Proof. unfold shr. apply N.shiftr_spec. lia. Qed.

(** *** of_le *)
Lemma of_le_cons b l : of_le (b :: l) = b + 256 * of_le l.
Proof. reflexivity. Qed.

Lemma of_le_cons_lor b l : b < 256 -> of_le (b :: l) = N.lor b (N.shiftl (of_le l) 8).
Proof.
  intros Hb. rewrite of_le_cons. replace (256 * of_le l) with (N.shiftl (of_le l) 8)
    by (rewrite N.shiftl_mul_pow2; change (2^8) with 256; lia).
  rewrite <- N.lxor_lor.
  - apply N.add_nocarry_lxor. apply N.bits_inj. intro n. rewrite N.land_spec, N.bits_0.
    destruct (N.lt_ge_cases n 8).
    + rewrite N.shiftl_spec_low by lia. apply andb_false_r.
    + rewrite byte_testbit_high by lia. reflexivity.
  - apply N.bits_inj. intro n. rewrite N.land_spec, N.bits_0.
    destruct (N.lt_ge_cases n 8).
    + rewrite N.shiftl_spec_low by lia. apply andb_false_r.
    + rewrite byte_testbit_high by lia. reflexivity.
Qed.

Lemma of_le_testbit l i j : bytes_ok l -> j < 8 ->
  N.testbit (of_le l) (8 * N.of_nat i + j) = N.testbit (nth i l 0) j.
Proof.
  revert i. induction l as [|b l IH]; intros i Hl Hj.
  - destruct i; simpl nth; now rewrite !N.bits_0.
  - inversion Hl; subst. rewrite of_le_cons_lor by assumption. rewrite N.lor_spec.
    destruct i as [|i].
    + replace (8 * N.of_nat 0 + j) with j by lia. rewrite N.shiftl_spec_low by lia. apply orb_false_r.
    + rewrite N.shiftl_spec_high' by lia. rewrite byte_testbit_high by lia.
      simpl nth. rewrite <- IH by assumption. rewrite orb_false_l. f_equal. lia.
Qed.

Lemma of_le_lt l : bytes_ok l -> of_le l < 2 ^ (8 * N.of_nat (length l)).
Proof.
  induction 1 as [|b l Hb Hl IH]; [cbn; lia|].
  rewrite of_le_cons. cbn [length]. replace (8 * N.of_nat (S (length l))) with (8 + 8 * N.of_nat (length l)) by lia.
  rewrite N.pow_add_r. change (2 ^ 8) with 256. nia.
Qed.

Lemma to_le_length n x : length (to_le n x) = n.
Proof. revert x. induction n; intros; cbn; auto. Qed.
Lemma to_le_ok n x : bytes_ok (to_le n x).
Proof.
  revert x. induction n; intros; cbn; constructor; auto.
  - apply N.mod_lt. lia.
  - apply IHn.
Qed.
Lemma to_le_of_le l : bytes_ok l -> to_le (length l) (of_le l) = l.
Proof.
  induction 1 as [|b l Hb Hl IH]; [reflexivity|].
  cbn [length to_le]. rewrite of_le_cons. f_equal.
  - rewrite (N.mul_comm 256), N.mod_add by lia. apply N.mod_small. assumption.
  - transitivity (to_le (length l) (of_le l)); [f_equal|exact IH].
    rewrite (N.mul_comm 256), N.div_add by lia. rewrite N.div_small by assumption. reflexivity.
Qed.
Lemma of_le_to_le n x : x < 2 ^ (8 * N.of_nat n) -> of_le (to_le n x) = x.
Proof.
  revert x. induction n as [|n IH]; intros x Hx.
  - cbn in *. lia.
  - cbn [to_le of_le]. rewrite IH.
    + rewrite N.add_comm. symmetry. apply N.div_mod. lia.
    + apply N.div_lt_upper_bound; [lia|].
      replace (8 * N.of_nat (S n)) with (8 + 8 * N.of_nat n) in Hx by lia.
      rewrite N.pow_add_r in Hx. exact Hx.
Qed.
Lemma of_le_inj l m : bytes_ok l -> bytes_ok m -> length l = length m -> of_le l = of_le m -> l = m.
Proof. intros Hl Hm He H. rewrite <- (to_le_of_le l Hl), <- (to_le_of_le m Hm), H, He. reflexivity. Qed.

Lemma of_le_app l m : of_le (l ++ m) = of_le l + 2 ^ (8 * N.of_nat (length l)) * of_le m.
Proof.
  induction l as [|b l IH]; [cbn [app length of_le]; change (2 ^ (8 * N.of_nat 0)) with 1; lia|].
  cbn [app length]. rewrite !of_le_cons, IH.
  replace (8 * N.of_nat (S (length l))) with (8 + 8 * N.of_nat (length l)) by lia.
  rewrite N.pow_add_r. change (2 ^ 8) with 256. lia.
Qed.

(** Extensionality of words by their testbits, byte by byte. *)
Lemma of_le_ext l x : bytes_ok l -> x < 2 ^ (8 * N.of_nat (length l)) ->
  (forall i j, (i < length l)%nat -> j < 8 -> N.testbit x (8 * N.of_nat i + j) = N.testbit (nth i l 0) j) ->
  x = of_le l.
Proof.
  intros Hl Hx H. apply N.bits_inj. intro n.
  destruct (N.lt_ge_cases n (8 * N.of_nat (length l))) as [Hn|Hn].
  - pose proof (N.div_mod n 8 ltac:(lia)) as E. pose proof (N.mod_lt n 8 ltac:(lia)) as L.
    rewrite E. replace (n / 8) with (N.of_nat (N.to_nat (n / 8))) by lia.
    rewrite of_le_testbit by (assumption || lia). apply H; [|lia].
    assert (n / 8 < N.of_nat (length l)) by (apply N.div_lt_upper_bound; lia). lia.
  - rewrite (proj1 (lt_pow2_testbit _ _) Hx) by lia.
    rewrite (proj1 (lt_pow2_testbit _ _) (of_le_lt l Hl)) by lia. reflexivity.
Qed.

(** *** map2 *)
Lemma map2_length {A B C} (f : A -> B -> C) l m : length (map2 f l m) = Nat.min (length l) (length m).
Proof. revert m. induction l; destruct m; cbn; auto. Qed.
Lemma map2_length_eq {A B C} (f : A -> B -> C) l m : length l = length m -> length (map2 f l m) = length l.
Proof. intros. rewrite map2_length. lia. Qed.
Lemma map2_nth {A B C} (f : A -> B -> C) l m i da db dc :
  (i < length l)%nat -> (i < length m)%nat -> nth i (map2 f l m) dc = f (nth i l da) (nth i m db).
Proof.
  revert m i. induction l as [|a l IH]; intros [|b m] i Hl Hm; cbn in *; try lia.
  destruct i; [reflexivity|]. apply IH; lia.
Qed.
Lemma map2_ok f l m : (forall x y, x < 256 -> y < 256 -> f x y < 256) ->
  bytes_ok l -> bytes_ok m -> bytes_ok (map2 f l m).
Proof.
  intros Hf Hl. revert m. induction Hl; intros m Hm; [constructor|].
  destruct Hm; [constructor|]. cbn. constructor; auto. apply IHHl. assumption.
Qed.
Lemma lxor_byte x y : x < 256 -> y < 256 -> N.lxor x y < 256.
Proof. apply (lxor_lt x y 8). Qed.
Lemma land_byte x y : x < 256 -> y < 256 -> N.land x y < 256.
Proof. intros _. apply (land_lt x y 8). Qed.
Lemma lor_byte x y : x < 256 -> y < 256 -> N.lor x y < 256.
Proof. apply (lor_lt x y 8). Qed.
Lemma map2_lxor_ok l m : bytes_ok l -> bytes_ok m -> bytes_ok (map2 N.lxor l m).
Proof. apply map2_ok, lxor_byte. Qed.

Lemma of_le_map2 (f : N -> N -> N) (g : bool -> bool -> bool) l m :
  (forall x y n, N.testbit (f x y) n = g (N.testbit x n) (N.testbit y n)) -> g false false = false ->
  bytes_ok l -> bytes_ok m -> length l = length m ->
  of_le (map2 f l m) = f (of_le l) (of_le m).
Proof.
  intros Hf Hg Hl Hm He. symmetry. 
  assert (Hb : forall n x y, x < 2 ^ n -> y < 2 ^ n -> f x y < 2 ^ n).
  { intros n x y. rewrite !lt_pow2_testbit. intros Hx Hy k Hk. rewrite Hf, Hx, Hy by lia. exact Hg. }
  apply of_le_ext.
  - apply map2_ok; try assumption. apply (Hb 8).
  - rewrite map2_length_eq by assumption. apply Hb; [apply of_le_lt; assumption|].
    rewrite He. apply of_le_lt. assumption.
  - intros i j Hi Hj. rewrite map2_length_eq in Hi by assumption.
    rewrite Hf, !of_le_testbit by assumption. rewrite (map2_nth f l m i 0 0) by lia. now rewrite Hf.
Qed.
Lemma of_le_lxor l m : bytes_ok l -> bytes_ok m -> length l = length m ->
  of_le (map2 N.lxor l m) = N.lxor (of_le l) (of_le m).
Proof. apply (of_le_map2 N.lxor xorb); [apply N.lxor_spec|reflexivity]. Qed.
Lemma of_le_land l m : bytes_ok l -> bytes_ok m -> length l = length m ->
  of_le (map2 N.land l m) = N.land (of_le l) (of_le m).
Proof. apply (of_le_map2 N.land andb); [apply N.land_spec|reflexivity]. Qed.
Lemma of_le_lor l m : bytes_ok l -> bytes_ok m -> length l = length m ->
  of_le (map2 N.lor l m) = N.lor (of_le l) (of_le m).
Proof. apply (of_le_map2 N.lor orb); [apply N.lor_spec|reflexivity]. Qed.

Lemma map_ok f l : (forall x, x < 256 -> f x < 256) -> bytes_ok l -> bytes_ok (map f l).
Proof. intros Hf. induction 1; constructor; auto. Qed.

Lemma of_le_bnot l : bytes_ok l -> of_le (map (bnot 8) l) = bnot (8 * N.of_nat (length l)) (of_le l).
Proof.
  intros Hl. symmetry.
  assert (Hok : bytes_ok (map (bnot 8) l)) by (apply map_ok; [intros; apply (bnot_lt 8); assumption|assumption]).
  apply of_le_ext; try assumption.
  - rewrite map_length. apply bnot_lt. apply of_le_lt. assumption.
  - intros i j Hi Hj. rewrite map_length in Hi. unfold bnot at 1. rewrite N.lxor_spec, of_le_testbit by assumption.
    rewrite (nth_indep (map (bnot 8) l) 0 (bnot 8 0)) by (rewrite map_length; assumption). rewrite map_nth. unfold bnot. rewrite N.lxor_spec.
    rewrite !N.ones_spec_low by lia. reflexivity.
Qed.

Lemma bytes_ok_nth l i : bytes_ok l -> nth i l 0 < 256.
Proof.
  intros H. destruct (Nat.lt_ge_cases i (length l)) as [L|L].
  - apply (proj1 (Forall_forall _ _) H). apply nth_In. assumption.
  - rewrite nth_overflow by assumption. lia.
Qed.
Lemma bytes_ok_app l m : bytes_ok l -> bytes_ok m -> bytes_ok (l ++ m).
Proof. intros. apply Forall_app. split; assumption. Qed.
Lemma bytes_ok_rev l : bytes_ok l -> bytes_ok (rev l).
Proof. apply Forall_rev. Qed.
Lemma bytes_ok_firstn n l : bytes_ok l -> bytes_ok (firstn n l).
Proof. intros H. revert n. induction H; intros [|n]; cbn; constructor; auto. apply IHForall. Qed.
Lemma bytes_ok_skipn n l : bytes_ok l -> bytes_ok (skipn n l).
Proof. intros H. revert n. induction H; intros [|n]; cbn; try constructor; auto. Qed.
Lemma bytes_ok_repeat x n : x < 256 -> bytes_ok (repeat x n).
Proof. intros. induction n; constructor; assumption. Qed.

(** *** byte extraction *)
Lemma as_u8_shr l i : bytes_ok l -> as_u8 (shr (of_le l) (8 * N.of_nat i)) = nth i l 0.
Proof.
  intros Hl. apply N.bits_inj. intro n. unfold as_u8. rewrite trunc_testbit, shr_testbit.
  destruct (N.ltb_spec n 8).
  - rewrite N.add_comm, of_le_testbit by assumption. reflexivity.
  - symmetry. apply byte_testbit_high; [apply bytes_ok_nth; assumption|lia].
Qed.
Lemma as_u8_of_le l : bytes_ok l -> as_u8 (of_le l) = nth 0 l 0.
Proof. intros. rewrite <- (as_u8_shr l 0) by assumption. unfold shr. now rewrite N.shiftr_0_r. Qed.
Lemma as_u8_small b : b < 256 -> as_u8 b = b.
Proof. intros. apply (trunc_small 8). assumption. Qed.

Lemma skipn_nth {A} (l : list A) k i d : nth i (skipn k l) d = nth (k + i) l d.
Proof.
  revert k. induction l as [|a l IH]; intros [|k]; cbn; try reflexivity.
  - now destruct i.
  - apply IH.
Qed.
Lemma firstn_nth {A} (l : list A) k i d : (i < k)%nat -> nth i (firstn k l) d = nth i l d.
Proof.
  revert l i. induction k as [|k IH]; intros l i Hi; [lia|].
  destruct l; cbn; [reflexivity|]. destruct i; [reflexivity|]. apply IH. lia.
Qed.

Lemma of_le_skipn l k : bytes_ok l -> shr (of_le l) (8 * N.of_nat k) = of_le (skipn k l).
Proof.
  intros Hl. revert k. induction Hl as [|b l Hb Hl IH]; intros k.
  - rewrite skipn_nil. unfold shr. apply N.shiftr_0_l.
  - destruct k; [unfold shr; now rewrite N.shiftr_0_r|]. cbn [skipn]. rewrite <- IH.
    unfold shr. replace (8 * N.of_nat (S k)) with (8 + 8 * N.of_nat k) by lia.
    rewrite <- N.shiftr_shiftr. f_equal. rewrite of_le_cons, N.shiftr_div_pow2. change (2 ^ 8) with 256.
    rewrite (N.mul_comm 256), N.div_add by lia. rewrite N.div_small by assumption. lia.
Qed.
Lemma of_le_firstn l k : bytes_ok l -> trunc (8 * N.of_nat k) (of_le l) = of_le (firstn k l).
Proof.
  intros Hl. apply N.bits_inj. intro n. rewrite trunc_testbit.
  pose proof (N.div_mod n 8 ltac:(lia)) as E. pose proof (N.mod_lt n 8 ltac:(lia)) as L.
  revert E L. generalize (n mod 8) as r. generalize (n / 8) as q. intros q r -> L.
  replace q with (N.of_nat (N.to_nat q)) by lia. generalize (N.to_nat q) as i. clear q. intros i.
  rewrite !of_le_testbit by (try apply bytes_ok_firstn; assumption).
  destruct (N.ltb_spec (8 * N.of_nat i + r) (8 * N.of_nat k)).
  - rewrite firstn_nth by lia. reflexivity.
  - rewrite (nth_overflow (firstn k l)) by (rewrite firstn_length; lia). now rewrite N.bits_0.
Qed.

Lemma to_ne_length be n x : length (to_ne be n x) = n.
Proof. destruct be; cbn; unfold to_be; rewrite ?rev_length; apply to_le_length. Qed.
Lemma to_ne_ok be n x : bytes_ok (to_ne be n x).
Proof. destruct be; cbn; unfold to_be; try apply bytes_ok_rev; apply to_le_ok. Qed.
Lemma to_be_of_be l : bytes_ok l -> to_be (length l) (of_be l) = l.
Proof.
  intros. unfold to_be, of_be. rewrite <- (rev_length l), to_le_of_le by (apply bytes_ok_rev; assumption).
  apply rev_involutive.
Qed.
Lemma of_be_to_be n x : x < 2 ^ (8 * N.of_nat n) -> of_be (to_be n x) = x.
Proof. intros. unfold to_be, of_be. rewrite rev_involutive. apply of_le_to_le. assumption. Qed.
Lemma to_ne_of_ne be l : bytes_ok l -> to_ne be (length l) (of_ne be l) = l.
Proof. destruct be; [apply to_be_of_be|apply to_le_of_le]. Qed.
Lemma of_ne_to_ne be n x : x < 2 ^ (8 * N.of_nat n) -> of_ne be (to_ne be n x) = x.
Proof. destruct be; [apply of_be_to_be|apply of_le_to_le]. Qed.
Lemma of_ne_lt be l : bytes_ok l -> of_ne be l < 2 ^ (8 * N.of_nat (length l)).
Proof.
  intros. destruct be; cbn; [|apply of_le_lt; assumption].
  unfold of_be. rewrite <- rev_length. apply of_le_lt, bytes_ok_rev. assumption.
Qed.
Lemma of_ne_inj be l m : bytes_ok l -> bytes_ok m -> length l = length m -> of_ne be l = of_ne be m -> l = m.
Proof. intros Hl Hm He H. rewrite <- (to_ne_of_ne be l Hl), <- (to_ne_of_ne be m Hm), H, He. reflexivity. Qed.

Lemma map2_rev {A B C} (f : A -> B -> C) l m : length l = length m -> map2 f (rev l) (rev m) = rev (map2 f l m).
Proof.
  revert m. induction l as [|a l IH]; intros [|b m] H; cbn in *; try lia; [reflexivity|].
  assert (G : forall l1 m1 l2 m2, length l1 = length m1 -> map2 f (l1 ++ l2) (m1 ++ m2) = map2 f l1 m1 ++ map2 f l2 m2).
  { clear. induction l1 as [|x l1 IHl]; intros [|y m1] l2 m2 H; cbn in *; try lia; [reflexivity|]. f_equal. apply IHl. lia. }
  rewrite G by (rewrite !rev_length; lia). rewrite IH by lia. reflexivity.
Qed.
Lemma map2_app {A B C} (f : A -> B -> C) l1 m1 l2 m2 :
  length l1 = length m1 -> map2 f (l1 ++ l2) (m1 ++ m2) = map2 f l1 m1 ++ map2 f l2 m2.
Proof. revert m1. induction l1 as [|x l1 IHl]; intros [|y m1] H; cbn in *; try lia; [reflexivity|]. f_equal. apply IHl. lia. Qed.

Lemma of_ne_lxor be l m : bytes_ok l -> bytes_ok m -> length l = length m ->
  of_ne be (map2 N.lxor l m) = N.lxor (of_ne be l) (of_ne be m).
Proof.
  intros. destruct be; cbn; [|apply of_le_lxor; assumption].
  unfold of_be. rewrite <- map2_rev by assumption. apply of_le_lxor; rewrite ?rev_length; try apply bytes_ok_rev; assumption.
Qed.
Lemma of_ne_land be l m : bytes_ok l -> bytes_ok m -> length l = length m ->
  of_ne be (map2 N.land l m) = N.land (of_ne be l) (of_ne be m).
Proof.
  intros. destruct be; cbn; [|apply of_le_land; assumption].
  unfold of_be. rewrite <- map2_rev by assumption. apply of_le_land; rewrite ?rev_length; try apply bytes_ok_rev; assumption.
Qed.
Lemma of_ne_lor be l m : bytes_ok l -> bytes_ok m -> length l = length m ->
  of_ne be (map2 N.lor l m) = N.lor (of_ne be l) (of_ne be m).
Proof.
  intros. destruct be; cbn; [|apply of_le_lor; assumption].
  unfold of_be. rewrite <- map2_rev by assumption. apply of_le_lor; rewrite ?rev_length; try apply bytes_ok_rev; assumption.
Qed.
Lemma of_ne_bnot be l : bytes_ok l -> of_ne be (map (bnot 8) l) = bnot (8 * N.of_nat (length l)) (of_ne be l).
Proof.
  intros. destruct be; cbn; [|apply of_le_bnot; assumption].
  unfold of_be. rewrite <- map_rev, of_le_bnot, rev_length by (apply bytes_ok_rev; assumption). reflexivity.
Qed.

(** *** 256-sweeps *)
Definition all_bytes : list N := map N.of_nat (seq 0 256).
Lemma sweep (P : N -> bool) : forallb P all_bytes = true -> forall b, b < 256 -> P b = true.
Proof.
  intros H b Hb. rewrite forallb_forall in H. apply H. unfold all_bytes.
  replace b with (N.of_nat (N.to_nat b)) by lia. apply in_map. apply in_seq. lia.
Qed.
Lemma sweep_eq (f g : N -> N) : forallb (fun b => f b =? g b) all_bytes = true -> forall b, b < 256 -> f b = g b.
Proof. intros H b Hb. apply N.eqb_eq. apply (sweep (fun b => f b =? g b) H b Hb). Qed.
Lemma sweep_lt (f : N -> N) : forallb (fun b => f b <? 256) all_bytes = true -> forall b, b < 256 -> f b < 256.
Proof. intros H b Hb. apply N.ltb_lt. apply (sweep (fun b => f b <? 256) H b Hb). Qed.

(** *** is_bytes *)
Lemma is_bytes_ok n l : is_bytes n l -> bytes_ok l.
Proof. intros [_ H]. exact H. Qed.
Lemma is_bytes_len n l : is_bytes n l -> length l = n.
Proof. intros [H _]. exact H. Qed.
Lemma is_bytes_intro n l : length l = n -> bytes_ok l -> is_bytes n l.
Proof. split; assumption. Qed.
Lemma is_bytesb_correct n l : is_bytesb n l = true -> is_bytes n l.
Proof.
  unfold is_bytesb. intros H. apply andb_prop in H. destruct H as [H1 H2]. split.
  - apply Nat.eqb_eq. assumption.
  - apply Forall_forall. intros x Hx. rewrite forallb_forall in H2. apply N.ltb_lt. auto.
Qed.

(** Exposing the elements of a list of known length. *)
Ltac explode H :=
  match type of H with
  | length ?l = S ?n => let a := fresh "b" in let l' := fresh "l" in
      destruct l as [|a l']; [discriminate H|]; cbn [length] in H; apply eq_add_S in H; explode H
  | length ?l = 0%nat => destruct l; [|discriminate H]; clear H
  end.
Ltac inv_forall :=
  repeat match goal with
  | H : Forall _ (_ :: _) |- _ => inversion H; clear H; subst
  | H : bytes_ok (_ :: _) |- _ => inversion H; clear H; subst
  | H : Forall _ [] |- _ => clear H
  | H : bytes_ok [] |- _ => clear H
  end.
(** [bytes_tac]: split an [is_bytes n l] hypothesis (n literal) into named bytes with bounds. *)
Ltac bytes_tac H :=
  let L := fresh in let F := fresh in
  destruct H as [L F]; explode L; inv_forall.
Lemma skipn_skipn' {A} a b (l : list A) : skipn a (skipn b l) = skipn (b + a) l.
Proof. revert l. induction b; intros l; [reflexivity|]. destruct l; cbn; [now rewrite skipn_nil|apply IHb]. Qed.
