(** The word-parallel S-box code acts on every byte independently: the instance for 16 bytes is the
    instance for one byte applied to each of them. *)
From Coq Require Import Lia Arith Btauto.
From Verif Require Import Word Interface Fips197 Model_Columns Model_Bitslice Proof_Word Proof_Fips.
Open Scope N_scope.

(** [R n i v w m z]: in byte [i] of the [n]-byte word [v], the bits selected by [m] are those of the
    byte [w]; the bit positions selected by [z] are zero in every byte of [v] (and in [w]). *)
Record R (n i : nat) (v w m z : N) : Prop := {
  R_lt : v < 2 ^ (8 * N.of_nat n);
  R_lt8 : w < 2 ^ 8;
  R_bits : forall j, j < 8 -> N.testbit m j = true -> N.testbit v (8 * N.of_nat i + j) = N.testbit w j;
  R_zero : forall q j, j < 8 -> N.testbit z j = true -> N.testbit v (8 * q + j) = false;
  R_zero8 : forall j, j < 8 -> N.testbit z j = true -> N.testbit w j = false
}.

(** Mask of the [j < 8] satisfying [p]. *)
Definition mask8 (p : N -> bool) : N :=
  fold_right (fun j acc => N.b2n (p j) + 2 * acc) 0 [0;1;2;3;4;5;6;7].
Lemma mask8_spec p j : j < 8 -> N.testbit (mask8 p) j = p j.
Proof.
  intros H. unfold mask8. cbn [fold_right].
  assert (j = 0 \/ j = 1 \/ j = 2 \/ j = 3 \/ j = 4 \/ j = 5 \/ j = 6 \/ j = 7) as D by lia.
  destruct D as [->|[->|[->|[->|[->|[->|[->| ->]]]]]]];
  destruct (p 0), (p 1), (p 2), (p 3), (p 4), (p 5), (p 6), (p 7); reflexivity.
Qed.

Definition m_and (m1 z1 m2 z2 : N) : N := mask8 (fun j => (N.testbit m1 j && N.testbit m2 j) || N.testbit z1 j || N.testbit z2 j).
Definition z_or (z1 z2 : N) : N := mask8 (fun j => N.testbit z1 j || N.testbit z2 j).
Definition m_both (m1 m2 : N) : N := mask8 (fun j => N.testbit m1 j && N.testbit m2 j).
Definition m_shr (k m z : N) : N := mask8 (fun j => if j + k <? 8 then N.testbit m (j + k) else N.testbit z (j + k - 8)).
Definition z_shr (k z : N) : N := mask8 (fun j => N.testbit z ((j + k) mod 8)).
Definition m_shl (k m z : N) : N := mask8 (fun j => if k <=? j then N.testbit m (j - k) else N.testbit z (8 + j - k)).
Definition z_shl (k z : N) : N := mask8 (fun j => N.testbit z ((8 + j - k) mod 8)).

Section R.
Context (n i : nat) (Hi : (i < n)%nat).
Notation Rn := (R n i).

Lemma R_lxor v1 w1 m1 z1 v2 w2 m2 z2 : Rn v1 w1 m1 z1 -> Rn v2 w2 m2 z2 ->
  Rn (N.lxor v1 v2) (N.lxor w1 w2) (m_both m1 m2) (m_both z1 z2).
Proof.
  intros [L1 l1 B1 Z1 z1'] [L2 l2 B2 Z2 z2']. split; try (apply lxor_lt; assumption).
  - intros j Hj. unfold m_both. rewrite mask8_spec, andb_true_iff by assumption. intros [? ?]. rewrite !N.lxor_spec, B1, B2 by assumption. reflexivity.
  - intros q j Hj. unfold m_both. rewrite mask8_spec, andb_true_iff by assumption. intros [? ?]. rewrite N.lxor_spec, Z1, Z2 by assumption. reflexivity.
  - intros j Hj. unfold m_both. rewrite mask8_spec, andb_true_iff by assumption. intros [? ?]. rewrite N.lxor_spec, z1', z2' by assumption. reflexivity.
Qed.
Lemma R_lor v1 w1 m1 z1 v2 w2 m2 z2 : Rn v1 w1 m1 z1 -> Rn v2 w2 m2 z2 ->
  Rn (N.lor v1 v2) (N.lor w1 w2) (m_both m1 m2) (m_both z1 z2).
Proof.
  intros [L1 l1 B1 Z1 z1'] [L2 l2 B2 Z2 z2']. split; try (apply lor_lt; assumption).
  - intros j Hj. unfold m_both. rewrite mask8_spec, andb_true_iff by assumption. intros [? ?]. rewrite !N.lor_spec, B1, B2 by assumption. reflexivity.
  - intros q j Hj. unfold m_both. rewrite mask8_spec, andb_true_iff by assumption. intros [? ?]. rewrite N.lor_spec, Z1, Z2 by assumption. reflexivity.
  - intros j Hj. unfold m_both. rewrite mask8_spec, andb_true_iff by assumption. intros [? ?]. rewrite N.lor_spec, z1', z2' by assumption. reflexivity.
Qed.
Lemma R_land v1 w1 m1 z1 v2 w2 m2 z2 : Rn v1 w1 m1 z1 -> Rn v2 w2 m2 z2 ->
  Rn (N.land v1 v2) (N.land w1 w2) (m_and m1 z1 m2 z2) (z_or z1 z2).
Proof.
  intros [L1 l1 B1 Z1 z1'] [L2 l2 B2 Z2 z2']. split; try (apply land_lt; assumption).
  - intros j Hj. unfold m_and. rewrite mask8_spec by assumption. rewrite !orb_true_iff, andb_true_iff, !N.land_spec.
    intros [[[? ?]|?]|?].
    + rewrite B1, B2 by assumption. reflexivity.
    + rewrite Z1, z1' by assumption. reflexivity.
    + rewrite Z2, z2', !andb_false_r by assumption. reflexivity.
  - intros q j Hj. unfold z_or. rewrite mask8_spec, orb_true_iff, N.land_spec by assumption. intros [?|?]; [rewrite Z1|rewrite Z2, andb_false_r]; auto.
  - intros j Hj. unfold z_or. rewrite mask8_spec, orb_true_iff, N.land_spec by assumption. intros [?|?]; [rewrite z1'|rewrite z2', andb_false_r]; auto.
Qed.
Lemma R_shr v w m z k : k < 8 -> Rn v w m z -> Rn (shr v k) (shr w k) (m_shr k m z) (z_shr k z).
Proof.
  intros Hk [L l B Z z']. split; try (apply shr_lt; assumption).
  - intros j Hj. unfold m_shr. rewrite mask8_spec, !shr_testbit by assumption. destruct (N.ltb_spec (j + k) 8).
    + intros. rewrite <- N.add_assoc. apply B; assumption.
    + intros. replace (8 * N.of_nat i + j + k) with (8 * N.succ (N.of_nat i) + (j + k - 8)) by lia.
      rewrite Z by (assumption || lia). symmetry. apply byte_testbit_high; [exact l|assumption].
  - intros q j Hj. unfold z_shr. rewrite mask8_spec, shr_testbit by assumption. intros H.
    destruct (N.lt_ge_cases (j + k) 8).
    + rewrite N.mod_small in H by assumption. rewrite <- N.add_assoc. apply Z; assumption.
    + replace (8 * q + j + k) with (8 * N.succ q + (j + k - 8)) by lia. apply Z; [lia|].
      replace (j + k) with (j + k - 8 + 1 * 8) in H by lia. rewrite N.mod_add, N.mod_small in H by lia. assumption.
  - intros j Hj. unfold z_shr. rewrite mask8_spec, shr_testbit by assumption. intros H.
    destruct (N.lt_ge_cases (j + k) 8).
    + rewrite N.mod_small in H by assumption. apply z'; assumption.
    + apply byte_testbit_high; [exact l|assumption].
Qed.
Lemma R_shl v w m z k : k < 8 -> Rn v w m z ->
  Rn (shl (8 * N.of_nat n) v k) (shl (8 * N.of_nat 1) w k) (m_shl k m z) (z_shl k z).
Proof.
  intros Hk [L l B Z z']. split; try apply shl_lt.
  - intros j Hj. unfold m_shl. rewrite mask8_spec, !shl_testbit by assumption.
    destruct (N.ltb_spec (8 * N.of_nat i + j) (8 * N.of_nat n)); [|lia]. destruct (N.ltb_spec j (8 * N.of_nat 1)); [|lia].
    destruct (N.leb_spec k (8 * N.of_nat i + j)), (N.leb_spec k j); cbn [andb]; intros H'; try lia.
    + rewrite <- N.add_sub_assoc by assumption. apply B; [lia|assumption].
    + destruct i as [|i']; [lia|]. replace (8 * N.of_nat (S i') + j - k) with (8 * N.of_nat i' + (8 + j - k)) by lia.
      rewrite Z by (assumption || lia). reflexivity.
  - intros q j Hj. unfold z_shl. rewrite mask8_spec, shl_testbit by assumption. intros H.
    destruct (N.leb_spec k (8 * q + j)); [|now rewrite andb_false_r].
    destruct (N.lt_ge_cases j k).
    + rewrite N.mod_small in H by lia. replace (8 * q + j - k) with (8 * N.pred q + (8 + j - k)) by lia.
      rewrite Z by (assumption || lia). apply andb_false_r.
    + replace (8 + j - k) with (j - k + 1 * 8) in H by lia. rewrite N.mod_add, N.mod_small in H by lia.
      rewrite <- N.add_sub_assoc by assumption. rewrite Z by (assumption || lia). apply andb_false_r.
  - intros j Hj. unfold z_shl. rewrite mask8_spec, shl_testbit by assumption. intros H.
    destruct (N.leb_spec k j); [|now rewrite andb_false_r].
    replace (8 + j - k) with (j - k + 1 * 8) in H by lia. rewrite N.mod_add, N.mod_small in H by lia.
    rewrite z' by (assumption || lia). apply andb_false_r.
Qed.
Lemma nth_repeat' (c : N) k q : (q < k)%nat -> nth q (repeat c k) 0 = c.
Proof. revert q. induction k; intros [|q] H; cbn; try lia; auto. apply IHk. lia. Qed.
Lemma R_rep c : c < 256 -> Rn (rep n c) (rep 1 c) 255 (N.lxor 255 c).
Proof.
  intros Hc. unfold rep.
  assert (O : forall k, bytes_ok (repeat c k)) by (intros; now apply bytes_ok_repeat).
  assert (E : of_le (repeat c 1) = c) by (cbn [repeat of_le]; lia).
  rewrite E. split.
  - pose proof (of_le_lt _ (O n)) as H. now rewrite repeat_length in H.
  - exact Hc.
  - intros j Hj _. rewrite of_le_testbit, nth_repeat' by auto. reflexivity.
  - intros q j Hj H. rewrite N.lxor_spec in H. 
    assert (N.testbit c j = false) as Hcj.
    { destruct (N.testbit c j); [|reflexivity]. rewrite xorb_true_r in H.
      change 255 with (N.ones 8) in H. rewrite N.ones_spec_low in H by assumption. discriminate. }
    rewrite <- (N2Nat.id q), of_le_testbit by auto.
    destruct (Nat.lt_ge_cases (N.to_nat q) n).
    + now rewrite nth_repeat'.
    + rewrite nth_overflow by (now rewrite repeat_length). apply N.bits_0.
  - intros j Hj H. rewrite N.lxor_spec in H. destruct (N.testbit c j); [|reflexivity]. rewrite xorb_true_r in H.
    change 255 with (N.ones 8) in H. rewrite N.ones_spec_low in H by assumption. discriminate.
Qed.
Lemma R_let E F m0 z0 m z k k' m' z' : Rn E F m0 z0 -> m0 = m -> z0 = z ->
  (forall x y, Rn x y m z -> Rn (k x) (k' y) m' z') -> Rn (let_in E k) (let_in F k') m' z'.
Proof. intros H -> -> H'. apply H', H. Qed.
Lemma R_norm v w m0 z0 m z : Rn v w m0 z0 -> m0 = m -> z0 = z -> Rn v w m z.
Proof. now intros H -> ->. Qed.
End R.

Ltac vmr := vm_compute; reflexivity.
Ltac R_side := first [ assumption | reflexivity ].
Ltac R_go := first
  [ eassumption
  | simple eapply R_let; [ R_go | vmr | vmr | let x := fresh "x" in let y := fresh "y" in let H := fresh "H" in intros x y H; cbv beta; R_go ]
  | simple eapply R_rep; R_side
  | simple eapply R_lxor; [ .. | R_go | R_go ]; R_side
  | simple eapply R_land; [ .. | R_go | R_go ]; R_side
  | simple eapply R_lor; [ .. | R_go | R_go ]; R_side
  | simple eapply R_shr; [ .. | R_go ]; R_side
  | simple eapply R_shl; [ .. | R_go ]; R_side ].

(** ** The S-box circuits *)
Definition good_lane (F : nat -> N -> N) : Prop :=
  forall n i v w, (i < n)%nat -> R n i v w 255 0 -> R n i (F n v) (F 1%nat w) 255 0.
Ltac lane := intros n i v w Hi H; eapply R_norm; [R_go | vmr | vmr].

Lemma basis_in_lane : good_lane bs_basis_in.
Proof. unfold bs_basis_in, ror1. lane. Qed.
Lemma basis_out_lane : good_lane bs_basis_out.
Proof. unfold bs_basis_out, ror1. lane. Qed.
Lemma inv_basis_in_lane : good_lane bs_inv_basis_in.
Proof. unfold bs_inv_basis_in, ror1. lane. Qed.
Lemma inv_basis_out_lane : good_lane bs_inv_basis_out.
Proof. unfold bs_inv_basis_out, ror1. lane. Qed.
Lemma invert_lane : good_lane bs_invert.
Proof. unfold bs_invert, step_a, step_b, swap2. lane. Qed.
Lemma subbytes_lane : good_lane subbytes.
Proof. intros n i v w Hi H. unfold subbytes. apply basis_out_lane, invert_lane, basis_in_lane; assumption. Qed.
Lemma invsubbytes_lane : good_lane invsubbytes.
Proof. intros n i v w Hi H. unfold invsubbytes. apply inv_basis_out_lane, invert_lane, inv_basis_in_lane; assumption. Qed.

(** From lanes to byte lists. *)
Lemma lane_map F : good_lane F -> forall l, l <> [] -> bytes_ok l ->
  F (length l) (of_le l) = of_le (map (F 1%nat) l) /\ bytes_ok (map (F 1%nat) l).
Proof.
  intros HF l Hne Hl.
  assert (HR : forall i, (i < length l)%nat -> R (length l) i (of_le l) (nth i l 0) 255 0).
  { intros i Hi. split.
    - now apply of_le_lt.
    - now apply bytes_ok_nth.
    - intros j Hj _. now apply of_le_testbit.
    - intros q j _ H. rewrite N.bits_0 in H. discriminate.
    - intros j _ H. rewrite N.bits_0 in H. discriminate. }
  assert (O : bytes_ok (map (F 1%nat) l)).
  { apply Forall_forall. intros x Hx. apply in_map_iff in Hx. destruct Hx as (y & <- & Hy).
    apply (In_nth _ _ 0) in Hy. destruct Hy as (i & Hi & <-). apply (R_lt8 _ _ _ _ _ _ (HF _ i _ _ Hi (HR i Hi))). }
  split; [|exact O].
  destruct l as [|b l'].
  - now destruct Hne.
  - apply of_le_ext; [exact O| |].
    + rewrite map_length. assert (H0 : (0 < length (b :: l'))%nat) by (cbn [length]; lia).
      apply (R_lt _ _ _ _ _ _ (HF _ 0%nat _ _ H0 (HR 0%nat H0))).
    + intros i j Hi Hj. rewrite map_length in Hi.
      rewrite (R_bits _ _ _ _ _ _ (HF _ i _ _ Hi (HR i Hi)) j Hj) by (change 255 with (N.ones 8); now apply N.ones_spec_low).
      assert (Hi' : (i < length (map (F 1%nat) (b :: l')))%nat) by (rewrite map_length; exact Hi).
      rewrite (nth_indep _ 0 (F 1%nat 0) Hi'), map_nth. reflexivity.
Qed.

Lemma subbytes_1 b : b < 256 -> subbytes 1 b = sbox b.
Proof. apply sweep_eq. vm_compute. reflexivity. Qed.
Lemma invsubbytes_1 b : b < 256 -> invsubbytes 1 b = inv_sbox b.
Proof. apply sweep_eq. vm_compute. reflexivity. Qed.
Lemma map_ext_bytes (f g : N -> N) l : (forall b, b < 256 -> f b = g b) -> bytes_ok l -> map f l = map g l.
Proof. intros H. induction 1; cbn; f_equal; auto. Qed.
Lemma subbytes_le l : l <> [] -> bytes_ok l -> subbytes (length l) (of_le l) = of_le (sub_bytes l).
Proof.
  intros Hn Hl. rewrite (proj1 (lane_map _ subbytes_lane l Hn Hl)). f_equal. apply map_ext_bytes; [apply subbytes_1|assumption].
Qed.
Lemma invsubbytes_le l : l <> [] -> bytes_ok l -> invsubbytes (length l) (of_le l) = of_le (inv_sub_bytes l).
Proof.
  intros Hn Hl. rewrite (proj1 (lane_map _ invsubbytes_lane l Hn Hl)). f_equal. apply map_ext_bytes; [apply invsubbytes_1|assumption].
Qed.
