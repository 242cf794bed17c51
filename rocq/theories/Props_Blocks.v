(** C15 - C22: conversions, operators and equality of the three block types, every configuration. *)
From Coq Require Import Lia Arith.
From Verif Require Import Word Interface Fips197 Spec_Api Spec_Reach Spec_Cfg Spec_User Model_Lib Model_Cfg.
From Verif Require Import Proof_Word Proof_Fips Proof_Ok Proof_Sem Proof_Lib Proof_Reach Proof_Inst Proof_Cipher Proof_Main.
From Verif Require Import Samples.
Open Scope N_scope.

(** [for_all_widths i P]: P holds of AesBlock (16 bytes), AesBlockX2 (32) and AesBlockX4 (64), each with
    its reachable values. *)
Definition for_all_widths (i : impl) (P : forall T, ops T -> nat -> (T -> Prop) -> Prop) : Prop :=
  P _ (i_ops1 i) 16%nat (reach1 i) /\ P _ (i_ops2 i) 32%nat (reach2 i) /\ P _ (i_ops4 i) 64%nat (reach4 i).
Lemma by_width c i (P : forall T, ops T -> nat -> (T -> Prop) -> Prop) : impl_of c = Some i ->
  (forall T (o : ops T) n (f : list N -> T) (reach : T -> Prop), data_ok o n f -> (forall x, reach x <-> img n f x) -> P T o n reach) -> for_all_widths i P.
Proof.
  intros E H. destruct (widths c i E) as ((f1 & D1 & R1) & (f2 & D2 & R2) & (f4 & D4 & R4)).
  split; [eapply H; eassumption|split; eapply H; eassumption].
Qed.
Ltac unimg HR := repeat match goal with H : ?r ?x |- _ => apply HR in H; let b := fresh "b" in let B := fresh "B" in destruct H as (b & B & ->) end.

(** ** C15 *)
Definition lossless (T : Type) (o : ops T) (n : nat) (reach : T -> Prop) : Prop :=
  o_size o = n /\
  (forall b, is_bytes n b -> exists x, reach x /\ o_from o b = Ret x /\ o_new o b = Ret x /\ from_ref o b = Ret x /\ shows o x b) /\
  (forall x, reach x -> exists b, is_bytes n b /\ shows o x b /\ o_from o b = Ret x) /\
  (forall x b b', reach x -> shows o x b -> shows o x b' -> b = b') /\
  (forall x y b, reach x -> reach y -> shows o x b -> shows o y b -> x = y).
Theorem C15_byte_conversions_lossless : forall c i, impl_of c = Some i -> for_all_widths i lossless.
Proof.
  intros c i E. apply (by_width c i _ E). intros T o n f reach D HR. unfold lossless. split; [|split; [|split; [|split]]].
  - first [exact (dk_size _ _ _ D)|exact (dk_zero _ _ _ D)].
  - intros b B. exists (f b). split; [apply HR; now exists b|]. split; [now apply D|]. split; [now apply D|]. split; [now apply D|].
    now apply (to_bytes_ok o n).
  - intros x Hx. unimg HR. exists b. split; [assumption|]. split; [now apply (to_bytes_ok o n)|now apply D].
  - intros x b b' Hx H1 H2. unfold shows in *. congruence.
  - intros x y b Hx Hy H1 H2. unimg HR. unshow D. congruence.
Qed.
Print Assumptions C15_byte_conversions_lossless.
Example C15_byte_conversions_lossless_case : forall c k, In c samples -> with_values c k (fun i u =>
  o_from (i_ops4 i) (fips_block ++ other_block ++ other_block ++ fips_block) = Ret (u_x4 u) /\ shows (i_ops4 i) (u_x4 u) (fips_block ++ other_block ++ other_block ++ fips_block)).
Proof. intros c k H. apply case_any; [exact H|]. intros i u E. split; [apply u_x4_from|auto with cases]. Qed.

(** ** C16 *)
Definition stores_exactly (T : Type) (o : ops T) (n : nat) (reach : T -> Prop) : Prop :=
  forall x b dst, reach x -> shows o x b ->
  o_store o x dst = if Nat.ltb (length dst) n then (Panic, dst) else (Ret tt, b ++ skipn n dst).
Theorem C16_store_to_exact : forall c i, impl_of c = Some i -> for_all_widths i stores_exactly.
Proof.
  intros c i E. apply (by_width c i _ E). intros T o n f reach D HR x b dst Hx H. unimg HR. unshow D.
  rewrite (dk_store _ _ _ D) by assumption. rewrite Nat.ltb_antisym. now destruct (Nat.leb n (length dst)).
Qed.
Print Assumptions C16_store_to_exact.
Example C16_store_to_exact_case : forall c k, In c samples -> with_values c k (fun i u =>
  o_store (i_ops1 i) (u_x u) (repeat 7 18) = (Ret tt, fips_block ++ [7; 7]) /\ o_store (i_ops1 i) (u_x u) (repeat 7 15) = (Panic, repeat 7 15)).
Proof. intros c k H. apply case_any; [exact H|]. intros i u E. destruct (C16_store_to_exact c i E) as (A & _). split; [apply (A _ fips_block (repeat 7 18)%N)|apply (A _ fips_block (repeat 7 15))]; auto with cases. Qed.

(** ** C17 *)
Definition try_from_exact (T : Type) (o : ops T) (n : nat) (reach : T -> Prop) : Prop :=
  forall dbg slice, Forall (fun b => b < 256) slice ->
  if Nat.ltb (length slice) n then try_from o dbg slice = Ret (Err (length slice))
  else exists x, reach x /\ try_from o dbg slice = Ret (Ok x) /\ shows o x (firstn n slice).
Theorem C17_try_from_total_and_exact : forall c i, impl_of c = Some i -> for_all_widths i try_from_exact.
Proof.
  intros c i E. apply (by_width c i _ E). intros T o n f reach D HR dbg sl F. unfold try_from, try_from_slice. rewrite (dk_size _ _ _ D).
  rewrite Nat.ltb_antisym. destruct (Nat.leb_spec n (length sl)) as [L|L]; cbn [negb]; [|reflexivity].
  assert (B : is_bytes n (firstn n sl)) by (split; [rewrite firstn_length; lia|now apply Forall_firstn']).
  exists (f (firstn n sl)). split; [apply HR; eexists; split; [exact B|reflexivity]|]. split; [|now apply (to_bytes_ok o n)].
  unfold array_from_slice, raw_read. cbn [Nat.add skipn]. rewrite (proj2 (Nat.leb_le _ _) L). cbn [negb andb]. rewrite andb_false_r. cbn [bind].
  now rewrite (dk_from _ _ _ D) by assumption.
Qed.
Print Assumptions C17_try_from_total_and_exact.
Example C17_try_from_total_and_exact_case : forall c k, In c samples -> with_values c k (fun i u =>
  try_from (i_ops1 i) true (repeat 7 15) = Ret (Err 15%nat) /\ exists x, try_from (i_ops1 i) false (fips_block ++ [1; 2]) = Ret (Ok x) /\ shows (i_ops1 i) x fips_block).
Proof. intros c k H. apply case_any; [exact H|]. intros i u E. destruct (C17_try_from_total_and_exact c i E) as (A & _). split; [refine (A true (repeat 7 15) _); repeat constructor|]. pose proof (A false (fips_block ++ [1; 2])%list) as B. destruct B as (x & _ & B1 & B2); [vm_compute; repeat constructor|]. exists x. split; [exact B1|exact B2]. Qed.

(** ** C18: [2^128] values, big-endian digits *)
Lemma nth_to_le n : forall x j, (j < n)%nat -> nth j (to_le n x) 0 = (x / 256 ^ N.of_nat j) mod 256.
Proof.
  induction n as [|n IH]; intros x j H; [lia|]. cbn [to_le]. destruct j as [|j]; cbn [nth].
  - change (256 ^ N.of_nat 0) with 1. now rewrite N.div_1_r.
  - rewrite IH by lia. rewrite N.div_div by (try apply N.pow_nonzero; lia). f_equal. f_equal.
    rewrite Nat2N.inj_succ, N.pow_succ_r'. reflexivity.
Qed.
Theorem C18_u128_conversions : forall c i, impl_of c = Some i ->
  let o := i_ops1 i in
  (forall v, v < 2 ^ 128 -> exists x, reach1 i x /\ of_u128 o v = Ret x /\ to_u128 o x = Ret v /\
     exists b, shows o x b /\ is_bytes 16 b /\
       (forall j, (j < 16)%nat -> nth j b 0 = (v / 256 ^ N.of_nat (15 - j)) mod 256)) /\
  (forall x, reach1 i x -> exists v, v < 2 ^ 128 /\ to_u128 o x = Ret v /\ of_u128 o v = Ret x).
Proof.
  intros c i E o. destruct (widths c i E) as ((f1 & D1 & R1) & _). fold o in D1. split.
  - intros v Hv. assert (B : is_bytes 16 (to_be 16 v)).
    { unfold to_be. split; [rewrite rev_length; apply to_le_length|]. apply Forall_rev, to_le_ok. }
    exists (f1 (to_be 16 v)). unfold of_u128, to_u128. split; [apply R1; eexists; split; [exact B|reflexivity]|].
    rewrite (dk_from _ _ _ D1) by assumption. split; [reflexivity|].
    rewrite (to_bytes_ok o 16 f1) by assumption. cbn [bind]. split.
    + f_equal. unfold of_be, to_be. rewrite rev_involutive. apply of_le_to_le. exact Hv.
    + exists (to_be 16 v). split; [now apply (to_bytes_ok o 16)|]. split; [assumption|].
      intros j Hj. unfold to_be. rewrite rev_nth by (rewrite to_le_length; assumption). rewrite to_le_length.
      replace (16 - S j)%nat with (15 - j)%nat by lia. apply nth_to_le. lia.
  - intros x Hx. apply R1 in Hx as (b & B & ->). exists (of_be b). unfold to_u128, of_u128. rewrite (to_bytes_ok o 16 f1) by assumption. cbn [bind].
    split; [|split; [reflexivity|]].
    + unfold of_be. pose proof (of_le_lt (rev b) (Forall_rev (proj2 B))) as H. rewrite rev_length, (proj1 B) in H. exact H.
    + pose proof (to_be_of_be b (proj2 B)) as H. rewrite (proj1 B) in H. rewrite H. now apply D1.
Qed.
Print Assumptions C18_u128_conversions.
Example C18_u128_conversions_case : forall c k, In c samples -> with_values c k (fun i u =>
  exists v, to_u128 (i_ops1 i) (u_x u) = Ret v /\ of_u128 (i_ops1 i) v = Ret (u_x u)).
Proof. intros c k H. apply case_any; [exact H|]. intros i u E. destruct (C18_u128_conversions c i E) as (_ & A). destruct (A (u_x u)) as (v & _ & B); eauto with cases. Qed.

(** ** C19 *)
Definition eq_is_bytes (T : Type) (o : ops T) (n : nat) (reach : T -> Prop) : Prop :=
  (forall x y a b, reach x -> reach y -> shows o x a -> shows o y b -> (o_eq o x y = true <-> a = b)) /\
  (forall x, reach x -> o_eq o x x = true) /\
  (forall x y, reach x -> reach y -> o_eq o x y = o_eq o y x) /\
  (forall x y z, reach x -> reach y -> reach z -> o_eq o x y = true -> o_eq o y z = true -> o_eq o x z = true).
Theorem C19_equality_is_byte_equality : forall c i, impl_of c = Some i -> for_all_widths i eq_is_bytes.
Proof.
  intros c i E. apply (by_width c i _ E). intros T o n f reach D HR. split; [|split; [|split]].
  - intros x y a b Hx Hy Sx Sy. unimg HR. unshow D. now apply D.
  - intros x Hx. unimg HR. now apply D.
  - intros x y Hx Hy. unimg HR. apply eq_true_iff_eq. rewrite !(dk_eq _ _ _ D) by assumption. split; congruence.
  - intros x y z Hx Hy Hz. unimg HR. rewrite !(dk_eq _ _ _ D) by assumption. congruence.
Qed.
Print Assumptions C19_equality_is_byte_equality.
Example C19_equality_is_byte_equality_case : forall c k, In c samples -> with_values c k (fun i u =>
  o_eq (i_ops1 i) (u_x u) (u_x u) = true /\ o_eq (i_ops1 i) (u_x u) (u_y u) = false).
Proof. intros c k H. apply case_any; [exact H|]. intros i u E. destruct (C19_equality_is_byte_equality c i E) as ((A & B & _) & _). split; [apply B; auto with cases|]. apply not_true_is_false. intros X. apply (A _ _ fips_block other_block) in X; auto with cases. exact (blocks_differ X). Qed.

(** ** C20 *)
Definition bytewise (T : Type) (o : ops T) (n : nat) (reach : T -> Prop) : Prop :=
  forall x y a b, reach x -> reach y -> shows o x a -> shows o y b ->
  shows o (o_and o x y) (map2 N.land a b) /\ shows o (o_or o x y) (map2 N.lor a b) /\
  shows o (o_xor o x y) (map2 N.lxor a b) /\ shows o (o_not o x) (map (fun v => 255 - v) a) /\
  shows o (and_assign o x y) (map2 N.land a b) /\ shows o (or_assign o x y) (map2 N.lor a b) /\
  shows o (xor_assign o x y) (map2 N.lxor a b).
Lemma bnot_sub v : v < 256 -> bnot 8 v = 255 - v.
Proof.
  intros H. assert (Q : forall n, (n < 256)%nat -> bnot 8 (N.of_nat n) = 255 - N.of_nat n).
  { intros m Hm. assert (X : forallb (fun n => bnot 8 (N.of_nat n) =? 255 - N.of_nat n) (seq 0 256) = true) by reflexivity.
    rewrite forallb_forall in X. apply N.eqb_eq, X, in_seq. lia. }
  rewrite <- (N2Nat.id v). apply Q. lia.
Qed.
Theorem C20_bit_operators_bytewise : forall c i, impl_of c = Some i -> for_all_widths i bytewise.
Proof.
  intros c i E. apply (by_width c i _ E). intros T o n f reach D HR x y a b Hx Hy Sx Sy. unimg HR. unshow D.
  rename b0 into a, B into Ha, b1 into b, B0 into Hb. unfold and_assign, or_assign, xor_assign.
  rewrite (dk_and _ _ _ D), (dk_or _ _ _ D), (dk_xor _ _ _ D), (dk_not _ _ _ D) by assumption.
  assert (N1 : map (fun v => 255 - v) b = map (bnot 8) b).
  { apply map_ext_in. intros v Hv. symmetry. apply bnot_sub. destruct Hb as [_ F]. rewrite Forall_forall in F. auto. }
  rewrite N1. pose proof (is_bytes_and n b a Hb Ha). pose proof (is_bytes_or n b a Hb Ha). pose proof (xor_bytes n b a Hb Ha). pose proof (is_bytes_not n b Hb).
  repeat split; now apply (to_bytes_ok o n).
Qed.
Print Assumptions C20_bit_operators_bytewise.
Example C20_bit_operators_bytewise_case : forall c k, In c samples -> with_values c k (fun i u =>
  shows (i_ops1 i) (o_not (i_ops1 i) (u_x u)) (map (fun v => 255 - v) fips_block) /\ shows (i_ops2 i) (o_and (i_ops2 i) (u_x2 u) (u_x2 u)) (map2 N.land (fips_block ++ other_block) (fips_block ++ other_block))).
Proof. intros c k H. apply case_any; [exact H|]. intros i u E. destruct (C20_bit_operators_bytewise c i E) as (A & B & _). split; [destruct (A (u_x u) (u_y u) fips_block other_block) as (_ & _ & _ & D & _); auto with cases|]. destruct (B (u_x2 u) (u_x2 u) (fips_block ++ other_block)%list (fips_block ++ other_block)%list) as (D & _); auto with cases. Qed.

(** ** C21 *)
Definition zero_laws (T : Type) (o : ops T) (n : nat) (reach : T -> Prop) : Prop :=
  reach (o_zero o) /\ shows o (o_zero o) (repeat 0 n) /\ default o = o_zero o /\
  (forall x b, reach x -> shows o x b -> (o_is_zero o x = true <-> forall j, nth j b 0 = 0)) /\
  (forall x y, reach x -> reach y -> (o_is_zero o (o_xor o x y) = true <-> o_eq o x y = true)) /\
  (forall x, reach x -> o_xor o x (o_zero o) = x).
Lemma zeros_nth n (b : list N) : length b = n -> (b = repeat 0 n <-> forall j, nth j b 0 = 0).
Proof.
  intros <-. split.
  - intros -> j. revert j. induction (length b); intros [|j]; cbn; auto.
  - induction b as [|x b IH]; intros H; [reflexivity|]. cbn [length repeat]. rewrite <- IH; [f_equal; apply (H 0%nat)|]. intros j. apply (H (S j)).
Qed.
Theorem C21_zero : forall c i, impl_of c = Some i -> for_all_widths i zero_laws.
Proof.
  intros c i E. apply (by_width c i _ E). intros T o n f reach D HR. pose proof (zeros_bytes n) as Z. unfold zero_laws. rewrite (dk_zero _ _ _ D).
  split; [|split; [|split; [|split; [|split]]]].
  - apply HR. now exists (repeat 0 n).
  - now apply (to_bytes_ok o n).
  - first [exact (dk_size _ _ _ D)|exact (dk_zero _ _ _ D)].
  - intros x b Hx Sx. unimg HR. unshow D. rewrite (dk_is_zero _ _ _ D) by assumption. apply zeros_nth, B.
  - intros x y Hx Hy. unimg HR. rewrite (dk_xor _ _ _ D), (dk_is_zero _ _ _ D), (dk_eq _ _ _ D) by (try assumption; now apply xor_bytes).
    apply xor_zeros_iff; [apply B0|apply B].
  - intros x Hx. unimg HR. rewrite (dk_xor _ _ _ D) by assumption. now rewrite xor_zero_r by apply B.
Qed.
Print Assumptions C21_zero.
Example C21_zero_case : forall c k, In c samples -> with_values c k (fun i u =>
  o_is_zero (i_ops1 i) (o_xor (i_ops1 i) (u_x u) (u_x u)) = true /\ o_is_zero (i_ops1 i) (u_y u) = false).
Proof. intros c k H. apply case_any; [exact H|]. intros i u E. destruct (C21_zero c i E) as ((_ & _ & _ & A & B & _) & _). split; [apply B; auto with cases; destruct (C19_equality_is_byte_equality c i E) as ((_ & R & _) & _); apply R; auto with cases|]. apply not_true_is_false. intros X. apply (A _ other_block) with (j := 0%nat) in X; auto with cases. vm_compute in X. discriminate. Qed.

(** ** C22 *)
Theorem C22_wide_narrow_conversions : forall c i, impl_of c = Some i ->
  let o1 := i_ops1 i in let o2 := i_ops2 i in let o4 := i_ops4 i in
  (* pairs *)
  (forall a b p q, reach1 i a -> reach1 i b -> shows o1 a p -> shows o1 b q ->
     shows o2 (x2_of_pair i (a, b)) (p ++ q) /\ x2_to_pair i (x2_of_pair i (a, b)) = (a, b) /\
     shows o2 (x2_of_block i a) (p ++ p) /\ x2_to_pair i (x2_of_block i a) = (a, a)) /\
  (forall x, reach2 i x -> x2_of_pair i (x2_to_pair i x) = x) /\
  (* quads *)
  (forall a b c d p q r s, reach1 i a -> reach1 i b -> reach1 i c -> reach1 i d ->
     shows o1 a p -> shows o1 b q -> shows o1 c r -> shows o1 d s ->
     shows o4 (x4_of_quad i (a, b, c, d)) (p ++ q ++ r ++ s) /\ x4_to_quad i (x4_of_quad i (a, b, c, d)) = (a, b, c, d) /\
     shows o4 (x4_of_block i a) (p ++ p ++ p ++ p) /\ x4_to_quad i (x4_of_block i a) = (a, a, a, a)) /\
  (forall x, reach4 i x -> x4_of_quad i (x4_to_quad i x) = x) /\
  (* X4 and pairs of X2 *)
  (forall x y p q, reach2 i x -> reach2 i y -> shows o2 x p -> shows o2 y q ->
     shows o4 (x4_of_pair i (x, y)) (p ++ q) /\ x4_to_pair i (x4_of_pair i (x, y)) = (x, y) /\
     shows o4 (x4_of_x2 i x) (p ++ p) /\ x4_to_pair i (x4_of_x2 i x) = (x, x)) /\
  (forall x, reach4 i x -> x4_of_pair i (x4_to_pair i x) = x).
Proof.
  intros c i E o1 o2 o4. destruct (inst_any c i E) as (s & f1 & f2 & f4 & _ & _ & S1 & R).
  pose proof (R_d1 _ _ _ _ _ R) as D1. pose proof (R_d2 _ _ _ _ _ R) as D2. pose proof (R_d4 _ _ _ _ _ R) as D4. fold o1 in D1. fold o2 in D2. fold o4 in D4.
  assert (A2 : forall p q, is_bytes 16 p -> is_bytes 16 q -> is_bytes 32 (p ++ q)) by (intros p q; apply (is_bytes_app 16 16)).
  assert (A4 : forall p q, is_bytes 32 p -> is_bytes 32 q -> is_bytes 64 (p ++ q)) by (intros p q; apply (is_bytes_app 32 32)).
  assert (A1 : forall p q r s, is_bytes 16 p -> is_bytes 16 q -> is_bytes 16 r -> is_bytes 16 s -> is_bytes 64 (p ++ q ++ r ++ s)).
  { intros p q r t Hp Hq Hr Ht. rewrite app_assoc. auto. }
  refine (conj _ (conj _ (conj _ (conj _ (conj _ _))))).
  - intros a b p q Ha Hb Sa Sb. unreach R S1. unshow D1.
    rewrite (R_x2_of_pair _ _ _ _ _ R), (R_x2_of_block _ _ _ _ _ R), !(R_x2_to_pair _ _ _ _ _ R) by assumption.
    repeat split; apply (to_bytes_ok o2 32 f2); auto.
  - intros x Hx. unreach R S1. destruct (split2 _ B) as (u & v & Hu & Hv & ->). now rewrite (R_x2_to_pair _ _ _ _ _ R), (R_x2_of_pair _ _ _ _ _ R) by assumption.
  - intros a b c0 d p q r t Ha Hb Hc Hd Sa Sb Sc Sd. unreach R S1. unshow D1.
    rewrite (R_x4_of_quad _ _ _ _ _ R), (R_x4_of_block _ _ _ _ _ R), !(R_x4_to_quad _ _ _ _ _ R) by assumption.
    repeat split; apply (to_bytes_ok o4 64 f4); auto.
  - intros x Hx. unreach R S1. destruct (split4 _ B) as (u & v & w & z & Hu & Hv & Hw & Hz & ->). now rewrite (R_x4_to_quad _ _ _ _ _ R), (R_x4_of_quad _ _ _ _ _ R) by assumption.
  - intros x y p q Hx Hy Sx Sy. unreach R S1. unshow D2.
    rewrite (R_x4_of_pair _ _ _ _ _ R), (R_x4_of_x2 _ _ _ _ _ R), !(R_x4_to_pair _ _ _ _ _ R) by assumption.
    repeat split; apply (to_bytes_ok o4 64 f4); auto.
  - intros x Hx. unreach R S1. destruct (split22 _ B) as (u & v & Hu & Hv & ->). now rewrite (R_x4_to_pair _ _ _ _ _ R), (R_x4_of_pair _ _ _ _ _ R) by assumption.
Qed.
Print Assumptions C22_wide_narrow_conversions.
Example C22_wide_narrow_conversions_case : forall c k, In c samples -> with_values c k (fun i u =>
  shows (i_ops2 i) (x2_of_pair i (u_x u, u_y u)) (fips_block ++ other_block) /\ x2_to_pair i (x2_of_pair i (u_x u, u_y u)) = (u_x u, u_y u) /\ x4_of_pair i (x4_to_pair i (u_x4 u)) = u_x4 u).
Proof. intros c k H. apply case_any; [exact H|]. intros i u E. destruct (C22_wide_narrow_conversions c i E) as (A & _ & _ & _ & _ & B). destruct (A (u_x u) (u_y u) fips_block other_block) as (A1 & A2 & _); auto with cases.  Qed.
