(** Byte-granular shifts of little-endian words. *)
From Coq Require Import Lia Arith.
From Verif Require Import Word Proof_Word.
Open Scope N_scope.

Lemma of_le_app_zeros l k : of_le (l ++ repeat 0 k) = of_le l.
Proof.
  rewrite of_le_app. assert (E : of_le (repeat 0 k) = 0) by (induction k; cbn [repeat of_le]; lia).
  rewrite E. lia.
Qed.
(** Logical shift right by [k] bytes, keeping the length. *)
Lemma shr_le l k : bytes_ok l -> shr (of_le l) (8 * N.of_nat k) = of_le (skipn k l ++ repeat 0 k).
Proof. intros H. rewrite of_le_app_zeros. apply of_le_skipn, H. Qed.
(** Shift left by [k] bytes in a word of [length l] bytes. *)
Lemma shl_le l k w : bytes_ok l -> w = 8 * N.of_nat (length l) ->
  shl w (of_le l) (8 * N.of_nat k) = of_le (firstn (length l) (repeat 0 k ++ l)).
Proof.
  intros H ->. unfold shl. rewrite <- of_le_firstn by (apply bytes_ok_app; [apply bytes_ok_repeat; lia|assumption]).
  f_equal. rewrite of_le_app, repeat_length.
  assert (E : of_le (repeat 0 k) = 0) by (induction k; cbn [repeat of_le]; lia).
  rewrite E, N.shiftl_mul_pow2. lia.
Qed.
Lemma rotr_le l k : bytes_ok l -> (k <= length l)%nat ->
  rotr (8 * N.of_nat (length l)) (of_le l) (8 * N.of_nat k) = of_le (skipn k l ++ firstn k l).
Proof.
  intros H Hk. unfold rotr.
  replace (8 * N.of_nat (length l) - 8 * N.of_nat k) with (8 * N.of_nat (length l - k)) by lia.
  rewrite shr_le, (shl_le _ _ _ H eq_refl) by assumption.
  rewrite firstn_app, repeat_length. replace (length l - (length l - k))%nat with k by lia.
  rewrite firstn_all2 by (rewrite repeat_length; lia).
  assert (Ls : length (skipn k l) = (length l - k)%nat) by apply skipn_length.
  assert (Lf : length (firstn k l) = k) by (rewrite firstn_length; lia).
  assert (O1 : bytes_ok (skipn k l)) by now apply bytes_ok_skipn.
  assert (O2 : bytes_ok (firstn k l)) by now apply bytes_ok_firstn.
  rewrite <- of_le_lor.
  - f_equal. rewrite (map2_app N.lor (skipn k l)) by (rewrite repeat_length; exact Ls). f_equal.
    + rewrite <- Ls. clear. induction (skipn k l) as [|x q IH]; [reflexivity|]. cbn [length repeat map2]. rewrite N.lor_0_r. f_equal. exact IH.
    + rewrite <- Lf at 1. clear. induction (firstn k l) as [|x q IH]; [reflexivity|]. cbn [length repeat map2]. rewrite N.lor_0_l. f_equal. exact IH.
  - apply bytes_ok_app; [assumption|apply bytes_ok_repeat; lia].
  - apply bytes_ok_app; [apply bytes_ok_repeat; lia|assumption].
  - rewrite !app_length, !repeat_length. lia.
Qed.
