(** The table-based backend refines FIPS-197 (rounds, MixColumns, data operations). *)
From Coq Require Import Lia Arith Btauto.
From Verif Require Import Word Interface Fips197 Spec_Api Tables Model_Table Proof_Word Proof_Fips Proof_Ok.
Open Scope N_scope.

Definition w_be (b : list N) (i : nat) : N := of_be (firstn 4 (skipn (4 * i) b)).
Definition tb_of (b : list N) : w4 := W4 (w_be b 0) (w_be b 1) (w_be b 2) (w_be b 3).

(** ** Tables *)
Definition ent (f : N -> N) (c0 c1 c2 c3 : N) (b : N) : N :=
  of_le [gmul c3 (f b); gmul c2 (f b); gmul c1 (f b); gmul c0 (f b)].
Lemma lut_ent t f c0 c1 c2 c3 :
  forallb (fun b => nth (N.to_nat b) t 0 =? ent f c0 c1 c2 c3 b) all_bytes = true ->
  forall x, lut t x = ent f c0 c1 c2 c3 (as_u8 x).
Proof.
  intros H x. unfold lut. apply (sweep_eq (fun b => nth (N.to_nat b) t 0) _ H).
  apply (trunc_lt 8).
Qed.
Lemma TE0_ent x : te0 x = ent sbox 2 1 1 3 (as_u8 x).
Proof. apply lut_ent. vm_compute. reflexivity. Qed.
Lemma TE1_ent x : te1 x = ent sbox 3 2 1 1 (as_u8 x).
Proof. apply lut_ent. vm_compute. reflexivity. Qed.
Lemma TE2_ent x : te2 x = ent sbox 1 3 2 1 (as_u8 x).
Proof. apply lut_ent. vm_compute. reflexivity. Qed.
Lemma TE3_ent x : te3 x = ent sbox 1 1 3 2 (as_u8 x).
Proof. apply lut_ent. vm_compute. reflexivity. Qed.
Lemma TE4_ent x : lut TE4 x = ent sbox 1 1 1 1 (as_u8 x).
Proof. apply lut_ent. vm_compute. reflexivity. Qed.
Lemma TD0_ent x : td0 x = ent inv_sbox 14 9 13 11 (as_u8 x).
Proof. apply lut_ent. vm_compute. reflexivity. Qed.
Lemma TD1_ent x : td1 x = ent inv_sbox 11 14 9 13 (as_u8 x).
Proof. apply lut_ent. vm_compute. reflexivity. Qed.
Lemma TD2_ent x : td2 x = ent inv_sbox 13 11 14 9 (as_u8 x).
Proof. apply lut_ent. vm_compute. reflexivity. Qed.
Lemma TD3_ent x : td3 x = ent inv_sbox 9 13 11 14 (as_u8 x).
Proof. apply lut_ent. vm_compute. reflexivity. Qed.
Lemma TD4_ent x : lut TD4 x = ent inv_sbox 1 1 1 1 (as_u8 x).
Proof. apply lut_ent. vm_compute. reflexivity. Qed.

Lemma table_lengths : map (@length N) [TE0; TE1; TE2; TE3; TE4; TD0; TD1; TD2; TD3; TD4] = repeat 256%nat 10.
Proof. vm_compute. reflexivity. Qed.

(** Masked look-ups of the last-round tables. *)
Lemma land_mask4 a b c d m0 m1 m2 m3 : a < 256 -> b < 256 -> c < 256 -> d < 256 ->
  m0 < 256 -> m1 < 256 -> m2 < 256 -> m3 < 256 ->
  N.land (of_le [a;b;c;d]) (of_le [m0;m1;m2;m3]) = of_le [N.land a m0; N.land b m1; N.land c m2; N.land d m3].
Proof.
  intros. rewrite <- of_le_land; [reflexivity| | |reflexivity]; repeat constructor; assumption.
Qed.
Lemma land_255 a : a < 256 -> N.land a 255 = a.
Proof. intros. apply (trunc_small 8). assumption. Qed.
Lemma land_0' a : N.land a 0 = 0.
Proof. apply N.land_0_r. Qed.

Section Last.
  Context (t : list N) (g : N -> N) (Hg : forall b, b < 256 -> g b < 256)
          (Ht : forall x, lut t x = ent g 1 1 1 1 (as_u8 x)).
  Lemma as_u8_lt x : as_u8 x < 256. Proof. apply (trunc_lt 8). Qed.
  Lemma ent1 b : ent g 1 1 1 1 b = of_le [g b; g b; g b; g b].
  Proof. unfold ent. now rewrite !gmul_1. Qed.
  Lemma last0 x : N.land (lut t x) 0xff000000 = of_le [0; 0; 0; g (as_u8 x)].
  Proof.
    rewrite Ht, ent1. change 0xff000000 with (of_le [0;0;0;255]).
    rewrite land_mask4 by (try apply Hg, as_u8_lt; reflexivity). rewrite !land_0', land_255 by (apply Hg, as_u8_lt). reflexivity.
  Qed.
  Lemma last1 x : N.land (lut t x) 0xff0000 = of_le [0; 0; g (as_u8 x); 0].
  Proof.
    rewrite Ht, ent1. change 0xff0000 with (of_le [0;0;255;0]).
    rewrite land_mask4 by (try apply Hg, as_u8_lt; reflexivity). rewrite !land_0', land_255 by (apply Hg, as_u8_lt). reflexivity.
  Qed.
  Lemma last2 x : N.land (lut t x) 0xff00 = of_le [0; g (as_u8 x); 0; 0].
  Proof.
    rewrite Ht, ent1. change 0xff00 with (of_le [0;255;0;0]).
    rewrite land_mask4 by (try apply Hg, as_u8_lt; reflexivity). rewrite !land_0', land_255 by (apply Hg, as_u8_lt). reflexivity.
  Qed.
  Lemma last3 x : N.land (lut t x) 0xff = of_le [g (as_u8 x); 0; 0; 0].
  Proof.
    rewrite Ht, ent1. change 0xff with (of_le [255;0;0;0]).
    rewrite land_mask4 by (try apply Hg, as_u8_lt; reflexivity). rewrite !land_0', land_255 by (apply Hg, as_u8_lt). reflexivity.
  Qed.
End Last.

(** ** Words *)
Lemma w4_lxor a b c d a' b' c' d' : a < 256 -> b < 256 -> c < 256 -> d < 256 ->
  a' < 256 -> b' < 256 -> c' < 256 -> d' < 256 ->
  N.lxor (of_le [a;b;c;d]) (of_le [a';b';c';d']) = of_le [N.lxor a a'; N.lxor b b'; N.lxor c c'; N.lxor d d'].
Proof. intros. rewrite <- of_le_lxor; [reflexivity| | |reflexivity]; repeat constructor; assumption. Qed.

Lemma byte3 a b c d : a < 256 -> b < 256 -> c < 256 -> d < 256 -> as_u8 (shr (of_le [a;b;c;d]) 24) = d.
Proof. intros. change 24 with (8 * N.of_nat 3). rewrite as_u8_shr; [reflexivity|repeat constructor; assumption]. Qed.
Lemma byte2 a b c d : a < 256 -> b < 256 -> c < 256 -> d < 256 -> as_u8 (shr (of_le [a;b;c;d]) 16) = c.
Proof. intros. change 16 with (8 * N.of_nat 2). rewrite as_u8_shr; [reflexivity|repeat constructor; assumption]. Qed.
Lemma byte1 a b c d : a < 256 -> b < 256 -> c < 256 -> d < 256 -> as_u8 (shr (of_le [a;b;c;d]) 8) = b.
Proof. intros. change 8 with (8 * N.of_nat 1). rewrite as_u8_shr; [reflexivity|repeat constructor; assumption]. Qed.
Lemma byte0 a b c d : a < 256 -> b < 256 -> c < 256 -> d < 256 -> as_u8 (of_le [a;b;c;d]) = a.
Proof. intros. rewrite as_u8_of_le; [reflexivity|repeat constructor; assumption]. Qed.

Ltac byte_lt := first [ assumption | apply sbox_lt; byte_lt | apply inv_sbox_lt; byte_lt
  | apply gmul_lt; byte_lt | apply lxor_byte; byte_lt | apply col_mix_lt; byte_lt | reflexivity ].

Lemma word_be a b c d : a < 256 -> b < 256 -> c < 256 -> d < 256 ->
  N.lor (N.lor (N.lor (shl 32 a 24) (shl 32 b 16)) (shl 32 c 8)) d = of_le [d;c;b;a].
Proof.
  intros. rewrite !of_le_cons_lor by assumption.
  assert (S : forall x k, x < 256 -> k <= 24 -> shl 32 x k = N.shiftl x k).
  { intros x k Hx Hk. apply trunc_small. rewrite N.shiftl_mul_pow2.
    apply N.lt_le_trans with (2 ^ 8 * 2 ^ k).
    - apply N.mul_lt_mono_pos_r; [apply N.neq_0_lt_0, N.pow_nonzero; lia|assumption].
    - rewrite <- N.pow_add_r. apply N.pow_le_mono_r; lia. }
  rewrite !S by (assumption || lia). cbn [of_le]. rewrite N.shiftl_0_l, N.lor_0_r.
  rewrite !N.shiftl_lor, !N.shiftl_shiftl.
  apply N.bits_inj. intro n. rewrite !N.lor_spec. cbn [N.add Pos.add Pos.succ]. btauto.
Qed.

Lemma xor5_words : forall l1 l2 l3 l4 l5, is_bytes 4 l1 -> is_bytes 4 l2 -> is_bytes 4 l3 -> is_bytes 4 l4 -> is_bytes 4 l5 ->
  xor5 (of_le l1) (of_le l2) (of_le l3) (of_le l4) (of_le l5)
  = of_le (map2 N.lxor (map2 N.lxor (map2 N.lxor (map2 N.lxor l1 l2) l3) l4) l5).
Proof.
  intros. unfold xor5. rewrite <- !of_le_lxor; try reflexivity;
    repeat first [eapply is_bytes_ok; eassumption | apply map2_lxor_ok | rewrite map2_length
                 | erewrite is_bytes_len by eassumption | reflexivity].
Qed.

Ltac ent_bytes := unfold ent; repeat (rewrite w4_lxor by byte_lt).

Lemma enc_col a b c d k0 k1 k2 k3 : a < 256 -> b < 256 -> c < 256 -> d < 256 ->
  k0 < 256 -> k1 < 256 -> k2 < 256 -> k3 < 256 ->
  xor5 (ent sbox 2 1 1 3 a) (ent sbox 3 2 1 1 b) (ent sbox 1 3 2 1 c) (ent sbox 1 1 3 2 d) (of_le [k3;k2;k1;k0])
  = let M := col_mix 2 3 1 1 in let a := sbox a in let b := sbox b in let c := sbox c in let d := sbox d in
    of_le [N.lxor (M d a b c) k3; N.lxor (M c d a b) k2; N.lxor (M b c d a) k1; N.lxor (M a b c d) k0].
Proof.
  intros. unfold xor5. ent_bytes. cbv zeta. unfold col_mix. rewrite !gmul_1.
  apply (f_equal of_le), list4_eq; apply N.bits_inj; intro n; rewrite !N.lxor_spec; btauto.
Qed.
Lemma dec_col a b c d k0 k1 k2 k3 : a < 256 -> b < 256 -> c < 256 -> d < 256 ->
  k0 < 256 -> k1 < 256 -> k2 < 256 -> k3 < 256 ->
  xor5 (ent inv_sbox 14 9 13 11 a) (ent inv_sbox 11 14 9 13 b) (ent inv_sbox 13 11 14 9 c) (ent inv_sbox 9 13 11 14 d) (of_le [k3;k2;k1;k0])
  = let M := col_mix 14 11 13 9 in let a := inv_sbox a in let b := inv_sbox b in let c := inv_sbox c in let d := inv_sbox d in
    of_le [N.lxor (M d a b c) k3; N.lxor (M c d a b) k2; N.lxor (M b c d a) k1; N.lxor (M a b c d) k0].
Proof.
  intros. unfold xor5. ent_bytes. cbv zeta. unfold col_mix.
  apply (f_equal of_le), list4_eq; apply N.bits_inj; intro n; rewrite !N.lxor_spec; btauto.
Qed.
Lemma last_col a b c d k0 k1 k2 k3 : a < 256 -> b < 256 -> c < 256 -> d < 256 ->
  k0 < 256 -> k1 < 256 -> k2 < 256 -> k3 < 256 ->
  xor5 (of_le [0;0;0;a]) (of_le [0;0;b;0]) (of_le [0;c;0;0]) (of_le [d;0;0;0]) (of_le [k3;k2;k1;k0])
  = of_le [N.lxor d k3; N.lxor c k2; N.lxor b k1; N.lxor a k0].
Proof.
  intros. unfold xor5. repeat (rewrite w4_lxor by byte_lt). rewrite ?N.lxor_0_l, ?N.lxor_0_r. reflexivity.
Qed.

Ltac tb_unfold := unfold tb_of, w_be, of_be; cbn [firstn skipn Nat.mul Nat.add rev app w_0 w_1 w_2 w_3].

Lemma tb_enc_ok a k : is_bytes 16 a -> is_bytes 16 k -> tb_enc (tb_of a) (tb_of k) = tb_of (spec_enc a k).
Proof.
  intros Ha Hk. bytes_tac Ha. bytes_tac Hk. unfold spec_enc. rewrite shift_rows_16.
  unfold sub_bytes. cbn [map]. unfold mix_columns. rewrite mix_with_16. cbv zeta. unfold add_round_key. cbn [map2].
  unfold tb_enc. tb_unfold.
  rewrite !TE0_ent, !TE1_ent, !TE2_ent, !TE3_ent, !byte3, !byte2, !byte1, !byte0 by assumption.
  rewrite !enc_col by assumption. reflexivity.
Qed.
Lemma tb_dec_ok a k : is_bytes 16 a -> is_bytes 16 k -> tb_dec (tb_of a) (tb_of k) = tb_of (spec_dec a k).
Proof.
  intros Ha Hk. bytes_tac Ha. bytes_tac Hk. unfold spec_dec. rewrite inv_shift_rows_16.
  unfold inv_sub_bytes. cbn [map]. unfold inv_mix_columns. rewrite mix_with_16. cbv zeta. unfold add_round_key. cbn [map2].
  unfold tb_dec. tb_unfold.
  rewrite !TD0_ent, !TD1_ent, !TD2_ent, !TD3_ent, !byte3, !byte2, !byte1, !byte0 by assumption.
  rewrite !dec_col by assumption. reflexivity.
Qed.
Lemma tb_enc_last_ok a k : is_bytes 16 a -> is_bytes 16 k -> tb_enc_last (tb_of a) (tb_of k) = tb_of (spec_enc_last a k).
Proof.
  intros Ha Hk. bytes_tac Ha. bytes_tac Hk. unfold spec_enc_last. rewrite shift_rows_16.
  unfold sub_bytes. cbn [map]. unfold add_round_key. cbn [map2].
  unfold tb_enc_last, te4_0, te4_1, te4_2, te4_3. tb_unfold.
  rewrite !(last0 TE4 sbox sbox_lt TE4_ent), !(last1 TE4 sbox sbox_lt TE4_ent),
          !(last2 TE4 sbox sbox_lt TE4_ent), !(last3 TE4 sbox sbox_lt TE4_ent), !byte3, !byte2, !byte1, !byte0 by assumption.
  rewrite !last_col by byte_lt. reflexivity.
Qed.
Lemma tb_dec_last_ok a k : is_bytes 16 a -> is_bytes 16 k -> tb_dec_last (tb_of a) (tb_of k) = tb_of (spec_dec_last a k).
Proof.
  intros Ha Hk. bytes_tac Ha. bytes_tac Hk. unfold spec_dec_last. rewrite inv_shift_rows_16.
  unfold inv_sub_bytes. cbn [map]. unfold add_round_key. cbn [map2].
  unfold tb_dec_last, td4_0, td4_1, td4_2, td4_3. tb_unfold.
  rewrite !(last0 TD4 inv_sbox inv_sbox_lt TD4_ent), !(last1 TD4 inv_sbox inv_sbox_lt TD4_ent),
          !(last2 TD4 inv_sbox inv_sbox_lt TD4_ent), !(last3 TD4 inv_sbox inv_sbox_lt TD4_ent), !byte3, !byte2, !byte1, !byte0 by assumption.
  rewrite !last_col by byte_lt. reflexivity.
Qed.

(** mc = te(td4), imc = td(te4), column by column. *)
Lemma of_le_1 a : of_le [a; 0; 0; 0] = a.
Proof. cbn [of_le]. lia. Qed.
Lemma xor4_xor5 a b c d : xor4 a b c d = xor5 a b c d (of_le [0;0;0;0]).
Proof. unfold xor4, xor5. change (of_le [0;0;0;0]) with 0. now rewrite N.lxor_0_r. Qed.
Lemma mc_word_ok a b c d : a < 256 -> b < 256 -> c < 256 -> d < 256 ->
  mc_word (of_le [d;c;b;a]) = let M := col_mix 2 3 1 1 in of_le [M d a b c; M c d a b; M b c d a; M a b c d].
Proof.
  intros. unfold mc_word, td4_3. rewrite !(last3 TD4 inv_sbox inv_sbox_lt TD4_ent), !of_le_1.
  rewrite byte3, byte2, byte1, byte0 by assumption.
  rewrite TE0_ent, TE1_ent, TE2_ent, TE3_ent, !as_u8_small by byte_lt.
  rewrite xor4_xor5, enc_col by byte_lt. cbv zeta. rewrite !sbox_inv_sbox, !N.lxor_0_r by assumption. reflexivity.
Qed.
Lemma imc_word_ok a b c d : a < 256 -> b < 256 -> c < 256 -> d < 256 ->
  imc_word (of_le [d;c;b;a]) = let M := col_mix 14 11 13 9 in of_le [M d a b c; M c d a b; M b c d a; M a b c d].
Proof.
  intros. unfold imc_word, te4_3. rewrite !(last3 TE4 sbox sbox_lt TE4_ent), !of_le_1.
  rewrite byte3, byte2, byte1, byte0 by assumption.
  rewrite TD0_ent, TD1_ent, TD2_ent, TD3_ent, !as_u8_small by byte_lt.
  rewrite xor4_xor5, dec_col by byte_lt. cbv zeta. rewrite !inv_sbox_sbox, !N.lxor_0_r by assumption. reflexivity.
Qed.
Lemma tb_mc_ok a : is_bytes 16 a -> tb_mc (tb_of a) = tb_of (mix_columns a).
Proof.
  intros Ha. bytes_tac Ha. unfold mix_columns. rewrite mix_with_16. cbv zeta. unfold tb_mc. tb_unfold.
  rewrite !mc_word_ok by assumption. reflexivity.
Qed.
Lemma tb_imc_ok a : is_bytes 16 a -> tb_imc (tb_of a) = tb_of (inv_mix_columns a).
Proof.
  intros Ha. bytes_tac Ha. unfold inv_mix_columns. rewrite mix_with_16. cbv zeta. unfold tb_imc. tb_unfold.
  rewrite !imc_word_ok by assumption. reflexivity.
Qed.

(** ** Data operations *)
Lemma load_ok b i : bytes_ok b -> (i + 4 <= length b)%nat ->
  load_u32_be b i = Ret (of_be (firstn 4 (skipn i b))).
Proof.
  intros Hb Hi. unfold load_u32_be, get.
  assert (G : forall j, (j < 4)%nat -> nth_error b (i + j) = Some (nth j (skipn i b) 0)).
  { intros j Hj. rewrite skipn_nth. apply nth_error_nth'. lia. }
  rewrite !G by lia. cbn [bind].
  pose proof (bytes_ok_skipn i b Hb) as Hs. pose proof (skipn_length i b) as Hl.
  destruct (skipn i b) as [|b0 [|b1 [|b2 [|b3 l]]]]; cbn [length] in Hl; try lia.
  cbn [nth firstn]. inv_forall. f_equal. unfold of_be. cbn [rev app]. apply word_be; assumption.
Qed.
Lemma tb_new_ok b : is_bytes 16 b -> tb_new b = Ret (tb_of b).
Proof.
  intros [L F]. unfold tb_new. rewrite !load_ok by (assumption || lia). reflexivity.
Qed.

Lemma store_ok a b c d x0 x1 x2 x3 l : a < 256 -> b < 256 -> c < 256 -> d < 256 ->
  store_u32_be (of_le [d;c;b;a]) (x0 :: x1 :: x2 :: x3 :: l) = (Ret tt, a :: b :: c :: d :: l).
Proof.
  intros. unfold store_u32_be. rewrite byte3, byte2, byte1, byte0 by assumption. reflexivity.
Qed.
Lemma tb_store_ok b dst : is_bytes 16 b ->
  tb_store_to (tb_of b) dst = if Nat.leb 16 (length dst) then (Ret tt, b ++ skipn 16 dst) else (Panic, dst).
Proof.
  intros Hb. unfold tb_store_to, w_then at 1, w_assert_len, rust_assert. destruct (Nat.leb_spec 16 (length dst)) as [L|L]; [|reflexivity].
  do 16 (destruct dst as [|? dst]; [cbn in L; lia|]). clear L.
  bytes_tac Hb. tb_unfold. unfold w_then at 1. rewrite store_ok by assumption. unfold w_then at 1, w_from at 1.
  cbn [length Nat.leb skipn firstn]. rewrite store_ok by assumption. unfold w_then at 1, w_from at 1.
  cbn [length Nat.leb skipn firstn app]. rewrite store_ok by assumption. unfold w_from at 1.
  cbn [length Nat.leb skipn firstn app]. rewrite store_ok by assumption.
  reflexivity.
Qed.

Lemma w_be_map2 (f : N -> N -> N) b c i : length b = 16%nat -> length c = 16%nat -> (i < 4)%nat ->
  firstn 4 (skipn (4 * i) (map2 f b c)) = map2 f (firstn 4 (skipn (4 * i) b)) (firstn 4 (skipn (4 * i) c)).
Proof.
  intros Hb Hc Hi. explode Hb. explode Hc.
  do 4 (destruct i as [|i]; [reflexivity|]). lia.
Qed.
Lemma tb_map2_ok f g b c : is_bytes 16 b -> is_bytes 16 c ->
  (forall l m, bytes_ok l -> bytes_ok m -> length l = length m -> of_be (map2 f l m) = g (of_be l) (of_be m)) ->
  w4_map2 g (tb_of b) (tb_of c) = tb_of (map2 f b c).
Proof.
  intros [Lb Fb] [Lc Fc] H. unfold w4_map2, tb_of, w_be. cbn [w_0 w_1 w_2 w_3].
  rewrite !w_be_map2 by (assumption || lia).
  rewrite !H; try reflexivity; try (apply bytes_ok_firstn, bytes_ok_skipn; assumption);
  rewrite !firstn_length, !skipn_length; lia.
Qed.
Lemma tb_eq_iff a b : is_bytes 16 a -> is_bytes 16 b -> (w4_eq (tb_of a) (tb_of b) = true <-> a = b).
Proof.
  intros [La Fa] [Lb Fb]. unfold w4_eq, tb_of, w_be. cbn [w_0 w_1 w_2 w_3].
  rewrite !andb_true_iff, !N.eqb_eq. split; [|now intros ->].
  intros [[[H0 H1] H2] H3].
  assert (I : forall i, (i < 4)%nat -> of_be (firstn 4 (skipn (4 * i) a)) = of_be (firstn 4 (skipn (4 * i) b)) ->
                firstn 4 (skipn (4 * i) a) = firstn 4 (skipn (4 * i) b)).
  { intros i Hi E. apply (of_ne_inj true); try (apply bytes_ok_firstn, bytes_ok_skipn; assumption); [|exact E].
    rewrite !firstn_length, !skipn_length. lia. }
  apply I in H0; [|lia]. apply I in H1; [|lia]. apply I in H2; [|lia]. apply I in H3; [|lia].
  clear I Fa Fb. explode La. explode Lb. cbn in H0, H1, H2, H3. injection H0. injection H1. injection H2. injection H3. intros. subst. reflexivity.
Qed.
Lemma w4_is_zero_eq x : w4_is_zero x = w4_eq x w4_zero.
Proof.
  destruct x as [a b c d]. unfold w4_is_zero, w4_eq, w4_zero. cbn [w_0 w_1 w_2 w_3].
  apply eq_true_iff_eq. rewrite N.eqb_eq, !andb_true_iff, !N.eqb_eq, !N.lor_eq_0_iff. tauto.
Qed.
Lemma tb_zero : w4_zero = tb_of (repeat 0 16).
Proof. reflexivity. Qed.

Lemma table_data_ok : data_ok table_ops 16 tb_of.
Proof.
  split; cbn [o_size o_new o_from o_store o_and o_or o_xor o_not o_zero o_is_zero o_eq table_ops].
  - reflexivity.
  - apply tb_new_ok.
  - apply tb_new_ok.
  - intros. apply tb_store_ok. assumption.
  - intros. apply tb_map2_ok; try assumption. apply (of_ne_land true).
  - intros. apply tb_map2_ok; try assumption. apply (of_ne_lor true).
  - intros. apply tb_map2_ok; try assumption. apply (of_ne_lxor true).
  - intros a [L F]. unfold w4_not, tb_of, w_be. cbn [w_0 w_1 w_2 w_3].
    rewrite !skipn_map, !firstn_map.
    assert (E : forall i, (i < 4)%nat -> bnot 32 (of_be (firstn 4 (skipn (4 * i) a))) = of_be (map (bnot 8) (firstn 4 (skipn (4 * i) a)))).
    { intros i Hi. rewrite (of_ne_bnot true) by (apply bytes_ok_firstn, bytes_ok_skipn; assumption).
      rewrite firstn_length, skipn_length, L. f_equal. do 4 (destruct i as [|i]; [reflexivity|]). lia. }
    rewrite !E by lia. reflexivity.
  - reflexivity.
  - intros a Ha. rewrite w4_is_zero_eq, tb_zero. apply tb_eq_iff; [assumption|apply zeros_bytes].
  - apply tb_eq_iff.
Qed.
Lemma table_enc_ok : enc_ok table_ops 1 tb_of.
Proof. apply enc_ok_1; [apply tb_enc_ok|apply tb_enc_last_ok]. Qed.
Lemma table_dec_ok : dec_ok table_ops 1 tb_of.
Proof. apply dec_ok_1; [apply tb_dec_ok|apply tb_dec_last_ok]. Qed.
Lemma table_mix_ok dbg : mix_ok (table_ext dbg) tb_of.
Proof. split; [apply tb_mc_ok|apply tb_imc_ok]. Qed.
