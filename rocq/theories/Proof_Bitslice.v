(** The bitslice backend refines FIPS-197 (rounds, MixColumns, data operations), both endiannesses. *)
From Coq Require Import Lia Arith Btauto.
From Verif Require Import Word Interface Fips197 Spec_Api Model_Columns Model_Bitslice
  Proof_Word Proof_Shift Proof_Fips Proof_Ok Proof_Lanes.
Open Scope N_scope.

(** ** xtime *)
Lemma of_le_scale c l : of_le (map (N.mul c) l) = c * of_le l.
Proof. induction l as [|b l IH]; cbn [map of_le]; [lia|]. rewrite IH. lia. Qed.
Lemma rep_land c l n : c < 256 -> bytes_ok l -> length l = n -> N.land (of_le l) (rep n c) = of_le (map (fun b => N.land b c) l).
Proof.
  intros Hc Hl <-. unfold rep. rewrite <- of_le_land; [|assumption|now apply bytes_ok_repeat|now rewrite repeat_length].
  f_equal. clear. induction l; [reflexivity|]. cbn [length repeat map2 map]. now rewrite IHl.
Qed.
Lemma map2_map {A B C D} (f : B -> C -> D) (g : A -> B) (h : A -> C) l : map2 f (map g l) (map h l) = map (fun x => f (g x) (h x)) l.
Proof. induction l; cbn; congruence. Qed.

Lemma xtime_le l : bytes_ok l -> length l = 16%nat -> xtime (of_le l) = of_le (map xtimes l).
Proof.
  intros Hl Ln. unfold xtime. cbv zeta.
  set (cs := map (fun b => b / 128) l).
  assert (Ec : N.land (of_le l) (rep 16 128) = 128 * of_le cs).
  { rewrite rep_land by (assumption || reflexivity). rewrite <- of_le_scale. unfold cs. rewrite map_map. f_equal.
    apply map_ext_bytes; [|assumption]. apply sweep_eq. vm_compute. reflexivity. }
  assert (Oc : bytes_ok cs).
  { apply map_ok; [|assumption]. apply sweep_lt. vm_compute. reflexivity. }
  assert (Hc : Forall (fun c => c < 2) cs).
  { unfold cs. clear -Hl. induction Hl; constructor; [|assumption]. apply N.div_lt_upper_bound; lia. }
  assert (Lc : length cs = 16%nat) by (unfold cs; now rewrite map_length).
  (* the sign bits moved down *)
  assert (Es : shr (128 * of_le cs) 7 = of_le cs).
  { unfold shr. rewrite N.shiftr_div_pow2. change (2 ^ 7) with 128. rewrite N.mul_comm. apply N.div_mul. lia. }
  assert (E127 : wrapping_sub 128 (128 * of_le cs) (of_le cs) = of_le (map (N.mul 127) cs)).
  { rewrite of_le_scale. unfold wrapping_sub.
    assert (B : bytes_ok (map (N.mul 127) cs)).
    { clear -Hc. induction Hc; constructor; [lia|assumption]. }
    pose proof (of_le_lt _ B) as LT. rewrite map_length, Lc, of_le_scale in LT. change (8 * N.of_nat 16) with 128 in LT.
    replace (128 * of_le cs + 2 ^ 128 - of_le cs) with (127 * of_le cs + 1 * 2 ^ 128) by lia.
    rewrite N.mod_add by (apply N.pow_nonzero; lia). apply N.mod_small. exact LT. }
  rewrite Ec, Es, E127.
  assert (B127 : bytes_ok (map (N.mul 127) cs)).
  { clear -Hc. induction Hc; constructor; [lia|assumption]. }
  rewrite rep_land by (assumption || reflexivity || now rewrite map_length).
  rewrite <- Ec, rep_land by (assumption || reflexivity).
  assert (B80 : bytes_ok (map (fun b => N.land b 128) l)).
  { apply map_ok; [|assumption]. intros. apply land_byte; [assumption|reflexivity]. }
  rewrite <- of_le_lxor by (assumption || now rewrite map_length).
  replace (map2 N.lxor l (map (fun b => N.land b 128) l)) with (map (fun b => N.lxor b (N.land b 128)) l)
    by (rewrite <- (map_id l) at 2; now rewrite map2_map).
  set (lo := map (fun b => N.lxor b (N.land b 128)) l).
  assert (Eshl : shl 128 (of_le lo) 1 = of_le (map (fun b => N.land (N.shiftl b 1) 255) l)).
  { assert (Elo : map (N.mul 2) lo = map (fun b => N.land (N.shiftl b 1) 255) l).
    { unfold lo. rewrite map_map. apply map_ext_bytes; [|assumption]. apply sweep_eq. vm_compute. reflexivity. }
    rewrite <- Elo, of_le_scale. unfold shl. rewrite N.shiftl_mul_pow2. change (2 ^ 1) with 2. rewrite N.mul_comm.
    rewrite <- of_le_scale. apply trunc_small. rewrite Elo.
    assert (B : bytes_ok (map (fun b => N.land (N.shiftl b 1) 255) l)).
    { apply map_ok; [|assumption]. intros. apply (land_lt _ 255 8). reflexivity. }
    pose proof (of_le_lt _ B) as LT. rewrite map_length, Ln in LT. exact LT. }
  rewrite Eshl. unfold cs. rewrite !map_map.
  rewrite <- of_le_lxor.
  - rewrite map2_map. f_equal. apply map_ext_bytes; [|assumption]. apply sweep_eq. vm_compute. reflexivity.
  - apply map_ok; [|assumption]. intros. apply land_byte; [|reflexivity]. 
    assert (x / 128 < 2) by (apply N.div_lt_upper_bound; lia). lia.
  - apply map_ok; [|assumption]. intros. apply (land_lt _ 255 8). reflexivity.
  - now rewrite !map_length.
Qed.

(** ** Byte permutations *)
Lemma land_le l m : bytes_ok l -> bytes_ok m -> length l = length m -> N.land (of_le l) (of_le m) = of_le (map2 N.land l m).
Proof. intros. symmetry. now apply of_le_land. Qed.
Lemma lor_le l m : bytes_ok l -> bytes_ok m -> length l = length m -> N.lor (of_le l) (of_le m) = of_le (map2 N.lor l m).
Proof. intros. symmetry. now apply of_le_lor. Qed.
Lemma lxor_le l m : bytes_ok l -> bytes_ok m -> length l = length m -> N.lxor (of_le l) (of_le m) = of_le (map2 N.lxor l m).
Proof. intros. symmetry. now apply of_le_lxor. Qed.
Lemma land_255' a : a < 256 -> N.land a 255 = a.
Proof. intros. apply (trunc_small 8). assumption. Qed.

Ltac oklist := repeat constructor; first [assumption | reflexivity].
Ltac perm_tac :=
  repeat first
    [ rewrite land_le by (oklist || reflexivity)
    | rewrite (shr_le _ 1) by oklist | rewrite (shr_le _ 2) by oklist | rewrite (shr_le _ 3) by oklist
    | rewrite (shl_le _ 1) by (oklist || reflexivity) | rewrite (shl_le _ 2) by (oklist || reflexivity)
    | rewrite (shl_le _ 3) by (oklist || reflexivity) ].

Section Perms.
  Context (b0 b1 b2 b3 b4 b5 b6 b7 b8 b9 b10 b11 b12 b13 b14 b15 : N)
   (H : bytes_ok [b0;b1;b2;b3;b4;b5;b6;b7;b8;b9;b10;b11;b12;b13;b14;b15]).
  Let s := of_le [b0;b1;b2;b3;b4;b5;b6;b7;b8;b9;b10;b11;b12;b13;b14;b15].
  Ltac fin := cbn [map2 skipn firstn repeat app length]; rewrite ?N.land_0_r, ?land_255' by assumption;
     first [rewrite lor_le by (oklist || reflexivity) | rewrite lxor_le by (oklist || reflexivity)];
     cbn [map2]; rewrite ?N.lor_0_r, ?N.lor_0_l, ?N.lxor_0_r, ?N.lxor_0_l; reflexivity.
  Lemma swap16_16 : swap16 s = of_le [b2;b3;b0;b1;b6;b7;b4;b5;b10;b11;b8;b9;b14;b15;b12;b13].
  Proof.
    unfold bytes_ok in H. inv_forall. unfold swap16, s.
    change 0xffff0000ffff0000ffff0000ffff0000 with (of_le [0;0;255;255;0;0;255;255;0;0;255;255;0;0;255;255]).
    change 0x0000ffff0000ffff0000ffff0000ffff with (of_le [255;255;0;0;255;255;0;0;255;255;0;0;255;255;0;0]).
    rewrite !land_le by (oklist || reflexivity). cbn [map2]. rewrite !N.land_0_r, !land_255' by assumption.
    rewrite (shr_le _ 2), (shl_le _ 2) by (oklist || reflexivity). fin.
  Qed.
  Lemma swap8_16 : swap8 s = of_le [b1;b0;b3;b2;b5;b4;b7;b6;b9;b8;b11;b10;b13;b12;b15;b14].
  Proof.
    unfold bytes_ok in H. inv_forall. unfold swap8, s.
    change 0xff00ff00ff00ff00ff00ff00ff00ff00 with (of_le [0;255;0;255;0;255;0;255;0;255;0;255;0;255;0;255]).
    change 0x00ff00ff00ff00ff00ff00ff00ff00ff with (of_le [255;0;255;0;255;0;255;0;255;0;255;0;255;0;255;0]).
    rewrite !land_le by (oklist || reflexivity). cbn [map2]. rewrite !N.land_0_r, !land_255' by assumption.
    rewrite (shr_le _ 1), (shl_le _ 1) by (oklist || reflexivity). fin.
  Qed.
  Lemma ror8_le_16 : ror8_32 false s = of_le [b1;b2;b3;b0;b5;b6;b7;b4;b9;b10;b11;b8;b13;b14;b15;b12].
  Proof.
    unfold bytes_ok in H. inv_forall. unfold ror8_32, s.
    change 0xffffff00ffffff00ffffff00ffffff00 with (of_le [0;255;255;255;0;255;255;255;0;255;255;255;0;255;255;255]).
    change 0x000000ff000000ff000000ff000000ff with (of_le [255;0;0;0;255;0;0;0;255;0;0;0;255;0;0;0]).
    rewrite !land_le by (oklist || reflexivity). cbn [map2]. rewrite !N.land_0_r, !land_255' by assumption.
    rewrite (shr_le _ 1), (shl_le _ 3) by (oklist || reflexivity). fin.
  Qed.
  Lemma ror8_be_16 : ror8_32 true s = of_le [b3;b0;b1;b2;b7;b4;b5;b6;b11;b8;b9;b10;b15;b12;b13;b14].
  Proof.
    unfold bytes_ok in H. inv_forall. unfold ror8_32, s.
    change 0x00ffffff00ffffff00ffffff00ffffff with (of_le [255;255;255;0;255;255;255;0;255;255;255;0;255;255;255;0]).
    change 0xff000000ff000000ff000000ff000000 with (of_le [0;0;0;255;0;0;0;255;0;0;0;255;0;0;0;255]).
    rewrite !land_le by (oklist || reflexivity). cbn [map2]. rewrite !N.land_0_r, !land_255' by assumption.
    rewrite (shr_le _ 3), (shl_le _ 1) by (oklist || reflexivity). fin.
  Qed.
End Perms.

(** ** MixColumns on explicit bytes *)
Lemma gmul2 b : b < 256 -> gmul 2 b = xtimes b.
Proof. apply sweep_eq. vm_compute. reflexivity. Qed.
Lemma gmul3 b : b < 256 -> gmul 3 b = N.lxor (xtimes b) b.
Proof. apply (sweep_eq (gmul 3) (fun b => N.lxor (xtimes b) b)). vm_compute. reflexivity. Qed.
Definition x2t b := xtimes (xtimes b).
Definition x3t b := xtimes (x2t b).
Lemma gmul9 b : b < 256 -> gmul 9 b = N.lxor (x3t b) b.
Proof. apply (sweep_eq (gmul 9) (fun b => N.lxor (x3t b) b)). vm_compute. reflexivity. Qed.
Lemma gmul11 b : b < 256 -> gmul 11 b = N.lxor (x3t b) (N.lxor (xtimes b) b).
Proof. apply (sweep_eq (gmul 11) (fun b => N.lxor (x3t b) (N.lxor (xtimes b) b))). vm_compute. reflexivity. Qed.
Lemma gmul13 b : b < 256 -> gmul 13 b = N.lxor (x3t b) (N.lxor (x2t b) b).
Proof. apply (sweep_eq (gmul 13) (fun b => N.lxor (x3t b) (N.lxor (x2t b) b))). vm_compute. reflexivity. Qed.
Lemma gmul14 b : b < 256 -> gmul 14 b = N.lxor (x3t b) (N.lxor (x2t b) (xtimes b)).
Proof. apply (sweep_eq (gmul 14) (fun b => N.lxor (x3t b) (N.lxor (x2t b) (xtimes b)))). vm_compute. reflexivity. Qed.
Lemma mix_fwd a b c d : a < 256 -> b < 256 -> c < 256 -> d < 256 ->
  col_mix 2 3 1 1 a b c d = N.lxor (N.lxor (N.lxor (N.lxor (N.lxor a c) (N.lxor b d)) a) (xtimes a)) (xtimes b).
Proof.
  intros. unfold col_mix. rewrite gmul2, gmul3, !gmul_1 by assumption.
  apply N.bits_inj. intro n. rewrite !N.lxor_spec. btauto.
Qed.
Lemma mix_inv a b c d : a < 256 -> b < 256 -> c < 256 -> d < 256 ->
  let t2 a c := N.lxor (x2t a) (x2t c) in
  let t3 a c := xtimes (t2 a c) in
  col_mix 14 11 13 9 a b c d =
  N.lxor (N.lxor (N.lxor (N.lxor (N.lxor (N.lxor (N.lxor (N.lxor a c) (N.lxor b d)) a) (xtimes a)) (xtimes b)) (t2 a c)) (t3 a c)) (t3 b d).
Proof.
  intros. unfold col_mix, t3, t2. rewrite gmul14, gmul11, gmul13, gmul9, !xtimes_lxor by assumption. fold (x3t a) (x3t b) (x3t c) (x3t d).
  apply N.bits_inj. intro n. rewrite !N.lxor_spec. btauto.
Qed.

Lemma cons_eq (a b : N) l m : a = b -> l = m -> a :: l = b :: m.
Proof. now intros -> ->. Qed.
Ltac xor_list := apply (f_equal of_le); repeat (apply cons_eq; [apply N.bits_inj; intro n; rewrite !N.lxor_spec; btauto|]); reflexivity.
Ltac okx := repeat constructor; repeat first [assumption | apply xtimes_lt | apply lxor_byte].
Ltac lx := rewrite lxor_le by (okx || reflexivity); cbn [map2].
Ltac bs_norm := repeat (rewrite ?swap16_16, ?swap8_16, ?ror8_le_16, ?ror8_be_16, ?xtime_le by (okx || reflexivity); cbn [map]; lx).

Lemma mixcolumns_ok be l : is_bytes 16 l -> mixcolumns be (of_ne be l) = of_ne be (mix_columns l).
Proof.
  intros Hl. bytes_tac Hl. unfold mix_columns. rewrite mix_with_16. cbv zeta. rewrite !mix_fwd by assumption.
  destruct be; unfold of_ne, of_be; cbn [rev app]; unfold mixcolumns.
  - rewrite swap16_16 by okx. lx. cbv zeta. rewrite swap8_16 by okx. do 2 lx. rewrite xtime_le by (okx || reflexivity). cbn [map].
    rewrite ror8_be_16 by okx. do 2 lx. xor_list.
  - rewrite swap16_16 by okx. lx. cbv zeta. rewrite swap8_16 by okx. do 2 lx. rewrite xtime_le by (okx || reflexivity). cbn [map].
    rewrite ror8_le_16 by okx. do 2 lx. xor_list.
Qed.

Lemma x2t_lt b : x2t b < 256. Proof. apply xtimes_lt. Qed.
Ltac okx ::= repeat constructor; repeat first [assumption | apply xtimes_lt | apply x2t_lt | apply lxor_byte].
Lemma invmixcolumns_ok be l : is_bytes 16 l -> invmixcolumns be (of_ne be l) = of_ne be (inv_mix_columns l).
Proof.
  intros Hl. bytes_tac Hl. unfold inv_mix_columns. rewrite mix_with_16. cbv zeta. rewrite !mix_inv by assumption.
  destruct be; unfold of_ne, of_be; cbn [rev app]; unfold invmixcolumns.
  - rewrite swap16_16 by okx. lx. rewrite swap8_16 by okx. do 2 lx. rewrite xtime_le by (okx || reflexivity). cbn [map].
    rewrite ror8_be_16 by okx. do 2 lx. rewrite xtime_le by (okx || reflexivity). cbn [map].
    rewrite swap16_16 by okx. lx. cbv zeta. lx. rewrite xtime_le by (okx || reflexivity). cbn [map]. rewrite swap8_16 by okx. do 2 lx.
    unfold x2t. rewrite !xtimes_lxor. xor_list.
  - rewrite swap16_16 by okx. lx. rewrite swap8_16 by okx. do 2 lx. rewrite xtime_le by (okx || reflexivity). cbn [map].
    rewrite ror8_le_16 by okx. do 2 lx. rewrite xtime_le by (okx || reflexivity). cbn [map].
    rewrite swap16_16 by okx. lx. cbv zeta. lx. rewrite xtime_le by (okx || reflexivity). cbn [map]. rewrite swap8_16 by okx. do 2 lx.
    unfold x2t. rewrite !xtimes_lxor. xor_list.
Qed.

(** ** Rounds and data operations *)
Lemma subbytes_ne be l : is_bytes 16 l -> subbytes 16 (of_ne be l) = of_ne be (sub_bytes l).
Proof.
  intros [L F]. assert (l <> []) by (intros ->; discriminate). destruct be; cbn [of_ne].
  - unfold of_be. assert (E : length (rev l) = 16%nat) by now rewrite rev_length.
    rewrite <- E at 1. rewrite subbytes_le; [unfold sub_bytes; now rewrite map_rev| |now apply bytes_ok_rev].
    intros Z. rewrite Z in E. discriminate.
  - rewrite <- L at 1. now apply subbytes_le.
Qed.
Lemma invsubbytes_ne be l : is_bytes 16 l -> invsubbytes 16 (of_ne be l) = of_ne be (inv_sub_bytes l).
Proof.
  intros [L F]. assert (l <> []) by (intros ->; discriminate). destruct be; cbn [of_ne].
  - unfold of_be. assert (E : length (rev l) = 16%nat) by now rewrite rev_length.
    rewrite <- E at 1. rewrite invsubbytes_le; [unfold inv_sub_bytes; now rewrite map_rev| |now apply bytes_ok_rev].
    intros Z. rewrite Z in E. discriminate.
  - rewrite <- L at 1. now apply invsubbytes_le.
Qed.
Lemma to_ne_of_ne' be n l : is_bytes n l -> to_ne be n (of_ne be l) = l.
Proof. intros [<- F]. now apply to_ne_of_ne. Qed.
Lemma shiftrows_ne be l : length l = 16%nat -> shiftrows be l = of_ne be (shift_rows l).
Proof. intros H. explode H. reflexivity. Qed.
Lemma invshiftrows_ne be l : length l = 16%nat -> invshiftrows be l = of_ne be (inv_shift_rows l).
Proof. intros H. explode H. reflexivity. Qed.
Lemma of_ne_xor be n l m : is_bytes n l -> is_bytes n m -> N.lxor (of_ne be l) (of_ne be m) = of_ne be (map2 N.lxor l m).
Proof. intros [L F] [L' F']. symmetry. apply of_ne_lxor; try assumption. congruence. Qed.

Lemma bitslice_data_ok be : data_ok (bitslice_ops be) 16 (of_ne be).
Proof.
  split; cbn [o_size o_new o_from o_store o_and o_or o_xor o_not o_zero o_is_zero o_eq bitslice_ops]; try reflexivity.
  - intros b dst Hb. unfold bs_store_to, w_then, w_assert_len, w_to, w_copy, w_step, rust_assert.
    destruct (Nat.leb_spec 16 (length dst)) as [L|L]; [|reflexivity]. rewrite to_ne_of_ne' by assumption.
    rewrite firstn_length, (is_bytes_len _ _ Hb). rewrite Nat.min_l by assumption. reflexivity.
  - intros a b [L F] [L' F']. symmetry. apply of_ne_land; try assumption. congruence.
  - intros a b [L F] [L' F']. symmetry. apply of_ne_lor; try assumption. congruence.
  - intros a b. apply of_ne_xor.
  - intros a [L F]. rewrite of_ne_bnot, L by assumption. reflexivity.
  - now destruct be.
  - intros a [L F]. rewrite N.eqb_eq. replace 0 with (of_ne be (repeat 0 16)) at 1 by now destruct be.
    split; [|now intros ->]. intros E. apply (of_ne_inj be); try assumption. now apply bytes_ok_repeat.
  - intros a b [L F] [L' F']. rewrite N.eqb_eq. split; [|now intros ->]. apply of_ne_inj; try assumption. congruence.
Qed.
Lemma bitslice_enc_ok be : enc_ok (bitslice_ops be) 1 (of_ne be).
Proof.
  apply enc_ok_1; cbn [o_enc o_enc_last bitslice_ops]; intros a k Ha Hk; unfold bs_enc, bs_enc_last;
    rewrite to_ne_of_ne', shiftrows_ne, subbytes_ne by (apply Ha || now apply shift_rows_bytes).
  - rewrite mixcolumns_ok by now apply sub_bytes_bytes, shift_rows_bytes.
    apply (of_ne_xor be 16); [|assumption]. now apply mix_columns_bytes, sub_bytes_bytes, shift_rows_bytes.
  - apply (of_ne_xor be 16); [|assumption]. now apply sub_bytes_bytes, shift_rows_bytes.
Qed.
Lemma bitslice_dec_ok be : dec_ok (bitslice_ops be) 1 (of_ne be).
Proof.
  apply dec_ok_1; cbn [o_dec o_dec_last bitslice_ops]; intros a k Ha Hk; unfold bs_dec, bs_dec_last;
    rewrite to_ne_of_ne', invshiftrows_ne, invsubbytes_ne by (apply Ha || now apply inv_shift_rows_bytes).
  - rewrite invmixcolumns_ok by now apply inv_sub_bytes_bytes, inv_shift_rows_bytes.
    apply (of_ne_xor be 16); [|assumption]. now apply inv_mix_columns_bytes, inv_sub_bytes_bytes, inv_shift_rows_bytes.
  - apply (of_ne_xor be 16); [|assumption]. now apply inv_sub_bytes_bytes, inv_shift_rows_bytes.
Qed.
Lemma bitslice_mix_ok be : mix_ok (bitslice_ext be) (of_ne be).
Proof. split; intros a Ha; [now apply mixcolumns_ok|now apply invmixcolumns_ok]. Qed.
