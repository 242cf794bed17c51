(** Algebraic facts about the FIPS-197 specification: everything is a function on bytes,
    the inverse transformations are inverse, MixColumns is linear. *)
From Coq Require Import Lia Arith Btauto.
From Verif Require Import Word Fips197 Proof_Word.
Open Scope N_scope.

(** ** Bytes *)
Lemma sbox_lt b : b < 256 -> sbox b < 256.
Proof. apply sweep_lt. vm_compute. reflexivity. Qed.
Lemma inv_sbox_lt b : b < 256 -> inv_sbox b < 256.
Proof. apply sweep_lt. vm_compute. reflexivity. Qed.
Lemma inv_sbox_sbox b : b < 256 -> inv_sbox (sbox b) = b.
Proof. apply (sweep_eq (fun b => inv_sbox (sbox b)) (fun b => b)). vm_compute. reflexivity. Qed.
Lemma sbox_inv_sbox b : b < 256 -> sbox (inv_sbox b) = b.
Proof. apply (sweep_eq (fun b => sbox (inv_sbox b)) (fun b => b)). vm_compute. reflexivity. Qed.

(** ** Linearity of multiplication by a constant *)
Lemma xtimes_lxor x y : xtimes (N.lxor x y) = N.lxor (xtimes x) (xtimes y).
Proof.
  unfold xtimes. rewrite N.lxor_spec, N.shiftl_lxor.
  assert (D : forall a b, N.land (N.lxor a b) 255 = N.lxor (N.land a 255) (N.land b 255)).
  { intros. apply N.bits_inj. intro n. rewrite N.land_spec, !N.lxor_spec, !N.land_spec. btauto. }
  rewrite D. destruct (N.testbit x 7), (N.testbit y 7); cbn [xorb]; apply N.bits_inj; intro n;
    rewrite !N.lxor_spec; btauto.
Qed.
Lemma xtimes_lt b : xtimes b < 256.
Proof.
  assert (N.land (N.shiftl b 1) 255 < 256) by (apply (land_lt _ 255 8); reflexivity).
  unfold xtimes. destruct (N.testbit b 7); [apply (lxor_lt _ _ 8); [assumption|reflexivity]|assumption].
Qed.
Lemma gmul_bits_lxor n a x y : gmul_bits n a (N.lxor x y) = N.lxor (gmul_bits n a x) (gmul_bits n a y).
Proof.
  revert a x y. induction n as [|n IH]; intros; [reflexivity|].
  cbn [gmul_bits]. rewrite xtimes_lxor, IH. destruct (N.odd a);
    apply N.bits_inj; intro k; rewrite ?N.lxor_spec, ?N.bits_0; btauto.
Qed.
Lemma gmul_lxor c x y : gmul c (N.lxor x y) = N.lxor (gmul c x) (gmul c y).
Proof. apply gmul_bits_lxor. Qed.
Lemma gmul_lt c b : b < 256 -> gmul c b < 256.
Proof.
  unfold gmul. generalize 8%nat as n. intros n. revert c b.
  induction n as [|n IH]; intros c b Hb; [cbn; lia|].
  cbn [gmul_bits]. apply (lxor_lt _ _ 8).
  - destruct (N.odd c); [exact Hb|cbn; lia].
  - apply IH. apply xtimes_lt.
Qed.
Lemma gmul_1 b : gmul 1 b = b.
Proof. unfold gmul. cbn [gmul_bits N.odd N.div2]. now rewrite ?N.lxor_0_r. Qed.

Lemma lxor4_transpose a0 a1 a2 a3 b0 b1 b2 b3 c0 c1 c2 c3 d0 d1 d2 d3 :
  N.lxor (N.lxor (N.lxor (N.lxor a0 a1) (N.lxor a2 a3)) (N.lxor (N.lxor b0 b1) (N.lxor b2 b3)))
         (N.lxor (N.lxor (N.lxor c0 c1) (N.lxor c2 c3)) (N.lxor (N.lxor d0 d1) (N.lxor d2 d3)))
  = N.lxor (N.lxor (N.lxor (N.lxor a0 b0) (N.lxor c0 d0)) (N.lxor (N.lxor a1 b1) (N.lxor c1 d1)))
           (N.lxor (N.lxor (N.lxor a2 b2) (N.lxor c2 d2)) (N.lxor (N.lxor a3 b3) (N.lxor c3 d3))).
Proof. apply N.bits_inj. intro n. rewrite !N.lxor_spec. btauto. Qed.

(** ** Explicit forms on 16 bytes *)
Definition col_mix (m0 m1 m2 m3 a b c d : N) : N :=
  N.lxor (N.lxor (gmul m0 a) (gmul m1 b)) (N.lxor (gmul m2 c) (gmul m3 d)).

Lemma mix_with_16 m0 m1 m2 m3 b0 b1 b2 b3 b4 b5 b6 b7 b8 b9 b10 b11 b12 b13 b14 b15 :
  let M := col_mix m0 m1 m2 m3 in
  mix_with m0 m1 m2 m3 [b0;b1;b2;b3;b4;b5;b6;b7;b8;b9;b10;b11;b12;b13;b14;b15] =
  [M b0 b1 b2 b3; M b1 b2 b3 b0; M b2 b3 b0 b1; M b3 b0 b1 b2;
   M b4 b5 b6 b7; M b5 b6 b7 b4; M b6 b7 b4 b5; M b7 b4 b5 b6;
   M b8 b9 b10 b11; M b9 b10 b11 b8; M b10 b11 b8 b9; M b11 b8 b9 b10;
   M b12 b13 b14 b15; M b13 b14 b15 b12; M b14 b15 b12 b13; M b15 b12 b13 b14].
Proof. reflexivity. Qed.

Lemma shift_rows_16 b0 b1 b2 b3 b4 b5 b6 b7 b8 b9 b10 b11 b12 b13 b14 b15 :
  shift_rows [b0;b1;b2;b3;b4;b5;b6;b7;b8;b9;b10;b11;b12;b13;b14;b15] =
  [b0;b5;b10;b15;b4;b9;b14;b3;b8;b13;b2;b7;b12;b1;b6;b11].
Proof. reflexivity. Qed.
Lemma inv_shift_rows_16 b0 b1 b2 b3 b4 b5 b6 b7 b8 b9 b10 b11 b12 b13 b14 b15 :
  inv_shift_rows [b0;b1;b2;b3;b4;b5;b6;b7;b8;b9;b10;b11;b12;b13;b14;b15] =
  [b0;b13;b10;b7;b4;b1;b14;b11;b8;b5;b2;b15;b12;b9;b6;b3].
Proof. reflexivity. Qed.

Lemma col_mix_lt m0 m1 m2 m3 a b c d : a < 256 -> b < 256 -> c < 256 -> d < 256 -> col_mix m0 m1 m2 m3 a b c d < 256.
Proof. intros. unfold col_mix. apply lxor_byte; apply lxor_byte; apply gmul_lt; assumption. Qed.

(** The product of two circulant matrices, entry by entry, on bytes. *)
Definition circ (m0 m1 m2 m3 : N) (n0 n1 n2 n3 : N) (x : N) : N :=
  N.lxor (N.lxor (gmul m0 (gmul n0 x)) (gmul m1 (gmul n1 x))) (N.lxor (gmul m2 (gmul n2 x)) (gmul m3 (gmul n3 x))).

Lemma col_mix_col_mix m0 m1 m2 m3 n0 n1 n2 n3 a b c d :
  col_mix m0 m1 m2 m3 (col_mix n0 n1 n2 n3 a b c d) (col_mix n0 n1 n2 n3 b c d a)
          (col_mix n0 n1 n2 n3 c d a b) (col_mix n0 n1 n2 n3 d a b c)
  = N.lxor (N.lxor (circ m0 m1 m2 m3 n0 n3 n2 n1 a) (circ m0 m1 m2 m3 n1 n0 n3 n2 b))
           (N.lxor (circ m0 m1 m2 m3 n2 n1 n0 n3 c) (circ m0 m1 m2 m3 n3 n2 n1 n0 d)).
Proof.
  unfold col_mix, circ. rewrite !gmul_lxor.
  apply N.bits_inj. intro n. rewrite !N.lxor_spec. btauto.
Qed.

Definition circ_id (m0 m1 m2 m3 n0 n1 n2 n3 : N) : bool :=
  forallb (fun x => (circ m0 m1 m2 m3 n0 n3 n2 n1 x =? x) && (circ m0 m1 m2 m3 n1 n0 n3 n2 x =? 0) &&
                    (circ m0 m1 m2 m3 n2 n1 n0 n3 x =? 0) && (circ m0 m1 m2 m3 n3 n2 n1 n0 x =? 0)) all_bytes.

Lemma col_mix_inverse m0 m1 m2 m3 n0 n1 n2 n3 a b c d : circ_id m0 m1 m2 m3 n0 n1 n2 n3 = true ->
  a < 256 -> b < 256 -> c < 256 -> d < 256 ->
  col_mix m0 m1 m2 m3 (col_mix n0 n1 n2 n3 a b c d) (col_mix n0 n1 n2 n3 b c d a)
          (col_mix n0 n1 n2 n3 c d a b) (col_mix n0 n1 n2 n3 d a b c) = a.
Proof.
  intros H Ha Hb Hc Hd. rewrite col_mix_col_mix.
  pose proof (sweep _ H a Ha) as A. pose proof (sweep _ H b Hb) as B.
  pose proof (sweep _ H c Hc) as C. pose proof (sweep _ H d Hd) as D. cbv beta in *.
  rewrite !andb_true_iff, !N.eqb_eq in *.
  destruct A as [[[-> _] _] _], B as [[[_ ->] _] _], C as [[_ ->] _], D as [_ ->].
  now rewrite !N.lxor_0_r.
Qed.

Lemma mix_with_inverse m0 m1 m2 m3 n0 n1 n2 n3 s : circ_id m0 m1 m2 m3 n0 n1 n2 n3 = true ->
  is_bytes 16 s -> mix_with m0 m1 m2 m3 (mix_with n0 n1 n2 n3 s) = s.
Proof.
  intros H Hs. bytes_tac Hs. rewrite mix_with_16. cbv zeta. rewrite mix_with_16. cbv zeta.
  rewrite !col_mix_inverse by assumption. reflexivity.
Qed.

Lemma inv_mix_mix s : is_bytes 16 s -> inv_mix_columns (mix_columns s) = s.
Proof. apply mix_with_inverse. vm_compute. reflexivity. Qed.
Lemma mix_inv_mix s : is_bytes 16 s -> mix_columns (inv_mix_columns s) = s.
Proof. apply mix_with_inverse. vm_compute. reflexivity. Qed.

(** ** Every transformation maps blocks to blocks *)
Lemma mk_state_length f : length (mk_state f) = 16%nat.
Proof. reflexivity. Qed.
Lemma mix_with_bytes m0 m1 m2 m3 s : is_bytes 16 s -> is_bytes 16 (mix_with m0 m1 m2 m3 s).
Proof.
  intros Hs. bytes_tac Hs. rewrite mix_with_16. cbv zeta. split; [reflexivity|].
  repeat constructor; apply col_mix_lt; assumption.
Qed.
Lemma mix_columns_bytes s : is_bytes 16 s -> is_bytes 16 (mix_columns s).
Proof. apply mix_with_bytes. Qed.
Lemma inv_mix_columns_bytes s : is_bytes 16 s -> is_bytes 16 (inv_mix_columns s).
Proof. apply mix_with_bytes. Qed.
Lemma shift_rows_bytes s : is_bytes 16 s -> is_bytes 16 (shift_rows s).
Proof. intros Hs. bytes_tac Hs. rewrite shift_rows_16. split; [reflexivity|]. repeat constructor; assumption. Qed.
Lemma inv_shift_rows_bytes s : is_bytes 16 s -> is_bytes 16 (inv_shift_rows s).
Proof. intros Hs. bytes_tac Hs. rewrite inv_shift_rows_16. split; [reflexivity|]. repeat constructor; assumption. Qed.
Lemma sub_bytes_bytes n s : is_bytes n s -> is_bytes n (sub_bytes s).
Proof. intros [L F]. split; [unfold sub_bytes; now rewrite map_length|]. apply map_ok; [apply sbox_lt|exact F]. Qed.
Lemma inv_sub_bytes_bytes n s : is_bytes n s -> is_bytes n (inv_sub_bytes s).
Proof. intros [L F]. split; [unfold inv_sub_bytes; now rewrite map_length|]. apply map_ok; [apply inv_sbox_lt|exact F]. Qed.
Lemma xor_bytes n s k : is_bytes n s -> is_bytes n k -> is_bytes n (map2 N.lxor s k).
Proof.
  intros [L F] [L' F']. split; [rewrite map2_length; lia|]. apply map2_lxor_ok; assumption.
Qed.
Lemma add_round_key_bytes n s k : is_bytes n s -> is_bytes n k -> is_bytes n (add_round_key s k).
Proof. apply xor_bytes. Qed.
Lemma zeros_bytes n : is_bytes n (repeat 0 n).
Proof. split; [apply repeat_length|apply bytes_ok_repeat; lia]. Qed.

(** ** Inverses *)
Lemma map_id_bytes f l : (forall b, b < 256 -> f b = b) -> bytes_ok l -> map f l = l.
Proof. intros H. induction 1; cbn; f_equal; auto. Qed.
Lemma inv_sub_sub s : bytes_ok s -> inv_sub_bytes (sub_bytes s) = s.
Proof. intros H. unfold inv_sub_bytes, sub_bytes. rewrite map_map. apply map_id_bytes; [apply inv_sbox_sbox|exact H]. Qed.
Lemma sub_inv_sub s : bytes_ok s -> sub_bytes (inv_sub_bytes s) = s.
Proof. intros H. unfold inv_sub_bytes, sub_bytes. rewrite map_map. apply map_id_bytes; [apply sbox_inv_sbox|exact H]. Qed.
Lemma inv_shift_shift s : length s = 16%nat -> inv_shift_rows (shift_rows s) = s.
Proof. intros H. explode H. reflexivity. Qed.
Lemma shift_inv_shift s : length s = 16%nat -> shift_rows (inv_shift_rows s) = s.
Proof. intros H. explode H. reflexivity. Qed.
Lemma shift_sub s : length s = 16%nat -> shift_rows (sub_bytes s) = sub_bytes (shift_rows s).
Proof. intros H. explode H. reflexivity. Qed.
Lemma inv_shift_sub s : length s = 16%nat -> inv_shift_rows (inv_sub_bytes s) = inv_sub_bytes (inv_shift_rows s).
Proof. intros H. explode H. reflexivity. Qed.

Lemma xor_xor n s k : length s = n -> length k = n -> map2 N.lxor (map2 N.lxor s k) k = s.
Proof.
  intros <-. revert k. induction s as [|a s IH]; intros [|b k] H; cbn in *; try lia; [reflexivity|].
  rewrite N.lxor_assoc, N.lxor_nilpotent, N.lxor_0_r. f_equal. apply IH. lia.
Qed.
Lemma ark_ark s k : length s = 16%nat -> length k = 16%nat -> add_round_key (add_round_key s k) k = s.
Proof. apply xor_xor. Qed.
Lemma xor_zero_r n s : length s = n -> map2 N.lxor s (repeat 0 n) = s.
Proof.
  intros <-. induction s as [|a s IH]; [reflexivity|]. cbn. rewrite N.lxor_0_r. f_equal. exact IH.
Qed.
Lemma map2_comm {A B} (f : A -> A -> B) l m : (forall x y, f x y = f y x) -> map2 f l m = map2 f m l.
Proof. intros H. revert m. induction l; intros [|b m]; cbn; try reflexivity. f_equal; auto. Qed.
Lemma xor_comm s k : map2 N.lxor s k = map2 N.lxor k s.
Proof. apply map2_comm, N.lxor_comm. Qed.
Lemma xor_assoc l m k : map2 N.lxor (map2 N.lxor l m) k = map2 N.lxor l (map2 N.lxor m k).
Proof. revert m k. induction l as [|a l IH]; intros [|b m] [|c k]; cbn; try reflexivity. rewrite N.lxor_assoc. f_equal. apply IH. Qed.

(** InvMixColumns distributes over AddRoundKey: the equivalent inverse cipher (FIPS 197, 5.3.5). *)
Lemma mix_with_xor m0 m1 m2 m3 s k : length s = 16%nat -> length k = 16%nat ->
  mix_with m0 m1 m2 m3 (map2 N.lxor s k) = map2 N.lxor (mix_with m0 m1 m2 m3 s) (mix_with m0 m1 m2 m3 k).
Proof.
  intros Hs Hk. explode Hs. explode Hk. cbn [map2].
  rewrite !mix_with_16. cbv zeta. cbn [map2].
  assert (D : forall a b c d a' b' c' d', col_mix m0 m1 m2 m3 (N.lxor a a') (N.lxor b b') (N.lxor c c') (N.lxor d d')
     = N.lxor (col_mix m0 m1 m2 m3 a b c d) (col_mix m0 m1 m2 m3 a' b' c' d')).
  { intros. unfold col_mix. rewrite !gmul_lxor. apply N.bits_inj. intro n. rewrite !N.lxor_spec. btauto. }
  rewrite !D. reflexivity.
Qed.

(** Conversion hints only: keep the unifier from evaluating field arithmetic. *)
Global Opaque gmul sbox inv_sbox.
Lemma list4_eq (a b c d a' b' c' d' : N) : a = a' -> b = b' -> c = c' -> d = d' -> [a;b;c;d] = [a';b';c';d'].
Proof. now intros -> -> -> ->. Qed.
