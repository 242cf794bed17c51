(** XTS with ciphertext stealing on top of the crate (for C59). *)
From Coq Require Import Lia Arith ZifyN ZifyNat.
From Verif Require Import Word Interface Fips197 Spec_Api Spec_Cfg Spec_User Spec_Modes2 Model_Lib.
From Verif Require Import Proof_Shape Proof_Word Proof_Fips Proof_Ok Proof_Sem Proof_Lib Proof_Inst Proof_Main Samples Props_Batch Props_Modes Proof_Machine Proof_Cmac.
Open Scope N_scope.

(** ** The tweaks *)
Lemma lxor_bit x b : b < 2 -> N.lxor (2 * x) b = 2 * x + b.
Proof. intros B. assert (b = 0 \/ b = 1) as [-> | ->] by lia; [now rewrite N.lxor_0_r, N.add_0_r|]. destruct x as [|p]; reflexivity. Qed.
Lemma high_bit a : a < 256 -> a / 128 < 2.
Proof. intros A. apply N.div_lt_upper_bound; [discriminate|exact A]. Qed.
Lemma split128 a : a = 128 * (a / 128) + a mod 128 /\ a mod 128 < 128.
Proof. split; [apply N.div_mod; discriminate|apply N.mod_lt; discriminate]. Qed.
Lemma alpha_sum (a : list N) : is_bytes 16 a ->
  of_le (map (fun j => N.lxor (2 * (nth j a 0 mod 128)) (match j with O => 0 | S h => nth h a 0 / 128 end)) (seq 0 16)) + 2 ^ 128 * (nth 15 a 0 / 128) = 2 * of_le a.
Proof.
  intros [L F]. do 16 (destruct a as [|? a]; [discriminate L|]). destruct a; [|discriminate L]. clear L.
  repeat match goal with H : Forall _ (_ :: _) |- _ => apply Forall_cons_iff in H as [? H] end. unfold bytes_ok in *.
  repeat match goal with H : bytes_ok (_ :: _) |- _ => apply Forall_cons_iff in H as [? H] end.
  cbn [seq map nth]. rewrite !N.lxor_0_r. repeat rewrite lxor_bit by (now apply high_bit). cbn [of_le].
  repeat match goal with H : ?x < 256 |- _ => destruct (split128 x); clear H; generalize dependent (x / 128); generalize dependent (x mod 128); intros; subst x end.
  lia.
Qed.
Lemma mod_div_of x y c r : r < c -> x = r + c * y -> x mod c = r /\ x / c = y.
Proof.
  intros R ->. assert (c <> 0) by lia. split.
  - rewrite N.mul_comm, N.mod_add by assumption. now apply N.mod_small.
  - rewrite N.mul_comm, N.div_add by assumption. now rewrite N.div_small.
Qed.
Lemma double_alpha a : is_bytes 16 a -> to_le 16 (u128_double (of_le a)) = times_alpha a.
Proof.
  intros B. pose proof (alpha_sum a B) as S. pose proof B as [L F].
  set (m := map _ (seq 0 16)) in S.
  assert (A15 : nth 15 a 0 < 256) by (apply (proj1 (Forall_nth (fun b => b < 256) a) F); lia).
  assert (Fm : bytes_ok m /\ length m = 16%nat).
  { split; [|unfold m; now rewrite map_length, seq_length]. apply Forall_forall. intros x Hx. unfold m in Hx. apply in_map_iff in Hx as (j & <- & Hj). apply in_seq in Hj.
    pose proof (split128 (nth j a 0)) as [_ M]. assert (Q : (match j with O => 0 | S h => nth h a 0 / 128 end) < 2).
    { destruct j as [|h]; [reflexivity|]. apply high_bit. apply (proj1 (Forall_nth (fun b => b < 256) a) F); lia. }
    rewrite lxor_bit by exact Q. lia. }
  destruct Fm as [Fm Lm]. pose proof (of_le_lt m Fm) as Bm. rewrite Lm in Bm. change (8 * N.of_nat 16) with 128 in Bm.
  destruct (mod_div_of (2 * of_le a) (nth 15 a 0 / 128) (2 ^ 128) (of_le m) Bm (eq_sym S)) as [M D].
  unfold u128_double, u128_shl. change (2 ^ 1) with 2. rewrite (N.mul_comm (of_le a) 2), M.
  replace (of_le a / 2 ^ 127) with (nth 15 a 0 / 128).
  2:{ rewrite <- D. change (2 ^ 128) with (2 * 2 ^ 127). apply N.div_mul_cancel_l; discriminate. }
  set (top := nth 15 a 0 / 128) in *. assert (T2 : top < 2) by now apply high_bit.
  assert (E : 0x87 * top = of_le (135 * top :: repeat 0 15)) by (cbn [of_le repeat]; lia).
  rewrite E. rewrite <- of_le_lxor; [|exact Fm|constructor; [lia|now apply bytes_repeat]|exact Lm].
  assert (Ft : bytes_ok (135 * top :: repeat 0 15)) by (constructor; [lia|now apply bytes_repeat]).
  pose proof (map2_lxor_ok _ _ Fm Ft) as Fx. assert (Lx : length (map2 N.lxor m (135 * top :: repeat 0 15)) = 16%nat) by (rewrite map2_length, Lm; reflexivity).
  transitivity (map2 N.lxor m (135 * top :: repeat 0 15)); [rewrite <- Lx at 1; now apply to_le_of_le|].
  unfold m, times_alpha, top. cbn [seq map map2 repeat Nat.sub]. rewrite !N.lxor_0_r. reflexivity.
Qed.
Lemma of_le_128 a : is_bytes 16 a -> of_le a < 2 ^ 128.
Proof. intros [L F]. change (2 ^ 128) with (2 ^ (8 * N.of_nat 16)). rewrite <- L. now apply of_le_lt. Qed.
Lemma to_le_bytes v : is_bytes 16 (to_le 16 v).
Proof. split; [apply to_le_length|apply to_le_ok]. Qed.
Definition tw (t : N) (j : nat) : list N := to_le 16 (Nat.iter j u128_double t).
Lemma double_iter_lt t j : t < 2 ^ 128 -> Nat.iter j u128_double t < 2 ^ 128.
Proof. intros H. induction j as [|j IH]; [exact H|]. change (Nat.iter (S j) u128_double t) with (u128_double (Nat.iter j u128_double t)). now apply u128_double_spec. Qed.
Lemma tw_alpha t j : t < 2 ^ 128 -> tw t j = Nat.iter j times_alpha (to_le 16 t).
Proof.
  intros H. unfold tw. induction j as [|j IH]; [reflexivity|]. change (Nat.iter (S j) times_alpha (to_le 16 t)) with (times_alpha (Nat.iter j times_alpha (to_le 16 t))).
  change (Nat.iter (S j) u128_double t) with (u128_double (Nat.iter j u128_double t)). rewrite <- IH. pose proof (double_iter_lt t j H) as U. set (u := Nat.iter j u128_double t) in *.
  rewrite <- (double_alpha (to_le 16 u)) by apply to_le_bytes. now rewrite (of_le_to_le 16 u) by exact U.
Qed.
Lemma tw_plus t a j : tw (Nat.iter a u128_double t) j = tw t (a + j).
Proof. unfold tw. f_equal. rewrite Nat.add_comm. symmetry. unfold Nat.iter. induction j as [|j IH]; [reflexivity|]. cbn [Nat.add nat_rect]. now rewrite IH. Qed.
Lemma iter_plus t a j : Nat.iter j u128_double (Nat.iter a u128_double t) = Nat.iter (a + j) u128_double t.
Proof. rewrite Nat.add_comm. unfold Nat.iter. induction j as [|j IH]; [reflexivity|]. cbn [Nat.add nat_rect]. now rewrite IH. Qed.

(** ** Whole blocks *)
Lemma firstn_exact {A} n (a b : list A) : length a = n -> firstn n (a ++ b) = a.
Proof. intros <-. rewrite firstn_app, Nat.sub_diag, firstn_all. apply app_nil_r. Qed.
Lemma skipn_exact {A} n (a b : list A) : length a = n -> skipn n (a ++ b) = b.
Proof. intros <-. now rewrite skipn_app, Nat.sub_diag, skipn_all. Qed.
Lemma firstn_plus {A} a b (l : list A) : firstn (a + b) l = firstn a l ++ firstn b (skipn a l).
Proof. revert l. induction a as [|a IH]; intros l; [reflexivity|]. destruct l; [now rewrite !firstn_nil|]. cbn [Nat.add firstn skipn app]. now rewrite IH. Qed.
Lemma whole_ext f t t' m text : (forall j, (j < m)%nat -> t j = t' j) -> whole f t m text = whole f t' m text.
Proof. intros H. unfold whole. rewrite !flat_map_concat_map. f_equal. apply map_ext_in. intros j Hj. apply in_seq in Hj. now rewrite H by lia. Qed.
Lemma whole_ext_text f t m x y : (forall j, (j < m)%nat -> block_at x j = block_at y j) -> whole f t m x = whole f t m y.
Proof. intros H. unfold whole. rewrite !flat_map_concat_map. f_equal. apply map_ext_in. intros j Hj. apply in_seq in Hj. now rewrite H by lia. Qed.
Lemma skipn_skipn' {A} a b (l : list A) : skipn a (skipn b l) = skipn (b + a) l.
Proof. revert l. induction b as [|b IH]; intros l; [reflexivity|]. destruct l; [now rewrite !skipn_nil|]. cbn [Nat.add skipn]. apply IH. Qed.
Lemma whole_plus f t a b text : whole f t (a + b) text = whole f t a text ++ whole f (fun j => t (a + j)%nat) b (skipn (16 * a) text).
Proof.
  unfold whole. rewrite seq_app, flat_map_app. f_equal. rewrite !flat_map_concat_map. f_equal. cbn [Nat.add].
  remember (16 * a)%nat as c eqn:Ec. rewrite <- (Nat.add_0_r a) at 1. generalize 0%nat as s. induction b as [|b IH]; intros s; [reflexivity|]. cbn [seq map]. rewrite <- Nat.add_succ_r, IH. f_equal.
  f_equal. unfold block_at. rewrite skipn_skipn'. f_equal. f_equal. lia.
Qed.
Lemma block_at_firstn n text j : (16 * j + 16 <= n)%nat -> block_at (firstn n text) j = block_at text j.
Proof. intros H. unfold block_at. rewrite skipn_firstn_comm, firstn_firstn. f_equal. lia. Qed.
Lemma block_at_bytes text j : bytes_ok text -> (16 * j + 16 <= length text)%nat -> is_bytes 16 (block_at text j).
Proof. intros F H. unfold block_at. split; [rewrite firstn_length, skipn_length; lia|]. now apply bytes_firstn, bytes_skipn. Qed.
Lemma xts_block_bytes f t p : (forall x, is_bytes 16 x -> is_bytes 16 (f x)) -> is_bytes 16 t -> is_bytes 16 p -> is_bytes 16 (xts_block f t p).
Proof. intros Hf T P. apply xorb_bytes; [|exact T]. apply Hf. now apply xorb_bytes. Qed.
Lemma four_blocks x : length x = 64%nat -> x = block_at x 0 ++ block_at x 1 ++ block_at x 2 ++ block_at x 3.
Proof. intros L. do 64 (destruct x as [|? x]; [discriminate L|]). now destruct x; [|discriminate L]. Qed.

Section Xts.
  Context (i : impl) (f1 : list N -> T1 i) (f4 : list N -> T4 i) (E : embeds i f1 f4).
  Context (run1 : T1 i -> outcome (T1 i)) (run4 : T4 i -> outcome (T4 i)) (f : list N -> list N) (R : runs i f1 f4 run1 run4 f).
  Lemma xts_one_ok dbg t c : is_bytes 16 c -> xts_one i dbg run1 t c = Ret (xts_block f (to_le 16 t) c).
  Proof.
    intros C. pose proof (em1 _ _ _ E) as D. pose proof (to_le_bytes t) as T. destruct R as (R1 & R2 & _). unfold xts_one. rewrite (dk_from _ _ _ D) by exact T. cbn [bind].
    rewrite (try_from_ok _ 16 f1) by assumption. cbn [bind unwrap]. rewrite (dk_xor _ _ _ D) by assumption. assert (X : is_bytes 16 (map2 N.lxor c (to_le 16 t))) by now apply xor_bytes.
    rewrite R2 by exact X. cbn [bind]. rewrite (dk_xor _ _ _ D) by auto. apply (to_bytes_ok _ 16 f1); [exact D|]. apply xor_bytes; auto.
  Qed.
  Lemma xts_four_ok dbg t c : is_bytes 64 c -> xts_four i dbg run4 t c = Ret (whole f (tw t) 4 c).
  Proof.
    intros C. pose proof (em1 _ _ _ E) as D. pose proof (em4 _ _ _ E) as D4. pose proof to_le_bytes as T. destruct R as (R1 & _ & R4). unfold xts_four.
    rewrite !(dk_from _ _ _ D) by apply T. cbn [bind]. rewrite (emq _ _ _ E) by apply T. rewrite (try_from_ok _ 64 f4) by assumption. cbn [bind unwrap].
    rewrite (four_blocks c (proj1 C)). pose proof (block_at_bytes c) as B. assert (Lc : length c = 64%nat) by apply C. pose proof (proj2 C) as Fc.
    pose proof (B 0%nat Fc ltac:(lia)) as B0. pose proof (B 1%nat Fc ltac:(lia)) as B1. pose proof (B 2%nat Fc ltac:(lia)) as B2. pose proof (B 3%nat Fc ltac:(lia)) as B3.
    unfold whole. cbn [seq flat_map]. rewrite app_nil_r. rewrite <- (four_blocks c Lc).
    change (tw t 0) with (to_le 16 t). change (tw t 1) with (to_le 16 (u128_double t)). change (tw t 2) with (to_le 16 (u128_double (u128_double t))).
    change (tw t 3) with (to_le 16 (u128_double (u128_double (u128_double t)))).
    pose proof (T t) as T0. pose proof (T (u128_double t)) as T1'. pose proof (T (u128_double (u128_double t))) as T2'. pose proof (T (u128_double (u128_double (u128_double t)))) as T3'.
    revert T0 T1' T2' T3'. generalize (to_le 16 t) (to_le 16 (u128_double t)) (to_le 16 (u128_double (u128_double t))) (to_le 16 (u128_double (u128_double (u128_double t)))).
    intros t0 t1 t2 t3 H0 H1 H2 H3. clear T.
    assert (BT : is_bytes 64 (t0 ++ t1 ++ t2 ++ t3)) by (apply (is_bytes_app 16 48); [|apply (is_bytes_app 16 32); [|apply (is_bytes_app 16 16)]]; assumption).
    rewrite (dk_xor _ _ _ D4) by assumption. rewrite R4 by now apply xor_bytes. cbn [bind].
    assert (M : forall a b c d a' b' c' d', is_bytes 16 a -> is_bytes 16 b -> is_bytes 16 c -> is_bytes 16 d -> is_bytes 16 a' -> is_bytes 16 b' -> is_bytes 16 c' -> is_bytes 16 d' ->
      map2 N.lxor (a ++ b ++ c ++ d) (a' ++ b' ++ c' ++ d') = map2 N.lxor a a' ++ map2 N.lxor b b' ++ map2 N.lxor c c' ++ map2 N.lxor d d').
    { intros a b c' d a' b' c'' d' [La _] [Lb _] [Lc' _] [Ld _] [La' _] [Lb' _] [Lc'' _] [Ld' _]. rewrite !map2_app by congruence. reflexivity. }
    rewrite (four_blocks c Lc) at 1. rewrite M by assumption. pose proof (xor_bytes 16) as XB. rewrite lanes4_app by (now apply XB). cbn [map concat]. rewrite app_nil_r.
    assert (Y : forall p t, is_bytes 16 p -> is_bytes 16 t -> is_bytes 16 (f (map2 N.lxor p t))) by (intros; apply R1; now apply XB).
    assert (BY : is_bytes 64 (f (map2 N.lxor (block_at c 0) t0) ++ f (map2 N.lxor (block_at c 1) t1) ++ f (map2 N.lxor (block_at c 2) t2) ++ f (map2 N.lxor (block_at c 3) t3)))
      by (apply (is_bytes_app 16 48); [|apply (is_bytes_app 16 32); [|apply (is_bytes_app 16 16)]]; now apply Y).
    rewrite (dk_xor _ _ _ D4) by assumption. rewrite (to_bytes_ok _ 64 f4) by (try exact D4; now apply xor_bytes). rewrite M by (try assumption; now apply Y). reflexivity.
  Qed.
  Lemma xts_fours_ok dbg q : forall t text, bytes_ok text -> (64 * q <= length text)%nat ->
    xts_fours i dbg run4 t (chunks 64 q text) = Ret (whole f (tw t) (4 * q) text, Nat.iter (4 * q) u128_double t).
  Proof.
    induction q as [|q IH]; intros t text F L; [reflexivity|]. cbn [chunks xts_fours].
    assert (B : is_bytes 64 (firstn 64 text)) by (split; [rewrite firstn_length; lia|now apply bytes_firstn]).
    rewrite xts_four_ok by exact B. cbn [bind]. rewrite IH by ((now apply bytes_skipn) || (rewrite skipn_length; lia)). cbn [bind fst snd]. f_equal.
    replace (4 * S q)%nat with (4 + 4 * q)%nat by lia. rewrite whole_plus, <- iter_plus. f_equal. f_equal.
    - apply whole_ext_text. intros j Hj. apply block_at_firstn. lia.
    - change (16 * 4)%nat with 64%nat. apply whole_ext. intros j _. apply tw_plus.
  Qed.
  Lemma xts_ones_ok dbg n : forall t text, bytes_ok text -> (16 * n <= length text)%nat ->
    xts_ones i dbg run1 t (chunks 16 n text) = Ret (whole f (tw t) n text, Nat.iter n u128_double t).
  Proof.
    induction n as [|n IH]; intros t text F L; [reflexivity|]. cbn [chunks xts_ones].
    assert (B : is_bytes 16 (firstn 16 text)) by (split; [rewrite firstn_length; lia|now apply bytes_firstn]).
    rewrite xts_one_ok by exact B. cbn [bind]. rewrite IH by ((now apply bytes_skipn) || (rewrite skipn_length; lia)). cbn [bind fst snd]. f_equal.
    change (S n) with (1 + n)%nat. rewrite whole_plus, <- iter_plus. change (Nat.iter 1 u128_double t) with (u128_double t). f_equal. f_equal.
    - unfold whole. cbn [seq flat_map]. rewrite app_nil_r. reflexivity.
    - change (16 * 1)%nat with 16%nat. apply whole_ext. intros j _. apply (tw_plus t 1).
  Qed.
  Lemma xts_whole_ok dbg t m text : bytes_ok text -> (16 * m <= length text)%nat ->
    xts_whole i dbg run4 run1 t m text = Ret (whole f (tw t) m text, Nat.iter m u128_double t).
  Proof.
    intros F L. unfold xts_whole. cbv zeta. set (q := Nat.div m 4). assert (Q : (4 * q <= m)%nat) by (unfold q; apply Nat.mul_div_le; discriminate).
    rewrite xts_fours_ok by (assumption || lia). cbn [bind fst snd]. rewrite xts_ones_ok by ((now apply bytes_skipn) || (rewrite skipn_length; lia)). cbn [bind fst snd].
    rewrite iter_plus. replace (4 * q + (m - 4 * q))%nat with m by lia. f_equal. f_equal.
    replace m with (4 * q + (m - 4 * q))%nat at 2 by lia. rewrite whole_plus. f_equal. replace (16 * (4 * q))%nat with (64 * q)%nat by lia. apply whole_ext. intros j _. apply tw_plus.
  Qed.
  Definition unit_spec (h : list N -> list N) (dec : bool) (t : nat -> list N) (text : list N) : list N :=
    let m := Nat.div (length text) 16 in
    if Nat.eqb (Nat.modulo (length text) 16) 0 then whole h t m text
    else whole h t (m - 1) text ++ stolen h (if dec then t m else t (m - 1)%nat) (if dec then t (m - 1)%nat else t m) (block_at text (m - 1)) (skipn (16 * m) text).
  Lemma xts_data_unit_ok dbg dec t text : bytes_ok text -> (16 <= length text)%nat ->
    xts_data_unit i dbg run4 run1 dec t text = Ret (unit_spec f dec (tw t) text).
  Proof.
    intros F L. unfold xts_data_unit, unit_spec. cbv zeta. set (m := Nat.div (length text) 16).
    assert (M1 : (1 <= m)%nat) by (unfold m; now apply Nat.div_le_lower_bound). assert (M2 : (16 * m <= length text)%nat) by (unfold m; apply Nat.mul_div_le; discriminate).
    assert (M3 : (length text < 16 * m + 16)%nat) by (unfold m; pose proof (Nat.div_mod (length text) 16); pose proof (Nat.mod_upper_bound (length text) 16); lia).
    destruct (Nat.eqb_spec (Nat.modulo (length text) 16) 0) as [Z|Z].
    - rewrite xts_whole_ok by assumption. reflexivity.
    - rewrite xts_whole_ok by (assumption || lia). cbn [bind fst snd].
      set (p := firstn 16 (skipn (16 * (m - 1)) text)). change (block_at text (m - 1)) with p. set (rest := skipn (16 * m) text).
      assert (Lr : (length rest <= 16)%nat) by (unfold rest; rewrite skipn_length; lia).
      assert (Bp : is_bytes 16 p) by (apply (block_at_bytes text (m - 1)); [exact F|lia]).
      assert (T : forall b : bool, (if b then u128_double (Nat.iter (m - 1) u128_double t) else Nat.iter (m - 1) u128_double t) = Nat.iter (if b then m else (m - 1)%nat) u128_double t).
      { intros [|]; [|reflexivity]. destruct m as [|m']; [lia|]. cbn [Nat.sub]. now rewrite Nat.sub_0_r. }
      assert (T' : forall b : bool, (if b then Nat.iter (m - 1) u128_double t else u128_double (Nat.iter (m - 1) u128_double t)) = Nat.iter (if b then (m - 1)%nat else m) u128_double t).
      { intros b. specialize (T (negb b)). now destruct b. }
      rewrite T, T'. rewrite xts_one_ok by exact Bp. cbn [bind].
      assert (Bc : is_bytes 16 (xts_block f (to_le 16 (Nat.iter (if dec then m else (m - 1)%nat) u128_double t)) p)) by (apply xts_block_bytes; [apply R|apply to_le_bytes|exact Bp]).
      set (cc := xts_block _ _ p) in *.
      assert (Bx : is_bytes 16 (rest ++ skipn (length rest) cc)).
      { split; [rewrite app_length, skipn_length, (proj1 Bc); lia|]. apply bytes_ok_app; [now apply bytes_skipn|apply bytes_skipn, Bc]. }
      rewrite xts_one_ok by exact Bx. cbn [bind]. f_equal. unfold stolen. cbv zeta.
      replace (xts_block f (if dec then tw t m else tw t (m - 1)) p) with cc by (unfold cc, tw; now destruct dec). f_equal. f_equal. f_equal. unfold tw. now destruct dec.
  Qed.
End Xts.

(** ** Decryption undoes encryption *)
Lemma blocks_of (h : nat -> list N) m : (forall j, (j < m)%nat -> length (h j) = 16%nat) -> length (flat_map h (seq 0 m)) = (16 * m)%nat /\
  forall rest, (forall j, (j < m)%nat -> block_at (flat_map h (seq 0 m) ++ rest) j = h j) /\ skipn (16 * m) (flat_map h (seq 0 m) ++ rest) = rest.
Proof.
  intros H. assert (G : forall m h s, (forall j, (j < m)%nat -> length (h (s + j)%nat) = 16%nat) -> length (flat_map h (seq s m)) = (16 * m)%nat /\
    forall rest, (forall j, (j < m)%nat -> block_at (flat_map h (seq s m) ++ rest) j = h (s + j)%nat) /\ skipn (16 * m) (flat_map h (seq s m) ++ rest) = rest).
  { clear. induction m as [|m IH]; intros h s H; [split; [reflexivity|]; intros rest; split; [intros j Hj; lia|reflexivity]|]. cbn [seq flat_map].
    pose proof (H 0%nat ltac:(lia)) as H0. rewrite Nat.add_0_r in H0. destruct (IH h (S s)) as [L B].
    { intros j Hj. replace (S s + j)%nat with (s + S j)%nat by lia. apply H. lia. }
    split; [rewrite app_length, L, H0; lia|]. intros rest. destruct (B rest) as [B1 B2]. rewrite <- app_assoc. split.
    - intros j Hj. unfold block_at. destruct j as [|j].
      + change (16 * 0)%nat with 0%nat. rewrite skipn_O. rewrite Nat.add_0_r. now apply firstn_exact.
      + replace (16 * S j)%nat with (16 + 16 * j)%nat by lia. rewrite <- skipn_skipn'. rewrite (skipn_exact 16 (h s)) by exact H0.
        change (firstn 16 (skipn (16 * j) (flat_map h (seq (S s) m) ++ rest))) with (block_at (flat_map h (seq (S s) m) ++ rest) j). rewrite B1 by lia. f_equal. lia.
    - replace (16 * S m)%nat with (16 + 16 * m)%nat by lia. rewrite <- skipn_skipn'. rewrite (skipn_exact 16 (h s)) by exact H0. exact B2. }
  exact (G m h 0%nat H).
Qed.
Lemma blocks_back text m : (16 * m <= length text)%nat -> flat_map (block_at text) (seq 0 m) = firstn (16 * m) text.
Proof.
  intros H. assert (G : forall m s, (16 * (s + m) <= length text)%nat -> flat_map (block_at text) (seq s m) = firstn (16 * m) (skipn (16 * s) text)).
  { clear. induction m as [|m IH]; intros s H; [reflexivity|]. cbn [seq flat_map]. rewrite IH by lia. unfold block_at.
    replace (16 * S s)%nat with (16 * s + 16)%nat by lia. rewrite <- skipn_skipn'. set (l := skipn (16 * s) text). replace (16 * S m)%nat with (16 + 16 * m)%nat by lia.
    symmetry. apply firstn_plus. }
  now apply (G m 0%nat).
Qed.
Section Back.
  Context (f g : list N -> list N) (Hf : forall x, is_bytes 16 x -> is_bytes 16 (f x)) (Hg : forall x, is_bytes 16 x -> is_bytes 16 (g x)).
  Context (I : forall x, is_bytes 16 x -> g (f x) = x).
  Lemma block_back t p : is_bytes 16 t -> is_bytes 16 p -> xts_block g t (xts_block f t p) = p.
  Proof.
    intros T P. unfold xts_block, xorb. assert (X : is_bytes 16 (map2 N.lxor p t)) by now apply xor_bytes.
    rewrite (xor_xor 16) by (apply Hf || apply T; assumption). rewrite I by exact X. apply (xor_xor 16); [apply P|apply T].
  Qed.
  Lemma whole_blocks t m text : (forall j, (j <= m)%nat -> is_bytes 16 (t j)) -> bytes_ok text -> (16 * m <= length text)%nat ->
    length (whole f t m text) = (16 * m)%nat /\ bytes_ok (whole f t m text) /\
    forall rest, whole g t m (whole f t m text ++ rest) = firstn (16 * m) text /\ skipn (16 * m) (whole f t m text ++ rest) = rest.
  Proof.
    intros T F L. set (h := fun j => xts_block f (t j) (block_at text j)). assert (Hh : forall j, (j < m)%nat -> is_bytes 16 (h j)).
    { intros j Hj. apply xts_block_bytes; [exact Hf|apply T; lia|apply block_at_bytes; [exact F|lia]]. }
    destruct (blocks_of h m) as [Lw B]; [intros j Hj; now apply Hh|]. split; [exact Lw|]. split.
    - unfold bytes_ok. apply Forall_forall. intros x Hx. apply in_flat_map in Hx as (j & Hj & Hx). apply in_seq in Hj. destruct (Hh j ltac:(lia)) as [_ Fj].
      unfold bytes_ok in Fj. rewrite Forall_forall in Fj. now apply Fj.
    - intros rest. destruct (B rest) as [B1 B2]. split; [|exact B2]. rewrite <- blocks_back by exact L. change (whole f t m text) with (flat_map h (seq 0 m)).
      unfold whole. rewrite !flat_map_concat_map. f_equal. apply map_ext_in. intros j Hj. apply in_seq in Hj. rewrite <- flat_map_concat_map. rewrite B1 by lia. unfold h.
      apply block_back; [apply T; lia|apply block_at_bytes; [exact F|lia]].
  Qed.
  Lemma unit_back t text : (forall j, is_bytes 16 (t j)) -> bytes_ok text -> (16 <= length text)%nat ->
    unit_spec g true t (unit_spec f false t text) = text /\ length (unit_spec f false t text) = length text /\ bytes_ok (unit_spec f false t text).
  Proof.
    intros T F L. set (m := Nat.div (length text) 16).
    assert (M1 : (1 <= m)%nat) by (unfold m; now apply Nat.div_le_lower_bound). assert (M2 : (16 * m <= length text)%nat) by (unfold m; apply Nat.mul_div_le; discriminate).
    assert (M3 : (length text < 16 * m + 16)%nat) by (unfold m; pose proof (Nat.div_mod (length text) 16); pose proof (Nat.mod_upper_bound (length text) 16); lia).
    assert (DM : (length text = 16 * m + Nat.modulo (length text) 16)%nat) by (unfold m; now apply Nat.div_mod).
    destruct (Nat.eqb_spec (Nat.modulo (length text) 16) 0) as [Z|Z].
    - assert (E : unit_spec f false t text = whole f t m text) by (unfold unit_spec; cbv zeta; now rewrite Z). rewrite E.
      destruct (whole_blocks t m text (fun j _ => T j) F M2) as (Lw & Fw & B). split; [|split; [lia|exact Fw]].
      unfold unit_spec. cbv zeta. rewrite Lw. assert (Lm : (16 * m)%nat = length text) by lia. rewrite Lm, Z. cbn [Nat.eqb]. fold m.
      destruct (B []) as [B1 _]. rewrite app_nil_r in B1. rewrite B1. apply firstn_all2. lia.
    - set (b := Nat.modulo (length text) 16) in *. pose proof (Nat.mod_upper_bound (length text) 16 ltac:(discriminate)) as Ub. fold b in Ub.
      assert (E : unit_spec f false t text = whole f t (m - 1) text ++ stolen f (t (m - 1)%nat) (t m) (block_at text (m - 1)) (skipn (16 * m) text)).
      { unfold unit_spec. cbv zeta. fold b. now rewrite (proj2 (Nat.eqb_neq b 0)) by exact Z. }
      rewrite E. set (p := block_at text (m - 1)). set (r := skipn (16 * m) text).
      assert (Bp : is_bytes 16 p) by (apply block_at_bytes; [exact F|lia]). assert (Lr : length r = b) by (unfold r; rewrite skipn_length; lia). assert (Fr : bytes_ok r) by now apply bytes_skipn.
      destruct (whole_blocks t (m - 1) text (fun j _ => T j) F ltac:(lia)) as (Lw & Fw & B). set (wf := whole f t (m - 1) text) in *.
      unfold stolen. cbv zeta. rewrite Lr. set (cc := xts_block f (t (m - 1)%nat) p). assert (Bc : is_bytes 16 cc) by (apply xts_block_bytes; [exact Hf|apply T|exact Bp]).
      assert (Bx : is_bytes 16 (r ++ skipn b cc)).
      { split; [rewrite app_length, skipn_length, (proj1 Bc); lia|]. apply bytes_ok_app; [exact Fr|apply bytes_skipn, Bc]. }
      set (c := xts_block f (t m) (r ++ skipn b cc)). assert (B' : is_bytes 16 c) by (apply xts_block_bytes; [exact Hf|apply T|exact Bx]).
      assert (Lt : length (wf ++ c ++ firstn b cc) = length text) by (rewrite !app_length, Lw, (proj1 B'), firstn_length, (proj1 Bc); lia).
      split; [|split; [exact Lt|apply bytes_ok_app; [exact Fw|apply bytes_ok_app; [apply B'|apply bytes_firstn, Bc]]]].
      unfold unit_spec. cbv zeta. rewrite Lt. fold m b. rewrite (proj2 (Nat.eqb_neq b 0)) by exact Z.
      destruct (B (c ++ firstn b cc)) as [B1 B2]. rewrite B1. unfold block_at. rewrite B2.
      replace (firstn 16 (c ++ firstn b cc)) with c. 2:{ symmetry. apply firstn_exact, B'. }
      replace (16 * m)%nat with (16 * (m - 1) + 16)%nat by lia. rewrite <- skipn_skipn', B2. rewrite (skipn_exact 16 c) by apply B'.
      assert (Lb : length (firstn b cc) = b) by (rewrite firstn_length, (proj1 Bc); lia). unfold stolen. cbv zeta. rewrite Lb. unfold c at 1. rewrite block_back by (apply T || exact Bx).
      replace (xts_block g (t m) c) with (r ++ skipn b cc) by (symmetry; unfold c; apply block_back; [apply T|exact Bx]).
      rewrite (skipn_exact b r) by exact Lr. rewrite firstn_skipn. unfold cc at 1. rewrite block_back by (apply T || exact Bp).
      rewrite (firstn_exact b r) by exact Lr.
      rewrite <- (firstn_skipn (16 * (m - 1)) text) at 2. f_equal. unfold p, r, block_at. replace (16 * m)%nat with (16 * (m - 1) + 16)%nat by lia. rewrite <- skipn_skipn'. apply firstn_skipn.
  Qed.
End Back.
