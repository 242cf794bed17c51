(** Two-at-a-time types built from a narrower one (aesdefault_x2.rs, aesdefault_x4.rs). *)
From Coq Require Import Lia Arith.
From Verif Require Import Word Interface Fips197 Spec_Api Model_Wide Proof_Word Proof_Fips Proof_Ok Proof_X86.
Open Scope N_scope.

Definition pair_of {T} (half : nat) (f : list N -> T) (b : list N) : T * T := (f (firstn half b), f (skipn half b)).

Lemma is_bytes_firstn n m b : is_bytes (n + m) b -> is_bytes n (firstn n b).
Proof. intros [L F]. split; [rewrite firstn_length; lia|now apply bytes_ok_firstn]. Qed.
Lemma is_bytes_skipn n m b : is_bytes (n + m) b -> is_bytes m (skipn n b).
Proof. intros [L F]. split; [rewrite skipn_length; lia|now apply bytes_ok_skipn]. Qed.
Lemma firstn_map2 {A B C} (f : A -> B -> C) n l m : firstn n (map2 f l m) = map2 f (firstn n l) (firstn n m).
Proof. revert l m. induction n; intros [|x l] [|y m]; cbn; try reflexivity. now rewrite IHn. Qed.
Lemma skipn_map2 {A B C} (f : A -> B -> C) n l m : skipn n (map2 f l m) = map2 f (skipn n l) (skipn n m).
Proof. revert l m. induction n; intros [|x l] [|y m]; cbn; try reflexivity; auto. now destruct (skipn n l). Qed.
Lemma repeat_plus {A} (x : A) n m : repeat x (n + m) = repeat x n ++ repeat x m.
Proof. apply repeat_app. Qed.
Lemma firstn_exact {A} n (l m : list A) : length l = n -> firstn n (l ++ m) = l.
Proof. intros <-. rewrite firstn_app, Nat.sub_diag, firstn_O, app_nil_r. apply firstn_all. Qed.
Lemma skipn_exact {A} n (l m : list A) : length l = n -> skipn n (l ++ m) = m.
Proof. intros <-. rewrite skipn_app, Nat.sub_diag, skipn_all. reflexivity. Qed.

Section Pair.
Context {T : Type} (dbg : bool) (half : nat) (o : ops T) (f : list N -> T) (D : data_ok o half f).
Notation f2 := (pair_of half f).
Notation o2 := (pair_ops dbg half o).

Lemma array_from_slice_ok n v off : (off + n <= length v)%nat -> array_from_slice dbg n v off = Ret (firstn n (skipn off v)).
Proof.
  intros H. unfold array_from_slice, raw_read. apply Nat.leb_le in H. rewrite H. now rewrite andb_false_r.
Qed.
Lemma p_new_ok b : is_bytes (half + half) b -> p_new dbg half o b = Ret (f2 b).
Proof.
  intros Hb. unfold p_new. rewrite !array_from_slice_ok by (rewrite (is_bytes_len _ _ Hb); lia). cbn [bind].
  change (skipn 0 b) with b. rewrite (dk_new _ _ _ D) by (eapply is_bytes_firstn; eassumption). cbn [bind].
  assert (E : firstn half (skipn half b) = skipn half b).
  { apply firstn_all2. rewrite skipn_length, (is_bytes_len _ _ Hb). lia. }
  rewrite E, (dk_new _ _ _ D) by (eapply is_bytes_skipn; eassumption). reflexivity.
Qed.

Lemma pair_data_ok : data_ok o2 (half + half) f2.
Proof.
  pose proof (fun b => is_bytes_firstn half half b) as HF. pose proof (fun b => is_bytes_skipn half half b) as HS.
  split; cbn [o_size o_new o_from o_store o_and o_or o_xor o_not o_zero o_is_zero o_eq pair_ops].
  - reflexivity.
  - apply p_new_ok.
  - apply p_new_ok.
  - intros b dst Hb. unfold p_store_to, w_then, w_assert_len, w_to, w_from, rust_assert.
    destruct (Nat.leb_spec (half + half) (length dst)) as [L|L]; [|reflexivity].
    assert (L1 : (half <=? length dst)%nat = true) by (apply Nat.leb_le; lia). rewrite L1. cbn [fst pair_of].
    rewrite (dk_store _ _ _ D) by now apply HF.
    assert (L2 : length (firstn half dst) = half) by (rewrite firstn_length; lia).
    rewrite L2, Nat.leb_refl. rewrite skipn_all2 by lia. rewrite app_nil_r.
    assert (L3 : length (firstn half b) = half) by apply (HF _ Hb).
    rewrite app_length, skipn_length, L3.
    assert (L4 : (half <=? half + (length dst - half))%nat = true) by (apply Nat.leb_le; lia). rewrite L4. cbn [snd pair_of].
    rewrite skipn_exact, firstn_exact by assumption. rewrite (dk_store _ _ _ D) by now apply HS.
    rewrite skipn_length. assert (L5 : (half <=? length dst - half)%nat = true) by (apply Nat.leb_le; lia). rewrite L5.
    rewrite skipn_skipn', app_assoc, firstn_skipn. reflexivity.
  - intros a b Ha Hb. unfold p_map2, pair_of. cbn [fst snd].
    rewrite !(dk_and _ _ _ D) by (apply HF || apply HS; assumption). now rewrite firstn_map2, skipn_map2.
  - intros a b Ha Hb. unfold p_map2, pair_of. cbn [fst snd].
    rewrite !(dk_or _ _ _ D) by (apply HF || apply HS; assumption). now rewrite firstn_map2, skipn_map2.
  - intros a b Ha Hb. unfold p_map2, pair_of. cbn [fst snd].
    rewrite !(dk_xor _ _ _ D) by (apply HF || apply HS; assumption). now rewrite firstn_map2, skipn_map2.
  - intros a Ha. unfold p_not, pair_of. cbn [fst snd].
    rewrite !(dk_not _ _ _ D) by (apply HF || apply HS; assumption). now rewrite firstn_map, skipn_map.
  - unfold p_zero, pair_of. rewrite repeat_plus, firstn_exact, skipn_exact by apply repeat_length. now rewrite (dk_zero _ _ _ D).
  - intros a Ha. unfold p_is_zero, pair_of. cbn [fst snd]. rewrite andb_true_iff, !(dk_is_zero _ _ _ D) by (apply HF || apply HS; assumption).
    rewrite repeat_plus. split.
    + intros [E1 E2]. rewrite <- (firstn_skipn half a), E1, E2. reflexivity.
    + intros ->. rewrite firstn_exact, skipn_exact by apply repeat_length. split; reflexivity.
  - intros a b Ha Hb. unfold p_eq, pair_of. cbn [fst snd]. rewrite andb_true_iff, !(dk_eq _ _ _ D) by (apply HF || apply HS; assumption).
    split; [|now intros ->]. intros [E1 E2]. now rewrite <- (firstn_skipn half a), E1, E2, firstn_skipn.
Qed.
End Pair.

(** Lanes of a concatenation. *)
Lemma lanes_split m b : length b = (16 * (m + m))%nat -> lanes (m + m) b = lanes m (firstn (16 * m) b) ++ lanes m (skipn (16 * m) b).
Proof.
  unfold lanes. assert (G : forall j (b : list N), (16 * j <= length b)%nat -> chunks 16 (j + m) b = chunks 16 j (firstn (16 * j) b) ++ chunks 16 m (skipn (16 * j) b)).
  { clear b. induction j as [|j IH]; intros b H; [reflexivity|]. 
    replace (16 * S j)%nat with (16 + 16 * j)%nat in * by lia. cbn [plus chunks]. change (S j + m)%nat with (S (j + m)). cbn [chunks app].
    rewrite IH by (rewrite skipn_length; lia). f_equal.
    - rewrite firstn_firstn. reflexivity || (f_equal; lia).
    - rewrite firstn_skipn_comm, skipn_skipn'. reflexivity. }
  intros H. apply G. lia.
Qed.
Lemma on_lanes_length g m a b : (forall x y, length x = 16%nat -> length y = 16%nat -> length (g x y) = 16%nat) ->
  length a = (16 * m)%nat -> length b = (16 * m)%nat -> length (on_lanes m g a b) = (16 * m)%nat.
Proof.
  intros Hg. unfold on_lanes, lanes. revert a b. induction m as [|m IH]; intros a b La Lb; [reflexivity|]. cbn [chunks map2 concat].
  rewrite app_length, Hg, IH by (rewrite ?firstn_length, ?skipn_length; lia). lia.
Qed.
Lemma on_lanes_split g m a b :
  (forall x y, length x = 16%nat -> length y = 16%nat -> length (g x y) = 16%nat) ->
  length a = (16 * (m + m))%nat -> length b = (16 * (m + m))%nat ->
  firstn (16 * m) (on_lanes (m + m) g a b) = on_lanes m g (firstn (16 * m) a) (firstn (16 * m) b) /\
  skipn (16 * m) (on_lanes (m + m) g a b) = on_lanes m g (skipn (16 * m) a) (skipn (16 * m) b).
Proof.
  intros Hg La Lb.
  assert (E : on_lanes (m + m) g a b = on_lanes m g (firstn (16 * m) a) (firstn (16 * m) b) ++ on_lanes m g (skipn (16 * m) a) (skipn (16 * m) b)).
  { unfold on_lanes. rewrite !lanes_split by assumption. rewrite map2_app, concat_app; [reflexivity|]. unfold lanes. now rewrite !chunks_length. }
  assert (L : length (on_lanes m g (firstn (16 * m) a) (firstn (16 * m) b)) = (16 * m)%nat).
  { apply on_lanes_length; [assumption| |]; rewrite firstn_length; lia. }
  rewrite E. split; [now apply firstn_exact|now apply skipn_exact].
Qed.

Lemma spec_enc_len x y : length x = 16%nat -> length y = 16%nat -> length (spec_enc x y) = 16%nat.
Proof. intros Lx Ly. explode Lx. explode Ly. reflexivity. Qed.
Lemma spec_enc_last_len x y : length x = 16%nat -> length y = 16%nat -> length (spec_enc_last x y) = 16%nat.
Proof. intros Lx Ly. explode Lx. explode Ly. reflexivity. Qed.
Lemma spec_dec_len x y : length x = 16%nat -> length y = 16%nat -> length (spec_dec x y) = 16%nat.
Proof. intros Lx Ly. explode Lx. explode Ly. reflexivity. Qed.
Lemma spec_dec_last_len x y : length x = 16%nat -> length y = 16%nat -> length (spec_dec_last x y) = 16%nat.
Proof. intros Lx Ly. explode Lx. explode Ly. reflexivity. Qed.

Section PairRounds.
Context {T : Type} (dbg : bool) (m : nat) (o : ops T) (f : list N -> T).
Notation half := (16 * m)%nat.
Notation f2 := (pair_of half f).
Notation o2 := (pair_ops dbg half o).
Lemma split_bytes b : is_bytes (16 * (m + m)) b -> is_bytes half (firstn half b) /\ is_bytes half (skipn half b).
Proof. intros H. replace (16 * (m + m))%nat with (half + half)%nat in H by lia. split; [eapply is_bytes_firstn|eapply is_bytes_skipn]; eassumption. Qed.
Lemma pair_enc_ok : enc_ok o m f -> enc_ok o2 (m + m) f2.
Proof.
  intros [E L]. split; intros a k Ha Hk; destruct (split_bytes a Ha) as [A1 A2], (split_bytes k Hk) as [K1 K2];
    cbn [o_enc o_enc_last pair_ops]; unfold p_map2, pair_of; cbn [fst snd].
  - rewrite !E by assumption.
    destruct (on_lanes_split spec_enc m a k spec_enc_len (is_bytes_len _ _ Ha) (is_bytes_len _ _ Hk)) as [-> ->]. reflexivity.
  - rewrite !L by assumption.
    destruct (on_lanes_split spec_enc_last m a k spec_enc_last_len (is_bytes_len _ _ Ha) (is_bytes_len _ _ Hk)) as [-> ->]. reflexivity.
Qed.
Lemma pair_dec_ok : dec_ok o m f -> dec_ok o2 (m + m) f2.
Proof.
  intros [E L]. split; intros a k Ha Hk; destruct (split_bytes a Ha) as [A1 A2], (split_bytes k Hk) as [K1 K2];
    cbn [o_dec o_dec_last pair_ops]; unfold p_map2, pair_of; cbn [fst snd].
  - rewrite !E by assumption.
    destruct (on_lanes_split spec_dec m a k spec_dec_len (is_bytes_len _ _ Ha) (is_bytes_len _ _ Hk)) as [-> ->]. reflexivity.
  - rewrite !L by assumption.
    destruct (on_lanes_split spec_dec_last m a k spec_dec_last_len (is_bytes_len _ _ Ha) (is_bytes_len _ _ Hk)) as [-> ->]. reflexivity.
Qed.
End PairRounds.
