(** C35, C24: what key objects and their round keys reveal, every configuration (RV32 and big-endian included). *)
From Coq Require Import Lia Arith.
From Verif Require Import Word Interface Fips197 Spec_Api Spec_Reach Spec_Cfg Spec_User Spec_Actual Spec_Fmt Model_Lib Model_Cfg Model_Fmt.
From Verif Require Import Proof_Word Proof_Fips Proof_Ok Proof_Sem Proof_Lib Proof_Reach Proof_Inst Proof_Cipher Proof_KeySpec Proof_Main Proof_KeyGen Proof_Actual.
From Verif Require Import Samples Props_Rounds Props_Fmt Props_Actual.
Open Scope N_scope.

(** ** Every build's key schedule is a KeyExpansion with some first-word formula *)
Lemma std_first_ok : first_ok std_first.
Proof. intros j t H. unfold std_first. apply xor_word_bytes; [|apply rcon_bytes]. now apply sub_word_bytes, rot_word_bytes. Qed.
Lemma any_keys c i : rustc_ok c = true -> impl_of c = Some i ->
  exists first f1 f2 f4 s, (forall k, first_ok (first k)) /\ sem_ok s /\ refines i f1 f2 f4 s /\
    (forall k key, s_keys s k key = round_keys_with (first k) k key) /\
    (forall a b, is_bytes 16 a -> is_bytes 16 b -> s_imc s a = s_imc s b -> a = b).
Proof.
  intros O E. destruct (rv32_zk c) eqn:C1.
  - destruct (rv32_inst c i E C1) as (f1 & f2 & f4 & R). exists rv32_first, f1, f2, f4, rv32_exact.
    split; [apply rv32_first_ok|]. split; [apply rv32_exact_ok|]. split; [exact R|]. split; [reflexivity|].
    intros a b Ha Hb H. change (rv32_imc a = rv32_imc b) in H. rewrite <- (rv32_mc_imc_twice a Ha), <- (rv32_mc_imc_twice b Hb). now rewrite H.
  - destruct (be_constant_time c) eqn:C2.
    + destruct (be_inst c i O E C2) as (f1 & f2 & f4 & R). exists (fun _ => be_first), f1, f2, f4, be_exact.
      split; [intros k; apply be_first_ok|]. split; [apply be_exact_ok|]. split; [exact R|]. split; [reflexivity|]. apply inv_mix_inj.
    + assert (C : conforming c = true) by (unfold conforming; now rewrite C1, C2).
      destruct (inst c i E C1) as (pre & keys & f1 & f2 & f4 & Hpre & K & S1 & R). rewrite (K C) in *.
      exists (fun _ => std_first), f1, f2, f4, (fips_sem pre round_keys). split; [intros k; apply std_first_ok|]. split; [exact S1|]. split; [exact R|].
      split; [intros k key; symmetry; apply round_keys_std|]. apply inv_mix_inj.
Qed.

(** ** Nk consecutive words determine the key *)
Lemma xor_word_cancel a b t : is_bytes 4 a -> is_bytes 4 b -> is_bytes 4 t -> xor_word a t = xor_word b t -> a = b.
Proof.
  intros Ha Hb Ht H. rewrite <- (xor_xor 4 a t) by (apply Ha || apply Ht). rewrite <- (xor_xor 4 b t) by (apply Hb || apply Ht). unfold xor_word in H. now rewrite H.
Qed.
Lemma words_back first nk key key' : first_ok first -> (2 <= nk)%nat -> is_bytes (4 * nk) key -> is_bytes (4 * nk) key' ->
  forall s, (s <= 100)%nat -> (forall j, (j < nk)%nat -> XW first nk key (s + j) = XW first nk key' (s + j)) ->
  forall j, (j < nk)%nat -> XW first nk key j = XW first nk key' j.
Proof.
  intros Hf Hn Hk Hk'. induction s as [|s IH]; intros Hs H; [exact H|]. apply IH; [lia|]. intros j Hj.
  destruct j as [|j]; [|replace (s + S j)%nat with (S s + j)%nat by lia; apply H; lia].
  pose proof (H (nk - 1)%nat ltac:(lia)) as L. pose proof (H (nk - 2)%nat ltac:(lia)) as P.
  replace (S s + (nk - 1))%nat with (s + nk)%nat in L by lia. replace (S s + (nk - 2))%nat with (s + nk - 1)%nat in P by lia.
  rewrite (XW_rec first nk key (s + nk)), (XW_rec first nk key' (s + nk)) in L by lia. rewrite Nat.add_0_r. replace (s + nk - nk)%nat with s in L by lia. rewrite P in L.
  apply xor_word_cancel in L; [exact L|..]; [| |apply xtmp_bytes; [exact Hf|]]; apply (XW_bytes first Hf); (assumption || lia).
Qed.
Lemma key_of_words first nk key key' : is_bytes (4 * nk) key -> is_bytes (4 * nk) key' ->
  (forall j, (j < nk)%nat -> XW first nk key j = XW first nk key' j) -> key = key'.
Proof.
  intros Hk Hk' H. rewrite <- (concat_chunks' nk key), <- (concat_chunks' nk key') by (apply Hk || apply Hk'). f_equal.
  apply (nth_ext _ _ [] []); [now rewrite !key_chunks_length|]. intros n Hn. rewrite key_chunks_length in Hn. rewrite <- !(XW_key first) by assumption. now apply H.
Qed.

Lemma xrk_words first nk key r j : is_bytes (4 * nk) key -> first_ok first -> (0 < nk)%nat -> (4 * r + j < nk + 100)%nat -> (j < 4)%nat ->
  XW first nk key (4 * r + j) = firstn 4 (skipn (4 * j) (xrk first nk key r)).
Proof.
  intros Hk Hf Hn Hi Hj. unfold xrk.
  assert (L : forall n, (n < nk + 100)%nat -> length (XW first nk key n) = 4%nat) by (intros n Hn'; apply (XW_bytes first Hf); assumption).
  cbn [seq map concat]. rewrite app_nil_r. pose proof (L (4 * r + j)%nat Hi) as L0.
  assert (T : forall a b : list N, length a = 4%nat -> firstn 4 (a ++ b) = a) by (intros a b Ha; rewrite firstn_app, Ha, Nat.sub_diag, firstn_O, app_nil_r, <- Ha; apply firstn_all).
  assert (T0 : forall a : list N, length a = 4%nat -> firstn 4 a = a) by (intros a Ha; rewrite <- Ha; apply firstn_all).
  assert (D : forall n (a b : list N), length a = 4%nat -> skipn (4 + n) (a ++ b) = skipn n b).
  { intros n a b Ha. rewrite skipn_app, Ha. replace (4 + n - 4)%nat with n by lia. rewrite skipn_all2 by lia. reflexivity. }
  destruct j as [|[|[|[|j]]]]; [| | | |lia].
  - rewrite Nat.add_0_r in *. change (4 * 0)%nat with 0%nat. cbn [skipn]. now rewrite T.
  - replace (S (4 * r)) with (4 * r + 1)%nat in * by lia. change (4 * 1)%nat with (4 + 0)%nat. rewrite D by (apply L; lia). cbn [skipn]. now rewrite T.
  - replace (S (S (4 * r))) with (4 * r + 2)%nat in * by lia. change (4 * 2)%nat with (4 + (4 + 0))%nat. rewrite !D by (apply L; lia). cbn [skipn]. now rewrite T.
  - replace (S (S (S (4 * r)))) with (4 * r + 3)%nat in * by lia. change (4 * 3)%nat with (4 + (4 + (4 + 0)))%nat. rewrite !D by (apply L; lia). cbn [skipn]. now rewrite T0.
Qed.
(** How many adjacent round keys make up at least Nk words. *)
Definition window (k : key_size) : nat := match k with K128 => 1 | _ => 2 end.
Lemma rks_nth first k key r : (r <= nr_of k)%nat -> nth r (round_keys_with first k key) [] = xrk first (nk_of k) key r.
Proof.
  intros H. rewrite round_keys_XW. rewrite (nth_indep _ [] (xrk first (nk_of k) key 0)) by (rewrite map_length, seq_length; lia).
  rewrite map_nth, seq_nth by lia. reflexivity.
Qed.
Lemma window_key first k key key' r : first_ok first -> is_bytes (key_len k) key -> is_bytes (key_len k) key' -> (r + window k <= nr_of k + 1)%nat ->
  (forall j, (j < window k)%nat -> nth (r + j) (round_keys_with first k key) [] = nth (r + j) (round_keys_with first k key') []) -> key = key'.
Proof.
  intros Hf Hk Hk' Hr H. change (key_len k) with (4 * nk_of k)%nat in *.
  apply (key_of_words first (nk_of k)); [assumption|assumption|]. apply (words_back first (nk_of k) key key' Hf ltac:(destruct k; cbn [nk_of]; lia) Hk Hk' (4 * r)).
  - destruct k; cbn [nk_of nr_of window] in *; lia.
  - intros j Hj. assert (J : exists q t, j = (4 * q + t)%nat /\ (t < 4)%nat /\ (q < window k)%nat).
    { exists (j / 4)%nat, (j mod 4)%nat. pose proof (Nat.div_mod j 4 ltac:(lia)). pose proof (Nat.mod_upper_bound j 4 ltac:(lia)). split; [assumption|]. split; [assumption|].
      destruct k; cbn [nk_of nr_of window] in *; lia. }
    destruct J as (q & t & -> & Ht & Hq). replace (4 * r + (4 * q + t))%nat with (4 * (r + q) + t)%nat by lia.
    assert (B : (4 * (r + q) + t < nk_of k + 100)%nat) by (destruct k; cbn [nk_of nr_of window] in *; lia).
    rewrite !xrk_words by (assumption || (destruct k; cbn; lia)). specialize (H q Hq). rewrite !rks_nth in H by lia. now rewrite H.
Qed.

(** ** C35 *)
Theorem C35_adjacent_round_keys_determine_key : forall c i k key key' rks rks' r,
  rustc_ok c = true -> impl_of c = Some i -> is_bytes (key_len k) key -> is_bytes (key_len k) key' ->
  key_bytes i k key = Ret rks -> key_bytes i k key' = Ret rks' -> (r + window k <= nr_of k + 1)%nat ->
  (forall j, (j < window k)%nat -> nth (r + j) rks [] = nth (r + j) rks' []) -> key = key'.
Proof.
  intros c i k key key' rks rks' r O E Hk Hk' K K' Hr H. destruct (any_keys c i O E) as (first & f1 & f2 & f4 & s & Hf & S1 & R & Ks & _).
  assert (Q : forall q, is_bytes (key_len k) q -> key_bytes i k q = Ret (round_keys_with (first k) k q)).
  { intros q Hq. unfold key_bytes. rewrite (enc_new_ok _ _ _ _ _ R) by assumption. cbn [bind enc_keys]. rewrite Ks. apply show_keys; [apply R|].
    rewrite <- Ks. apply (so_keys _ S1 k q Hq). }
  rewrite Q in K, K' by assumption. apply ret_inj in K, K'. subst. now apply (window_key (first k) k key key' r).
Qed.
Print Assumptions C35_adjacent_round_keys_determine_key.
Example C35_adjacent_round_keys_determine_key_case : forall c k, In c samples -> exists i rks, impl_of c = Some i /\ key_bytes i k (fips_key k) = Ret rks /\
  forall key rks', is_bytes (key_len k) key -> key_bytes i k key = Ret rks' -> nth (nr_of k) rks' [] = nth (nr_of k) rks [] ->
  nth (nr_of k - 1) rks' [] = nth (nr_of k - 1) rks [] -> key = fips_key k.
Proof.
  intros c k H. assert (O : rustc_ok c = true) by (clear - H; repeat destruct H as [<-|H]; try reflexivity; destruct H).
  destruct (sample_impl c H) as [i E]. exists i. destruct (any_keys c i O E) as (first & f1 & f2 & f4 & s & Hf & S1 & R & Ks & _).
  assert (Q : exists rks, key_bytes i k (fips_key k) = Ret rks).
  { eexists. unfold key_bytes. rewrite (enc_new_ok _ _ _ _ _ R) by auto with cases. cbn [bind enc_keys]. apply show_keys; [apply R|]. apply (so_keys _ S1 k _ (fips_key_ok k)). }
  destruct Q as (rks & Q). exists rks. split; [assumption|]. split; [assumption|]. intros key rks' Hk K' X1 X2.
  apply (C35_adjacent_round_keys_determine_key c i k key (fips_key k) rks' rks (nr_of k + 1 - window k)); auto with cases; [destruct k; cbn; lia|].
  intros j Hj. destruct k; cbn in *; destruct j as [|[|j]]; (lia || assumption).
Qed.
Theorem C35_distinct_keys_distinct_objects : forall c i k key key',
  rustc_ok c = true -> impl_of c = Some i -> is_bytes (key_len k) key -> is_bytes (key_len k) key' -> key <> key' ->
  enc_new i k key <> enc_new i k key' /\ dec_new i k key <> dec_new i k key'.
Proof.
  intros c i k key key' O E Hk Hk' Ne. destruct (any_keys c i O E) as (first & f1 & f2 & f4 & s & Hf & S1 & R & Ks & Im).
  pose proof (R_d1 _ _ _ _ _ R) as D. pose proof (keys_good _ S1 k key Hk) as G. pose proof (keys_good _ S1 k key' Hk') as G'.
  assert (I : forall l l', Forall (is_bytes 16) l -> Forall (is_bytes 16) l' -> map f1 l = map f1 l' -> l = l').
  { intros l l' F. revert l'. induction F as [|a l Ha _ IH]; intros l' F' M; destruct F' as [|a' l' Ha' F']; try discriminate; [reflexivity|].
    cbn [map] in M. injection M as M1 M2. apply (f_inj _ 16 _ _ _ D) in M1; [|assumption|assumption]. subst. f_equal. now apply IH. }
  assert (Q : s_keys s k key = s_keys s k key' -> key = key').
  { intros Q. rewrite !Ks in Q. apply (window_key (first k) k key key' 0); try assumption; [apply Hf|destruct k; cbn; lia|]. intros j _. now rewrite Q. }
  split; intros H; apply Ne, Q.
  - rewrite !(enc_new_ok _ _ _ _ _ R) in H by assumption. apply ret_inj in H. apply (f_equal enc_keys) in H. apply I; [apply G|apply G'|exact H].
  - rewrite !(dec_new_ok _ _ _ _ _ R S1) in H by assumption. apply ret_inj in H. apply (f_equal dec_keys) in H. cbn [dec_keys] in H.
    pose proof (b_swap_good (s_imc s) k _ (so_imc _ S1) G) as B. pose proof (b_swap_good (s_imc s) k _ (so_imc _ S1) G') as B'. apply I in H; [|apply B|apply B'].
    clear - H G G' Im. set (a := s_keys s k key) in *. set (b := s_keys s k key') in *. clearbody a b.
    apply (nth_ext _ _ [] []); [now rewrite (proj1 G), (proj1 G')|]. intros n Hn. rewrite (proj1 G) in Hn.
    destruct (Nat.eq_dec n 0) as [->|N0]; [rewrite <- (swap_last (s_imc s) k a G), <- (swap_last (s_imc s) k b G'), H; reflexivity|].
    destruct (Nat.eq_dec n (nr_of k)) as [->|N1].
    + assert (Z : forall rks, good_keys k rks -> nth 0 (b_swap (s_imc s) rks) [] = nth (nr_of k) rks []).
      { intros rks [L _]. unfold b_swap. cbv zeta. rewrite L. replace (nr_of k + 1)%nat with (S (nr_of k)) by lia. cbn [seq map nth Nat.eqb orb]. f_equal. lia. }
      rewrite <- (Z a G), <- (Z b G'), H. reflexivity.
    + apply Im; [apply (good_nth k); [assumption|lia]|apply (good_nth k); [assumption|lia]|].
      pose proof (swap_mid (s_imc s) k a (nr_of k - n) G ltac:(lia)) as A1. pose proof (swap_mid (s_imc s) k b (nr_of k - n) G' ltac:(lia)) as A2.
      replace (nr_of k - (nr_of k - n))%nat with n in A1, A2 by lia. rewrite <- A1, <- A2, H. reflexivity.
Qed.
Print Assumptions C35_distinct_keys_distinct_objects.
Example C35_distinct_keys_distinct_objects_case : forall c k, In c samples -> exists i, impl_of c = Some i /\
  enc_new i k (fips_key k) <> enc_new i k (repeat 0 (key_len k)) /\ dec_new i k (fips_key k) <> dec_new i k (repeat 0 (key_len k)).
Proof.
  intros c k H. assert (O : rustc_ok c = true) by (clear - H; repeat destruct H as [<-|H]; try reflexivity; destruct H).
  destruct (sample_impl c H) as [i E]. exists i. split; [assumption|]. apply (C35_distinct_keys_distinct_objects c i k _ _ O E); auto with cases.
  - destruct k; vm_compute; repeat constructor.
  - destruct k; vm_compute; discriminate.
Qed.

(** ** C24 in every configuration: the printed encryption object gives the key away *)
Lemma prefix_with first k key : is_bytes (key_len k) key ->
  firstn (key_len k) (nth 0 (round_keys_with first k key) [] ++ nth 1 (round_keys_with first k key) [])%list = key.
Proof.
  intros B. rewrite !rks_nth by (destruct k; cbn; lia). unfold xrk. rewrite <- concat_app, <- map_app.
  assert (Sq : (seq (4 * 0) 4 ++ seq (4 * 1) 4 = seq 0 (nk_of k) ++ seq (nk_of k) (8 - nk_of k))%list) by (destruct k; reflexivity).
  rewrite Sq, map_app, concat_app.
  assert (Wk : map (XW first (nk_of k) key) (seq 0 (nk_of k)) = chunks 4 (nk_of k) key).
  { rewrite <- (map_ext_in (fun i => nth i (chunks 4 (nk_of k) key) [])).
    - pose proof (firstn_seq_nth [] (chunks 4 (nk_of k) key) 0 (nk_of k)) as F. rewrite key_chunks_length in F. specialize (F ltac:(lia)). rewrite <- F.
      cbn [skipn]. rewrite <- (key_chunks_length 4 (nk_of k) key) at 1. apply firstn_all.
    - intros j Hj. apply in_seq in Hj. symmetry. apply XW_key. lia. }
  rewrite Wk, concat_chunks' by apply B. rewrite firstn_app, (proj1 B), Nat.sub_diag, app_nil_r. rewrite <- (proj1 B). apply firstn_all.
Qed.
Theorem C24_encrypter_debug_reveals_key_everywhere : forall c i k key alt width,
  rustc_ok c = true -> impl_of c = Some i -> is_bytes (key_len k) key ->
  exists e t, enc_new i k key = Ret e /\ fmt_debug_enc i k e (FOpts alt width) = Ret t /\ recover_key alt k t = key.
Proof.
  intros c i k key alt w O E Hk. destruct (any_keys c i O E) as (first & f1 & f2 & f4 & s & Hf & S1 & R & Ks & _).
  pose proof (R_d1 _ _ _ _ _ R) as D. pose proof (keys_good _ S1 k key Hk) as G.
  do 2 eexists. split; [apply (enc_new_ok _ _ _ _ _ R); assumption|]. unfold fmt_debug_enc. cbn [enc_keys].
  rewrite (debug_object i f1 D) by (first [apply G | now apply (good_ne k)]). cbn [f_alternate]. split; [reflexivity|].
  unfold recover_key. rewrite !(printed_rk alt _ k) by (assumption || (now destruct k) || (destruct k; cbn; lia)). rewrite Ks. now apply prefix_with.
Qed.
Print Assumptions C24_encrypter_debug_reveals_key_everywhere.
Example C24_encrypter_debug_reveals_key_everywhere_case : forall k, exists i e t, impl_of c_rv32 = Some i /\ enc_new i k (fips_key k) = Ret e /\
  fmt_debug_enc i k e (FOpts true None) = Ret t /\ recover_key true k t = fips_key k.
Proof.
  intros k. destruct (impl_of c_rv32) as [i|] eqn:E; [|discriminate]. exists i.
  destruct (C24_encrypter_debug_reveals_key_everywhere c_rv32 i k (fips_key k) true None eq_refl E (fips_key_ok k)) as (e & t & A & B & D). now exists e, t.
Qed.
