(** C47: AES assembled by the user from single rounds. *)
From Coq Require Import Lia Arith.
From Verif Require Import Word Interface Fips197 Spec_Api Spec_Reach Spec_Cfg Spec_User Spec_Assemble Model_Lib Model_Cfg.
From Verif Require Import Proof_Shape Proof_Word Proof_Fips Proof_Ok Proof_KeySpec Proof_Sem Proof_Lib Proof_Reach Proof_Inst Proof_Cipher Proof_Main.
From Verif Require Import Samples Props_Rounds Props_Batch.
Open Scope N_scope.

(** ** The schedule *)
Lemma four_columns w : is_bytes 4 w -> firstn 4 (spec_enc_last (w ++ w ++ w ++ w) (repeat 0 16)) = sub_word w.
Proof.
  intros [L F]. destruct w as [|a [|b [|c [|d [|]]]]]; try discriminate L. clear.
  unfold spec_enc_last, add_round_key, sub_bytes, shift_rows, mk_state, sub_word. cbn [map seq app st nth Nat.add Nat.mul Nat.modulo Nat.div Nat.divmod fst snd Nat.sub repeat map2 firstn].
  now rewrite !N.lxor_0_r.
Qed.
Lemma sub_word_by_round_ok c i w : impl_of c = Some i -> is_bytes 4 w -> sub_word_by_round i w = Ret (sub_word w).
Proof.
  intros E Hw. destruct (inst_any c i E) as (s & f1 & f2 & f4 & E1 & E2 & S1 & R). pose proof (R_d1 _ _ _ _ _ R) as D.
  assert (Hb : is_bytes 16 (w ++ w ++ w ++ w)) by (repeat apply (is_bytes_app 4); assumption).
  assert (Hz : is_bytes 16 (repeat 0 16)) by (apply is_bytesb_correct; vm_compute; reflexivity).
  unfold sub_word_by_round. rewrite (dk_from _ _ _ D) by assumption. cbn [bind].
  rewrite (dk_zero _ _ _ D). rewrite (ln1 _ f1 (s_enc_last s)) by (try assumption; apply R).
  rewrite (to_bytes_ok _ 16) by (try assumption; now apply S1). cbn [bind]. rewrite E2. now rewrite four_columns.
Qed.
Lemma nth_word l j : Forall (is_bytes 4) l -> (j < length l)%nat -> is_bytes 4 (nth j l []).
Proof. intros F H. now apply (Forall_nth' (is_bytes 4)). Qed.
Lemma assembled_step_ok c i nk w j : impl_of c = Some i -> (0 < nk)%nat -> Forall (is_bytes 4) w -> length w = j -> (nk <= j)%nat ->
  assembled_step i nk w j = Ret (expand_step nk w j).
Proof.
  intros E Hn F L Hj. unfold assembled_step, expand_step. cbv zeta.
  assert (T : is_bytes 4 (nth (j - 1) w [])) by (apply nth_word; [assumption|lia]).
  destruct (Nat.eqb _ 0).
  - rewrite (sub_word_by_round_ok c) by (try assumption; now apply rot_word_bytes). reflexivity.
  - destruct (_ && _)%bool; [|reflexivity]. rewrite (sub_word_by_round_ok c) by assumption. reflexivity.
Qed.
Lemma expand_step_bytes nk w j : (0 < nk)%nat -> Forall (is_bytes 4) w -> length w = j -> (nk <= j)%nat -> Forall (is_bytes 4) (expand_step nk w j) /\ length (expand_step nk w j) = S j.
Proof.
  intros Hn F L Hj. rewrite expand_step_eq. split; [|rewrite app_length; cbn; lia]. apply Forall_app. split; [assumption|]. constructor; [|constructor].
  apply xor_word_bytes; [apply nth_word; [assumption|lia]|]. apply tmp_word_bytes, nth_word; [assumption|lia].
Qed.
Lemma assembled_fold c i nk n : impl_of c = Some i -> (0 < nk)%nat -> forall j w, Forall (is_bytes 4) w -> length w = j -> (nk <= j)%nat ->
  ofold (assembled_step i nk) (seq j n) w = Ret (fold_left (expand_step nk) (seq j n) w).
Proof.
  intros E Hn. induction n as [|n IH]; intros j w F L Hj; [reflexivity|]. cbn [seq ofold fold_left].
  rewrite (assembled_step_ok c) by assumption. cbn [bind]. destruct (expand_step_bytes nk w j Hn F L Hj). apply IH; [assumption|assumption|lia].
Qed.

(** Every build: the schedule a user computes with [enc_last] as S-box is FIPS-197's. *)
Theorem C47_schedule_from_rounds : forall c i k key,
  impl_of c = Some i -> is_bytes (key_len k) key ->
  assembled_schedule i k key = Ret (key_expansion (nk_of k) (nr_of k) key).
Proof.
  intros c i k key E H. unfold assembled_schedule, key_expansion. apply (assembled_fold c); [assumption| | | |lia].
  - destruct k; cbn; lia.
  - now apply key_words.
  - apply key_chunks_length.
Qed.
Print Assumptions C47_schedule_from_rounds.

(** ** The cipher *)
Section Width.
  Context {T : Type} (o : ops T) (m : nat) (f : list N -> T) (D : data_ok o (16 * m) f).
  Lemma spread_ok rk : is_bytes 16 rk -> spread o m rk = Ret (f (bcast m rk)).
  Proof. intros H. unfold spread. apply (dk_from _ _ _ D). now apply bcast_bytes. Qed.
  Lemma rounds_fold (op : T -> T -> T) (g : bop) (key : nat -> outcome (list N)) (rk : nat -> list N) (P : nat -> Prop) :
    bop_ok g -> lane_ok op m f g -> (forall r, P r -> key r = Ret (rk r) /\ is_bytes 16 (rk r)) ->
    forall l, Forall P l -> forall ls, Forall (is_bytes 16) ls -> length ls = m ->
    ofold (fun s r => q <- key r ;; kr <- spread o m q ;; Ret (op s kr)) l (f (concat ls)) =
      Ret (f (concat (map (fun y => fold_left (fun s r => g s (rk r)) l y) ls))) /\
    Forall (is_bytes 16) (map (fun y => fold_left (fun s r => g s (rk r)) l y) ls).
  Proof.
    intros Hg Ho Hk l. induction l as [|r l IH]; intros Hl ls Hls Hm.
    - cbn [ofold fold_left]. rewrite map_id. split; [reflexivity|assumption].
    - apply Forall_cons_iff in Hl as [P0 P1]. cbn [ofold]. destruct (Hk r) as [-> B]; [assumption|]. cbn [bind]. rewrite spread_ok by assumption. cbn [bind].
      assert (X : op (f (concat ls)) (f (bcast m (rk r))) = f (concat (map (fun y => g y (rk r)) ls))).
      { rewrite (Ho _ _); [|rewrite <- Hm; now apply concat_bytes|now apply bcast_bytes]. now rewrite on_lanes_bcast. }
      rewrite X. destruct (IH P1 (map (fun y => g y (rk r)) ls)) as [A B']; [now apply Forall_map_bytes|now rewrite map_length|].
      rewrite map_map in A, B'. rewrite A. split; [reflexivity|exact B'].
  Qed.
  Lemma ofold_ext {A S} (g h : S -> A -> outcome S) l : (forall s a, g s a = h s a) -> forall s, ofold g l s = ofold h l s.
  Proof. intros H. induction l; intros s; [reflexivity|]. cbn [ofold]. rewrite H. destruct (h s a); cbn [bind]; auto. Qed.
  (** one whole run: xor, a list of rounds, the last round *)
  Lemma run_ok (op opl : T -> T -> T) (g gl : bop) (key : nat -> outcome (list N)) (rk : nat -> list N) (P : nat -> Prop) k0 kl l b :
    bop_ok g -> bop_ok gl -> lane_ok op m f g -> lane_ok opl m f gl -> (forall r, P r -> key r = Ret (rk r) /\ is_bytes 16 (rk r)) -> Forall P l ->
    is_bytes 16 k0 -> is_bytes 16 kl -> is_bytes (16 * m) b ->
    (x <- o_from o b ;; k0' <- spread o m k0 ;; s <- ofold (fun s r => q <- key r ;; kr <- spread o m q ;; Ret (op s kr)) l (o_xor o x k0') ;;
     kl' <- spread o m kl ;; to_bytes o (opl s kl')) =
    Ret (each_block (fun y => gl (fold_left (fun s r => g s (rk r)) l (map2 N.lxor y k0)) kl) b).
  Proof.
    intros Hg Hgl Ho Hol Hk Hl H0 H1 Hb. rewrite (dk_from _ _ _ D) by assumption. cbn [bind]. rewrite !spread_ok by assumption. cbn [bind].
    rewrite (dk_xor _ _ _ D) by (try assumption; now apply bcast_bytes).
    pose proof (lanes_bytes m b Hb) as F. pose proof (lanes_length m b) as L.
    rewrite <- (concat_lanes m b) by apply Hb. rewrite xor_bcast by assumption.
    set (ls := map (fun y => map2 N.lxor y k0) (lanes m b)).
    assert (Fl : Forall (is_bytes 16) ls) by (apply Forall_map_bytes; auto using xor_bop).
    assert (Ll : length ls = m) by (unfold ls; now rewrite map_length).
    destruct (rounds_fold op g key rk P Hg Ho Hk l Hl ls Fl Ll) as [A B]. rewrite A. cbn [bind].
    set (ls' := map _ ls) in *. assert (Ll' : length ls' = m) by (unfold ls'; now rewrite map_length).
    assert (X : opl (f (concat ls')) (f (bcast m kl)) = f (concat (map (fun y => gl y kl) ls'))).
    { rewrite (Hol _ _); [|rewrite <- Ll'; now apply concat_bytes|now apply bcast_bytes]. now rewrite on_lanes_bcast. }
    rewrite X, (to_bytes_ok _ (16 * m)); [|assumption|].
    - f_equal. rewrite (each_block_lanes _ m) by (rewrite concat_lanes; apply Hb). rewrite concat_lanes by apply Hb.
      f_equal. unfold ls', ls. now rewrite !map_map.
    - assert (Y : Forall (is_bytes 16) (map (fun y => gl y kl) ls')) by now apply Forall_map_bytes.
      pose proof (concat_bytes _ Y) as Z. rewrite map_length, Ll' in Z. exact Z.
  Qed.
End Width.

Lemma schedule_key_bytes k key r : is_bytes (key_len k) key -> (r <= nr_of k)%nat -> is_bytes 16 (round_key (key_expansion (nk_of k) (nr_of k) key) r).
Proof. intros H Hr. rewrite <- round_keys_nth by assumption. apply (good_nth k); [now apply round_keys_good|assumption]. Qed.

Lemma middle_le nr : Forall (fun r => (r <= nr)%nat) (seq 1 (nr - 1)).
Proof. apply Forall_forall. intros j Hj. apply in_seq in Hj. lia. Qed.
Lemma middle_le_rev nr : Forall (fun r => (r <= nr)%nat) (rev (seq 1 (nr - 1))).
Proof. apply Forall_forall. intros j Hj. apply in_rev, in_seq in Hj. lia. Qed.

Lemma spec_rounds_cipher k rk y : (forall r, (r <= nr_of k)%nat -> is_bytes 16 (rk r)) -> is_bytes 16 y ->
  spec_enc_last (fold_left (fun s r => spec_enc s (rk r)) (seq 1 (nr_of k - 1)) (map2 N.lxor y (rk 0%nat))) (rk (nr_of k)) = g_cipher (nr_of k) rk y.
Proof.
  intros Hk Hy. unfold g_cipher. cbv zeta.
  destruct (fold_ext (is_bytes 16) (fun i => (i <= nr_of k)%nat)
    (fun s i => add_round_key (mix_columns (shift_rows (sub_bytes s))) (rk i)) (fun s i => spec_enc s (rk i)) (seq 1 (nr_of k - 1)))
    with (a := add_round_key y (rk 0%nat)) as [E B].
  - intros a b Ha Hb. split; [now apply spec_enc_shift|]. apply spec_enc_bop; auto.
  - apply middle_le.
  - apply xor_bytes; [assumption|apply Hk; lia].
  - rewrite E, spec_enc_last_shift by assumption. reflexivity.
Qed.
Lemma spec_rounds_inv_cipher k rk y : (forall r, (r <= nr_of k)%nat -> is_bytes 16 (rk r)) -> is_bytes 16 y ->
  spec_dec_last (fold_left (fun s r => spec_dec s (inv_mix_columns (rk r))) (rev (seq 1 (nr_of k - 1))) (map2 N.lxor y (rk (nr_of k)))) (rk 0%nat) = g_inv_cipher (nr_of k) rk y.
Proof.
  intros Hk Hy. unfold g_inv_cipher. cbv zeta.
  destruct (fold_ext (is_bytes 16) (fun i => (i <= nr_of k)%nat)
    (fun s i => inv_mix_columns (add_round_key (inv_sub_bytes (inv_shift_rows s)) (rk i))) (fun s i => spec_dec s (inv_mix_columns (rk i))) (rev (seq 1 (nr_of k - 1))))
    with (a := add_round_key y (rk (nr_of k))) as [E B].
  - intros a b Ha Hb. pose proof (Hk b Hb). split.
    + unfold spec_dec. apply inv_mix_ark; [|assumption]. now apply inv_sub_bytes_bytes, inv_shift_rows_bytes.
    + apply spec_dec_bop; [assumption|now apply inv_mix_columns_bytes].
  - apply middle_le_rev.
  - apply xor_bytes; [assumption|apply Hk; lia].
  - rewrite E. reflexivity.
Qed.

(** Every build that compiles, RV32 and big-endian constant-time included. *)
Theorem C47_encryption_from_rounds : forall c i k key gs msg,
  impl_of c = Some i -> is_bytes (key_len k) key -> is_bytes (groups_len gs) msg ->
  assembled_encrypt_message i k key gs msg = Ret (each_block (aes_encrypt k key) msg).
Proof.
  intros c i k key gs msg E Hk Hm. unfold assembled_encrypt_message. rewrite (C47_schedule_from_rounds c) by assumption. cbn [bind].
  destruct (inst_any c i E) as (s & f1 & f2 & f4 & E1 & E2 & S1 & R).
  set (rk := round_key (key_expansion (nk_of k) (nr_of k) key)).
  assert (Hr : forall r, (r <= nr_of k)%nat -> is_bytes 16 (rk r)) by (intros; now apply schedule_key_bytes).
  assert (W : forall T (o : ops T) m f b, data_ok o (16 * m) f -> rounds_ok o m f s -> is_bytes (16 * m) b ->
    assembled_encrypt o m (nr_of k) rk b = Ret (each_block (aes_encrypt k key) b)).
  { intros T o m f b D RO Hb. unfold assembled_encrypt.
    rewrite (run_ok o m f D (o_enc o) (o_enc_last o) spec_enc spec_enc_last (fun r => Ret (rk r)) rk (fun r => (r <= nr_of k)%nat)); try assumption.
    - f_equal. apply (each_block_ext _ _ m); [|assumption]. intros y Hy. cbv beta. now rewrite spec_rounds_cipher.
    - apply spec_enc_bop.
    - apply spec_enc_last_bop.
    - rewrite <- E1. apply RO.
    - rewrite <- E2. apply RO.
    - intros r Hle. split; [reflexivity|auto].
    - apply middle_le.
    - apply Hr. lia.
    - apply Hr. lia. }
  apply by_groups_ok; [intros x Hx; now apply aes_encrypt_bytes| |assumption].
  intros g b Hb. fold rk in W. destruct g; cbn [group_len] in Hb; unfold assembled_group.
  - apply (W _ _ 1%nat f1); [apply R|apply R|exact Hb].
  - apply (W _ _ 2%nat f2); [apply R|apply R|exact Hb].
  - apply (W _ _ 4%nat f4); [apply R|apply R|exact Hb].
Qed.
Print Assumptions C47_encryption_from_rounds.

(** Every build except RV32 with Zkne and Zknd. *)
Theorem C47_decryption_from_rounds : forall c i k key gs msg,
  impl_of c = Some i -> rv32_zk c = false -> is_bytes (key_len k) key -> is_bytes (groups_len gs) msg ->
  assembled_decrypt_message i k key gs msg = Ret (each_block (aes_decrypt k key) msg).
Proof.
  intros c i k key gs msg E C Hk Hm. unfold assembled_decrypt_message. rewrite (C47_schedule_from_rounds c) by assumption. cbn [bind].
  destruct (inst c i E C) as (pre & keys & f1 & f2 & f4 & Hpre & K & S1 & R).
  set (rk := round_key (key_expansion (nk_of k) (nr_of k) key)).
  assert (Hr : forall r, (r <= nr_of k)%nat -> is_bytes 16 (rk r)) by (intros; now apply schedule_key_bytes).
  assert (W : forall T (o : ops T) m f b, data_ok o (16 * m) f -> rounds_ok o m f (fips_sem pre keys) -> is_bytes (16 * m) b ->
    assembled_decrypt i o m (nr_of k) rk b = Ret (each_block (aes_decrypt k key) b)).
  { intros T o m f b D RO Hb. unfold assembled_decrypt.
    rewrite (run_ok o m f D (o_dec o) (o_dec_last o) spec_dec spec_dec_last (fun r => imc_bytes i (rk r)) (fun r => inv_mix_columns (rk r)) (fun r => (r <= nr_of k)%nat)); try assumption.
    - f_equal. apply (each_block_ext _ _ m); [|assumption]. intros y Hy. cbv beta. now rewrite spec_rounds_inv_cipher.
    - apply spec_dec_bop.
    - apply spec_dec_last_bop.
    - apply RO.
    - apply RO.
    - intros r Hle. pose proof (Hr r Hle) as B. split; [|now apply inv_mix_columns_bytes]. unfold imc_bytes, op1_bytes.
      rewrite (dk_from _ _ _ (R_d1 _ _ _ _ _ R)) by assumption. cbn [bind]. rewrite (R_imc _ _ _ _ _ R) by assumption.
      apply (to_bytes_ok _ 16); [apply R|now apply inv_mix_columns_bytes].
    - apply middle_le_rev.
    - apply Hr. lia.
    - apply Hr. lia. }
  apply by_groups_ok; [intros x Hx; now apply aes_decrypt_bytes| |assumption].
  intros g b Hb. fold rk in W. destruct g; cbn [group_len] in Hb; unfold assembled_group.
  - apply (W _ _ 1%nat f1); [apply R|apply R|exact Hb].
  - apply (W _ _ 2%nat f2); [apply R|apply R|exact Hb].
  - apply (W _ _ 4%nat f4); [apply R|apply R|exact Hb].
Qed.
Print Assumptions C47_decryption_from_rounds.

(** ** One block through the chains *)
Lemma load_keys_ok i f1 ks : data_ok (i_ops1 i) 16 f1 -> Forall (is_bytes 16) ks -> load_keys i ks = Ret (map f1 ks).
Proof. intros D. induction 1 as [|k ks H _ IH]; [reflexivity|]. cbn [load_keys map]. rewrite (dk_from _ _ _ D) by assumption. cbn [bind]. rewrite IH. reflexivity. Qed.
Lemma fold_f1 {T} (op : T -> T -> T) (f : list N -> T) (g : bop) l : bop_ok g -> lane_ok op 1 f g -> Forall (is_bytes 16) l -> forall y, is_bytes 16 y ->
  fold_left op (map f l) (f y) = f (fold_left g l y) /\ is_bytes 16 (fold_left g l y).
Proof.
  intros Hg Ho. induction 1 as [|k l Hk _ IH]; intros y Hy; [split; [reflexivity|assumption]|]. cbn [map fold_left].
  rewrite (ln1 op f g) by assumption. apply IH. now apply Hg.
Qed.

(** Every build except RV32 with Zkne and Zknd: the documented chains with [Nr] keys, then one last round. *)
Theorem C47_chains_with_own_schedule : forall c i k key b,
  impl_of c = Some i -> rv32_zk c = false -> is_bytes (key_len k) key -> is_bytes 16 b ->
  chained_encrypt_block i k key b = Ret (aes_encrypt k key b) /\
  chained_decrypt_block i k key b = Ret (aes_decrypt k key b).
Proof.
  intros c i k key b E C Hk Hb. unfold chained_encrypt_block, chained_decrypt_block. rewrite (C47_schedule_from_rounds c) by assumption. cbn [bind].
  destruct (inst c i E C) as (pre & keys & f1 & f2 & f4 & Hpre & K & S1 & R). pose proof (R_d1 _ _ _ _ _ R) as D.
  set (rk := round_key (key_expansion (nk_of k) (nr_of k) key)).
  assert (Hr : forall r, (r <= nr_of k)%nat -> is_bytes 16 (rk r)) by (intros; now apply schedule_key_bytes).
  assert (HF : forall l, Forall (fun r => (r <= nr_of k)%nat) l -> Forall (is_bytes 16) (map rk l)).
  { intros l H. apply Forall_forall. intros z Hz. apply in_map_iff in Hz as (r & <- & Hi). rewrite Forall_forall in H. auto. }
  assert (RF : forall l, Forall (is_bytes 16) l -> Forall (reach1 i) (map f1 l)).
  { intros l H. apply Forall_forall. intros z Hz. apply in_map_iff in Hz as (r & <- & Hi). rewrite Forall_forall in H. apply (img_reach1 _ _ _ _ _ R). auto. }
  destruct (C12_chains_are_documented c i E C) as (CH & _).
  assert (N1 : (1 <= nr_of k)%nat) by (destruct k; cbn; lia).
  split.
  - unfold chained_encrypt. rewrite (dk_from _ _ _ D) by assumption. cbn [bind].
    assert (Sq : seq 0 (nr_of k) = 0%nat :: seq 1 (nr_of k - 1)) by (destruct k; reflexivity). rewrite Sq. cbn [map].
    assert (F0 : Forall (is_bytes 16) (rk 0%nat :: map rk (seq 1 (nr_of k - 1)))) by (constructor; [apply Hr; lia|apply HF, middle_le]).
    rewrite (load_keys_ok i f1) by assumption. cbn [bind].
    rewrite (proj1 (CH (f1 b) _ ltac:(now apply (img_reach1 _ _ _ _ _ R)) (RF _ F0))). cbn [map documented_chain bind].
    rewrite (dk_xor _ _ _ D) by (try assumption; apply Hr; lia).
    assert (X0 : is_bytes 16 (map2 N.lxor b (rk 0%nat))) by (apply xor_bytes; [assumption|apply Hr; lia]).
    inversion F0 as [|? ? _ F1]; subst.
    destruct (fold_f1 (o_enc (i_ops1 i)) f1 spec_enc (map rk (seq 1 (nr_of k - 1))) spec_enc_bop (ro_enc _ _ _ _ (R_r1 _ _ _ _ _ R)) F1 _ X0) as [A B]. rewrite A.
    assert (Hl : is_bytes 16 (rk (nr_of k))) by (apply Hr; lia).
    rewrite (dk_from _ _ _ D) by assumption. cbn [bind]. rewrite (ln1 _ f1 spec_enc_last) by (try assumption; apply R).
    rewrite (to_bytes_ok _ 16) by (try assumption; now apply spec_enc_last_bop). f_equal. rewrite fold_map'. now rewrite spec_rounds_cipher.
  - unfold chained_decrypt. assert (Hl : is_bytes 16 (rk (nr_of k))) by (apply Hr; lia).
    rewrite !(dk_from _ _ _ D) by assumption. cbn [bind].
    assert (F0 : Forall (is_bytes 16) (map rk (rev (seq 1 (nr_of k - 1))))) by apply HF, middle_le_rev.
    rewrite (load_keys_ok i f1) by assumption. cbn [bind].
    assert (IM : map (e_imc (i_ext i)) (map f1 (map rk (rev (seq 1 (nr_of k - 1))))) = map f1 (map inv_mix_columns (map rk (rev (seq 1 (nr_of k - 1)))))).
    { rewrite !(map_map _ _ (map rk _)). apply map_ext_in. intros z Hz. rewrite Forall_forall in F0. now rewrite (R_imc _ _ _ _ _ R) by auto. }
    rewrite IM.
    assert (F1 : Forall (is_bytes 16) (map inv_mix_columns (map rk (rev (seq 1 (nr_of k - 1)))))).
    { apply Forall_forall. intros z Hz. apply in_map_iff in Hz as (r & <- & Hi). rewrite Forall_forall in F0. apply inv_mix_columns_bytes; auto. }
    change (f1 (rk (nr_of k)) :: map f1 (map inv_mix_columns (map rk (rev (seq 1 (nr_of k - 1)))))) with (map f1 (rk (nr_of k) :: map inv_mix_columns (map rk (rev (seq 1 (nr_of k - 1)))))).
    rewrite (proj2 (CH (f1 b) (map f1 (rk (nr_of k) :: map inv_mix_columns (map rk (rev (seq 1 (nr_of k - 1)))))) ltac:(now apply (img_reach1 _ _ _ _ _ R)) (RF _ (Forall_cons _ Hl F1)))).
    cbn [map documented_chain bind]. rewrite (dk_xor _ _ _ D) by assumption.
    assert (X0 : is_bytes 16 (map2 N.lxor b (rk (nr_of k)))) by (now apply xor_bytes).
    destruct (fold_f1 (o_dec (i_ops1 i)) f1 spec_dec _ spec_dec_bop (ro_dec _ _ _ _ (R_r1 _ _ _ _ _ R)) F1 _ X0) as [A B]. rewrite A.
    assert (H0 : is_bytes 16 (rk 0%nat)) by (apply Hr; lia).
    rewrite (dk_from _ _ _ D) by assumption. cbn [bind]. rewrite (ln1 _ f1 spec_dec_last) by (try assumption; apply R).
    rewrite (to_bytes_ok _ 16) by (try assumption; now apply spec_dec_last_bop). f_equal. rewrite !fold_map'. now rewrite spec_rounds_inv_cipher.
Qed.
Print Assumptions C47_chains_with_own_schedule.

(** On conforming builds the assembled AES and the key objects are interchangeable, whatever the two groupings are. *)
Theorem C47_agrees_with_key_objects : forall c i k key gs gs' msg,
  impl_of c = Some i -> conforming c = true -> is_bytes (key_len k) key ->
  groups_len gs = groups_len gs' -> is_bytes (groups_len gs) msg ->
  assembled_encrypt_message i k key gs msg = encrypt_message i k key gs' msg /\
  assembled_decrypt_message i k key gs msg = decrypt_message i k key gs' msg.
Proof.
  intros c i k key gs gs' msg E C Hk Hg Hm. pose proof Hm as Hm'. rewrite Hg in Hm'.
  destruct (C27_batching_is_fips197 c i k key gs' msg E C Hk Hm') as [-> ->].
  split; [now apply (C47_encryption_from_rounds c)|]. apply (C47_decryption_from_rounds c); try assumption. now apply conforming_rv.
Qed.
Print Assumptions C47_agrees_with_key_objects.

(** ** Cases *)
Example C47_schedule_case : forall c k, In c samples -> exists i, impl_of c = Some i /\
  assembled_schedule i k (fips_key k) = Ret (key_expansion (nk_of k) (nr_of k) (fips_key k)).
Proof. intros c k H. destruct (sample_impl c H) as [i E]. exists i. split; [exact E|]. apply (C47_schedule_from_rounds c); [exact E|apply fips_key_ok]. Qed.
(** the last word of Appendix A.1, in every sample build *)
Example C47_schedule_last_word : forall c, In c samples -> exists i w, impl_of c = Some i /\
  assembled_schedule i K128 [0x2b; 0x7e; 0x15; 0x16; 0x28; 0xae; 0xd2; 0xa6; 0xab; 0xf7; 0x15; 0x88; 0x09; 0xcf; 0x4f; 0x3c] = Ret w /\ nth 43 w [] = [0xb6; 0x63; 0x0c; 0xa6].
Proof.
  intros c H. destruct (sample_impl c H) as [i E]. eexists i, _. split; [exact E|]. split.
  - apply (C47_schedule_from_rounds c); [exact E|]. apply is_bytesb_correct. vm_compute. reflexivity.
  - vm_compute. reflexivity.
Qed.
(** RV32 and big-endian constant-time builds: the key object is wrong, the assembled cipher is right. *)
Example C47_encryption_case : forall c k, In c samples -> exists i, impl_of c = Some i /\
  assembled_encrypt_message i k (fips_key k) [Two; One; Four] (concat (repeat fips_block 7)) = Ret (concat (repeat (fips_ct k) 7)).
Proof.
  intros c k H. destruct (sample_impl c H) as [i E]. exists i. split; [exact E|].
  assert (B : is_bytes (groups_len [Two; One; Four]) (concat (repeat fips_block 7))) by (apply is_bytesb_correct; vm_compute; reflexivity).
  rewrite (C47_encryption_from_rounds c i k _ _ _ E (fips_key_ok k) B). destruct k; vm_compute; reflexivity.
Qed.
Example C47_decryption_case : forall c k, In c fips_samples -> exists i, impl_of c = Some i /\
  assembled_decrypt_message i k (fips_key k) [Two; One; Four] (concat (repeat (fips_ct k) 7)) = Ret (concat (repeat fips_block 7)).
Proof.
  intros c k H. destruct (sample_rv32 c H) as [V H']. destruct (sample_impl c H') as [i E]. exists i. split; [exact E|].
  assert (B : is_bytes (groups_len [Two; One; Four]) (concat (repeat (fips_ct k) 7))) by (apply is_bytesb_correct; destruct k; vm_compute; reflexivity).
  rewrite (C47_decryption_from_rounds c i k _ _ _ E V (fips_key_ok k) B). destruct k; vm_compute; reflexivity.
Qed.
Example C47_chains_case : forall c k, In c fips_samples -> exists i, impl_of c = Some i /\
  chained_encrypt_block i k (fips_key k) fips_block = Ret (fips_ct k) /\ chained_decrypt_block i k (fips_key k) (fips_ct k) = Ret fips_block.
Proof.
  intros c k H. destruct (sample_rv32 c H) as [V H']. destruct (sample_impl c H') as [i E]. exists i. split; [exact E|].
  assert (B : is_bytes 16 (fips_ct k)) by (apply is_bytesb_correct; destruct k; vm_compute; reflexivity).
  destruct (C47_chains_with_own_schedule c i k _ _ E V (fips_key_ok k) fips_block_ok) as [-> _].
  destruct (C47_chains_with_own_schedule c i k _ _ E V (fips_key_ok k) B) as [_ ->].
  split; destruct k; vm_compute; reflexivity.
Qed.
Example C47_agrees_case : forall c k, In c conforming_samples -> exists i, impl_of c = Some i /\
  assembled_encrypt_message i k (fips_key k) [Four; Two] (concat (repeat other_block 6)) = encrypt_message i k (fips_key k) [One; One; Two; Two] (concat (repeat other_block 6)).
Proof.
  intros c k H. destruct (sample_impl c) as [i E]; [apply in_app_iff; now left|]. exists i. split; [exact E|].
  apply (C47_agrees_with_key_objects c); [exact E|now apply sample_conforming|apply fips_key_ok|reflexivity|]. apply is_bytesb_correct. vm_compute. reflexivity.
Qed.
