(** C53: what a key object holds and does, in the terms of FIPS 197's equivalent inverse cipher. *)
From Coq Require Import Lia Arith.
From Verif Require Import Word Interface Fips197 Spec_Api Spec_Reach Spec_Cfg Spec_User Spec_Eic Model_Lib Model_Cfg.
From Verif Require Import Proof_Shape Proof_Word Proof_Fips Proof_Ok Proof_Sem Proof_Lib Proof_Reach Proof_Inst Proof_Cipher Proof_Main Proof_LeakEngine Samples.
Open Scope nat_scope.

Lemma sub_shift_inv s : is_bytes 16 s -> inv_shift_rows (inv_sub_bytes s) = inv_sub_bytes (inv_shift_rows s).
Proof. intros [L _]. now apply inv_shift_sub. Qed.
Lemma swap_keys k rks : good_keys k rks -> forall g, b_swap g rks = map (fun r => if (1 <=? r) && (r <=? nr_of k - 1) then g (nth r rks []) else nth r rks []) (rev (seq 0 (nr_of k + 1))).
Proof. intros [L F] g. destruct k; cbn in L; explode L; reflexivity. Qed.
(** ** The algorithm *)
Lemma eq_inv_of_decrypt pre keys k dks x : pre_fips pre -> good_keys k dks -> is_bytes 16 x ->
  b_decrypt (fips_sem pre keys) k dks x = run_eq_inv_cipher (nr_of k) (fun r => nth (nr_of k - r) dks []) x.
Proof.
  intros Hp Hk Hx. unfold b_decrypt, b_run, fips_sem, s_pre1. cbn [s_pre s_dec s_dec_last].
  destruct (good_first k _ Hk) as (F & Ne & Hn). rewrite (b_chain_pre_spec pre spec_dec x _ true) by (assumption || reflexivity).
  rewrite firstn_keys_shape by assumption. unfold b_chain, run_eq_inv_cipher. rewrite Nat.sub_diag, Nat.sub_0_r.
  assert (Hx0 : is_bytes 16 (add_round_key x (nth 0 dks []))) by (apply xor_bytes; [assumption|apply (good_nth k); [assumption|lia]]).
  assert (E0 : map (fun i => nth i dks []) (seq 1 (nr_of k - 1)) = map (fun r => nth (nr_of k - r) dks []) (rev (seq 1 (nr_of k - 1)))) by (destruct k; reflexivity).
  rewrite E0, fold_map'.
  destruct (fold_ext (is_bytes 16) (fun i => 1 <= i <= nr_of k)
    (fun s i => add_round_key (inv_mix_columns (inv_shift_rows (inv_sub_bytes s))) (nth (nr_of k - i) dks [])) (fun s i => spec_dec s (nth (nr_of k - i) dks [])) (rev (seq 1 (nr_of k - 1))))
    with (a := add_round_key x (nth 0 dks [])) as [E B].
  - intros a b Ha Hb. pose proof (good_nth k dks (nr_of k - b) Hk ltac:(lia)). split; [|now apply spec_dec_bop].
    unfold spec_dec. now rewrite sub_shift_inv.
  - apply Forall_forall. intros j Hj. apply in_rev, in_seq in Hj. lia.
  - assumption.
  - cbv zeta. rewrite E. rewrite sub_shift_inv by assumption. reflexivity.
Qed.
Lemma eic_keys k key : b_swap inv_mix_columns (round_keys k key) = map (eic_round_key k key) (rev (seq 0 (nr_of k + 1))).
Proof.
  assert (L : length (round_keys k key) = nr_of k + 1) by (unfold round_keys; now rewrite map_length, seq_length).
  unfold b_swap. rewrite L. apply (nth_ext _ _ [] []); [now rewrite !map_length, rev_length|]. intros j Hj. rewrite map_length, seq_length in Hj.
  assert (D : (1 <=? j) && (j <=? nr_of k - 1) = true \/ j = 0 \/ j = nr_of k) by (destruct (Nat.leb_spec 1 j), (Nat.leb_spec j (nr_of k - 1)); cbn [andb]; lia).
  set (rks := round_keys k key) in *. assert (N : forall r, r <= nr_of k -> nth r rks [] = round_key (key_expansion (nk_of k) (nr_of k) key) r) by (intros; now apply round_keys_nth). clearbody rks.
  assert (ER : forall r, r <= nr_of k -> eic_round_key k key r = if (1 <=? r) && (r <=? nr_of k - 1) then inv_mix_columns (nth r rks []) else nth r rks []) by (intros r Hr; unfold eic_round_key; cbv zeta; now rewrite N).
  f_equal. rewrite (map_ext_in (eic_round_key k key) (fun r => if (1 <=? r) && (r <=? nr_of k - 1) then inv_mix_columns (nth r rks []) else nth r rks [])).
  - clear. destruct k; reflexivity.
  - intros r Hr. apply in_rev, in_seq in Hr. apply ER. lia.
Qed.
Lemma eq_inv_ext nr dk dk' x : (forall r, r <= nr -> dk r = dk' r) -> run_eq_inv_cipher nr dk x = run_eq_inv_cipher nr dk' x.
Proof.
  intros H. unfold run_eq_inv_cipher. rewrite !H by lia. cbv zeta. do 3 f_equal.
  assert (F : Forall (fun i => i <= nr) (rev (seq 1 (nr - 1)))) by (apply Forall_forall; intros j Hj; apply in_rev, in_seq in Hj; lia).
  generalize (add_round_key x (dk' nr)). induction F; intros a; [reflexivity|]. cbn [fold_left]. rewrite H by assumption. apply IHF.
Qed.
Lemma nth_rounds k (f : nat -> list N) r : r <= nr_of k -> nth (nr_of k - r) (map f (rev (seq 0 (nr_of k + 1)))) [] = f r.
Proof.
  intros H. rewrite (nth_indep _ [] (f 0)) by (rewrite map_length, rev_length, seq_length; lia). rewrite map_nth. f_equal.
  rewrite rev_nth by (rewrite seq_length; lia). rewrite seq_length, seq_nth by lia. lia.
Qed.
(** FIPS 197's own claim: the equivalent inverse cipher with its key schedule is the inverse cipher. *)
Theorem C53_equivalent_inverse_cipher : forall k key ct, is_bytes (key_len k) key -> is_bytes 16 ct ->
  run_eq_inv_cipher (nr_of k) (eic_round_key k key) ct = aes_decrypt k key ct.
Proof.
  intros k key ct Hk Hc. rewrite <- (b_decrypt_fips None round_keys k key ct) by (assumption || now left).
  rewrite eq_inv_of_decrypt; [|now left| |assumption].
  - symmetry. apply eq_inv_ext. intros r Hr. rewrite eic_keys. now apply nth_rounds.
  - apply b_swap_good; [apply inv_mix_columns_bytes|now apply round_keys_good].
Qed.
Print Assumptions C53_equivalent_inverse_cipher.
(** An [Aes*Dec] made from a key, either way, holds exactly the round keys of KEYEXPANSIONEIC, last one first. *)
Theorem C53_decrypter_holds_eic_keys : forall c i k key, impl_of c = Some i -> conforming c = true -> is_bytes (key_len k) key ->
  exists d, dec_new i k key = Ret d /\ (e <- enc_new i k key ;; decrypter i k e) = Ret d /\
    Forall2 (shows (i_ops1 i)) (dec_keys d) (map (eic_round_key k key) (rev (seq 0 (nr_of k + 1)))).
Proof.
  intros c i k key E C Hk. destruct (inst c i E (conforming_rv c C)) as (pre & keys & f1 & f2 & f4 & Hpre & K & S1 & R). rewrite (K C) in *.
  pose proof (round_keys_good k key Hk) as G. eexists. split; [apply (dec_new_ok _ _ _ _ _ R S1); assumption|]. split.
  - rewrite (enc_new_ok _ _ _ _ _ R) by assumption. cbn [bind fips_sem s_keys]. rewrite (decrypter_ok _ _ _ _ _ R) by assumption. reflexivity.
  - cbn [fips_sem s_keys s_imc dec_keys]. rewrite <- eic_keys. pose proof (b_swap_good inv_mix_columns k _ inv_mix_columns_bytes G) as [_ F]. induction F; [constructor|]. cbn [map]. constructor; [|assumption].
    apply (to_bytes_ok _ 16); [apply R|assumption].
Qed.
Print Assumptions C53_decrypter_holds_eic_keys.
(** Any key object a program can hold runs FIPS 197's algorithms on the round keys it holds, on every build but RV32's (also on the big-endian
    constant-time build, whose round keys are other ones). *)
Theorem C53_objects_run_the_keys_they_hold : forall c i k x a, impl_of c = Some i -> rv32_zk c = false -> reach1 i x -> shows (i_ops1 i) x a ->
  (forall e rks, reachE i k e -> Forall2 (shows (i_ops1 i)) (enc_keys e) rks ->
     length rks = nr_of k + 1 /\
     exists y, encrypt_block i k e x = Ret y /\ shows (i_ops1 i) y (run_cipher (nr_of k) (fun r => nth r rks []) a)) /\
  (forall d dks, reachD i k d -> Forall2 (shows (i_ops1 i)) (dec_keys d) dks ->
     length dks = nr_of k + 1 /\
     exists y, decrypt_block i k d x = Ret y /\ shows (i_ops1 i) y (run_eq_inv_cipher (nr_of k) (fun r => nth (nr_of k - r) dks []) a)).
Proof.
  intros c i k x a E C Hx Sx. destruct (inst c i E C) as (pre & keys & f1 & f2 & f4 & Hpre & K & S1 & R).
  assert (D1 : data_ok (i_ops1 i) 16 f1) by apply R.
  assert (U : forall rks l, Forall (is_bytes 16) rks -> Forall2 (shows (i_ops1 i)) (map f1 rks) l -> l = rks).
  { intros rks l F. revert l. induction F as [|b rks B F IH]; intros l H; cbn [map] in H; inversion H as [|? y ? l' H1 H2 E1 E2]; [reflexivity|]. f_equal; [|now apply IH]. now apply (proj1 (shows_f _ _ _ _ _ D1 B)). }
  unreach R S1. unshow D1. split.
  - intros e rks He Hs. unreach R S1. cbn [enc_keys] in Hs. apply U in Hs; [|apply G]. subst rks. rename rks0 into rks. split; [apply G|]. eexists. split; [apply (encrypt_block_ok _ _ _ _ _ R S1); assumption|].
    rewrite b_encrypt_cipher by assumption. apply (to_bytes_ok _ 16); [exact D1|]. change (g_cipher (nr_of k) (fun i => nth i rks []) b) with (run_cipher (nr_of k) (fun r => nth r rks []) b).
    change (run_cipher (nr_of k) (fun r => nth r rks []) b) with (g_cipher (nr_of k) (fun i => nth i rks []) b). rewrite <- (b_encrypt_cipher pre keys) by assumption. apply b_run_bytes; try assumption; try apply S1. now apply s_pre1_ok.
  - intros d dks Hd Hs. unreach R S1. cbn [dec_keys] in Hs. apply U in Hs; [|apply G]. subst dks. split; [apply G|]. eexists. split; [apply (decrypt_block_ok _ _ _ _ _ R S1); assumption|].
    rewrite eq_inv_of_decrypt by assumption. apply (to_bytes_ok _ 16); [exact D1|]. rewrite <- (eq_inv_of_decrypt pre keys) by assumption. apply b_run_bytes; try assumption; try apply S1. now apply s_pre1_ok.
Qed.
Print Assumptions C53_objects_run_the_keys_they_hold.
(** the FIPS-197 keys: the algorithms under the standard's round keys are the standard's ciphers, on all sample builds *)
Example C53_eic_case : forall c k, In c conforming_samples -> exists i d, impl_of c = Some i /\ dec_new i k (fips_key k) = Ret d /\
  Forall2 (shows (i_ops1 i)) (dec_keys d) (map (eic_round_key k (fips_key k)) (rev (seq 0 (nr_of k + 1)))).
Proof.
  intros c k H. destruct (sample_impl c) as [i E]; [apply in_app_iff; now left|].
  destruct (C53_decrypter_holds_eic_keys c i k (fips_key k) E (sample_conforming c H) (fips_key_ok k)) as (d & A & _ & B). now exists i, d.
Qed.
Example C53_objects_case : forall c k, In c fips_samples -> with_values c k (fun i u => forall a rks, shows (i_ops1 i) (u_x u) a -> Forall2 (shows (i_ops1 i)) (enc_keys (u_enc u)) rks ->
  exists y, encrypt_block i k (u_enc u) (u_x u) = Ret y /\ shows (i_ops1 i) y (run_cipher (nr_of k) (fun r => nth r rks []) a)).
Proof. intros c k H. apply case_fips; [exact H|]. intros i u E C a rks Sa Sr. destruct (C53_objects_run_the_keys_they_hold c i k (u_x u) a E C) as [Q _]; auto with cases. now apply Q; auto with cases. Qed.
(** the first of the round keys of FIPS 197's AES-128 example, for the decrypter: the last one of the schedule, then the one before it transformed *)
Example C53_vector : eic_round_key K128 (fips_key K128) 10 = [0x13; 0x11; 0x1d; 0x7f; 0xe3; 0x94; 0x4a; 0x17; 0xf3; 0x07; 0xa7; 0x8b; 0x4d; 0x2b; 0x30; 0xc5]%N /\
  eic_round_key K128 (fips_key K128) 9 = [0x13; 0xaa; 0x29; 0xbe; 0x9c; 0x8f; 0xaf; 0xf6; 0xf7; 0x70; 0xf5; 0x80; 0x00; 0xf7; 0xbf; 0x03]%N.
Proof. split; vm_compute; reflexivity. Qed.
