(** C01, C02, C03, C07, C08, C28: the ciphers, for every configuration, key and block. *)
From Coq Require Import Lia Arith.
From Verif Require Import Word Interface Fips197 Spec_Api Spec_Reach Spec_Cfg Spec_User Model_Lib Model_Cfg.
From Verif Require Import Proof_Word Proof_Fips Proof_Ok Proof_Sem Proof_Lib Proof_Reach Proof_Inst Proof_Cipher Proof_Main.
From Verif Require Import Samples.
Open Scope N_scope.

Section Generic.
Context (i : impl) (f1 : list N -> T1 i) (f2 : list N -> T2 i) (f4 : list N -> T4 i) (pre : option (bop * bop)) (keys : key_size -> list N -> list (list N)).
Context (P : pre_fips pre) (S1 : sem_ok (fips_sem pre keys)) (R : refines i f1 f2 f4 (fips_sem pre keys)).
Notation s := (fips_sem pre keys).

Lemma rt_enc k rks x : good_keys k rks -> is_bytes 16 x ->
  is_bytes 16 (b_encrypt s k rks x) /\ b_decrypt s k (b_swap inv_mix_columns rks) (b_encrypt s k rks x) = x.
Proof.
  intros G B. assert (Hb : is_bytes 16 (b_encrypt s k rks x)).
  { apply b_run_bytes; [apply S1|apply S1|apply (s_pre1_ok s S1 false)|assumption|assumption]. }
  split; [assumption|]. rewrite b_decrypt_cipher by assumption. rewrite b_encrypt_cipher by assumption. now apply inv_cipher_cipher.
Qed.
Lemma rt_dec k rks x : good_keys k rks -> is_bytes 16 x ->
  is_bytes 16 (b_decrypt s k (b_swap inv_mix_columns rks) x) /\ b_encrypt s k rks (b_decrypt s k (b_swap inv_mix_columns rks) x) = x.
Proof.
  intros G B. assert (Hb : is_bytes 16 (b_decrypt s k (b_swap inv_mix_columns rks) x)).
  { apply b_run_bytes; [apply S1|apply S1|apply (s_pre1_ok s S1 true)| |assumption]. apply b_swap_good; [apply inv_mix_columns_bytes|assumption]. }
  split; [assumption|]. rewrite b_encrypt_cipher by assumption. rewrite b_decrypt_cipher by assumption. now apply cipher_inv_cipher.
Qed.
Lemma dkeys_shape k rks : good_keys k rks -> good_keys k (b_swap mix_columns rks) /\ b_swap inv_mix_columns (b_swap mix_columns rks) = rks.
Proof.
  intros G. split; [apply b_swap_good; [apply mix_columns_bytes|assumption]|].
  apply (b_swap_swap mix_columns inv_mix_columns k); [|assumption]. intros. now apply inv_mix_mix.
Qed.
End Generic.

(** ** C01 *)
Theorem C01_encrypt_block_is_fips197 : forall c i k key p,
  impl_of c = Some i -> conforming c = true ->
  is_bytes (key_len k) key -> is_bytes 16 p ->
  encrypt_bytes i k key p = Ret (aes_encrypt k key p).
Proof.
  intros c i k key p E C Hk Hp. destruct (inst c i E (conforming_rv c C)) as (pre & keys & f1 & f2 & f4 & Hpre & K & S1 & R).
  rewrite (K C) in *. unfold encrypt_bytes.
  rewrite (enc_new_ok _ _ _ _ _ R) by assumption. cbn [bind]. rewrite (dk_from _ _ _ (R_d1 _ _ _ _ _ R)) by assumption. cbn [bind].
  pose proof (round_keys_good k key Hk) as G.
  rewrite (encrypt_block_ok _ _ _ _ _ R S1) by assumption. cbn [bind fips_sem s_keys].
  rewrite b_encrypt_fips by assumption. apply (to_bytes_ok _ 16); [apply R|]. now apply aes_encrypt_bytes.
Qed.
Print Assumptions C01_encrypt_block_is_fips197.
Example C01_case : forall c k, In c conforming_samples -> exists i, impl_of c = Some i /\ encrypt_bytes i k (fips_key k) fips_block = Ret (fips_ct k).
Proof.
  intros c k H. destruct (sample_impl c) as [i E]; [apply in_app_iff; now left|]. exists i. split; [exact E|].
  rewrite (C01_encrypt_block_is_fips197 c i k _ _ E (sample_conforming c H)) by auto with cases. destruct k; vm_compute; reflexivity.
Qed.

(** ** C02 *)
Theorem C02_decrypt_block_is_fips197 : forall c i k key ct,
  impl_of c = Some i -> conforming c = true ->
  is_bytes (key_len k) key -> is_bytes 16 ct ->
  decrypt_bytes i k key ct = Ret (aes_decrypt k key ct) /\
  decrypt_bytes_via_enc i k key ct = Ret (aes_decrypt k key ct).
Proof.
  intros c i k key p E C Hk Hp. destruct (inst c i E (conforming_rv c C)) as (pre & keys & f1 & f2 & f4 & Hpre & K & S1 & R).
  rewrite (K C) in *. pose proof (round_keys_good k key Hk) as G.
  assert (X : forall d, d = DecObj (map f1 (b_swap inv_mix_columns (round_keys k key))) ->
    (x <- o_from (i_ops1 i) p;; y <- decrypt_block i k d x;; to_bytes (i_ops1 i) y) = Ret (aes_decrypt k key p)).
  { intros d ->. rewrite (dk_from _ _ _ (R_d1 _ _ _ _ _ R)) by assumption. cbn [bind].
    rewrite (decrypt_block_ok _ _ _ _ _ R S1) by (assumption || (apply b_swap_good; [apply inv_mix_columns_bytes|assumption])). cbn [bind].
    rewrite b_decrypt_fips by assumption. apply (to_bytes_ok _ 16); [apply R|]. now apply aes_decrypt_bytes. }
  split.
  - unfold decrypt_bytes. rewrite (dec_new_ok _ _ _ _ _ R S1) by assumption. now apply X.
  - unfold decrypt_bytes_via_enc. rewrite (enc_new_ok _ _ _ _ _ R) by assumption. cbn [bind].
    rewrite (decrypter_ok _ _ _ _ _ R) by assumption. now apply X.
Qed.
Print Assumptions C02_decrypt_block_is_fips197.
Example C02_case : forall c k, In c conforming_samples -> exists i, impl_of c = Some i /\
  decrypt_bytes i k (fips_key k) (fips_ct k) = Ret fips_block /\ decrypt_bytes_via_enc i k (fips_key k) (fips_ct k) = Ret fips_block.
Proof.
  intros c k H. destruct (sample_impl c) as [i E]; [apply in_app_iff; now left|]. exists i. split; [exact E|].
  assert (B : is_bytes 16 (fips_ct k)) by (destruct k; vm_compute; repeat constructor).
  destruct (C02_decrypt_block_is_fips197 c i k _ _ E (sample_conforming c H) (fips_key_ok k) B) as [-> ->]. destruct k; vm_compute; split; reflexivity.
Qed.

(** ** C03: every configuration but RV32, every reachable key object and block *)
Theorem C03_decrypt_encrypt : forall c i k e x,
  impl_of c = Some i -> rv32_zk c = false ->
  reachE i k e -> reach1 i x ->
  exists d y, decrypter i k e = Ret d /\ encrypt_block i k e x = Ret y /\ decrypt_block i k d y = Ret x.
Proof.
  intros c i k e x E C He Hx. destruct (inst c i E C) as (pre & keys & f1 & f2 & f4 & Hpre & K & S1 & R). unreach R S1.
  destruct (rt_enc pre keys Hpre S1 k rks b G B) as [Bb Eq].
  do 2 eexists. split; [apply (decrypter_ok _ _ _ _ _ R); assumption|]. split; [apply (encrypt_block_ok _ _ _ _ _ R S1); assumption|].
  cbn [fips_sem s_imc]. rewrite (decrypt_block_ok _ _ _ _ _ R S1) by (assumption || (apply b_swap_good; [apply inv_mix_columns_bytes|assumption])).
  now rewrite Eq.
Qed.
Print Assumptions C03_decrypt_encrypt.
Example C03_decrypt_encrypt_case : forall c k, In c fips_samples -> with_values c k (fun i u =>
  exists d y, decrypter i k (u_enc u) = Ret d /\ encrypt_block i k (u_enc u) (u_x u) = Ret y /\ decrypt_block i k d y = Ret (u_x u)).
Proof. intros c k H. apply case_fips; [exact H|]. intros i u E C. apply (C03_decrypt_encrypt c); auto with cases. Qed.
Theorem C03_encrypt_decrypt : forall c i k e x,
  impl_of c = Some i -> rv32_zk c = false ->
  reachE i k e -> reach1 i x ->
  exists d y, decrypter i k e = Ret d /\ decrypt_block i k d x = Ret y /\ encrypt_block i k e y = Ret x.
Proof.
  intros c i k e x E C He Hx. destruct (inst c i E C) as (pre & keys & f1 & f2 & f4 & Hpre & K & S1 & R). unreach R S1.
  destruct (rt_dec pre keys Hpre S1 k rks b G B) as [Bb Eq].
  do 2 eexists. split; [apply (decrypter_ok _ _ _ _ _ R); assumption|]. cbn [fips_sem s_imc].
  split; [apply (decrypt_block_ok _ _ _ _ _ R S1); [apply b_swap_good; [apply inv_mix_columns_bytes|assumption]|assumption]|].
  rewrite (encrypt_block_ok _ _ _ _ _ R S1) by assumption. now rewrite Eq.
Qed.
Print Assumptions C03_encrypt_decrypt.
Example C03_encrypt_decrypt_case : forall c k, In c fips_samples -> with_values c k (fun i u =>
  exists d y, decrypter i k (u_enc u) = Ret d /\ decrypt_block i k d (u_x u) = Ret y /\ encrypt_block i k (u_enc u) y = Ret (u_x u)).
Proof. intros c k H. apply case_fips; [exact H|]. intros i u E C. apply (C03_encrypt_decrypt c); auto with cases. Qed.
(** starting from a decryption object *)
Theorem C03_encrypter_side : forall c i k d x,
  impl_of c = Some i -> rv32_zk c = false ->
  reachD i k d -> reach1 i x ->
  exists e y z, encrypter i k d = Ret e /\
    decrypt_block i k d x = Ret y /\ encrypt_block i k e y = Ret x /\
    encrypt_block i k e x = Ret z /\ decrypt_block i k d z = Ret x.
Proof.
  intros c i k d x E C Hd Hx. destruct (inst c i E C) as (pre & keys & f1 & f2 & f4 & Hpre & K & S1 & R). unreach R S1.
  destruct (dkeys_shape k rks G) as [G' Eq]. set (q := b_swap mix_columns rks) in *. rewrite <- Eq.
  destruct (rt_dec pre keys Hpre S1 k q b G' B) as [B1 Eq1]. destruct (rt_enc pre keys Hpre S1 k q b G' B) as [B2 Eq2].
  assert (Gq : good_keys k (b_swap inv_mix_columns q)) by now rewrite Eq.
  do 3 eexists. split; [rewrite (encrypter_ok _ _ _ _ _ R) by assumption; cbn [fips_sem s_mc]; rewrite Eq; fold q; reflexivity|].
  split; [apply (decrypt_block_ok _ _ _ _ _ R S1); assumption|].
  split; [rewrite (encrypt_block_ok _ _ _ _ _ R S1) by assumption; now rewrite Eq1|].
  split; [apply (encrypt_block_ok _ _ _ _ _ R S1); assumption|].
  rewrite (decrypt_block_ok _ _ _ _ _ R S1) by assumption; now rewrite Eq2.
Qed.
Print Assumptions C03_encrypter_side.
Example C03_encrypter_side_case : forall c k, In c fips_samples -> with_values c k (fun i u =>
  exists e y, encrypter i k (u_dec u) = Ret e /\ decrypt_block i k (u_dec u) (u_x u) = Ret y /\ encrypt_block i k e y = Ret (u_x u)).
Proof. intros c k H. apply case_fips; [exact H|]. intros i u E C. destruct (C03_encrypter_side c i k (u_dec u) (u_x u)) as (e & y & z & A & B & D & _); eauto with cases. Qed.
(** the same on bytes, both objects made from the same key *)
Theorem C03_same_key : forall c i k key p,
  impl_of c = Some i -> rv32_zk c = false ->
  is_bytes (key_len k) key -> is_bytes 16 p ->
  exists ct pt, is_bytes 16 ct /\ encrypt_bytes i k key p = Ret ct /\ decrypt_bytes i k key ct = Ret p /\
    is_bytes 16 pt /\ decrypt_bytes i k key p = Ret pt /\ encrypt_bytes i k key pt = Ret p.
Proof.
  intros c i k key p E C Hk Hp. destruct (inst c i E C) as (pre & keys & f1 & f2 & f4 & Hpre & K & S1 & R).
  pose proof (keys_good _ S1 k key Hk) as G. set (rks := s_keys (fips_sem pre keys) k key) in *.
  assert (Gq : good_keys k (b_swap inv_mix_columns rks)) by (apply b_swap_good; [apply inv_mix_columns_bytes|assumption]).
  assert (HE : forall x, is_bytes 16 x -> encrypt_bytes i k key x = Ret (b_encrypt (fips_sem pre keys) k rks x)).
  { intros x Hx. unfold encrypt_bytes. rewrite (enc_new_ok _ _ _ _ _ R) by assumption. cbn [bind]. rewrite (dk_from _ _ _ (R_d1 _ _ _ _ _ R)) by assumption. cbn [bind].
    fold rks. rewrite (encrypt_block_ok _ _ _ _ _ R S1) by assumption. cbn [bind]. apply (to_bytes_ok _ 16); [apply R|]. now apply rt_enc. }
  assert (HD : forall x, is_bytes 16 x -> decrypt_bytes i k key x = Ret (b_decrypt (fips_sem pre keys) k (b_swap inv_mix_columns rks) x)).
  { intros x Hx. unfold decrypt_bytes. rewrite (dec_new_ok _ _ _ _ _ R S1) by assumption. cbn [bind]. rewrite (dk_from _ _ _ (R_d1 _ _ _ _ _ R)) by assumption. cbn [bind].
    fold rks. cbn [fips_sem s_imc]. rewrite (decrypt_block_ok _ _ _ _ _ R S1) by assumption. cbn [bind]. apply (to_bytes_ok _ 16); [apply R|]. now apply rt_dec. }
  destruct (rt_dec pre keys Hpre S1 k rks p G Hp) as [B1 Eq1]. destruct (rt_enc pre keys Hpre S1 k rks p G Hp) as [B2 Eq2].
  do 2 eexists. split; [exact B2|]. split; [now apply HE|]. split; [rewrite HD by assumption; now rewrite Eq2|].
  split; [exact B1|]. split; [now apply HD|]. rewrite HE by assumption; now rewrite Eq1.
Qed.
Print Assumptions C03_same_key.
Example C03_same_key_case : forall c k, In c fips_samples -> with_values c k (fun i u =>
  exists ct, encrypt_bytes i k (fips_key k) other_block = Ret ct /\ decrypt_bytes i k (fips_key k) ct = Ret other_block).
Proof. intros c k H. apply case_fips; [exact H|]. intros i u E C. destruct (C03_same_key c i k (fips_key k) other_block) as (ct & _ & _ & A & B & _); eauto with cases. Qed.

(** ** C07 *)
Theorem C07_round_keys_are_key_expansion : forall c i k key,
  impl_of c = Some i -> conforming c = true -> is_bytes (key_len k) key ->
  exists e, enc_new i k key = Ret e /\ Forall2 (shows (i_ops1 i)) (enc_keys e) (round_keys k key).
Proof.
  intros c i k key E C Hk. destruct (inst c i E (conforming_rv c C)) as (pre & keys & f1 & f2 & f4 & Hpre & K & S1 & R).
  rewrite (K C) in *. eexists. split; [apply (enc_new_ok _ _ _ _ _ R); assumption|].
  pose proof (round_keys_good k key Hk) as [_ F]. cbn [fips_sem s_keys enc_keys]. induction F; [constructor|]. cbn [map]. constructor; [|assumption].
  apply (to_bytes_ok _ 16); [apply R|assumption].
Qed.
Print Assumptions C07_round_keys_are_key_expansion.
Example C07_case : forall c k, In c conforming_samples -> exists i e, impl_of c = Some i /\ enc_new i k (fips_key k) = Ret e /\
  Forall2 (shows (i_ops1 i)) (enc_keys e) (round_keys k (fips_key k)).
Proof.
  intros c k H. destruct (sample_impl c) as [i E]; [apply in_app_iff; now left|].
  destruct (C07_round_keys_are_key_expansion c i k (fips_key k) E (sample_conforming c H) (fips_key_ok k)) as (e & A & B). now exists i, e.
Qed.

(** ** C08 *)
Theorem C08_conversions_lose_nothing : forall c i k,
  impl_of c = Some i -> rv32_zk c = false ->
  (forall e n, reachE i k e -> enc_round_trips i k n e = Ret e) /\
  (forall d n, reachD i k d -> dec_round_trips i k n d = Ret d) /\
  (forall key, is_bytes (key_len k) key -> dec_new i k key = (e <- enc_new i k key ;; decrypter i k e)).
Proof.
  intros c i k E C. destruct (inst c i E C) as (pre & keys & f1 & f2 & f4 & Hpre & K & S1 & R). split; [|split].
  - intros e n He. unreach R S1. induction n as [|n IH]; [reflexivity|]. cbn [enc_round_trips].
    rewrite (decrypter_ok _ _ _ _ _ R) by assumption. cbn [bind fips_sem s_imc].
    rewrite (encrypter_ok _ _ _ _ _ R) by (apply b_swap_good; [apply inv_mix_columns_bytes|assumption]). cbn [bind fips_sem s_mc].
    rewrite (b_swap_swap inv_mix_columns mix_columns k) by (try assumption; intros; now apply mix_inv_mix). exact IH.
  - intros d n Hd. unreach R S1. induction n as [|n IH]; [reflexivity|]. cbn [dec_round_trips].
    rewrite (encrypter_ok _ _ _ _ _ R) by assumption. cbn [bind fips_sem s_mc].
    rewrite (decrypter_ok _ _ _ _ _ R) by (apply b_swap_good; [apply mix_columns_bytes|assumption]). cbn [bind fips_sem s_imc].
    rewrite (b_swap_swap mix_columns inv_mix_columns k) by (try assumption; intros; now apply inv_mix_mix). exact IH.
  - reflexivity.
Qed.
Print Assumptions C08_conversions_lose_nothing.
Example C08_conversions_lose_nothing_case : forall c k, In c fips_samples -> with_values c k (fun i u =>
  forall n, enc_round_trips i k n (u_enc u) = Ret (u_enc u) /\ dec_round_trips i k n (u_dec u) = Ret (u_dec u)).
Proof. intros c k H. apply case_fips; [exact H|]. intros i u E C. intros n. destruct (C08_conversions_lose_nothing c i k E C) as (A & B & _). split; [apply A|apply B]; auto with cases. Qed.

(** ** C28 (the ciphers; the rounds are in Props_Rounds) *)
Theorem C28_encrypt_block_permutation : forall c i k e,
  impl_of c = Some i -> rv32_zk c = false -> reachE i k e ->
  (forall x x' y, reach1 i x -> reach1 i x' -> encrypt_block i k e x = Ret y -> encrypt_block i k e x' = Ret y -> x = x') /\
  (forall y, reach1 i y -> exists x, reach1 i x /\ encrypt_block i k e x = Ret y).
Proof.
  intros c i k e E C He. split.
  - intros x x' y Hx Hx' H H'. destruct (C03_decrypt_encrypt c i k e x E C He Hx) as (d & y1 & D1 & E1 & F1).
    destruct (C03_decrypt_encrypt c i k e x' E C He Hx') as (d' & y2 & D2 & E2 & F2). congruence.
  - intros y Hy. destruct (C03_encrypt_decrypt c i k e y E C He Hy) as (d & x & D1 & E1 & F1). exists x. split; [|assumption].
    pose proof (reach_closed i) as A. eapply (ac_decrypt_1 _ _ _ _ _ _ A k d y x); [|assumption|assumption]. eapply (ac_decrypter _ _ _ _ _ _ A); eassumption.
Qed.
Print Assumptions C28_encrypt_block_permutation.
Example C28_encrypt_block_permutation_case : forall c k, In c fips_samples -> with_values c k (fun i u =>
  encrypt_block i k (u_enc u) (u_x u) <> encrypt_block i k (u_enc u) (u_y u)).
Proof. intros c k H. apply case_fips; [exact H|]. intros i u E C. intros X. destruct (C03_decrypt_encrypt c i k (u_enc u) (u_x u)) as (d & y & _ & A & _); auto with cases. apply (u_differ _ _ u), (proj1 (C28_encrypt_block_permutation c i k (u_enc u) E C (u_reachE _ _ u)) _ _ y); auto with cases. now rewrite <- X. Qed.
Theorem C28_decrypt_block_permutation : forall c i k d,
  impl_of c = Some i -> rv32_zk c = false -> reachD i k d ->
  (forall x x' y, reach1 i x -> reach1 i x' -> decrypt_block i k d x = Ret y -> decrypt_block i k d x' = Ret y -> x = x') /\
  (forall y, reach1 i y -> exists x, reach1 i x /\ decrypt_block i k d x = Ret y).
Proof.
  intros c i k d E C Hd. split.
  - intros x x' y Hx Hx' H H'. destruct (C03_encrypter_side c i k d x E C Hd Hx) as (e & y1 & z1 & D1 & A1 & B1 & _).
    destruct (C03_encrypter_side c i k d x' E C Hd Hx') as (e' & y2 & z2 & D2 & A2 & B2 & _). congruence.
  - intros y Hy. destruct (C03_encrypter_side c i k d y E C Hd Hy) as (e & y1 & z1 & D1 & A1 & B1 & G1 & F1). exists z1. split; [|assumption].
    pose proof (reach_closed i) as A. eapply (ac_encrypt_1 _ _ _ _ _ _ A k e y z1); [|assumption|assumption]. eapply (ac_encrypter _ _ _ _ _ _ A); eassumption.
Qed.
Print Assumptions C28_decrypt_block_permutation.
Example C28_decrypt_block_permutation_case : forall c k, In c fips_samples -> with_values c k (fun i u =>
  decrypt_block i k (u_dec u) (u_x u) <> decrypt_block i k (u_dec u) (u_y u)).
Proof. intros c k H. apply case_fips; [exact H|]. intros i u E C. intros X. destruct (C03_encrypter_side c i k (u_dec u) (u_x u)) as (e & y & z & _ & A & _); auto with cases. apply (u_differ _ _ u), (proj1 (C28_decrypt_block_permutation c i k (u_dec u) E C (u_reachD _ _ u)) _ _ y); auto with cases. now rewrite <- X. Qed.
