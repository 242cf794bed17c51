(** C04, C05, C06, C27: 1/2/4-block calls, batching and interoperation of builds. *)
From Coq Require Import Lia Arith.
From Verif Require Import Word Interface Fips197 Spec_Api Spec_Reach Spec_Cfg Spec_User Model_Lib Model_Cfg.
From Verif Require Import Proof_Word Proof_Fips Proof_Ok Proof_Sem Proof_Lib Proof_Reach Proof_Inst Proof_Cipher Proof_Main.
From Verif Require Import Samples.
Open Scope N_scope.

Lemma lanes2_app (a b : list N) : is_bytes 16 a -> is_bytes 16 b -> lanes 2 (a ++ b) = [a; b].
Proof. intros Ha Hb. pose proof (lanes_concat [a; b]) as H. cbn [length concat] in H. rewrite app_nil_r in H. apply H. auto using Forall_cons, Forall_nil. Qed.
Lemma lanes4_app (a b c d : list N) : is_bytes 16 a -> is_bytes 16 b -> is_bytes 16 c -> is_bytes 16 d -> lanes 4 (a ++ b ++ c ++ d) = [a; b; c; d].
Proof. intros Ha Hb Hc Hd. pose proof (lanes_concat [a; b; c; d]) as H. cbn [length concat] in H. rewrite app_nil_r in H. apply H. auto using Forall_cons, Forall_nil. Qed.

(** ** C04: every configuration that compiles (RV32 and big-endian included) *)
Theorem C04_two_and_four_block_encryption : forall c i k e,
  impl_of c = Some i -> reachE i k e ->
  (forall x y, reach1 i x -> reach1 i y -> exists x' y',
     encrypt_block i k e x = Ret x' /\ encrypt_block i k e y = Ret y' /\
     exists z, encrypt_2_blocks i k e (x2_of_pair i (x, y)) = Ret z /\ x2_to_pair i z = (x', y')) /\
  (forall x y z w, reach1 i x -> reach1 i y -> reach1 i z -> reach1 i w -> exists x' y' z' w',
     encrypt_block i k e x = Ret x' /\ encrypt_block i k e y = Ret y' /\
     encrypt_block i k e z = Ret z' /\ encrypt_block i k e w = Ret w' /\
     exists r, encrypt_4_blocks i k e (x4_of_quad i (x, y, z, w)) = Ret r /\ x4_to_quad i r = (x', y', z', w')).
Proof.
  intros c i k e E He. destruct (inst_any c i E) as (s & f1 & f2 & f4 & _ & _ & S1 & R). unreach R S1.
  assert (BB : forall x, is_bytes 16 x -> is_bytes 16 (b_encrypt s k rks x)).
  { intros x Hx. apply b_run_bytes; [apply S1|apply S1|apply (s_pre1_ok s S1 false)|assumption|assumption]. }
  split.
  - intros x y Hx Hy. unreach R S1. do 2 eexists. split; [now apply (encrypt_block_ok _ _ _ _ _ R S1)|]. split; [now apply (encrypt_block_ok _ _ _ _ _ R S1)|].
    rewrite (R_x2_of_pair _ _ _ _ _ R) by assumption. eexists. split; [apply (encrypt_2_ok _ _ _ _ _ R S1); [assumption|now apply (is_bytes_app 16 16)]|].
    rewrite lanes2_app by assumption. cbn [map concat]. rewrite app_nil_r. apply (R_x2_to_pair _ _ _ _ _ R); auto.
  - intros x y z w Hx Hy Hz Hw. unreach R S1. do 4 eexists. do 4 (split; [now apply (encrypt_block_ok _ _ _ _ _ R S1)|]).
    rewrite (R_x4_of_quad _ _ _ _ _ R) by assumption.
    eexists. split; [apply (encrypt_4_ok _ _ _ _ _ R S1); [assumption|repeat (apply (is_bytes_app 16 _); [assumption|]); assumption]|].
    rewrite lanes4_app by assumption. cbn [map concat]. rewrite app_nil_r. apply (R_x4_to_quad _ _ _ _ _ R); auto.
Qed.
Print Assumptions C04_two_and_four_block_encryption.
Example C04_two_and_four_block_encryption_case : forall c k, In c samples -> with_values c k (fun i u =>
  exists x' y' z, encrypt_block i k (u_enc u) (u_x u) = Ret x' /\ encrypt_block i k (u_enc u) (u_y u) = Ret y' /\ encrypt_2_blocks i k (u_enc u) (x2_of_pair i (u_x u, u_y u)) = Ret z /\ x2_to_pair i z = (x', y')).
Proof. intros c k H. apply case_any; [exact H|]. intros i u E. destruct (C04_two_and_four_block_encryption c i k (u_enc u) E (u_reachE _ _ u)) as (A & _). destruct (A (u_x u) (u_y u)) as (x' & y' & A1 & A2 & z & A3 & A4); auto with cases. now exists x', y', z. Qed.

(** ** C05 *)
Theorem C05_two_and_four_block_decryption : forall c i k d,
  impl_of c = Some i -> reachD i k d ->
  (forall x y, reach1 i x -> reach1 i y -> exists x' y',
     decrypt_block i k d x = Ret x' /\ decrypt_block i k d y = Ret y' /\
     exists z, decrypt_2_blocks i k d (x2_of_pair i (x, y)) = Ret z /\ x2_to_pair i z = (x', y')) /\
  (forall x y z w, reach1 i x -> reach1 i y -> reach1 i z -> reach1 i w -> exists x' y' z' w',
     decrypt_block i k d x = Ret x' /\ decrypt_block i k d y = Ret y' /\
     decrypt_block i k d z = Ret z' /\ decrypt_block i k d w = Ret w' /\
     exists r, decrypt_4_blocks i k d (x4_of_quad i (x, y, z, w)) = Ret r /\ x4_to_quad i r = (x', y', z', w')).
Proof.
  intros c i k d E Hd. destruct (inst_any c i E) as (s & f1 & f2 & f4 & _ & _ & S1 & R). unreach R S1.
  assert (BB : forall x, is_bytes 16 x -> is_bytes 16 (b_decrypt s k rks x)).
  { intros x Hx. apply b_run_bytes; [apply S1|apply S1|apply (s_pre1_ok s S1 true)|assumption|assumption]. }
  split.
  - intros x y Hx Hy. unreach R S1. do 2 eexists. split; [now apply (decrypt_block_ok _ _ _ _ _ R S1)|]. split; [now apply (decrypt_block_ok _ _ _ _ _ R S1)|].
    rewrite (R_x2_of_pair _ _ _ _ _ R) by assumption. eexists. split; [apply (decrypt_2_ok _ _ _ _ _ R S1); [assumption|now apply (is_bytes_app 16 16)]|].
    rewrite lanes2_app by assumption. cbn [map concat]. rewrite app_nil_r. apply (R_x2_to_pair _ _ _ _ _ R); auto.
  - intros x y z w Hx Hy Hz Hw. unreach R S1. do 4 eexists. do 4 (split; [now apply (decrypt_block_ok _ _ _ _ _ R S1)|]).
    rewrite (R_x4_of_quad _ _ _ _ _ R) by assumption.
    eexists. split; [apply (decrypt_4_ok _ _ _ _ _ R S1); [assumption|repeat (apply (is_bytes_app 16 _); [assumption|]); assumption]|].
    rewrite lanes4_app by assumption. cbn [map concat]. rewrite app_nil_r. apply (R_x4_to_quad _ _ _ _ _ R); auto.
Qed.
Print Assumptions C05_two_and_four_block_decryption.
Example C05_two_and_four_block_decryption_case : forall c k, In c samples -> with_values c k (fun i u =>
  exists x' y' z, decrypt_block i k (u_dec u) (u_x u) = Ret x' /\ decrypt_block i k (u_dec u) (u_y u) = Ret y' /\ decrypt_2_blocks i k (u_dec u) (x2_of_pair i (u_x u, u_y u)) = Ret z /\ x2_to_pair i z = (x', y')).
Proof. intros c k H. apply case_any; [exact H|]. intros i u E. destruct (C05_two_and_four_block_decryption c i k (u_dec u) E (u_reachD _ _ u)) as (A & _). destruct (A (u_x u) (u_y u)) as (x' & y' & A1 & A2 & z & A3 & A4); auto with cases. now exists x', y', z. Qed.

(** ** Messages in groups *)
Lemma group_len_16 g : exists m, group_len g = (16 * m)%nat /\ (m = 1 \/ m = 2 \/ m = 4)%nat.
Proof. destruct g; [exists 1%nat|exists 2%nat|exists 4%nat]; cbn; auto. Qed.
Lemma groups_len_16 gs : exists m, groups_len gs = (16 * m)%nat.
Proof. induction gs as [|g gs [m IH]]; [now exists 0%nat|]. destruct (group_len_16 g) as (m' & H & _). exists (m' + m)%nat. cbn [groups_len fold_right]. fold (groups_len gs). lia. Qed.
Lemma each_block_lanes f m msg : length msg = (16 * m)%nat -> each_block f msg = concat (map f (lanes m msg)).
Proof. intros H. unfold each_block, lanes. rewrite H. now rewrite Nat.mul_comm, Nat.div_mul by lia. Qed.
Lemma each_block_app f m a b : length a = (16 * m)%nat -> (exists m', length b = (16 * m')%nat) -> each_block f (a ++ b) = each_block f a ++ each_block f b.
Proof.
  intros Ha [m' Hb]. rewrite (each_block_lanes f (m + m')) by (rewrite app_length; lia). rewrite (each_block_lanes f m a), (each_block_lanes f m' b) by assumption.
  rewrite <- concat_app, <- map_app. do 2 f_equal. unfold lanes. clear Hb.
  revert a Ha. induction m as [|m IH]; intros a Ha; [destruct a; [reflexivity|cbn in Ha; lia]|].
  cbn [chunks Nat.add app]. f_equal.
  - rewrite firstn_app. replace (16 - length a)%nat with 0%nat by lia. cbn [firstn]. apply app_nil_r.
  - rewrite <- IH by (rewrite skipn_length; lia). f_equal. rewrite skipn_app. replace (16 - length a)%nat with 0%nat by lia. reflexivity.
Qed.
Lemma each_block_bytes f m msg : (forall x, is_bytes 16 x -> is_bytes 16 (f x)) -> is_bytes (16 * m) msg -> is_bytes (16 * m) (each_block f msg).
Proof.
  intros Hf H. rewrite (each_block_lanes f m) by apply H. pose proof (lanes_bytes m msg H) as L.
  assert (F : Forall (is_bytes 16) (map f (lanes m msg))) by (apply Forall_map; eapply Forall_impl; [|exact L]; exact Hf).
  pose proof (concat_bytes _ F) as B. rewrite map_length, lanes_length in B. exact B.
Qed.
Lemma each_block_each_block f g m msg : (forall x, is_bytes 16 x -> is_bytes 16 (f x)) -> is_bytes (16 * m) msg ->
  each_block g (each_block f msg) = each_block (fun x => g (f x)) msg.
Proof.
  intros Hf H. rewrite (each_block_lanes g m) by (now apply each_block_bytes). rewrite !(each_block_lanes f m), (each_block_lanes _ m) by apply H.
  pose proof (lanes_bytes m msg H) as L.
  assert (F : Forall (is_bytes 16) (map f (lanes m msg))) by (apply Forall_map; eapply Forall_impl; [|exact L]; exact Hf).
  pose proof (lanes_concat _ F) as B. rewrite map_length, lanes_length in B. rewrite B. now rewrite map_map.
Qed.
Lemma each_block_id f m msg : (forall x, is_bytes 16 x -> f x = x) -> is_bytes (16 * m) msg -> each_block f msg = msg.
Proof.
  intros Hf H. rewrite (each_block_lanes f m) by apply H. rewrite <- (concat_lanes m msg) at 2 by apply H. f_equal.
  pose proof (lanes_bytes m msg H) as L. induction L; [reflexivity|]. cbn [map]. now rewrite Hf, IHL.
Qed.
Lemma by_groups_ok (run : group -> list N -> outcome (list N)) f gs : (forall x, is_bytes 16 x -> is_bytes 16 (f x)) ->
  (forall g b, is_bytes (group_len g) b -> run g b = Ret (each_block f b)) ->
  forall msg, is_bytes (groups_len gs) msg -> by_groups run gs msg = Ret (each_block f msg).
Proof.
  intros Hf Hr. induction gs as [|g gs IH]; intros msg H.
  - destruct H as [H _]. destruct msg; [reflexivity|discriminate].
  - cbn [by_groups]. cbn [groups_len fold_right] in H. fold (groups_len gs) in H.
    assert (A : is_bytes (group_len g) (firstn (group_len g) msg)).
    { split; [rewrite firstn_length; destruct H; lia|apply Forall_firstn', H]. }
    assert (B : is_bytes (groups_len gs) (skipn (group_len g) msg)).
    { split; [rewrite skipn_length; destruct H; lia|apply bytes_ok_skipn, H]. }
    rewrite Hr by assumption. cbn [bind]. rewrite IH by assumption. cbn [bind]. f_equal.
    destruct (group_len_16 g) as (m & Em & _). rewrite <- (each_block_app f m).
    + now rewrite firstn_skipn.
    + rewrite (proj1 A). exact Em.
    + destruct (groups_len_16 gs) as [m' Em']. exists m'. rewrite (proj1 B). exact Em'.
Qed.

Lemma encrypt_groups_ok i f1 f2 f4 s k rks gs msg : refines i f1 f2 f4 s -> sem_ok s -> good_keys k rks -> is_bytes (groups_len gs) msg ->
  by_groups (encrypt_group i k (EncObj (map f1 rks))) gs msg = Ret (each_block (b_encrypt s k rks) msg).
Proof.
  intros R S1 G Hm.
  assert (BB : forall x, is_bytes 16 x -> is_bytes 16 (b_encrypt s k rks x)).
  { intros x Hx. apply b_run_bytes; [apply S1|apply S1|apply (s_pre1_ok s S1 false)|assumption|assumption]. }
  apply by_groups_ok; [assumption| |assumption]. intros g b Hb. destruct g; cbn [group_len] in Hb; unfold encrypt_group.
  - rewrite (dk_from _ _ _ (R_d1 _ _ _ _ _ R)) by assumption. cbn [bind]. rewrite (encrypt_block_ok _ _ _ _ _ R S1) by assumption. cbn [bind].
    rewrite (each_block_lanes _ 1) by apply Hb. rewrite lanes_1 by apply Hb. cbn [map concat]. rewrite app_nil_r. apply (to_bytes_ok _ 16); [apply R|auto].
  - rewrite (dk_from _ _ _ (R_d2 _ _ _ _ _ R)) by assumption. cbn [bind]. rewrite (encrypt_2_ok _ _ _ _ _ R S1) by assumption. cbn [bind].
    rewrite <- each_block_lanes by apply Hb. apply (to_bytes_ok _ 32); [apply R|]. now apply (each_block_bytes _ 2).
  - rewrite (dk_from _ _ _ (R_d4 _ _ _ _ _ R)) by assumption. cbn [bind]. rewrite (encrypt_4_ok _ _ _ _ _ R S1) by assumption. cbn [bind].
    rewrite <- each_block_lanes by apply Hb. apply (to_bytes_ok _ 64); [apply R|]. now apply (each_block_bytes _ 4).
Qed.
Lemma encrypt_message_ok i f1 f2 f4 s k key gs msg : refines i f1 f2 f4 s -> sem_ok s -> is_bytes (key_len k) key -> is_bytes (groups_len gs) msg ->
  encrypt_message i k key gs msg = Ret (each_block (b_encrypt s k (s_keys s k key)) msg).
Proof.
  intros R S1 Hk Hm. pose proof (keys_good s S1 k key Hk) as G. unfold encrypt_message. rewrite (enc_new_ok _ _ _ _ _ R) by assumption. cbn [bind].
  now apply (encrypt_groups_ok _ _ _ _ _ _ _ _ _ R S1).
Qed.
Lemma encrypt_via_dec_ok i f1 f2 f4 s k key gs msg : refines i f1 f2 f4 s -> sem_ok s -> is_bytes (key_len k) key -> is_bytes (groups_len gs) msg ->
  encrypt_message_via_dec i k key gs msg = Ret (each_block (b_encrypt s k (b_swap (s_mc s) (b_swap (s_imc s) (s_keys s k key)))) msg).
Proof.
  intros R S1 Hk Hm. pose proof (keys_good s S1 k key Hk) as G. unfold encrypt_message_via_dec. rewrite (dec_new_ok _ _ _ _ _ R S1) by assumption. cbn [bind].
  assert (G1 : good_keys k (b_swap (s_imc s) (s_keys s k key))) by (apply b_swap_good; [apply S1|assumption]).
  rewrite (encrypter_ok _ _ _ _ _ R) by assumption. cbn [bind].
  apply (encrypt_groups_ok _ _ _ _ _ _ _ _ _ R S1); [|assumption]. apply b_swap_good; [apply S1|assumption].
Qed.
Lemma decrypt_message_ok i f1 f2 f4 s k key gs msg : refines i f1 f2 f4 s -> sem_ok s -> is_bytes (key_len k) key -> is_bytes (groups_len gs) msg ->
  decrypt_message i k key gs msg = Ret (each_block (b_decrypt s k (b_swap (s_imc s) (s_keys s k key))) msg).
Proof.
  intros R S1 Hk Hm. pose proof (keys_good s S1 k key Hk) as G0. unfold decrypt_message. rewrite (dec_new_ok _ _ _ _ _ R S1) by assumption. cbn [bind].
  set (q := b_swap (s_imc s) (s_keys s k key)). assert (G : good_keys k q) by (apply b_swap_good; [apply S1|assumption]).
  assert (BB : forall x, is_bytes 16 x -> is_bytes 16 (b_decrypt s k q x)).
  { intros x Hx. apply b_run_bytes; [apply S1|apply S1|apply (s_pre1_ok s S1 true)|assumption|assumption]. }
  apply by_groups_ok; [assumption| |assumption]. intros g b Hb. destruct g; cbn [group_len] in Hb; unfold decrypt_group.
  - rewrite (dk_from _ _ _ (R_d1 _ _ _ _ _ R)) by assumption. cbn [bind]. rewrite (decrypt_block_ok _ _ _ _ _ R S1) by assumption. cbn [bind].
    rewrite (each_block_lanes _ 1) by apply Hb. rewrite lanes_1 by apply Hb. cbn [map concat]. rewrite app_nil_r. apply (to_bytes_ok _ 16); [apply R|auto].
  - rewrite (dk_from _ _ _ (R_d2 _ _ _ _ _ R)) by assumption. cbn [bind]. rewrite (decrypt_2_ok _ _ _ _ _ R S1) by assumption. cbn [bind].
    rewrite <- each_block_lanes by apply Hb. apply (to_bytes_ok _ 32); [apply R|]. now apply (each_block_bytes _ 2).
  - rewrite (dk_from _ _ _ (R_d4 _ _ _ _ _ R)) by assumption. cbn [bind]. rewrite (decrypt_4_ok _ _ _ _ _ R S1) by assumption. cbn [bind].
    rewrite <- each_block_lanes by apply Hb. apply (to_bytes_ok _ 64); [apply R|]. now apply (each_block_bytes _ 4).
Qed.
Lemma each_block_ext f g m msg : (forall x, is_bytes 16 x -> f x = g x) -> is_bytes (16 * m) msg -> each_block f msg = each_block g msg.
Proof.
  intros H Hm. rewrite !(each_block_lanes _ m) by apply Hm. f_equal. pose proof (lanes_bytes m msg Hm) as L. induction L; [reflexivity|]. cbn [map]. now rewrite H, IHL.
Qed.

(** ** C27 *)
(** Conforming builds: any grouping gives block-by-block FIPS-197. *)
Theorem C27_batching_is_fips197 : forall c i k key gs msg,
  impl_of c = Some i -> conforming c = true ->
  is_bytes (key_len k) key -> is_bytes (groups_len gs) msg ->
  encrypt_message i k key gs msg = Ret (each_block (aes_encrypt k key) msg) /\
  decrypt_message i k key gs msg = Ret (each_block (aes_decrypt k key) msg).
Proof.
  intros c i k key gs msg E C Hk Hm. destruct (inst c i E (conforming_rv c C)) as (pre & keys & f1 & f2 & f4 & Hpre & K & S1 & R).
  rewrite (K C) in *. destruct (groups_len_16 gs) as [m Em]. pose proof Hm as Hm'. rewrite Em in Hm'. split.
  - rewrite (encrypt_message_ok _ _ _ _ _ k key gs msg R S1) by assumption. f_equal. apply (each_block_ext _ _ m); [|assumption]. intros x Hx. now apply b_encrypt_fips.
  - rewrite (decrypt_message_ok _ _ _ _ _ k key gs msg R S1) by assumption. f_equal. apply (each_block_ext _ _ m); [|assumption]. intros x Hx. now apply b_decrypt_fips.
Qed.
Print Assumptions C27_batching_is_fips197.
(** Seven blocks as 4 + 2 + 1. *)
Example C27_case : forall c k, In c conforming_samples -> exists i, impl_of c = Some i /\
  encrypt_message i k (fips_key k) [Four; Two; One] (concat (repeat fips_block 7)) = Ret (concat (repeat (fips_ct k) 7)).
Proof.
  intros c k H. destruct (sample_impl c) as [i E]; [apply in_app_iff; now left|]. exists i. split; [exact E|].
  assert (B : is_bytes (groups_len [Four; Two; One]) (concat (repeat fips_block 7))) by (vm_compute; repeat constructor).
  rewrite (proj1 (C27_batching_is_fips197 c i k _ _ _ E (sample_conforming c H) (fips_key_ok k) B)). destruct k; vm_compute; reflexivity.
Qed.
(** Every configuration, RV32 and big-endian included: the grouping does not matter. *)
Theorem C27_grouping_irrelevant : forall c i k key gs gs' msg,
  impl_of c = Some i -> is_bytes (key_len k) key ->
  groups_len gs = groups_len gs' -> is_bytes (groups_len gs) msg ->
  exists out out', is_bytes (groups_len gs) out /\ is_bytes (groups_len gs) out' /\
    encrypt_message i k key gs msg = Ret out /\ encrypt_message i k key gs' msg = Ret out /\
    decrypt_message i k key gs msg = Ret out' /\ decrypt_message i k key gs' msg = Ret out'.
Proof.
  intros c i k key gs gs' msg E Hk Hl Hm. destruct (inst_any c i E) as (s & f1 & f2 & f4 & _ & _ & S1 & R).
  assert (Hm2 : is_bytes (groups_len gs') msg) by now rewrite <- Hl.
  rewrite !(encrypt_message_ok _ _ _ _ _ k key _ msg R S1), !(decrypt_message_ok _ _ _ _ _ k key _ msg R S1) by assumption.
  destruct (groups_len_16 gs) as [m Em]. rewrite Em in Hm |- *.
  pose proof (keys_good s S1 k key Hk) as G0.
  do 2 eexists. split; [|split; [|repeat split; reflexivity]].
  - apply each_block_bytes; [|assumption]. intros x Hx. apply b_run_bytes; [apply S1|apply S1|apply (s_pre1_ok s S1 false)|assumption|assumption].
  - apply each_block_bytes; [|assumption]. intros x Hx. apply b_run_bytes; [apply S1|apply S1|apply (s_pre1_ok s S1 true)| |assumption].
    apply b_swap_good; [apply S1|assumption].
Qed.
Print Assumptions C27_grouping_irrelevant.
Example C27_grouping_irrelevant_case : forall c k, In c samples -> with_values c k (fun i u =>
  exists out, encrypt_message i k (fips_key k) [Four; One; Two] (concat (repeat other_block 7)) = Ret out /\ encrypt_message i k (fips_key k) [One; Two; One; One; Two] (concat (repeat other_block 7)) = Ret out).
Proof. intros c k H. apply case_any; [exact H|]. intros i u E. destruct (C27_grouping_irrelevant c i k (fips_key k) [Four; One; Two] [One; Two; One; One; Two] (concat (repeat other_block 7)) E (fips_key_ok k) eq_refl) as (out & _ & _ & _ & A & B & _); [vm_compute; repeat constructor|]. now exists out. Qed.

(** ** C06: encrypt in one build, decrypt in another, any grouping on either side *)
Theorem C06_builds_interoperate : forall c c' i i' k key gs gs' msg,
  impl_of c = Some i -> conforming c = true -> impl_of c' = Some i' -> conforming c' = true ->
  is_bytes (key_len k) key -> groups_len gs = groups_len gs' -> is_bytes (groups_len gs) msg ->
  exists ct, is_bytes (groups_len gs) ct /\
    encrypt_message i k key gs msg = Ret ct /\ decrypt_message i' k key gs' ct = Ret msg.
Proof.
  intros c c' i i' k key gs gs' msg E C E' C' Hk Hl Hm. destruct (groups_len_16 gs) as [m Em].
  pose proof (proj1 (C27_batching_is_fips197 c i k key gs msg E C Hk Hm)) as H1.
  assert (Hb : is_bytes (16 * m) (each_block (aes_encrypt k key) msg)).
  { apply each_block_bytes; [|now rewrite <- Em]. intros x Hx. now apply aes_encrypt_bytes. }
  exists (each_block (aes_encrypt k key) msg). split; [now rewrite Em|]. split; [exact H1|].
  rewrite (proj2 (C27_batching_is_fips197 c' i' k key gs' _ E' C' Hk ltac:(rewrite <- Hl, Em; exact Hb))). f_equal.
  rewrite Em in Hm. rewrite (each_block_each_block _ _ m) by (try assumption; intros; now apply aes_encrypt_bytes).
  apply (each_block_id _ m); [|assumption]. intros x Hx. now apply aes_decrypt_encrypt.
Qed.
Print Assumptions C06_builds_interoperate.
Example C06_case : forall c c' k, In c conforming_samples -> In c' conforming_samples -> exists i i' ct, impl_of c = Some i /\ impl_of c' = Some i' /\
  encrypt_message i k (fips_key k) [Four; One] (concat (repeat other_block 5)) = Ret ct /\
  decrypt_message i' k (fips_key k) [Two; One; Two] ct = Ret (concat (repeat other_block 5)).
Proof.
  intros c c' k H H'. destruct (sample_impl c) as [i E]; [apply in_app_iff; now left|]. destruct (sample_impl c') as [i' E']; [apply in_app_iff; now left|].
  destruct (C06_builds_interoperate c c' i i' k (fips_key k) [Four; One] [Two; One; Two] (concat (repeat other_block 5)) E (sample_conforming c H) E' (sample_conforming c' H') (fips_key_ok k) eq_refl) as (ct & _ & A & B);
    [vm_compute; repeat constructor|]. now exists i, i', ct.
Qed.

(** The round trip inside one build, any two groupings: also big-endian constant-time, not RV32. *)
Theorem C27_round_trip_any_grouping : forall c i k key gs gs' msg,
  impl_of c = Some i -> rv32_zk c = false -> is_bytes (key_len k) key ->
  groups_len gs = groups_len gs' -> is_bytes (groups_len gs) msg ->
  exists ct, is_bytes (groups_len gs) ct /\ encrypt_message i k key gs msg = Ret ct /\ decrypt_message i k key gs' ct = Ret msg.
Proof.
  intros c i k key gs gs' msg E C Hk Hl Hm. destruct (inst c i E C) as (pre & keys & f1 & f2 & f4 & Hpre & K & S1 & R).
  pose proof (keys_good _ S1 k key Hk) as G. set (s := fips_sem pre keys) in *. set (rks := s_keys s k key) in *.
  destruct (groups_len_16 gs) as [m Em].
  assert (BB : forall x, is_bytes 16 x -> is_bytes 16 (b_encrypt s k rks x)).
  { intros x Hx. apply b_run_bytes; [apply S1|apply S1|apply (s_pre1_ok s S1 false)|assumption|assumption]. }
  pose proof Hm as Hm'. rewrite Em in Hm'. pose proof (each_block_bytes _ m msg BB Hm') as Hb.
  eexists. split; [rewrite Em; exact Hb|]. split; [now apply (encrypt_message_ok _ _ _ _ _ k key gs msg R S1)|].
  rewrite (decrypt_message_ok _ _ _ _ _ k key gs' _ R S1) by (try assumption; rewrite <- Hl, Em; exact Hb). f_equal. fold rks.
  rewrite (each_block_each_block _ _ m) by assumption. apply (each_block_id _ m); [|assumption]. intros x Hx.
  change (b_decrypt s k (b_swap inv_mix_columns rks) (b_encrypt s k rks x) = x).
  unfold s. rewrite b_decrypt_cipher by (try assumption; now apply BB). rewrite b_encrypt_cipher by assumption. now apply inv_cipher_cipher.
Qed.
Print Assumptions C27_round_trip_any_grouping.
Example C27_round_trip_any_grouping_case : forall c k, In c fips_samples -> with_values c k (fun i u =>
  exists ct, encrypt_message i k (fips_key k) [Two; One] (concat (repeat other_block 3)) = Ret ct /\ decrypt_message i k (fips_key k) [One; Two] ct = Ret (concat (repeat other_block 3))).
Proof. intros c k H. apply case_fips; [exact H|]. intros i u E C. destruct (C27_round_trip_any_grouping c i k (fips_key k) [Two; One] [One; Two] (concat (repeat other_block 3)) E C (fips_key_ok k) eq_refl) as (ct & _ & A & B); [vm_compute; repeat constructor|]. now exists ct. Qed.
