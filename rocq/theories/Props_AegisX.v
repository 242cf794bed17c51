(** C60: AEGIS-128X2 built from [AesBlockX2] and AEGIS-128X4 built from [AesBlockX4], on every configuration that compiles. *)
From Coq Require Import Lia Arith.
From Verif Require Import Word Interface Fips197 Spec_Api Spec_Reach Spec_Cfg Spec_User Spec_Aegis Spec_AegisX Model_Lib Model_Cfg.
From Verif Require Import Proof_Word Proof_Ok Proof_Sem Proof_Reach Proof_Inst Proof_Main Samples Props_Rounds Props_Batch Props_Aegis Proof_AegisX.
Open Scope N_scope.

Section Widths.
  Context (i : impl) (f1 : list N -> T1 i) (f2 : list N -> T2 i) (f4 : list N -> T4 i) (s : sem) (E : s_enc s = spec_enc) (R : refines i f1 f2 f4 s).
  Lemma pos2 : (0 < 2)%nat. Proof. lia. Qed.
  Lemma pos4 : (0 < 4)%nat. Proof. lia. Qed.
  Lemma small2 : (2 <= 256)%nat. Proof. lia. Qed.
  Lemma small4 : (4 <= 256)%nat. Proof. lia. Qed.
  Lemma x2_en : lane_ok (o_enc (i_ops2 i)) 2 f2 spec_enc.
  Proof. rewrite <- E. apply R. Qed.
  Lemma x4_en : lane_ok (o_enc (i_ops4 i)) 4 f4 spec_enc.
  Proof. rewrite <- E. apply R. Qed.
  Lemma x2_wd a : is_bytes 16 a -> x2_of_block i (f1 a) = f2 (concat (repeat a 2)).
  Proof. intros A. rewrite (R_x2_of_block _ _ _ _ _ R) by assumption. cbn [repeat concat]. now rewrite app_nil_r. Qed.
  Lemma x4_wd a : is_bytes 16 a -> x4_of_block i (f1 a) = f4 (concat (repeat a 4)).
  Proof. intros A. rewrite (R_x4_of_block _ _ _ _ _ R) by assumption. cbn [repeat concat]. now rewrite app_nil_r. Qed.
  Lemma x2_sp v : vec 2 v -> blocks_of_x2 i (f2 (concat v)) = map f1 v.
  Proof.
    intros [L F]. destruct v as [|a [|b [|]]]; try discriminate L. rewrite !Forall_cons_iff in F. destruct F as (A & B & _). unfold blocks_of_x2. cbn [concat].
    rewrite app_nil_r, (R_x2_to_pair _ _ _ _ _ R) by assumption. reflexivity.
  Qed.
  Lemma x4_sp v : vec 4 v -> blocks_of_x4 i (f4 (concat v)) = map f1 v.
  Proof.
    intros [L F]. destruct v as [|a [|b [|c [|d [|]]]]]; try discriminate L. rewrite !Forall_cons_iff in F. destruct F as (A & B & C & D & _). unfold blocks_of_x4. cbn [concat].
    rewrite app_nil_r, (R_x4_to_quad _ _ _ _ _ R) by assumption. reflexivity.
  Qed.
End Widths.

(** Whatever the key, the nonce and the lengths, the program seals as the draft says. *)
Theorem C60_aegisx_sealing : forall c i key nonce ad msg,
  impl_of c = Some i -> is_bytes 16 key -> is_bytes 16 nonce -> bytes_ok ad -> bytes_ok msg ->
  x2_seal i key nonce ad msg = Ret (aegisx_seal 2 key nonce ad msg) /\
  x4_seal i key nonce ad msg = Ret (aegisx_seal 4 key nonce ad msg).
Proof.
  intros c i key nonce ad msg H K Nn A M. destruct (inst_any c i H) as (s & f1 & f2 & f4 & E & _ & _ & R). split.
  - apply (seal_xfollow 2 pos2 small2 i f1 _ f2 _ _ (R_d1 _ _ _ _ _ R) (R_d2 _ _ _ _ _ R) (x2_en i f1 f2 f4 s E R) (x2_wd i f1 f2 f4 s R) (x2_sp i f1 f2 f4 s R)); assumption.
  - apply (seal_xfollow 4 pos4 small4 i f1 _ f4 _ _ (R_d1 _ _ _ _ _ R) (R_d4 _ _ _ _ _ R) (x4_en i f1 f2 f4 s E R) (x4_wd i f1 f2 f4 s R) (x4_sp i f1 f2 f4 s R)); assumption.
Qed.
Print Assumptions C60_aegisx_sealing.
Theorem C60_aegisx_opening : forall c i key nonce ad ct tag,
  impl_of c = Some i -> is_bytes 16 key -> is_bytes 16 nonce -> bytes_ok ad -> bytes_ok ct -> is_bytes 16 tag ->
  x2_open i key nonce ad ct tag = Ret (aegisx_open 2 key nonce ad ct tag) /\
  x4_open i key nonce ad ct tag = Ret (aegisx_open 4 key nonce ad ct tag).
Proof.
  intros c i key nonce ad ct tag H K Nn A M T. destruct (inst_any c i H) as (s & f1 & f2 & f4 & E & _ & _ & R). split.
  - apply (open_xfollow 2 pos2 small2 i f1 _ f2 _ _ (R_d1 _ _ _ _ _ R) (R_d2 _ _ _ _ _ R) (x2_en i f1 f2 f4 s E R) (x2_wd i f1 f2 f4 s R) (x2_sp i f1 f2 f4 s R)); assumption.
  - apply (open_xfollow 4 pos4 small4 i f1 _ f4 _ _ (R_d1 _ _ _ _ _ R) (R_d4 _ _ _ _ _ R) (x4_en i f1 f2 f4 s E R) (x4_wd i f1 f2 f4 s R) (x4_sp i f1 f2 f4 s R)); assumption.
Qed.
Print Assumptions C60_aegisx_opening.
(** What one build seals every other build opens, and a message opens only if it is the very one that sealing produces. *)
Theorem C60_opens_what_was_sealed : forall c c' i i' key nonce ad msg ct tag,
  impl_of c = Some i -> impl_of c' = Some i' -> is_bytes 16 key -> is_bytes 16 nonce -> bytes_ok ad -> bytes_ok msg -> bytes_ok ct -> is_bytes 16 tag ->
  (x2_seal i key nonce ad msg = Ret (ct, tag) <-> x2_open i' key nonce ad ct tag = Ret (Some msg)) /\
  (x4_seal i key nonce ad msg = Ret (ct, tag) <-> x4_open i' key nonce ad ct tag = Ret (Some msg)).
Proof.
  intros c c' i i' key nonce ad msg ct tag H H' K Nn A M B T. destruct (C60_aegisx_sealing c i key nonce ad msg H K Nn A M) as [-> ->].
  destruct (C60_aegisx_opening c' i' key nonce ad ct tag H' K Nn A B T) as [-> ->].
  pose proof (seal_open_x 2 pos2 key nonce ad msg ct tag small2 K Nn A M B) as Q2. pose proof (seal_open_x 4 pos4 key nonce ad msg ct tag small4 K Nn A M B) as Q4.
  split; split; intros X; f_equal; (apply Q2 || apply Q4); now injection X.
Qed.
Print Assumptions C60_opens_what_was_sealed.
(** C50's program is the one-lane member of the same family. *)
Theorem C60_one_lane : forall c i key nonce ad msg ct tag,
  impl_of c = Some i -> is_bytes 16 key -> is_bytes 16 nonce -> bytes_ok ad -> bytes_ok msg -> bytes_ok ct -> is_bytes 16 tag ->
  seal_prog i (update_blocks i) key nonce ad msg = Ret (aegisx_seal 1 key nonce ad msg) /\
  open_prog i (update_blocks i) key nonce ad ct tag = Ret (aegisx_open 1 key nonce ad ct tag).
Proof.
  intros c i key nonce ad msg ct tag H K Nn A M B T. rewrite one_lane_seals, one_lane_opens by assumption. split.
  - exact (proj1 (C50_aegis_sealing c i key nonce ad msg H K Nn A M)).
  - exact (proj1 (C50_aegis_opening c i key nonce ad ct tag H K Nn A B T)).
Qed.
Print Assumptions C60_one_lane.

(** ** Cases: the draft's test vectors for both ciphers (8 bytes of associated data; two pieces of message, the last one short; and nothing at all) *)
Definition x_key : list N := map N.of_nat (seq 0 16).
Definition x_nonce : list N := map N.of_nat (seq 16 16).
Definition x_ad : list N := concat (repeat [1; 2; 3; 4] 2).
Definition x_msg2 : list N := concat (repeat [4; 5; 6; 7] 30).
Definition x_msg4 : list N := concat (repeat [4; 5; 6; 7] 62).
Definition x_ct2 : list N := to_be 120 0x5795544301997f93621b278809d6331b3bfa6f18e90db12c4aa35965b5e98c5fc6fb4e54bcb6111842c20637252eff747cb3a8f85b37de80919a589fe0f24872bc926360696739e05520647e390989e1eb5fd42f99678a0276a498f8c454761c9d6aacb647ad56be62b29c22cd4b5761b38f43d5a5ee062f.
Definition x_tag2 : list N := to_be 16 0x1aebc200804f405cab637f2adebb6d77.
Definition x_ct4 : list N := to_be 248 0xe836118562f4479c9d35c17356a833114c21f9aa39e4dda5e5c87f4152a00fce9a7c38f832eafe8b1c12f8a7cf12a81a1ad8a9c24ba9dedfbdaa586ffea67ddc801ea97d9ab4a872f42d0e352e2713dacd609f9442c17517c5a29daf3e2a3fac4ff6b1380c4e46df7b086af6ce6bc1ed594b8dd64aed2a7e7ca36867b0701b2e6db372895420932ed4abcd042f7cb54da98876b465bf7a90b46b1b1ece773d4efa34c3ccd699c4775254a6e7f0e640773b27c7bd0d6c77084f52520411c92a784bffc0f56e10d368d140579219d25a7442b5dd06619b4ddb903354a2d658d1dd507085237ff82026f8592959f573806b9db2de8842efc859.
Definition x_tag4 : list N := to_be 16 0xbfd7af320d284a56d9ec4e0c53616d8b.
Goal aegisx_seal 2 x_key x_nonce [] [] = ([], to_be 16 0x63117dc57756e402819a82e13eca8379). vm_compute. reflexivity. Abort.
Goal aegisx_seal 4 x_key x_nonce [] [] = ([], to_be 16 0x5bef762d0947c00455b97bb3af30dfa3). vm_compute. reflexivity. Abort.
Lemma x_vector2 : aegisx_seal 2 x_key x_nonce x_ad x_msg2 = (x_ct2, x_tag2).
Proof. vm_compute. reflexivity. Qed.
Lemma x_vector4 : aegisx_seal 4 x_key x_nonce x_ad x_msg4 = (x_ct4, x_tag4).
Proof. vm_compute. reflexivity. Qed.
Lemma x_bytes : is_bytes 16 x_key /\ is_bytes 16 x_nonce /\ is_bytes 8 x_ad /\ is_bytes 120 x_msg2 /\ is_bytes 248 x_msg4 /\ is_bytes 120 x_ct2 /\ is_bytes 248 x_ct4 /\
  is_bytes 16 x_tag2 /\ is_bytes 16 x_tag4.
Proof. repeat match goal with |- _ /\ _ => split end; apply is_bytesb_correct; vm_compute; reflexivity. Qed.
Example C60_sealing_case : forall c, In c samples -> exists i, impl_of c = Some i /\
  x2_seal i x_key x_nonce x_ad x_msg2 = Ret (x_ct2, x_tag2) /\ x4_seal i x_key x_nonce x_ad x_msg4 = Ret (x_ct4, x_tag4).
Proof.
  intros c H. destruct (sample_impl c H) as [i E]. exists i. destruct x_bytes as (K & Nn & A & M2 & M4 & _). split; [exact E|]. rewrite <- x_vector2, <- x_vector4. split.
  - exact (proj1 (C60_aegisx_sealing c i x_key x_nonce x_ad x_msg2 E K Nn (proj2 A) (proj2 M2))).
  - exact (proj2 (C60_aegisx_sealing c i x_key x_nonce x_ad x_msg4 E K Nn (proj2 A) (proj2 M4))).
Qed.
(** the right tag opens, one bit off does not *)
Example C60_opening_case : forall c, In c samples -> exists i, impl_of c = Some i /\
  x2_open i x_key x_nonce x_ad x_ct2 x_tag2 = Ret (Some x_msg2) /\
  x4_open i x_key x_nonce x_ad x_ct4 x_tag4 = Ret (Some x_msg4) /\
  x2_open i x_key x_nonce x_ad x_ct2 (map2 N.lxor x_tag2 (repeat 0 15 ++ [1])) = Ret None.
Proof.
  intros c H. destruct (sample_impl c H) as [i E]. exists i. destruct x_bytes as (K & Nn & A & M2 & M4 & B2 & B4 & G2 & G4). split; [exact E|].
  pose proof (proj1 (seal_open_x 2 pos2 x_key x_nonce x_ad x_msg2 x_ct2 x_tag2 small2 K Nn (proj2 A) (proj2 M2) (proj2 B2)) x_vector2) as O2.
  pose proof (proj1 (seal_open_x 4 pos4 x_key x_nonce x_ad x_msg4 x_ct4 x_tag4 small4 K Nn (proj2 A) (proj2 M4) (proj2 B4)) x_vector4) as O4. split; [|split].
  - rewrite <- O2. exact (proj1 (C60_aegisx_opening c i x_key x_nonce x_ad x_ct2 x_tag2 E K Nn (proj2 A) (proj2 B2) G2)).
  - rewrite <- O4. exact (proj2 (C60_aegisx_opening c i x_key x_nonce x_ad x_ct4 x_tag4 E K Nn (proj2 A) (proj2 B4) G4)).
  - assert (T' : is_bytes 16 (map2 N.lxor x_tag2 (repeat 0 15 ++ [1]))) by (apply is_bytesb_correct; vm_compute; reflexivity).
    rewrite (proj1 (C60_aegisx_opening c i x_key x_nonce x_ad x_ct2 _ E K Nn (proj2 A) (proj2 B2) T')). apply (f_equal Ret). revert O2. unfold aegisx_open.
    destruct (over_x (dec_x 2) _ _) as [st m]. set (t := finalize_x st _ _). clearbody t. destruct (list_eq_dec N.eq_dec x_tag2 t) as [<-|]; [|discriminate]. intros _.
    destruct (list_eq_dec N.eq_dec _ x_tag2) as [e|]; [|reflexivity]. apply (f_equal (fun l => last l 0)) in e. revert e. vm_compute. discriminate.
Qed.
(** sealed with VAES-512, opened on RV32 *)
Example C60_across_case : exists i i', impl_of c_vaes512 = Some i /\ impl_of c_rv32 = Some i' /\
  x4_seal i x_key x_nonce x_ad x_msg4 = Ret (x_ct4, x_tag4) /\ x4_open i' x_key x_nonce x_ad x_ct4 x_tag4 = Ret (Some x_msg4).
Proof.
  destruct (sample_impl c_vaes512) as [i E]; [cbn; tauto|]. destruct (sample_impl c_rv32) as [i' E']; [cbn; tauto|]. exists i, i'. destruct x_bytes as (K & Nn & A & M2 & M4 & B2 & B4 & G2 & G4).
  split; [exact E|]. split; [exact E'|].
  assert (S0 : x4_seal i x_key x_nonce x_ad x_msg4 = Ret (x_ct4, x_tag4)).
  { rewrite <- x_vector4. exact (proj2 (C60_aegisx_sealing _ i x_key x_nonce x_ad x_msg4 E K Nn (proj2 A) (proj2 M4))). }
  split; [exact S0|]. apply (C60_opens_what_was_sealed c_vaes512 c_rv32 i i'); try assumption; [exact (proj2 A)|exact (proj2 M4)|exact (proj2 B4)].
Qed.
(** C50's second vector, computed with one lane *)
Example C60_one_lane_case : exists i, impl_of c_rv32 = Some i /\ seal_prog i (update_blocks i) draft_key draft_nonce draft_ad2 draft_msg2 = Ret (draft_ct2, draft_tag2) /\
  aegisx_seal 1 draft_key draft_nonce draft_ad2 draft_msg2 = (draft_ct2, draft_tag2).
Proof.
  destruct (sample_impl c_rv32) as [i E]; [cbn; tauto|]. exists i. destruct draft_bytes as (K & Nn & _ & A & M & _). split; [exact E|].
  rewrite (one_lane_seals _ _ _ _ K Nn (proj2 A) (proj2 M)), (proj1 (C50_aegis_sealing _ i draft_key draft_nonce draft_ad2 draft_msg2 E K Nn (proj2 A) (proj2 M))), draft_2. split; reflexivity.
Qed.
