(** Concrete cases for the hypotheses of the theorems: one build configuration for each backend, the keys
    and blocks of FIPS 197 appendix C, and the values the API makes of them. *)
From Coq Require Import Lia Arith.
From Verif Require Import Word Interface Fips197 Spec_Api Spec_Reach Spec_Cfg Spec_User Model_Lib Model_Cfg.
From Verif Require Import Proof_Word Proof_Fips Proof_Ok Proof_Sem Proof_Lib Proof_Reach Proof_Inst Proof_Main.
Open Scope N_scope.

Definition fips_key (k : key_size) : list N := map N.of_nat (seq 0 (key_len k)).            (* 00 01 02 ... *)
Definition fips_block : list N := map (fun j => 17 * N.of_nat j) (seq 0 16).                (* 00 11 22 ... ff *)
Definition other_block : list N := to_be 16 0x3243f6a8885a308d313198a2e0370734.
Definition fips_ct (k : key_size) : list N :=
  to_be 16 (match k with K128 => 0x69c4e0d86a7b0430d8cdb78070b4c55a | K192 => 0xdda97ca4864cdfe06eaf70a0ec0d7191
                       | K256 => 0x8ea2b7ca516745bfeafc49904b496089 end).
Lemma fips_key_ok k : is_bytes (key_len k) (fips_key k). Proof. destruct k; vm_compute; repeat constructor. Qed.
Lemma fips_block_ok : is_bytes 16 fips_block. Proof. vm_compute; repeat constructor. Qed.
Lemma other_block_ok : is_bytes 16 other_block. Proof. vm_compute; repeat constructor. Qed.
Lemma blocks_differ : fips_block <> other_block. Proof. vm_compute. discriminate. Qed.

(** One configuration for each implementation; the first nine are the conforming ones. *)
Definition conforming_samples : list cfg := [c_soft; c_soft_be; c_ct_le; c_x86; c_vaes256; c_vaes512; c_neon; c_arm32; c_rv64].
Definition samples : list cfg := conforming_samples ++ [c_ct_be; c_rv32].
Lemma sample_impl c : In c samples -> exists i, impl_of c = Some i.
Proof. intros H. repeat (destruct H as [<-|H]; [eexists; reflexivity|]). destruct H. Qed.
Lemma sample_rustc c : In c samples -> rustc_ok c = true.
Proof. intros H. repeat (destruct H as [<-|H]; [reflexivity|]). destruct H. Qed.
Lemma sample_conforming c : In c conforming_samples -> conforming c = true.
Proof. intros H. repeat (destruct H as [<-|H]; [reflexivity|]). destruct H. Qed.

Lemma ret_inj {A} (a b : A) : Ret a = Ret b -> a = b. Proof. exact (fun H => f_equal (fun r => match r with Ret x => x | _ => a end) H). Qed.
(** A user's values in configuration [c]: the two key objects of [fips_key k], two different blocks, a pair
    and a quadruple of them. *)
Record user_values (i : impl) (k : key_size) := UserValues {
  u_enc : enc_obj i; u_dec : dec_obj i; u_x : T1 i; u_y : T1 i; u_x2 : T2 i; u_x4 : T4 i;
  u_enc_new : enc_new i k (fips_key k) = Ret u_enc;
  u_dec_new : dec_new i k (fips_key k) = Ret u_dec;
  u_x_from : o_from (i_ops1 i) fips_block = Ret u_x;
  u_y_from : o_from (i_ops1 i) other_block = Ret u_y;
  u_x2_from : o_from (i_ops2 i) (fips_block ++ other_block) = Ret u_x2;
  u_x4_from : o_from (i_ops4 i) (fips_block ++ other_block ++ other_block ++ fips_block) = Ret u_x4;
  u_x_shows : shows (i_ops1 i) u_x fips_block;
  u_y_shows : shows (i_ops1 i) u_y other_block;
  u_x2_shows : shows (i_ops2 i) u_x2 (fips_block ++ other_block);
  u_x4_shows : shows (i_ops4 i) u_x4 (fips_block ++ other_block ++ other_block ++ fips_block);
  u_reachE : reachE i k u_enc; u_reachD : reachD i k u_dec;
  u_reach_x : reach1 i u_x; u_reach_y : reach1 i u_y; u_reach_2 : reach2 i u_x2; u_reach_4 : reach4 i u_x4;
  u_differ : u_x <> u_y }.
(** They exist in every configuration that compiles. *)
Lemma values_exist c i k : impl_of c = Some i -> exists u : user_values i k, True.
Proof.
  intros E. destruct (inst_any c i E) as (s & f1 & f2 & f4 & _ & _ & S1 & R).
  pose proof fips_block_ok as B1. pose proof other_block_ok as B2.
  assert (B3 : is_bytes 32 (fips_block ++ other_block)) by now apply (is_bytes_app 16 16).
  assert (B4 : is_bytes 64 (fips_block ++ other_block ++ other_block ++ fips_block)) by (repeat (apply (is_bytes_app 16 _); [assumption|]); assumption).
  pose proof (fips_key_ok k) as Bk.
  pose proof (enc_new_ok _ _ _ _ _ R k _ Bk) as En. pose proof (dec_new_ok _ _ _ _ _ R S1 k _ Bk) as Dn.
  pose proof (dk_from _ _ _ (R_d1 _ _ _ _ _ R) _ B1) as F1. pose proof (dk_from _ _ _ (R_d1 _ _ _ _ _ R) _ B2) as F2.
  pose proof (dk_from _ _ _ (R_d2 _ _ _ _ _ R) _ B3) as F3. pose proof (dk_from _ _ _ (R_d4 _ _ _ _ _ R) _ B4) as F4.
  pose proof (dk_size _ _ _ (R_d1 _ _ _ _ _ R)) as Z1. pose proof (dk_size _ _ _ (R_d2 _ _ _ _ _ R)) as Z2. pose proof (dk_size _ _ _ (R_d4 _ _ _ _ _ R)) as Z4.
  pose proof (to_bytes_ok _ _ _ _ (R_d1 _ _ _ _ _ R) B1) as Q1. pose proof (to_bytes_ok _ _ _ _ (R_d1 _ _ _ _ _ R) B2) as Q2.
  pose proof (to_bytes_ok _ _ _ _ (R_d2 _ _ _ _ _ R) B3) as Q3. pose proof (to_bytes_ok _ _ _ _ (R_d4 _ _ _ _ _ R) B4) as Q4.
  assert (G1 : reach1 i (f1 fips_block)) by (intros P1 P2 P4 PE PD A; apply (cl_from _ _ _ (ac_1 _ _ _ _ _ _ A) fips_block); [now rewrite Z1|exact F1]).
  assert (G2 : reach1 i (f1 other_block)) by (intros P1 P2 P4 PE PD A; apply (cl_from _ _ _ (ac_1 _ _ _ _ _ _ A) other_block); [now rewrite Z1|exact F2]).
  assert (G3 : reach2 i (f2 (fips_block ++ other_block))) by (intros P1 P2 P4 PE PD A; apply (cl_from _ _ _ (ac_2 _ _ _ _ _ _ A) (fips_block ++ other_block)); [now rewrite Z2|exact F3]).
  assert (G4 : reach4 i (f4 (fips_block ++ other_block ++ other_block ++ fips_block))) by (intros P1 P2 P4 PE PD A; apply (cl_from _ _ _ (ac_4 _ _ _ _ _ _ A) (fips_block ++ other_block ++ other_block ++ fips_block)); [now rewrite Z4|exact F4]).
  assert (GE : reachE i k (EncObj (map f1 (s_keys s k (fips_key k))))) by (intros P1 P2 P4 PE PD A; exact (ac_enc_new _ _ _ _ _ _ A k _ _ Bk En)).
  assert (GD : reachD i k (DecObj (map f1 (b_swap (s_imc s) (s_keys s k (fips_key k)))))) by (intros P1 P2 P4 PE PD A; exact (ac_dec_new _ _ _ _ _ _ A k _ _ Bk Dn)).
  assert (Df : f1 fips_block <> f1 other_block) by (intros X; rewrite X in Q1; pose proof (eq_trans (eq_sym Q1) Q2) as Q; apply ret_inj in Q; exact (blocks_differ Q)).
  exists (UserValues i k _ _ _ _ _ _ En Dn F1 F2 F3 F4 Q1 Q2 Q3 Q4 GE GD G1 G2 G3 G4 Df). exact I.
Qed.
(** So each of the sample configurations has them. *)
Lemma sample_values c k : In c samples -> exists i, impl_of c = Some i /\ exists u : user_values i k, True.
Proof. intros H. destruct (sample_impl c H) as [i E]. exists i. split; [exact E|]. now apply (values_exist c). Qed.
(** [with_values c k P]: in configuration [c] a user's values exist and satisfy [P]. *)
Definition with_values (c : cfg) (k : key_size) (P : forall i, user_values i k -> Prop) : Prop :=
  exists i (u : user_values i k), impl_of c = Some i /\ P i u.
Definition fips_samples : list cfg := conforming_samples ++ [c_ct_be].    (* all but RV32 *)
Lemma sample_rv32 c : In c fips_samples -> rv32_zk c = false /\ In c samples.
Proof. intros H. split; [|apply in_app_iff in H; apply in_app_iff; destruct H as [H|[H|[]]]; [now left|right; now left]].
  repeat (destruct H as [<-|H]; [reflexivity|]). destruct H. Qed.
Lemma case_any c k (P : forall i, user_values i k -> Prop) : In c samples -> (forall i u, impl_of c = Some i -> P i u) -> with_values c k P.
Proof. intros H HP. destruct (sample_values c k H) as (i & E & u & _). exists i, u. split; [exact E|now apply HP]. Qed.
Lemma case_fips c k (P : forall i, user_values i k -> Prop) : In c fips_samples -> (forall i u, impl_of c = Some i -> rv32_zk c = false -> P i u) -> with_values c k P.
Proof. intros H HP. destruct (sample_rv32 c H) as [H1 H2]. apply case_any; [assumption|]. intros i u E. now apply HP. Qed.
Arguments u_enc {i k}. Arguments u_dec {i k}. Arguments u_x {i k}. Arguments u_y {i k}. Arguments u_x2 {i k}. Arguments u_x4 {i k}.
#[global] Hint Resolve u_reachE u_reachD u_reach_x u_reach_y u_reach_2 u_reach_4 u_x_shows u_y_shows u_x2_shows u_x4_shows fips_key_ok fips_block_ok other_block_ok : cases.
