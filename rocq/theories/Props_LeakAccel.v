(** C36: the accelerated implementations are constant time (README.md:23-25), so with feature
    constant-time every build is. *)
From Coq Require Import Lia Arith String.
From Coq Require Import List.
From Verif Require Import Word Interface Fips197 Spec_Api Spec_Reach Spec_Cfg Spec_User Spec_Leak Model_Lib Model_Cfg Model_Leak Model_LeakAccel Model_LeakSoft Model_Running.
From Verif Require Import Proof_Shape Proof_Word Proof_Fips Proof_Ok Proof_Sem Proof_Lib Proof_Reach Proof_Inst Proof_Cipher Proof_Main Proof_X86 Proof_Arm Proof_Rv64 Proof_KeyX86 Proof_KeyRv64 Proof_Bitslice Proof_Table Proof_KeyTable Proof_Leak Proof_LeakRun Proof_LeakEngine Proof_LeakAccel Proof_LeakKeys Proof_LeakSoft Proof_Actual Props_Batch Props_Cfg Props_Leak.
From Verif Require Import Samples.
Open Scope string_scope.
Open Scope list_scope.
Open Scope N_scope.

Lemma running_readme c : rustc_ok c = true -> running c = Some (readme c).
Proof. intros H. pose proof (selected c H) as Q. unfold running. destruct (readme c); cbn [sel_of] in Q; destruct Q as (-> & -> & -> & _); reflexivity. Qed.
(** C25: it is what the README promises for that build. *)
Theorem C25_running_is_readme : forall c, rustc_ok c = true -> running c = Some (readme c).
Proof. exact running_readme. Qed.
Print Assumptions C25_running_is_readme.
Example C25_running_case : map running [c_soft; c_soft_be; c_ct_le; c_ct_be; c_x86; c_vaes256; c_vaes512; c_neon; c_arm32; c_rv64; c_rv32] =
  map Some [P_software; P_software; P_constant_time; P_constant_time; P_aesni; P_aesni_vaes2; P_aesni_vaes4; P_neon; P_neon; P_rv64; P_rv32].
Proof. reflexivity. Qed.
Lemma running_is c p : rustc_ok c = true -> running c = Some p -> p = readme c.
Proof. intros H E. rewrite (running_readme c H) in E. now injection E. Qed.
(** Every build runs one of these. *)
Theorem C36_every_build_runs_one : forall c, rustc_ok c = true -> exists p e, running c = Some p /\ engine_of p (c_be c) = Some e.
Proof. intros c H. exists (readme c). destruct (readme c) eqn:E; eexists; (split; [rewrite <- E; now apply running_readme|reflexivity]). Qed.
Print Assumptions C36_every_build_runs_one.
Example C36_running_case : map running [c_soft; c_ct_le; c_x86; c_vaes256; c_vaes512; c_neon; c_rv64; c_rv32] =
  map Some [P_software; P_constant_time; P_aesni; P_aesni_vaes2; P_aesni_vaes4; P_neon; P_rv64; P_rv32].
Proof. reflexivity. Qed.

Lemma vec_size p g : (vec_n p g * vec_m p g = group_size g)%nat. Proof. destruct p, g; reflexivity. Qed.
Lemma vec_m_le p g : (vec_m p g <= 4)%nat. Proof. destruct p, g; cbn; lia. Qed.

Lemma of_engine i e s f1 f2 f4 k n m g key msg : (n * m = group_size g)%nat -> (m <= 4)%nat ->
  refines i f1 f2 f4 s -> sem_ok s -> vec_ok e s n -> uop e (g_mc e) (s_mc s) -> uop e (g_imc e) (s_imc s) -> keyed_ok e s ->
  is_bytes (key_len k) key -> is_bytes (group_len g) msg ->
  let run program := Ret (arrs (final (program e k n m) (start key msg)) "out") in
  encrypt_message i k key [g] msg = run encrypt_program /\
  decrypt_message i k key [g] msg = run decrypt_program /\
  encrypt_message_via_dec i k key [g] msg = run convert_program.
Proof.
  intros Hnm Hm4 R S1 V M1 M2 KO Hk Hm run. pose proof Hm as Hm1. rewrite group_size_len, <- Hnm, Nat.mul_assoc in Hm1.
  assert (Hm2 : is_bytes (groups_len [g]) msg) by (cbn [groups_len fold_right]; now rewrite Nat.add_0_r).
  assert (Hm3 : length msg = (16 * group_size g)%nat) by (rewrite <- group_size_len; apply Hm).
  subst run. cbv beta. rewrite (encrypt_run _ s), (decrypt_run _ s), (convert_run _ s) by assumption. rewrite Hnm. split; [|split].
  - rewrite (encrypt_message_ok _ _ _ _ _ k key [g] msg R S1) by assumption. now rewrite (each_block_lanes _ (group_size g)) by exact Hm3.
  - rewrite (decrypt_message_ok _ _ _ _ _ k key [g] msg R S1) by assumption. now rewrite (each_block_lanes _ (group_size g)) by exact Hm3.
  - rewrite (encrypt_via_dec_ok _ _ _ _ _ k key [g] msg R S1) by assumption. now rewrite (each_block_lanes _ (group_size g)) by exact Hm3.
Qed.

(** The programs are the code: each computes exactly what the API call returns. *)
Theorem C36_programs_are_the_api : forall c p i e k g key msg,
  rustc_ok c = true -> impl_of c = Some i -> running c = Some p -> engine_of p (c_be c) = Some e ->
  is_bytes (key_len k) key -> is_bytes (group_len g) msg ->
  let run program := Ret (arrs (final (program e k (vec_n p g) (vec_m p g)) (start key msg)) "out") in
  encrypt_message i k key [g] msg = run encrypt_program /\
  decrypt_message i k key [g] msg = run decrypt_program /\
  encrypt_message_via_dec i k key [g] msg = run convert_program.
Proof.
  intros c p i e k g key msg Hc E Hr He Hk Hm. apply (running_is c p Hc) in Hr. subst p. rewrite (C25_readme_is_selection c Hc) in E. destruct (be_arm_aes c); [discriminate|].
  injection E as <-. pose proof (vec_size (readme c) g) as Hs. pose proof (vec_m_le (readme c) g) as Hl.
  pose proof (fips_rk_ok None (or_introl eq_refl)) as S0. pose proof (fips_rk_ok (Some neon_pre) (or_intror eq_refl)) as S1.
  destruct (readme c) eqn:P; cbn [engine_of] in He; try discriminate; injection He as <-; cbn [implementation].
  - eapply (of_engine _ _ (fips_sem None round_keys)); [exact Hs|exact Hl|apply vaes4_refines|exact S0|apply x86_vec|apply x86_mc_u|apply x86_imc_u|apply x86_keyed|exact Hk|exact Hm].
  - eapply (of_engine _ _ (fips_sem None round_keys)); [exact Hs|exact Hl|apply vaes2_refines|exact S0|apply x86_vec|apply x86_mc_u|apply x86_imc_u|apply x86_keyed|exact Hk|exact Hm].
  - eapply (of_engine _ _ (fips_sem None round_keys)); [exact Hs|exact Hl| |exact S0|apply x86_vec|apply x86_mc_u|apply x86_imc_u|apply x86_keyed|exact Hk|exact Hm].
    apply default_fips; [apply x86_data_ok|apply x86_enc_ok|apply x86_dec_ok|apply x86_mix_ok|apply x86_key_ok].
  - eapply (of_engine _ _ (fips_sem (Some neon_pre) round_keys)); [exact Hs|exact Hl|apply arm_refines|exact S1|exact arm_vec|apply arm_mc_u|apply arm_imc_u|apply arm_keyed|exact Hk|exact Hm].
  - eapply (of_engine _ _ (fips_sem None round_keys)); [exact Hs|exact Hl| |exact S0|exact rv64_vec|apply rv64_mc_u|apply rv64_imc_u|apply rv64_keyed|exact Hk|exact Hm].
    apply default_fips; [apply rv64_data_ok|apply rv64_enc_ok|apply rv64_dec_ok|apply rv64_mix_ok|apply rv64_key_ok].
  - eapply (of_engine _ _ rv32_exact); [exact Hs|exact Hl|apply rv32_exact_refines|exact rv32_exact_ok|exact rv32_vec|apply rv32_mc_u|apply rv32_imc_u|apply rv32_keyed|exact Hk|exact Hm].
  - destruct (bitslice_refines (c_dbg c) (c_be c)) as [R S2].
    eapply (of_engine _ _ (fips_sem None (bitslice_keys (c_be c)))); [exact Hs|exact Hl|exact R|exact S2|exact (bitslice_vec (c_be c))|apply bitslice_mc|apply bitslice_imc|apply bitslice_keyed|exact Hk|exact Hm].
  - eapply (of_engine _ _ (fips_sem None round_keys)); [exact Hs|exact Hl| |exact S0|exact table_vec|apply table_mc_u|apply table_imc_u|apply table_keyed|exact Hk|exact Hm].
    apply default_fips; [apply table_data_ok|apply table_enc_ok|apply table_dec_ok|apply table_mix_ok|apply table_key_ok].
Qed.
Print Assumptions C36_programs_are_the_api.
(** Every backend but the bitsliced one (C29_programs_case), every size of call, one non-trivial message. *)
Definition accelerated_samples : list cfg := [c_x86; c_vaes256; c_vaes512; c_neon; c_arm32; c_rv64; c_rv32].
Definition group_message (g : group) : list N :=
  match g with One => other_block | Two => (fips_block ++ other_block)%list | Four => (fips_block ++ other_block ++ rev fips_block ++ repeat 255 16)%list end.
Example C36_programs_case : forall c k g, In c (c_soft :: c_soft_be :: accelerated_samples) -> exists p i e, impl_of c = Some i /\ running c = Some p /\ engine_of p (c_be c) = Some e /\
  encrypt_message i k (fips_key k) [g] (group_message g) =
    Ret (arrs (final (encrypt_program e k (vec_n p g) (vec_m p g)) (start (fips_key k) (group_message g))) "out").
Proof.
  intros c k g H. assert (X : rustc_ok c = true /\ (exists i, impl_of c = Some i) /\ exists p e, running c = Some p /\ engine_of p (c_be c) = Some e)
    by (repeat (destruct H as [<-|H]; [split; [reflexivity|split; [eexists; reflexivity|do 2 eexists; split; reflexivity]]|]); destruct H).
  destruct X as (X1 & (i & X2) & (p & e & X3 & X4)). exists p, i, e. split; [exact X2|split; [exact X3|split; [exact X4|]]].
  apply (C36_programs_are_the_api c p i e k g (fips_key k) (group_message g) X1 X2 X3 X4 (fips_key_ok k)). destruct g; vm_compute; repeat constructor.
Qed.

(** Any two keys of the same size and any two messages of the same length give the same trace. *)
Theorem C36_accelerated_constant_time : forall p be e k g key msg key' msg',
  engine_of p be = Some e -> p <> P_software -> length key = length key' -> length msg = length msg' ->
  forall program, In program [encrypt_program; decrypt_program; convert_program] ->
  trace (program e k (vec_n p g) (vec_m p g)) (start key msg) = trace (program e k (vec_n p g) (vec_m p g)) (start key' msg').
Proof.
  intros p be e k g key msg key' msg' He Hp L1 L2 program H. apply checker_sound; [|now apply start_low].
  destruct p; try congruence; injection He as <-; destruct H as [<-|[<-|[<-|[]]]]; destruct k, g; try destruct be; vm_compute; reflexivity.
Qed.
Print Assumptions C36_accelerated_constant_time.
(** Different keys and messages, the same non-empty trace. *)
Example C36_trace_case : forall p e, In (p, e) [(P_aesni, x86_engine); (P_aesni_vaes2, x86_engine); (P_aesni_vaes4, x86_engine); (P_neon, arm_engine); (P_rv64, rv64_engine); (P_rv32, rv32_engine)] ->
  let prog := encrypt_program e K128 (vec_n p Two) (vec_m p Two) in
  let s1 := start fips_block (other_block ++ fips_block)%list in let s2 := start other_block (fips_block ++ other_block)%list in
  trace prog s1 = trace prog s2 /\ (40 <? length (trace prog s1))%nat = true /\ s1 <> s2.
Proof.
  intros p e H prog s1 s2. split.
  - apply (C36_accelerated_constant_time p false e K128 Two); try reflexivity; [| |now left].
    + repeat (destruct H as [H|H]; [injection H as <- <-; reflexivity|]); destruct H.
    + repeat (destruct H as [H|H]; [injection H as <- <-; discriminate|]); destruct H.
  - subst prog s1 s2. repeat (destruct H as [H|H]; [injection H as <- <-; split; [vm_compute; reflexivity|]; intros X; apply (f_equal (fun s => arrs s "key")) in X; discriminate X|]); destruct H.
Qed.

(** So with feature constant-time, or with an accelerated implementation, every call of the build is
    constant time; without either it is the table-based backend, which is not (C29). *)
Theorem C36_constant_time_feature_is_enough : forall c i k g,
  rustc_ok c = true -> impl_of c = Some i -> c_ct c || readme_accelerated c = true ->
  exists p e, running c = Some p /\ engine_of p (c_be c) = Some e /\
  forall program, In program [encrypt_program; decrypt_program; convert_program] ->
  constant_time (program e k (vec_n p g) (vec_m p g)).
Proof.
  intros c i k g Hc E H.
  assert (X : (exists e, engine_of (readme c) (c_be c) = Some e) /\ readme c <> P_software).
  { revert H. unfold readme, readme_accelerated, readme_vaes_4, readme_vaes_2.
    repeat match goal with |- context [if ?b then _ else _] => destruct b eqn:?; [intros _; split; [eexists; reflexivity|discriminate]|] end.
    intros H. exfalso. repeat match goal with E : ?b = false |- _ => rewrite E in H end. cbn in H. congruence. }
  destruct X as [[e He] Hp]. exists (readme c), e. split; [now apply running_readme|split; [exact He|]]. intros program HP s t Hst.
  apply checker_sound; [|exact Hst]. clear Hst.
  destruct (readme c); try congruence; injection He as <-; destruct HP as [<-|[<-|[<-|[]]]]; destruct k, g; try destruct (c_be c); vm_compute; reflexivity.
Qed.
Print Assumptions C36_constant_time_feature_is_enough.
Example C36_feature_case : forall c, In c (c_ct_le :: c_ct_be :: accelerated_samples) -> rustc_ok c = true /\ (exists i, impl_of c = Some i) /\ c_ct c || readme_accelerated c = true.
Proof. intros c H. repeat (destruct H as [<-|H]; [split; [reflexivity|split; [eexists; reflexivity|reflexivity]]|]). destruct H. Qed.
(** And a build with neither has no constant-time claim: it is exactly the table-based one. *)
Theorem C36_otherwise_tables : forall c, rustc_ok c = true -> c_ct c || readme_accelerated c = false -> running c = Some P_software.
Proof.
  intros c Hc H. rewrite (running_readme c Hc). f_equal. apply orb_false_elim in H as [H1 H2]. unfold readme_accelerated in H2. repeat rewrite orb_false_iff in H2. destruct H2 as [[[A B] C] D].
  destruct (C25_unambiguous c Hc) as (_ & Q4 & Q2 & _). unfold readme.
  assert (V2 : readme_vaes_2 c = false) by (destruct (readme_vaes_2 c); [rewrite A in Q2; now specialize (Q2 eq_refl)|reflexivity]).
  assert (V4 : readme_vaes_4 c = false) by (destruct (readme_vaes_4 c); [rewrite V2 in Q4; now specialize (Q4 eq_refl)|reflexivity]).
  now rewrite V4, V2, A, B, C, D, H1.
Qed.
Print Assumptions C36_otherwise_tables.
Example C36_otherwise_case : c_ct c_soft || readme_accelerated c_soft = false /\ c_ct c_soft_be || readme_accelerated c_soft_be = false.
Proof. now split. Qed.
