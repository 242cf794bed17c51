(** C29: what the timing and the memory accesses of the portable software backends depend on. *)
From Coq Require Import Lia Arith String.
From Coq Require Import List.
From Verif Require Import Word Interface Fips197 Spec_Api Spec_Reach Spec_Cfg Spec_User Spec_Leak Model_Lib Model_Cfg Model_Bitslice Model_Leak Model_Running.
From Verif Require Import Proof_Shape Proof_Word Proof_Fips Proof_Ok Proof_Sem Proof_Lib Proof_Reach Proof_Inst Proof_Cipher Proof_Main Proof_Bitslice Proof_KeySpec Proof_KeyTable Proof_Leak Proof_LeakRun Proof_LeakEngine Props_Batch Props_Cfg Props_Cipher Model_LeakTable Proof_LeakTable.
From Verif Require Import Samples.
From Verif Require Props_Fmt.
Open Scope string_scope.
Open Scope list_scope.
Open Scope N_scope.

(** ** The programs compute what the API computes *)
Lemma group_size_len g : group_len g = (16 * group_size g)%nat. Proof. now destruct g. Qed.
Lemma group_size_le g : (group_size g <= 4)%nat. Proof. destruct g; cbn; lia. Qed.

Section Programs.
Context (be : bool).
Notation s := (fips_sem None (bitslice_keys be)).
Notation f := (of_ne be).
Lemma e1 : o_enc (bitslice_ops be) = bs_enc be. Proof. reflexivity. Qed.
Lemma e2 : o_enc_last (bitslice_ops be) = bs_enc_last be. Proof. reflexivity. Qed.
Lemma e3 : o_dec (bitslice_ops be) = bs_dec be. Proof. reflexivity. Qed.
Lemma e4 : o_dec_last (bitslice_ops be) = bs_dec_last be. Proof. reflexivity. Qed.
Lemma bitslice_vec : vec_ok (bitslice_engine be) s 1.
Proof.
  constructor.
  - exists (bs_enc be). split; [intros st a b; apply val_enc|]. intros a k Ha Hk. rewrite <- e1. exact (ek_enc _ _ _ (bitslice_enc_ok be) a k Ha Hk).
  - exists (bs_enc_last be). split; [intros st a b; apply val_enc_last|]. intros a k Ha Hk. rewrite <- e2. exact (ek_enc_last _ _ _ (bitslice_enc_ok be) a k Ha Hk).
  - exists (bs_dec be). split; [intros st a b; apply val_dec|]. intros a k Ha Hk. rewrite <- e3. exact (ek_dec _ _ _ (bitslice_dec_ok be) a k Ha Hk).
  - exists (bs_dec_last be). split; [intros st a b; apply val_dec_last|]. intros a k Ha Hk. rewrite <- e4. exact (ek_dec_last _ _ _ (bitslice_dec_ok be) a k Ha Hk).
  - exists (fun x => x). split; [intros st a; reflexivity|]. intros a Ha. now rewrite bcast_1.
  - exact I.
Qed.
Lemma bitslice_mc : uop (bitslice_engine be) (g_mc (bitslice_engine be)) (s_mc s).
Proof. exists (mixcolumns be). split; [intros st a; apply val_mixcolumns|apply mixcolumns_ok]. Qed.
Lemma bitslice_imc : uop (bitslice_engine be) (g_imc (bitslice_engine be)) (s_imc s).
Proof. exists (invmixcolumns be). split; [intros st a; apply val_invmixcolumns|apply invmixcolumns_ok]. Qed.
Lemma bitslice_keyed : keyed_ok (bitslice_engine be) s.
Proof.
  intros k key msg Hk. cbn zeta. destruct (keys_from_ok (bitslice_ext be) (of_ne be) (to_ne be 16) (of_ne_bytes be) (bitslice_key_shape be)) as [K1 K2].
  destruct (keygen_run (arrs (start key msg)) eq_refl be k key (map f (bitslice_keys be k key)) (start key msg)) as [cols H].
  - reflexivity.
  - apply Hk.
  - exists []. apply start_holds.
  - exact (K2 k key Hk).
  - split; exact (H _).
Qed.
End Programs.

(** ** C29, the constant-time backend *)
(** The program that makes the key object from "key" and runs one call of each kind on "in" computes
    exactly what the API call returns (so the programs below are the code, not something else). *)
Theorem C29_programs_are_the_api : forall c i k g key msg,
  rustc_ok c = true -> readme c = P_constant_time -> impl_of c = Some i ->
  is_bytes (key_len k) key -> is_bytes (group_len g) msg ->
  let run program := Ret (arrs (final (program (bitslice_engine (c_be c)) k 1%nat (group_size g)) (start key msg)) "out") in
  encrypt_message i k key [g] msg = run encrypt_program /\
  decrypt_message i k key [g] msg = run decrypt_program /\
  encrypt_message_via_dec i k key [g] msg = run convert_program.
Proof.
  intros c i k g key msg Hc Hr E Hk Hm run. rewrite (C25_readme_is_selection c Hc), Hr in E. destruct (be_arm_aes c); [discriminate|].
  assert (E' : implementation c P_constant_time = i) by congruence. clear E. subst i. cbn [implementation].
  destruct (bitslice_refines (c_dbg c) (c_be c)) as [R S1].
  pose proof Hm as Hm1. rewrite group_size_len in Hm1. pose proof (group_size_le g) as Hg.
  assert (Hm2 : is_bytes (groups_len [g]) msg) by (cbn [groups_len fold_right]; now rewrite Nat.add_0_r).
  subst run. cbv beta. pose proof (bitslice_vec (c_be c)) as V. pose proof (bitslice_mc (c_be c)) as M1. pose proof (bitslice_imc (c_be c)) as M2. pose proof (bitslice_keyed (c_be c)) as KO.
  rewrite (encrypt_run _ (fips_sem None (bitslice_keys (c_be c)))), (decrypt_run _ (fips_sem None (bitslice_keys (c_be c)))), (convert_run _ (fips_sem None (bitslice_keys (c_be c)))) by assumption.
  rewrite Nat.mul_1_l. split; [|split].
  - rewrite (encrypt_message_ok _ _ _ _ _ k key [g] msg R S1) by assumption. now rewrite (each_block_lanes _ (group_size g)) by apply Hm1.
  - rewrite (decrypt_message_ok _ _ _ _ _ k key [g] msg R S1) by assumption. now rewrite (each_block_lanes _ (group_size g)) by apply Hm1.
  - rewrite (encrypt_via_dec_ok _ _ _ _ _ k key [g] msg R S1) by assumption. now rewrite (each_block_lanes _ (group_size g)) by apply Hm1.
Qed.
Print Assumptions C29_programs_are_the_api.
(** Both endiannesses, two blocks. *)
Example C29_programs_case : forall c k, In c [c_ct_le; c_ct_be] -> exists i, impl_of c = Some i /\
  encrypt_message i k (fips_key k) [Two] (fips_block ++ other_block)%list =
  Ret (arrs (final (encrypt_program (bitslice_engine (c_be c)) k 1 2) (start (fips_key k) (fips_block ++ other_block)%list)) "out").
Proof.
  intros c k H. assert (X : rustc_ok c = true /\ readme c = P_constant_time /\ exists i, impl_of c = Some i)
    by (destruct H as [<-|[<-|[]]]; (split; [reflexivity|split; [reflexivity|eexists; reflexivity]])).
  destruct X as (X1 & X2 & i & X3). exists i. split; [exact X3|].
  apply (C29_programs_are_the_api c i k Two (fips_key k) (fips_block ++ other_block)%list X1 X2 X3 (fips_key_ok k)). vm_compute; repeat constructor.
Qed.

Lemma start_low key msg key' msg' : length key = length key' -> length msg = length msg' -> low_equal (start key msg) (start key' msg').
Proof.
  intros L1 L2. split; [reflexivity|]. intros x. cbn. destruct (String.eqb x "key"); [assumption|]. destruct (String.eqb x "in"); [assumption|reflexivity].
Qed.
(** Any two keys of the same size and any two messages give the same trace. *)
Theorem C29_bitslice_constant_time : forall be k g key msg key' msg',
  length key = length key' -> length msg = length msg' ->
  forall program, In program [encrypt_program; decrypt_program; convert_program] ->
  trace (program (bitslice_engine be) k 1%nat (group_size g)) (start key msg) = trace (program (bitslice_engine be) k 1%nat (group_size g)) (start key' msg').
Proof.
  intros be k g key msg key' msg' L1 L2 program H. apply checker_sound; [|now apply start_low].
  destruct H as [<-|[<-|[<-|[]]]]; destruct be, k, g; vm_compute; reflexivity.
Qed.
Print Assumptions C29_bitslice_constant_time.
(** Two different keys and messages; the trace is not empty. *)
Example C29_bitslice_case :
  trace (encrypt_program (bitslice_engine false) K128 1 1) (start fips_block other_block) = trace (encrypt_program (bitslice_engine false) K128 1 1) (start other_block fips_block) /\
  (200 <? length (trace (encrypt_program (bitslice_engine false) K128 1 1) (start fips_block other_block)))%nat = true /\
  arrs (final (encrypt_program (bitslice_engine false) K128 1 1) (start fips_block other_block)) "out" <> arrs (final (encrypt_program (bitslice_engine false) K128 1 1) (start other_block fips_block)) "out".
Proof.
  split; [exact (C29_bitslice_constant_time false K128 One fips_block other_block other_block fips_block eq_refl eq_refl encrypt_program (or_introl eq_refl))|].
  split; [vm_compute; reflexivity|]. vm_compute. discriminate.
Qed.

(** ** C29, the default software backend *)
Lemma software_conforming c : readme c = P_software -> conforming c = true.
Proof.
  unfold readme, conforming, rv32_zk, be_constant_time. change (c_nightly c && is_arch Riscv32 c && c_zkne c && c_zknd c) with (readme_rv32 c).
  destruct (readme_vaes_4 c), (readme_vaes_2 c), (readme_aesni c), (readme_neon c), (readme_rv64 c), (readme_rv32 c), (c_ct c); try discriminate. intros _. now rewrite andb_false_r.
Qed.
Theorem C29_table_program_is_the_api : forall c i k key p,
  readme c = P_software -> impl_of c = Some i -> is_bytes (key_len k) key -> is_bytes 16 p ->
  encrypt_bytes i k key p = Ret (arrs (final (table_encrypt k) (start_table (round_keys k key) p)) "out").
Proof.
  intros c i k key p Hr E Hk Hp. rewrite (C01_encrypt_block_is_fips197 c i k key p E (software_conforming c Hr) Hk Hp).
  rewrite table_run by (auto using round_keys_good). f_equal. symmetry. apply (b_encrypt_fips None round_keys); [now left|assumption|assumption].
Qed.
Print Assumptions C29_table_program_is_the_api.
Example C29_table_case : forall c k, In c [c_soft; c_soft_be] -> exists i, impl_of c = Some i /\
  encrypt_bytes i k (fips_key k) fips_block = Ret (arrs (final (table_encrypt k) (start_table (round_keys k (fips_key k)) fips_block)) "out").
Proof.
  intros c k H. assert (X : readme c = P_software /\ exists i, impl_of c = Some i)
    by (destruct H as [<-|[<-|[]]]; (split; [reflexivity|eexists; reflexivity])).
  destruct X as (X2 & i & X3). exists i. split; [exact X3|]. apply (C29_table_program_is_the_api c); auto with cases.
Qed.
(** Whoever sees the memory accesses of encrypting one known block has the key, whatever the key size. *)
Theorem C29_table_trace_reveals_key : forall k key key' p,
  is_bytes (key_len k) key -> is_bytes (key_len k) key' -> is_bytes 16 p ->
  trace (table_encrypt k) (start_table (round_keys k key) p) = trace (table_encrypt k) (start_table (round_keys k key') p) ->
  key = key'.
Proof.
  intros k key key' p Hk Hk' Hp E. destruct (table_leak k _ _ p (round_keys_good k key Hk) (round_keys_good k key' Hk') Hp E) as [E0 E1].
  rewrite <- (Props_Fmt.key_prefix k key Hk), <- (Props_Fmt.key_prefix k key' Hk'). now rewrite E0, E1.
Qed.
Print Assumptions C29_table_trace_reveals_key.
(** So the default backend is not constant time. *)
Theorem C29_table_constant_time_refuted : forall k, ~ constant_time (table_encrypt k).
Proof.
  intros k H. set (key := repeat 0 (key_len k)). set (key' := repeat 1 (key_len k)). set (p := repeat 0 16).
  assert (Hk : is_bytes (key_len k) key) by (destruct k; vm_compute; repeat constructor).
  assert (Hk' : is_bytes (key_len k) key') by (destruct k; vm_compute; repeat constructor).
  assert (Hp : is_bytes 16 p) by (vm_compute; repeat constructor).
  assert (E : key = key'); [|destruct k; discriminate].
  apply (C29_table_trace_reveals_key k key key' p Hk Hk' Hp). apply H. split; [reflexivity|].
  intros x. cbn. destruct (String.eqb x "in"); [reflexivity|]. destruct (String.eqb x "rk"); [|reflexivity]. destruct k; vm_compute; reflexivity.
Qed.
Print Assumptions C29_table_constant_time_refuted.
