(** C55: what the project's own test suite and continuous integration establish about a build, and what they miss. *)
From Coq Require Import String Lia Arith.
From Verif Require Import Word Interface Fips197 Spec_Api Spec_Cfg Spec_User Model_Lib Model_Cfg Model_Suite Model_Ci Spec_Ci.
From Verif Require Import Proof_Main Proof_Suite Props_Cfg Props_Cipher Props_Refuted Samples.
Open Scope N_scope.

Lemma nonconforming_wrong c i : rustc_ok c = true -> impl_of c = Some i -> conforming c = false -> forall k,
  encrypt_bytes i k (key_0 k) (bytes_0_to 16) <> Ret (aes_encrypt k (key_0 k) (bytes_0_to 16)).
Proof.
  intros H E C k. destruct (nonconforming c i H E C) as [-> | ->]; destruct (c_dbg c), k; vm_compute; discriminate.
Qed.

(** ** The seven tests of tests.rs (and the two of aes_bitslice.rs) cannot tell more than they do: on every build this crate
    can produce, they pass exactly if the build encrypts and decrypts every block under every key as FIPS 197 says. *)
Theorem C55_suite_green_iff_fips197 : forall c i, rustc_ok c = true -> impl_of c = Some i ->
  (suite_passes c i = true <->
   forall k key p, is_bytes (key_len k) key -> is_bytes 16 p ->
     encrypt_bytes i k key p = Ret (aes_encrypt k key p) /\ decrypt_bytes i k key p = Ret (aes_decrypt k key p)).
Proof.
  intros c i H E. destruct (conforming c) eqn:C; split.
  - intros _ k key p Hk Hp. split; [now apply (C01_encrypt_block_is_fips197 c)|now apply (C02_decrypt_block_is_fips197 c)].
  - intros _. now apply conforming_suite.
  - intros S. unfold suite_passes in S. rewrite forallb_app, (nonconforming_suite c i H E C) in S. discriminate S.
  - intros A. exfalso. apply (nonconforming_wrong c i H E C K128).
    exact (proj1 (A K128 _ _ (bytes_0_to_ok _ (key_len_256 K128)) (bytes_0_to_ok 16 ltac:(lia)))).
Qed.
Print Assumptions C55_suite_green_iff_fips197.
Example C55_suite_green_iff_fips197_case :
  map (fun c => match impl_of c with Some i => (rustc_ok c, aesenc_test i, expansion_test i K128) | None => (false, false, false) end) [c_soft; c_x86; c_rv32; c_ct_be]
  = [(true, true, true); (true, true, true); (true, false, false); (true, true, false)].
Proof. vm_compute. reflexivity. Qed.

(** ** The code that a test job of the CI runs is exactly the code that is right: for every build of the crate (debug
    assertions aside) some test job runs the same implementation if and only if the build conforms to FIPS 197.
    The defects of C30 and C31 are exactly in the code no test job ever runs. *)
Definition the_job (p : promised) (arm : bool) : job :=
  nth (match p with P_aesni => 0 | P_aesni_vaes2 => 1 | P_aesni_vaes4 => 2 | P_neon => if arm then 4 else 3 | P_rv64 => 5 | P_software => 6 | P_constant_time | P_rv32 => 7 end)%nat
      test_jobs (Job "" "" [] [] []).
Lemma the_job_in p arm : In (the_job p arm) test_jobs.
Proof. apply nth_In. destruct p, arm; cbn; lia. Qed.
Lemma job_build j b : In j test_jobs -> exists i, impl_of (with_dbg b (job_cfg j)) = Some i.
Proof.
  intros H. cbn [test_jobs In] in H. repeat (destruct H as [<-|H]; [destruct b; eexists; reflexivity|]). destruct H.
Qed.
Lemma job_conforming j b : In j test_jobs -> conforming (with_dbg b (job_cfg j)) = true.
Proof. intros H. cbn [test_jobs In] in H. repeat (destruct H as [<-|H]; [destruct b; reflexivity|]). destruct H. Qed.
Lemma readme_ct c : readme c = P_constant_time -> c_ct c = true.
Proof.
  unfold readme. destruct (readme_vaes_4 c), (readme_vaes_2 c), (readme_aesni c), (readme_neon c), (readme_rv64 c), (readme_rv32 c), (c_ct c); try discriminate; reflexivity.
Qed.

Theorem C55_tested_iff_conforming : forall c i, rustc_ok c = true -> impl_of c = Some i ->
  ((exists j, In j test_jobs /\ exercises j c) <-> conforming c = true).
Proof.
  intros c i H E. split.
  - intros (j & Hj & X). unfold exercises in X. rewrite E in X. destruct (conforming c) eqn:C; [reflexivity|exfalso].
    pose proof (conforming_suite _ _ X (job_conforming j _ Hj)) as S. unfold suite_passes in S.
    rewrite forallb_app, (nonconforming_suite c i H E C) in S. discriminate S.
  - intros C. exists (the_job (readme c) (is_arch Arm c)). split; [apply the_job_in|]. unfold exercises.
    rewrite (C25_readme_is_selection c H). rewrite (C25_readme_is_selection c H) in E. destruct (be_arm_aes c) eqn:B; [discriminate E|]. clear E.
    destruct (readme c) eqn:P.
    all: try (destruct (c_dbg c) eqn:D; unfold implementation; rewrite D; reflexivity).
    + unfold implementation. destruct (is_arch Arm c), (c_dbg c); reflexivity.
    + exfalso. unfold conforming, rv32_zk in C. unfold readme in P.
      destruct (readme_vaes_4 c), (readme_vaes_2 c), (readme_aesni c), (readme_neon c), (readme_rv64 c); try discriminate P.
      destruct (readme_rv32 c) eqn:Q; [|destruct (c_ct c); discriminate P]. unfold readme_rv32 in Q. rewrite Q in C. discriminate C.
    + pose proof (readme_ct c P) as T. unfold conforming, be_constant_time in C. rewrite T in C. apply andb_true_iff in C as [_ C].
      destruct (c_be c) eqn:BE; [discriminate C|]. unfold implementation. rewrite BE. destruct (c_dbg c); reflexivity.
Qed.
Print Assumptions C55_tested_iff_conforming.
Example C55_tested_iff_conforming_case : map conforming [c_neon; c_arm32; c_soft_be; c_rv32; c_ct_be] = [true; true; true; false; false] /\
  map rustc_ok [c_neon; c_arm32; c_soft_be; c_rv32; c_ct_be] = repeat true 5 /\
  exercises (the_job P_neon true) c_arm32 /\ exercises (the_job P_software false) c_soft_be.
Proof. repeat split; reflexivity. Qed.

(** ** Every test job runs the implementation it is named after, on a toolchain that has the unstable features it needs, and
    passes - on this commit, and in release mode too. *)
Theorem C55_test_jobs_run_what_they_name : forall j, In j test_jobs ->
  rustc_ok (job_cfg j) = true /\ readme (job_cfg j) = named (j_name j) /\
  (gate_avx512 (job_cfg j) || gate_arm_neon (job_cfg j) || gate_llvm (job_cfg j) = true -> j_channels j = [Nightly]) /\
  forall b, exists i, impl_of (with_dbg b (job_cfg j)) = Some i /\ suite_passes (with_dbg b (job_cfg j)) i = true.
Proof.
  intros j H. split; [|split; [|split]].
  4: { intros b. destruct (job_build j b H) as [i E]. exists i. split; [exact E|]. apply (conforming_suite _ _ E), (job_conforming j b H). }
  all: cbn [test_jobs In] in H; repeat (destruct H as [<-|H]; [vm_compute; (reflexivity || discriminate || intros _; reflexivity)|]); destruct H.
Qed.
Print Assumptions C55_test_jobs_run_what_they_name.
Example C55_test_jobs_run_what_they_name_case :
  map (fun j => named (j_name j)) test_jobs = [P_aesni; P_aesni_vaes2; P_aesni_vaes4; P_neon; P_neon; P_rv64; P_software; P_constant_time].
Proof. reflexivity. Qed.

(** ** The lint jobs: all build, and all but two lint the implementation they are named after.  "RV64" and "RV32" do not enable
    the crate's nightly feature, so they lint the table-based software implementation. *)
Theorem C55_lint_jobs_exact : forall j, In j clippy_jobs ->
  rustc_ok (job_cfg j) = true /\ impl_of (job_cfg j) <> None /\
  (readme (job_cfg j) = named (j_name j) <-> j_name j <> "RV64"%string /\ j_name j <> "RV32"%string) /\
  (j_name j = "RV64"%string \/ j_name j = "RV32"%string -> impl_of (job_cfg j) = impl_of c_soft).
Proof.
  intros j H. cbn [clippy_jobs In] in H.
  repeat (destruct H as [<-|H]; [split; [reflexivity|split; [cbn; discriminate|split; [|cbn [j_name]; intros [X|X]; (discriminate X || reflexivity)]]];
    cbn [j_name]; split; [vm_compute; intros X; try discriminate X; split; discriminate|intros [X Y]; (reflexivity || (exfalso; apply X; reflexivity) || (exfalso; apply Y; reflexivity))]|]).
  destruct H.
Qed.
Print Assumptions C55_lint_jobs_exact.
Example C55_lint_jobs_exact_case : exists j, In j clippy_jobs /\ j_name j = "RV32"%string /\ readme (job_cfg j) = P_software.
Proof. eexists. split; [do 6 right; left; reflexivity|]. split; reflexivity. Qed.

(** ** No job of the CI, test or lint, compiles the RV32 implementation or for a big-endian target, and none builds in release mode. *)
Theorem C55_never_built : forall j, In j (clippy_jobs ++ test_jobs) ->
  readme (job_cfg j) <> P_rv32 /\ c_be (job_cfg j) = false /\ c_dbg (job_cfg j) = true.
Proof.
  intros j H. cbn [clippy_jobs test_jobs In app] in H. repeat (destruct H as [<-|H]; [split; [vm_compute; discriminate|split; reflexivity]|]). destruct H.
Qed.
Print Assumptions C55_never_built.
Example C55_never_built_case : length (clippy_jobs ++ test_jobs) = 17%nat /\ readme c_rv32 = P_rv32 /\ c_be c_ct_be = true.
Proof. repeat split. Qed.
