(** C37: a build executes only instructions its target features promise, and an accelerated build does use
    the CPU's AES instructions. *)
From Coq Require Import Lia Arith String.
From Coq Require Import List.
From Verif Require Import Word Interface Fips197 Spec_Cfg Spec_User Spec_Leak Spec_Insn Model_Cfg Model_Leak Model_LeakAccel Model_Running Model_LeakTable.
From Verif Require Import Props_Cfg Props_Leak Props_LeakAccel.
Open Scope list_scope.
Open Scope N_scope.

Definition three (e : engine) (k : key_size) (n m : nat) : list stmt := [encrypt_program e k n m; decrypt_program e k n m; convert_program e k n m].
(** All features that some instruction of the build's programs needs. *)
Definition features_of (s : stmt) : list feature := flat_map needs (insns s).
Definition features_all (e : engine) (p : promised) : list feature :=
  flat_map (fun k => flat_map (fun g => flat_map features_of (three e k (vec_n p g) (vec_m p g))) [One; Two; Four]) [K128; K192; K256].
Definition feature_eqb (a b : feature) : bool :=
  match a, b with
  | SSE2, SSE2 | SSSE3, SSSE3 | AESNI, AESNI | AVX2, AVX2 | AVX512F, AVX512F | VAES, VAES | NEON, NEON | ARM_AES, ARM_AES
  | ZKNE, ZKNE | ZKND, ZKND | ZKN_either, ZKN_either | RV32, RV32 | RV64, RV64 => true
  | _, _ => false
  end.
Lemma feature_eqb_ok a b : feature_eqb a b = true -> a = b. Proof. now destruct a, b. Qed.
(** ... in short. *)
Definition summary (p : promised) : list feature :=
  match p with
  | P_aesni_vaes4 => [SSE2; SSSE3; AESNI; AVX2; AVX512F; VAES]
  | P_aesni_vaes2 => [SSE2; SSSE3; AESNI; AVX2; VAES]
  | P_aesni => [SSE2; SSSE3; AESNI]
  | P_neon => [NEON; ARM_AES]
  | P_rv64 => [RV64; ZKNE; ZKND; ZKN_either]
  | P_rv32 => [RV32; ZKNE; ZKND]
  | P_constant_time | P_software => []
  end.
Definition covered (p : promised) (l : list feature) : bool := forallb (fun f => existsb (feature_eqb f) (summary p)) l.
Lemma covered_ok p l : covered p l = true -> forall f, In f l -> In f (summary p).
Proof.
  intros H f Hf. unfold covered in H. rewrite forallb_forall in H. specialize (H f Hf). apply existsb_exists in H as (x & Hx & E).
  now rewrite (feature_eqb_ok _ _ E).
Qed.
Lemma all_covered p be e : engine_of p be = Some e -> covered p (features_all e p) = true.
Proof. destruct p; try discriminate; intros H; injection H as <-; try destruct be; vm_compute; reflexivity. Qed.
Lemma in_all e p k g s f : In s (three e k (vec_n p g) (vec_m p g)) -> In f (features_of s) -> In f (features_all e p).
Proof.
  intros Hs Hf. unfold features_all. apply in_flat_map. exists k. split; [destruct k; cbn; auto|].
  apply in_flat_map. exists g. split; [destruct g; cbn; auto|]. apply in_flat_map. now exists s.
Qed.
Definition promise_check (c : cfg) : bool := implb (rustc_ok c) (forallb (promises c) (summary (readme c))).
Lemma promise_checked : all_cfgs promise_check = true. Proof. vm_compute. reflexivity. Qed.

(** Whatever configuration rustc produced, every special instruction in the code that runs - key set-up, calls on
    1, 2 and 4 blocks in either direction, conversions - is one the target features promise. *)
Theorem C37_only_promised_instructions : forall c p e k g program i,
  rustc_ok c = true -> running c = Some p -> engine_of p (c_be c) = Some e ->
  In program [encrypt_program; decrypt_program; convert_program] ->
  In i (insns (program e k (vec_n p g) (vec_m p g))) -> available c i = true.
Proof.
  intros c p e k g program i Hc Hr He Hp Hi. apply (running_is c p Hc) in Hr. subst p. unfold available. apply forallb_forall. intros f Hf.
  pose proof (all_cfgs_ok _ promise_checked c) as Q. unfold promise_check in Q. rewrite Hc in Q. cbn [implb] in Q.
  rewrite forallb_forall in Q. apply Q. apply (covered_ok _ _ (all_covered _ _ _ He)).
  apply (in_all e _ k g (program e k (vec_n (readme c) g) (vec_m (readme c) g))).
  - unfold three. destruct Hp as [<-|[<-|[<-|[]]]]; cbn; auto.
  - apply in_flat_map. now exists i.
Qed.
Print Assumptions C37_only_promised_instructions.
(** Five of the builds, with an instruction each really contains. *)
Example C37_case : forall c i, In (c, i) [(c_x86, I2 (Aesenc 1)); (c_vaes256, I2 (Aesenc 2)); (c_vaes512, I2 (Aesenc 4)); (c_neon, I2 Arm_aese); (c_rv64, I2 Aes64esm); (c_rv32, I2 (Aes32esmi 3))] ->
  rustc_ok c = true /\ exists p e, running c = Some p /\ engine_of p (c_be c) = Some e /\
  In i (insns (encrypt_program e K128 (vec_n p Four) (vec_m p Four))).
Proof.
  intros c i H. repeat (destruct H as [H|H]; [injection H as <- <-; split; [reflexivity|do 2 eexists; split; [reflexivity|split; [reflexivity|vm_compute; tauto]]]|]). destruct H.
Qed.

(** The software implementations contain none, so they run on any CPU. *)
Theorem C37_software_needs_nothing : forall c p e k g program, running c = Some p -> engine_of p (c_be c) = Some e ->
  p = P_constant_time \/ p = P_software -> In program [encrypt_program; decrypt_program; convert_program] ->
  insns (program e k (vec_n p g) (vec_m p g)) = [].
Proof.
  intros c p e k g program _ He [->| ->] Hp; injection He as <-; destruct Hp as [<-|[<-|[<-|[]]]]; try (generalize (c_be c) as be; intros be; destruct be); destruct k, g; vm_compute; reflexivity.
Qed.
Print Assumptions C37_software_needs_nothing.
Example C37_software_case : running c_ct_be = Some P_constant_time /\ running c_soft = Some P_software. Proof. now split. Qed.

(** An accelerated build contains an AES round instruction in every kind of call (it is accelerated). *)
Definition aes_round (i : insn) : bool :=
  match i with
  | I2 (Aesenc _) | I2 (Aesdec _) | I2 Arm_aese | I2 Arm_aesd | I2 Aes64esm | I2 Aes64dsm | I2 (Aes32esmi _) | I2 (Aes32dsmi _) => true
  | _ => false end.
Theorem C37_accelerated_uses_aes_instructions : forall c p e k g program,
  readme_accelerated c = true -> rustc_ok c = true -> running c = Some p -> engine_of p (c_be c) = Some e ->
  In program [encrypt_program; decrypt_program; convert_program] ->
  existsb aes_round (insns (program e k (vec_n p g) (vec_m p g))) = true.
Proof.
  intros c p e k g program Ha Hc Hr He Hp. apply (running_is c p Hc) in Hr. subst p.
  assert (X : readme c <> P_constant_time /\ readme c <> P_software).
  { revert Ha. unfold readme, readme_accelerated.
    destruct (readme_vaes_4 c), (readme_vaes_2 c), (readme_aesni c), (readme_neon c), (readme_rv64 c), (readme_rv32 c), (c_ct c); split; discriminate. }
  destruct X as [X X'].
  destruct (readme c); try discriminate He; try congruence; injection He as <-; destruct Hp as [<-|[<-|[<-|[]]]]; destruct k, g; vm_compute; reflexivity.
Qed.
Print Assumptions C37_accelerated_uses_aes_instructions.
Example C37_accelerated_case : forall c, In c accelerated_samples -> readme_accelerated c = true /\ rustc_ok c = true.
Proof. intros c H. repeat (destruct H as [<-|H]; [now split|]). destruct H. Qed.
