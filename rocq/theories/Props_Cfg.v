(** C25, C32: which implementation a build configuration gets. *)
From Coq Require Import Lia Arith.
From Verif Require Import Word Interface Model_Lib Model_Cfg Spec_Cfg.
From Verif Require Import Model_Table Model_Bitslice Model_X86 Model_Vaes Model_Arm Model_Rv64 Model_Rv32 Model_Wide.

(** The finitely many configurations, by exhaustion inside the kernel. *)
Definition all_archs : list arch := [X86; X86_64; Aarch64; Arm64ec; Arm; Riscv32; Riscv64; OtherArch].
Definition both (P : bool -> bool) : bool := if P true then P false else false.
Lemma both_ok P : both P = true -> forall b, P b = true.
Proof. unfold both. destruct (P true) eqn:E; [|discriminate]. intros H []; assumption. Qed.
Definition all_cfgs (P : cfg -> bool) : bool :=
  forallb (fun a => both (fun be => both (fun n => both (fun ct => both (fun s => both (fun ae => both (fun v => both (fun x =>
    both (fun v8 => both (fun e => both (fun d => both (fun g => P (Cfg a be n ct s ae v x v8 e d g))))))))))))) all_archs.
Lemma all_cfgs_ok P : all_cfgs P = true -> forall c, P c = true.
Proof.
  intros H [a be n ct s ae v x v8 e d g]. unfold all_cfgs in H. rewrite forallb_forall in H.
  assert (Ha : In a all_archs) by (destruct a; cbn; tauto). specialize (H a Ha). cbv beta in H.
  pose proof (both_ok _ H be) as H1. cbv beta in H1. pose proof (both_ok _ H1 n) as H2. cbv beta in H2.
  pose proof (both_ok _ H2 ct) as H3. cbv beta in H3. pose proof (both_ok _ H3 s) as H4. cbv beta in H4.
  pose proof (both_ok _ H4 ae) as H5. cbv beta in H5. pose proof (both_ok _ H5 v) as H6. cbv beta in H6.
  pose proof (both_ok _ H6 x) as H7. cbv beta in H7. pose proof (both_ok _ H7 v8) as H8. cbv beta in H8.
  pose proof (both_ok _ H8 e) as H9. cbv beta in H9. pose proof (both_ok _ H9 d) as H10. cbv beta in H10.
  exact (both_ok _ H10 g).
Qed.

(** ** C25 *)
(** The modules each line of the README names. *)
Definition implementation (c : cfg) (p : promised) : impl :=
  let dbg := c_dbg c in
  match p with
  | P_aesni_vaes4 => vaes4_impl dbg                                         (* aes_x86, aesni_x2, aesni_x4 *)
  | P_aesni_vaes2 => vaes2_impl dbg                                         (* aes_x86, aesni_x2, aesdefault_x4 *)
  | P_aesni => default_of dbg x86_ops (x86_ext dbg) None                    (* aes_x86, aesdefault_x2, aesdefault_x4 *)
  | P_neon => default_of dbg (arm_ops (is_arch Arm c)) arm_ext (Some (arm_pre_enc, arm_pre_dec))
  | P_rv64 => default_of dbg rv64_ops (rv64_ext dbg) None
  | P_rv32 => default_of dbg rv32_ops rv32_ext (Some (r32_pre_enc, r32_pre_dec))
  | P_constant_time => default_of dbg (bitslice_ops (c_be c)) (bitslice_ext (c_be c)) None
  | P_software => default_of dbg table_ops (table_ext dbg) None
  end.
(** Big-endian Arm with the AES instructions: the configurations that do not compile (C32). *)
Definition be_arm_aes (c : cfg) : bool :=
  c_be c && c_aes c && (is_arch Aarch64 c || (is_arch Arm c && c_v8 c && c_nightly c)).

Definition sel_of (p : promised) : backend * wide * wide * bool :=
  match p with
  | P_aesni_vaes4 => (BX86, WVaes, WVaes, false)
  | P_aesni_vaes2 => (BX86, WVaes, WDefault, false)
  | P_aesni => (BX86, WDefault, WDefault, false)
  | P_neon => (BNeon, WDefault, WDefault, true)
  | P_rv64 => (BRv64, WDefault, WDefault, false)
  | P_rv32 => (BRv32, WDefault, WDefault, true)
  | P_constant_time => (BBitslice, WDefault, WDefault, false)
  | P_software => (BTable, WDefault, WDefault, false)
  end.
Definition beq_backend (a b : backend) : bool :=
  match a, b with BX86, BX86 | BNeon, BNeon | BRv64, BRv64 | BRv32, BRv32 | BBitslice, BBitslice | BTable, BTable => true | _, _ => false end.
Definition beq_wide (a b : wide) : bool := match a, b with WVaes, WVaes | WDefault, WDefault => true | _, _ => false end.
Lemma beq_backend_ok a b : beq_backend a b = true -> a = b. Proof. now destruct a, b. Qed.
Lemma beq_wide_ok a b : beq_wide a b = true -> a = b. Proof. now destruct a, b. Qed.
Definition sel_check (c : cfg) : bool :=
  implb (rustc_ok c)
    (let '(b, w2, w4, p) := sel_of (readme c) in
     beq_backend (select_block c) b && beq_wide (select_x2 c) w2 && beq_wide (select_x4 c) w4 &&
     Bool.eqb (select_pre_chain c) (p || be_arm_aes c)).
Lemma sel_checked : all_cfgs sel_check = true. Proof. vm_compute. reflexivity. Qed.
Lemma selected c : rustc_ok c = true ->
  let '(b, w2, w4, p) := sel_of (readme c) in
  select_block c = b /\ select_x2 c = w2 /\ select_x4 c = w4 /\ select_pre_chain c = p || be_arm_aes c.
Proof.
  intros H. pose proof (all_cfgs_ok _ sel_checked c) as Q. unfold sel_check in Q. rewrite H in Q. cbn [implb] in Q.
  destruct (sel_of (readme c)) as [[[b w2] w4] p]. rewrite !andb_true_iff in Q. destruct Q as (((Q1 & Q2) & Q3) & Q4).
  split; [now apply beq_backend_ok|]. split; [now apply beq_wide_ok|]. split; [now apply beq_wide_ok|]. now apply Bool.eqb_prop.
Qed.
Definition be_check (c : cfg) : bool :=
  implb (rustc_ok c && be_arm_aes c) (match readme c with P_constant_time | P_software => true | _ => false end).
Lemma be_checked : all_cfgs be_check = true. Proof. vm_compute. reflexivity. Qed.
Lemma be_arm_soft c : rustc_ok c = true -> be_arm_aes c = true -> readme c = P_constant_time \/ readme c = P_software.
Proof.
  intros H1 H2. pose proof (all_cfgs_ok _ be_checked c) as Q. unfold be_check in Q. rewrite H1, H2 in Q.
  destruct (readme c); try discriminate; auto.
Qed.

(** Every configuration of rustc gets exactly the implementation the README promises - or, on
    big-endian Arm with the AES instructions, does not compile. *)
Theorem C25_readme_is_selection : forall c, rustc_ok c = true ->
  impl_of c = if be_arm_aes c then None else Some (implementation c (readme c)).
Proof.
  intros c H. pose proof (selected c H) as Q. destruct (be_arm_aes c) eqn:B.
  - destruct (be_arm_soft c H B) as [E|E]; rewrite E in Q; cbn [sel_of orb] in Q; destruct Q as (Q1 & Q2 & Q3 & Q4);
      unfold impl_of; rewrite Q1, Q2, Q3, Q4; reflexivity.
  - destruct (readme c) eqn:E; cbn [sel_of] in Q; rewrite ?orb_false_r in Q; destruct Q as (Q1 & Q2 & Q3 & Q4);
      unfold impl_of; rewrite Q1, Q2, Q3, Q4; reflexivity.
Qed.
Print Assumptions C25_readme_is_selection.

(** The accelerated implementations exclude one another (so the order of the list does not matter), and
    the vectorised four-block type comes only with the vectorised two-block type and AES-NI blocks. *)
Definition count (l : list bool) : nat := length (filter (fun b => b) l).
Definition excl_check (c : cfg) : bool :=
  implb (rustc_ok c)
    (Nat.leb (count [readme_aesni c; readme_neon c; readme_rv64 c; readme_rv32 c]) 1 &&
     implb (readme_vaes_4 c) (readme_vaes_2 c) && implb (readme_vaes_2 c) (readme_aesni c)).
Lemma excl_checked : all_cfgs excl_check = true. Proof. vm_compute. reflexivity. Qed.
Theorem C25_unambiguous : forall c, rustc_ok c = true ->
  (count [readme_aesni c; readme_neon c; readme_rv64 c; readme_rv32 c] <= 1)%nat /\
  (readme_vaes_4 c = true -> readme_vaes_2 c = true) /\ (readme_vaes_2 c = true -> readme_aesni c = true) /\
  (select_x4 c = WVaes -> select_x2 c = WVaes) /\ (select_x2 c = WVaes -> select_block c = BX86).
Proof.
  intros c H. pose proof (all_cfgs_ok _ excl_checked c) as Q. unfold excl_check in Q. rewrite H in Q. cbn [implb] in Q.
  rewrite !andb_true_iff in Q. destruct Q as ((Q1 & Q2) & Q3). split; [now apply Nat.leb_le|].
  split; [intros X; rewrite X in Q2; exact Q2|]. split; [intros X; rewrite X in Q3; exact Q3|].
  pose proof (selected c H) as Q. destruct (readme c); cbn [sel_of] in Q; destruct Q as (-> & -> & -> & _); split; congruence.
Qed.
Print Assumptions C25_unambiguous.

(** Without the nightly feature no nightly-only implementation is selected and no unstable compiler
    feature is asked for; with it, exactly the unstable features the selected modules need are asked for. *)
Definition stable_only (p : promised) : Prop := p = P_aesni \/ p = P_neon \/ p = P_constant_time \/ p = P_software.
Definition gate_check (c : cfg) : bool :=
  implb (rustc_ok c) (Bool.eqb (uses_avx512 c) (gate_avx512 c) && Bool.eqb (uses_arm_neon c) (gate_arm_neon c) && Bool.eqb (uses_llvm c) (gate_llvm c)).
Lemma gate_checked : all_cfgs gate_check = true. Proof. vm_compute. reflexivity. Qed.
Theorem C25_nightly_only_when_asked : forall c, rustc_ok c = true ->
  (c_nightly c = false -> stable_only (readme c) /\ gate_avx512 c = false /\ gate_arm_neon c = false /\ gate_llvm c = false /\
     (readme c = P_neon -> is_arch Arm c = false)) /\
  uses_avx512 c = gate_avx512 c /\ uses_arm_neon c = gate_arm_neon c /\ uses_llvm c = gate_llvm c.
Proof.
  intros c H. split.
  - intros N. unfold readme, readme_vaes_4, readme_vaes_2, readme_rv64, readme_rv32, gate_avx512, gate_arm_neon, gate_llvm. rewrite N. cbn [andb].
    split; [unfold stable_only; destruct (readme_aesni c), (readme_neon c), (c_ct c); auto|]. repeat (split; [reflexivity|]).
    unfold readme_neon. rewrite N, andb_false_r, orb_false_r. destruct (readme_aesni c); [discriminate|].
    destruct (little c && c_aes c && (is_arch Aarch64 c || is_arch Arm64ec c)) eqn:E; [|destruct (c_ct c); discriminate].
    intros _. unfold is_arch in *. destruct (c_arch c); rewrite ?andb_false_r in E; try discriminate; reflexivity.
  - pose proof (all_cfgs_ok _ gate_checked c) as Q. unfold gate_check in Q. rewrite H in Q. cbn [implb] in Q. rewrite !andb_true_iff in Q.
    destruct Q as ((Q1 & Q2) & Q3). split; [now apply Bool.eqb_prop|]. split; now apply Bool.eqb_prop.
Qed.
Print Assumptions C25_nightly_only_when_asked.

(** The constant-time feature: with it, a build without accelerated instructions gets the bit-sliced
    implementation; with or without it, an accelerated build is unchanged. *)
Definition with_ct (b : bool) (c : cfg) : cfg :=
  let 'Cfg a be n _ s ae v x v8 e d g := c in Cfg a be n b s ae v x v8 e d g.
Theorem C25_constant_time_feature : forall c, rustc_ok c = true ->
  (readme_accelerated c = true -> impl_of (with_ct true c) = impl_of (with_ct false c)) /\
  (readme_accelerated c = false -> c_ct c = true -> readme c = P_constant_time) /\
  (readme_accelerated c = false -> c_ct c = false -> readme c = P_software).
Proof.
  intros c H. split.
  - intros A. assert (H1 : forall b, rustc_ok (with_ct b c) = true) by (intros b; destruct c; exact H).
    rewrite !C25_readme_is_selection by apply H1.
    assert (Eb : be_arm_aes (with_ct true c) = be_arm_aes (with_ct false c)) by now destruct c. rewrite Eb.
    destruct (be_arm_aes (with_ct false c)); [reflexivity|]. f_equal.
    assert (Er : readme (with_ct true c) = readme (with_ct false c)).
    { unfold readme. assert (A' : readme_accelerated (with_ct true c) = true) by (destruct c; exact A).
      assert (F : forall f : cfg -> bool, f (with_ct true c) = f (with_ct false c) -> True) by auto. clear F.
      unfold readme_accelerated in A'.
      assert (G1 : readme_vaes_4 (with_ct true c) = readme_vaes_4 (with_ct false c)) by now destruct c.
      assert (G2 : readme_vaes_2 (with_ct true c) = readme_vaes_2 (with_ct false c)) by now destruct c.
      assert (G3 : readme_aesni (with_ct true c) = readme_aesni (with_ct false c)) by now destruct c.
      assert (G4 : readme_neon (with_ct true c) = readme_neon (with_ct false c)) by now destruct c.
      assert (G5 : readme_rv64 (with_ct true c) = readme_rv64 (with_ct false c)) by now destruct c.
      assert (G6 : readme_rv32 (with_ct true c) = readme_rv32 (with_ct false c)) by now destruct c.
      rewrite G3, G4, G5, G6 in A'. rewrite G1, G2, G3, G4, G5, G6.
      destruct (readme_vaes_4 _), (readme_vaes_2 _), (readme_aesni _), (readme_neon _), (readme_rv64 _), (readme_rv32 _); try reflexivity; discriminate. }
    rewrite Er. destruct (readme (with_ct false c)) eqn:R; destruct c; try reflexivity.
  - pose proof (C25_unambiguous c H) as (_ & V4 & V2 & _). unfold readme_accelerated, readme.
    destruct (readme_vaes_4 c), (readme_vaes_2 c), (readme_aesni c), (readme_neon c), (readme_rv64 c), (readme_rv32 c); cbn [orb];
      split; intros Z W; try discriminate; try (now rewrite W); try (specialize (V2 eq_refl); discriminate); try (specialize (V4 eq_refl); discriminate).
Qed.
Print Assumptions C25_constant_time_feature.

(** Cases: every line of the README is reached by a configuration of rustc. *)
Example C25_cases :
  Forall (fun c => rustc_ok c = true) [c_vaes512; c_vaes256; c_x86; c_neon; c_arm32; c_rv64; c_rv32; c_ct_le; c_ct_be; c_soft; c_soft_be] /\
  map readme [c_vaes512; c_vaes256; c_x86; c_neon; c_arm32; c_rv64; c_rv32; c_ct_le; c_ct_be; c_soft; c_soft_be] =
  [P_aesni_vaes4; P_aesni_vaes2; P_aesni; P_neon; P_neon; P_rv64; P_rv32; P_constant_time; P_constant_time; P_software; P_software].
Proof. split; [repeat constructor|reflexivity]. Qed.

(** ** C32 *)
(** Full statement (false): [forall c, rustc_ok c = true -> impl_of c <> None].  Witness: big-endian
    AArch64 with the AES instructions.  lib.rs:334-347 has no target_endian condition, so the chain over
    pre_enc / pre_dec is compiled, while lib.rs:54-62 does not select the NEON module that has them. *)
Theorem C32_every_configuration_compiles_refuted :
  ~ (forall c, rustc_ok c = true -> exists i, impl_of c = Some i).
Proof.
  intros H. destruct (H (Cfg Aarch64 true false false false true false false false false false true) eq_refl) as [i Hi]. discriminate Hi.
Qed.
Print Assumptions C32_every_configuration_compiles_refuted.
(** The true part: exactly the big-endian Arm configurations with the AES instructions fail. *)
Theorem C32_compiles_unless_be_arm_aes : forall c, rustc_ok c = true ->
  ((exists i, impl_of c = Some i) <-> be_arm_aes c = false).
Proof.
  intros c H. rewrite C25_readme_is_selection by assumption. destruct (be_arm_aes c); split; try discriminate; try reflexivity.
  - intros [i Hi]. discriminate.
  - intros _. eexists. reflexivity.
Qed.
Print Assumptions C32_compiles_unless_be_arm_aes.
Theorem C32_little_endian_compiles_partial : forall c, rustc_ok c = true -> c_be c = false -> exists i, impl_of c = Some i.
Proof. intros c H L. apply C32_compiles_unless_be_arm_aes; [assumption|]. unfold be_arm_aes. now rewrite L. Qed.
Print Assumptions C32_little_endian_compiles_partial.
