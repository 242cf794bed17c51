(** C57: features other crates switch on. *)
From Coq Require Import Lia.
From Verif Require Import Word Interface Fips197 Spec_Api Spec_Cfg Spec_User Model_Lib Model_Cfg Model_Features Spec_Features Spec_Client Model_Client Spec_ClientActual.
From Verif Require Import Spec_Leak Model_Leak Model_LeakAccel Model_Running.
From Verif Require Import Props_Cfg Props_Client Props_ClientActual Props_LeakAccel Props_Refuted.

Lemma unified_asked what (fs : list features) : what no_features = false -> (forall f g, what (unite f g) = what f || what g) ->
  what (unified fs) = true <-> asked what fs.
Proof.
  intros H0 HU. unfold asked. induction fs as [|f fs IH]; cbn [unified fold_right].
  - rewrite H0. split; [discriminate|intros (g & [] & _)].
  - fold (unified fs). rewrite HU, orb_true_iff, IH. split.
    + intros [H|(g & H & H')]; [exists f; split; [now left|exact H]|exists g; split; [now right|exact H']].
    + intros (g & [<-|H] & H'); [now left|right; now exists g].
Qed.
Lemma features_ok f t : rustc_ok (with_features f t) = rustc_ok t. Proof. destruct t; reflexivity. Qed.
Lemma be_arm_features f t : be_arm_aes (with_features f t) = c_be t && c_aes t && (is_arch Aarch64 t || (is_arch Arm t && c_v8 t && f_nightly f)).
Proof. destruct t; reflexivity. Qed.
Lemma rv32_features f t : rv32_zk (with_features f t) = f_nightly f && riscv32_zk_target t.
Proof. destruct t. unfold rv32_zk, riscv32_zk_target, with_features, is_arch. cbn. destruct (f_nightly f); reflexivity. Qed.
Lemma ct_features f t : be_constant_time (with_features f t) = c_be t && f_ct f. Proof. destruct t; reflexivity. Qed.
Lemma features_be f t : c_be (with_features f t) = c_be t. Proof. destruct t; reflexivity. Qed.
Lemma compiles_iff f t : rustc_ok t = true -> build t f = None <-> be_arm_aes (with_features f t) = true.
Proof.
  intros H. unfold build. rewrite C25_readme_is_selection by (now rewrite features_ok). destruct (be_arm_aes (with_features f t)); split; congruence.
Qed.
Lemma asked_nightly fs : f_nightly (unified fs) = true <-> asked f_nightly fs. Proof. now apply unified_asked. Qed.
Lemma asked_ct fs : f_ct (unified fs) = true <-> asked f_ct fs. Proof. now apply unified_asked. Qed.

(** ** Cargo compiles the crate once, with every feature any crate asks for.  A crate that asked for [f] gets what it would
    have got on its own - it compiles, and no client sees a difference - except in exactly two situations: somebody else
    asked for constant-time on a big-endian target; somebody else asked for nightly on RV32 with the AES instructions (wrong
    results) or on big-endian Arm v8 with the AES instructions (compile error). *)
Theorem C57_what_others_ask_for : forall t fs f i, rustc_ok t = true -> In f fs -> build t f = Some i ->
  ((exists i', build t (unified fs) = Some i' /\ forall p, play (crate i') [] p = play (crate i) [] p) <->
   ~ (c_be t = true /\ f_ct f = false /\ asked f_ct fs) /\
   ~ ((riscv32_zk_target t = true \/ be_arm_v8_target t = true) /\ f_nightly f = false /\ asked f_nightly fs)).
Proof.
  intros t fs f i H HI E. set (u := unified fs).
  assert (Hu : rustc_ok (with_features u t) = true) by now rewrite features_ok.
  assert (Hf : rustc_ok (with_features f t) = true) by now rewrite features_ok.
  assert (NU : f_nightly f = true -> f_nightly u = true) by (intros X; apply asked_nightly; now exists f).
  assert (CU : f_ct f = true -> f_ct u = true) by (intros X; apply asked_ct; now exists f).
  assert (NA : be_arm_aes (with_features f t) = false).
  { destruct (be_arm_aes (with_features f t)) eqn:B; [|reflexivity]. apply (compiles_iff f t H) in B. congruence. }
  rewrite <- asked_ct, <- asked_nightly. fold u.
  assert (D : forall i', build t u = Some i' ->
     ((forall p, play (crate i') [] p = play (crate i) [] p) <->
      (f_nightly u && riscv32_zk_target t = f_nightly f && riscv32_zk_target t /\ c_be t && f_ct u = c_be t && f_ct f))).
  { intros i' E'. pose proof (C41_distinguishable_iff _ i' _ i Hu E' Hf E) as Q. rewrite !rv32_features, !ct_features in Q. split.
    - intros A. split.
      + destruct (Bool.bool_dec (f_nightly u && riscv32_zk_target t) (f_nightly f && riscv32_zk_target t)) as [X|X]; [exact X|exfalso].
        destruct (proj2 Q (or_introl X)) as [p Hp]. now apply Hp.
      + destruct (Bool.bool_dec (c_be t && f_ct u) (c_be t && f_ct f)) as [X|X]; [exact X|exfalso].
        destruct (proj2 Q (or_intror X)) as [p Hp]. now apply Hp.
    - intros [A B] p.
      (* transcripts are equal because both builds are the same library *)
      rewrite (C41_every_client_on_every_build _ i' p Hu E'), (C41_every_client_on_every_build _ i p Hf E).
      unfold flavour_of. now rewrite !rv32_features, !ct_features, A, B. }
  pose proof (compiles_iff u t H) as CI. rewrite be_arm_features in CI, NA. unfold be_arm_v8_target.
  split.
  - intros (i' & E' & A). apply (D i' E') in A as [A B]. split.
    + intros (X & Y & Z). rewrite X, Y, Z in B. discriminate.
    + intros ([X|X] & Y & Z); [rewrite X, Y, Z in A; discriminate|].
      rewrite !andb_true_iff in X. destruct X as (((X1 & X2) & X3) & X4).
      assert (build t u = None) by (apply CI; rewrite X1, X2, X3, X4, Z; now rewrite orb_true_r). congruence.
  - intros [N1 N2]. destruct (build t u) as [i'|] eqn:E'.
    + exists i'. split; [reflexivity|]. apply (D i' eq_refl). split.
      * destruct (riscv32_zk_target t) eqn:X; [|now rewrite !andb_false_r]. destruct (f_nightly f) eqn:Y; [now rewrite NU|].
        destruct (f_nightly u) eqn:Z; [|reflexivity]. exfalso. apply N2. auto.
      * destruct (c_be t) eqn:X; [|reflexivity]. destruct (f_ct f) eqn:Y; [now rewrite CU|].
        destruct (f_ct u) eqn:Z; [|reflexivity]. exfalso. apply N1. auto.
    + exfalso. assert (B := proj1 CI eq_refl). apply N2.
      destruct (c_be t), (c_aes t), (is_arch Aarch64 t), (is_arch Arm t), (c_v8 t), (f_nightly u), (f_nightly f); cbn in B, NA |- *; try discriminate; auto.
Qed.
Print Assumptions C57_what_others_ask_for.

(** A crate that asked for constant-time gets a build that encrypts and decrypts in constant time, whatever else is asked for. *)
Theorem C57_constant_time_is_kept : forall t fs i k g, rustc_ok t = true -> asked f_ct fs -> build t (unified fs) = Some i ->
  exists p e, running (with_features (unified fs) t) = Some p /\ engine_of p (c_be t) = Some e /\
  forall program, In program [encrypt_program; decrypt_program; convert_program] -> constant_time (program e k (vec_n p g) (vec_m p g)).
Proof.
  intros t fs i k g H A E. apply asked_ct in A.
  destruct (C36_constant_time_feature_is_enough (with_features (unified fs) t) i k g) as (p & e & H1 & H2 & H3).
  - now rewrite features_ok.
  - exact E.
  - destruct t. cbn in *. now rewrite A.
  - exists p, e. rewrite features_be in H2. auto.
Qed.
Print Assumptions C57_constant_time_is_kept.

(** Cargo asks of features that they are additive (the Cargo book: "enabling a feature should not disable functionality").
    They are not: on a big-endian target a crate that asks for nothing encrypts wrongly as soon as another crate in the
    build asks for constant-time, and does not compile on big-endian Arm v8 if another asks for nightly. *)
Definition c_be_arm_v8 : cfg := Cfg Arm true false false false true false false true false false false.
Theorem C57_additive_refuted :
  ~ (forall t f g i, rustc_ok t = true -> build t f = Some i -> exists i', build t (unite f g) = Some i' /\
       forall k key p, is_bytes (key_len k) key -> is_bytes 16 p -> encrypt_bytes i' k key p = encrypt_bytes i k key p) /\
  (exists i i', build c_soft_be no_features = Some i /\ build c_soft_be (unified [no_features; Features false true]) = Some i' /\
     encrypt_bytes i' K128 (key_0 K128) (bytes_0_to 16) <> encrypt_bytes i K128 (key_0 K128) (bytes_0_to 16)) /\
  (exists i, build c_be_arm_v8 no_features = Some i /\ build c_be_arm_v8 (unified [no_features; Features true false]) = None).
Proof.
  assert (W : exists i i', build c_soft_be no_features = Some i /\ build c_soft_be (unified [no_features; Features false true]) = Some i' /\
     encrypt_bytes i' K128 (key_0 K128) (bytes_0_to 16) <> encrypt_bytes i K128 (key_0 K128) (bytes_0_to 16)).
  { eexists. eexists. split; [reflexivity|]. split; [reflexivity|]. vm_compute. discriminate. }
  split; [|split; [exact W|]].
  - intros H. destruct W as (i & i' & E & E' & N). destruct (H c_soft_be no_features (Features false true) i eq_refl E) as (j & Ej & A).
    apply N. assert (X : Some i' = Some j) by (rewrite <- E', <- Ej; reflexivity). injection X as ->.
    apply A; [apply bytes_0_to_ok; apply key_len_256|apply bytes_0_to_ok; lia].
  - eexists. split; reflexivity.
Qed.
Print Assumptions C57_additive_refuted.

(** On the usual targets (little-endian, not RV32 with Zkne and Zknd) they are: any client of any crate in the build sees what
    it would see alone. *)
Theorem C57_additive_on_usual_targets : forall t fs f, rustc_ok t = true -> In f fs -> c_be t = false -> riscv32_zk_target t = false ->
  exists i i', build t f = Some i /\ build t (unified fs) = Some i' /\ forall p, play (crate i') [] p = play (crate i) [] p.
Proof.
  intros t fs f H HI B R. destruct (build t f) as [i|] eqn:E.
  2:{ apply (compiles_iff f t H) in E. rewrite be_arm_features, B in E. discriminate. }
  exists i. destruct (proj2 (C57_what_others_ask_for t fs f i H HI E)) as (i' & E' & A).
  - rewrite B, R. unfold be_arm_v8_target. rewrite B, andb_false_r. split; [intros (X & _)|intros ([X|X] & _)]; discriminate.
  - exists i'. auto.
Qed.
Print Assumptions C57_additive_on_usual_targets.
Example C57_case : rustc_ok c_x86 = true /\ build c_x86 no_features <> None /\ c_be c_x86 = false /\ riscv32_zk_target c_x86 = false /\
  unified [no_features; Features true false; Features false true] = Features true true /\ asked f_ct [no_features; Features false true] /\
  riscv32_zk_target c_rv32 = true /\ be_arm_v8_target c_be_arm_v8 = true.
Proof. repeat split; try reflexivity; try discriminate. exists (Features false true). split; [right; now left|reflexivity]. Qed.
