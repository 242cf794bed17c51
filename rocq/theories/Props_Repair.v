(** C56: the defects of C30, C31 and C32 are exactly eight edits. *)
From Coq Require Import Lia Arith.
From Verif Require Import Word Interface Fips197 Spec_Api Spec_Reach Spec_Cfg Spec_User Model_Lib Model_Bitslice Model_Cfg Model_Repair Spec_Repair Model_Suite.
From Verif Require Import Proof_Word Proof_Fips Proof_Ok Proof_Sem Proof_Lib Proof_Reach Proof_Inst Proof_Cipher Proof_Main Proof_Repair Proof_Suite.
From Verif Require Import Props_Cfg Props_Rounds Props_Batch Props_Actual Props_Refuted Samples.
Open Scope N_scope.

Section Build.
Context (i : impl) (pre : option (bop * bop)) (f1 : list N -> T1 i) (f2 : list N -> T2 i) (f4 : list N -> T4 i).
Context (P : pre_fips pre) (R : refines i f1 f2 f4 (fips_sem pre round_keys)).
Lemma build_ok : fips_build i.
Proof.
  pose proof (fips_rk_ok pre P) as S1. pose proof (R_d1 _ _ _ _ _ R) as D.
  assert (M : forall k key gs msg, is_bytes (key_len k) key -> is_bytes (groups_len gs) msg ->
    encrypt_message i k key gs msg = Ret (each_block (aes_encrypt k key) msg) /\ decrypt_message i k key gs msg = Ret (each_block (aes_decrypt k key) msg)).
  { intros k key gs msg Hk Hm. assert (HM : exists m, groups_len gs = (16 * m)%nat).
    { clear. induction gs as [|g gs [m IH]]; [now exists 0%nat|]. cbn [groups_len fold_right]. fold (groups_len gs). rewrite IH.
      destruct g; cbn [group_len]; [exists (1 + m)%nat|exists (2 + m)%nat|exists (4 + m)%nat]; lia. }
    destruct HM as [m HM]. split.
    - rewrite (encrypt_message_ok i f1 f2 f4 _ k key gs msg R S1 Hk Hm). cbn [fips_sem s_keys]. f_equal. rewrite HM in Hm.
      apply (each_block_ext _ _ m); [|assumption]. intros x Hx. now apply b_encrypt_fips.
    - rewrite (decrypt_message_ok i f1 f2 f4 _ k key gs msg R S1 Hk Hm). cbn [fips_sem s_keys s_imc]. f_equal. rewrite HM in Hm.
      apply (each_block_ext _ _ m); [|assumption]. intros x Hx. now apply b_decrypt_fips. }
  split.
  - intros k key p Hk Hp. pose proof (round_keys_good k key Hk) as G. split.
    + unfold encrypt_bytes. rewrite (enc_new_ok _ _ _ _ _ R) by assumption. cbn [bind]. rewrite (dk_from _ _ _ D) by assumption. cbn [bind].
      rewrite (encrypt_block_ok _ _ _ _ _ R S1) by assumption. cbn [bind fips_sem s_keys].
      rewrite b_encrypt_fips by assumption. apply (to_bytes_ok _ 16); [apply R|]. now apply aes_encrypt_bytes.
    + unfold decrypt_bytes. rewrite (dec_new_ok _ _ _ _ _ R S1) by assumption. cbn [bind]. rewrite (dk_from _ _ _ D) by assumption. cbn [bind].
      rewrite (decrypt_block_ok _ _ _ _ _ R S1) by (assumption || (apply b_swap_good; [apply inv_mix_columns_bytes|assumption])). cbn [bind].
      cbn [fips_sem s_imc s_keys]. rewrite b_decrypt_fips by assumption. apply (to_bytes_ok _ 16); [apply R|]. now apply aes_decrypt_bytes.
  - exact M.
  - intros k key Hk. unfold key_bytes. rewrite (enc_new_ok _ _ _ _ _ R) by assumption. cbn [bind enc_keys].
    apply show_keys; [apply R|]. apply (so_keys _ S1 k key Hk).
  - intros a b Ha Hb.
    assert (O2 : forall op g, lane_ok op 1 f1 g -> bop_ok g -> op2_bytes i op a b = Ret (g a b)).
    { intros op g L G. unfold op2_bytes. rewrite !(dk_from _ _ _ D) by assumption. cbn [bind]. rewrite (ln1 op f1 g) by assumption. apply (to_bytes_ok _ 16); [apply R|now apply G]. }
    assert (O1 : forall op g, (forall a, is_bytes 16 a -> op (f1 a) = f1 (g a)) -> (forall a, is_bytes 16 a -> is_bytes 16 (g a)) -> op1_bytes i op a = Ret (g a)).
    { intros op g L G. unfold op1_bytes. rewrite !(dk_from _ _ _ D) by assumption. cbn [bind]. rewrite L by assumption. apply (to_bytes_ok _ 16); [apply R|now apply G]. }
    refine (conj _ (conj _ (conj _ (conj _ (conj _ _))))).
    + apply O2; [apply R|apply spec_enc_bop].
    + apply O2; [apply R|apply spec_enc_last_bop].
    + apply O2; [apply R|apply spec_dec_bop].
    + apply O2; [apply R|apply spec_dec_last_bop].
    + apply O1; [apply R|apply mix_columns_bytes].
    + apply O1; [apply R|apply inv_mix_columns_bytes].
  - intros x ks Hx Hk. unreach R S1. assert (Hk' : Forall (img 16 f1) ks) by (eapply Forall_impl; [|exact Hk]; apply (reach1_img _ _ _ _ _ R S1)).
    apply Forall_img in Hk' as (l & Fl & ->).
    split; [eapply (chain_documented _ 1 f1 _ false _ _ pre round_keys)|eapply (chain_documented _ 1 f1 _ true _ _ pre round_keys)];
      try reflexivity; try assumption; try apply R; try apply spec_enc_bop; try apply spec_dec_bop; apply (chain_enc1_ok _ _ _ _ _ R S1) || apply (chain_dec1_ok _ _ _ _ _ R S1).
Qed.
End Build.

(** ** The edited crate without edits is the crate *)
Theorem C56_no_edit_is_the_code : forall c, impl_with no_edits c = impl_of c.
Proof. exact no_edit. Qed.
Print Assumptions C56_no_edit_is_the_code.
Example C56_no_edit_is_the_code_case : exists i, impl_with no_edits c_rv32 = Some i /\ impl_with no_edits c_rv32 <> impl_with all_edits c_rv32 /\
  encrypt_bytes i K128 (key_0 K128) (bytes_0_to 16) <> Ret (aes_encrypt K128 (key_0 K128) (bytes_0_to 16)).
Proof.
  eexists. split; [reflexivity|]. assert (W : encrypt_bytes (default_of true (rx_ops no_edits) (rx_ext no_edits) (Some (rx_pre_enc no_edits, rx_pre_dec no_edits))) K128 (key_0 K128) (bytes_0_to 16)
     <> Ret (aes_encrypt K128 (key_0 K128) (bytes_0_to 16))) by (vm_compute; discriminate).
  split; [|exact W]. intros H. apply W.
  assert (Q : exists i, impl_with all_edits c_rv32 = Some i /\ fips_build i).
  { destruct (impl_with all_edits c_rv32) as [i|] eqn:E; [|discriminate]. exists i. split; [reflexivity|].
    destruct (impl_with_fips all_edits c_rv32 i E ltac:(reflexivity) ltac:(reflexivity)) as (pre & f1 & f2 & f4 & P & R). exact (build_ok i pre f1 f2 f4 P R). }
  rewrite <- H in Q. destruct Q as (i & E & F). injection E as <-.
  exact (proj1 (fb_ciphers _ F K128 (key_0 K128) (bytes_0_to 16) (bytes_0_to_ok _ (key_len_256 K128)) (bytes_0_to_ok 16 ltac:(lia)))).
Qed.

(** ** What each configuration selects *)
Definition some_check (ch : bool) (c : cfg) : bool :=
  implb (rustc_ok c)
    (let e := Edits false false false false false false false ch in
     Bool.eqb (match impl_with e c with Some _ => true | None => false end) (negb (be_arm c) || ch)).
Lemma some_checked : all_cfgs (some_check false) && all_cfgs (some_check true) = true. Proof. vm_compute. reflexivity. Qed.
Lemma some_default {T} dbg (o : ops T) x p :
  (match default_impl dbg o x p with Some _ => true | None => false end) = negb p || (match e_pre x with Some _ => true | None => false end).
Proof. unfold default_impl. destruct p; [destruct (e_pre x)|]; reflexivity. Qed.
Lemma same_chain a b c : ed_chain a = ed_chain b ->
  (match impl_with a c with Some _ => true | None => false end) = (match impl_with b c with Some _ => true | None => false end).
Proof.
  intros H. unfold impl_with. replace (select_pre_with b c) with (select_pre_with a c) by (unfold select_pre_with; now rewrite H).
  destruct (select_x2 c), (select_x4 c), (select_block c); cbv beta iota zeta; rewrite ?some_default; cbn [e_pre rx_ext bx_ext]; reflexivity.
Qed.
Lemma compiles e c : rustc_ok c = true -> (match impl_with e c with Some _ => true | None => false end) = negb (be_arm c) || ed_chain e.
Proof.
  intros H. pose proof some_checked as S. apply andb_true_iff in S as [S0 S1].
  rewrite (same_chain e (Edits false false false false false false false (ed_chain e)) c eq_refl).
  destruct (ed_chain e).
  - pose proof (all_cfgs_ok _ S1 c) as Q. unfold some_check in Q. rewrite H in Q. now apply Bool.eqb_prop.
  - pose proof (all_cfgs_ok _ S0 c) as Q. unfold some_check in Q. rewrite H in Q. now apply Bool.eqb_prop.
Qed.

Definition sel_rv_check (c : cfg) : bool :=
  implb (rustc_ok c && rv32_zk c) (match select_x2 c, select_x4 c, select_block c with WDefault, WDefault, BRv32 => true | _, _, _ => false end).
Definition sel_ct_check (c : cfg) : bool :=
  implb (rustc_ok c && be_constant_time c) (match select_x2 c, select_x4 c, select_block c with WDefault, WDefault, BBitslice => true | _, _, _ => false end).
Lemma sel_both : all_cfgs sel_rv_check && all_cfgs sel_ct_check = true. Proof. vm_compute. reflexivity. Qed.
Lemma rv32_with e c i : rustc_ok c = true -> rv32_zk c = true -> impl_with e c = Some i ->
  i = default_of (c_dbg c) (rx_ops e) (rx_ext e) (Some (rx_pre_enc e, rx_pre_dec e)).
Proof.
  intros H1 H2 E. pose proof sel_both as S. apply andb_true_iff in S as [S _]. pose proof (all_cfgs_ok _ S c) as Q.
  unfold sel_rv_check in Q. rewrite H1, H2 in Q. unfold impl_with in E.
  destruct (select_x2 c), (select_x4 c), (select_block c); try discriminate Q.
  assert (P : select_pre_with e c = true) by (unfold select_pre_with; unfold rv32_zk in H2; now rewrite H2, orb_true_r).
  rewrite P in E. unfold default_impl in E. cbn [rx_ext e_pre] in E. now injection E as <-.
Qed.
Lemma ct_be_with e c i : rustc_ok c = true -> be_constant_time c = true -> impl_with e c = Some i ->
  i = default_of (c_dbg c) (bitslice_ops true) (bx_ext e true) None.
Proof.
  intros H1 H2 E. pose proof sel_both as S. apply andb_true_iff in S as [_ S]. pose proof (all_cfgs_ok _ S c) as Q.
  unfold sel_ct_check in Q. rewrite H1, H2 in Q. unfold impl_with in E. apply andb_true_iff in H2 as [H2 _]. rewrite H2 in E.
  destruct (select_x2 c), (select_x4 c), (select_block c); try discriminate Q.
  unfold default_impl in E. cbn [bx_ext e_pre] in E. destruct (select_pre_with e c); [discriminate|]. now injection E as <-.
Qed.

(** ** A missing edit shows in the ciphertext or in the plaintext *)
Lemma rv32_missing e dbg : fips_ciphers (default_of dbg (rx_ops e) (rx_ext e) (Some (rx_pre_enc e, rx_pre_dec e))) ->
  ed_order e = true /\ ed_pre e = true /\ ed_rot128 e = true /\ ed_rot192 e = true /\ ed_rot256 e = true.
Proof.
  intros H. set (i := default_of dbg (rx_ops e) (rx_ext e) (Some (rx_pre_enc e, rx_pre_dec e))) in H.
  assert (H' : forall k, encrypt_bytes i k (key_0 k) (bytes_0_to 16) = Ret (aes_encrypt k (key_0 k) (bytes_0_to 16)) /\
                         decrypt_bytes i k (key_0 k) (bytes_0_to 16) = Ret (aes_decrypt k (key_0 k) (bytes_0_to 16))).
  { intros k. apply H; [apply bytes_0_to_ok; apply key_len_256|apply bytes_0_to_ok; lia]. }
  destruct e as [o p r1 r2 r3 b1 b2 ch]. subst i. cbn [ed_order ed_pre ed_rot128 ed_rot192 ed_rot256].
  assert (P : p = true).
  { destruct (H' K128) as [A _]. clear -A. destruct p; [reflexivity|]. exfalso. destruct r1, dbg; time (vm_compute in A); discriminate A. }
  subst p. assert (R1 : r1 = true).
  { destruct (H' K128) as [A _]. clear -A. destruct r1; [reflexivity|]. exfalso. destruct dbg; vm_compute in A; discriminate A. }
  assert (R2 : r2 = true).
  { destruct (H' K192) as [A _]. clear -A. destruct r2; [reflexivity|]. exfalso. destruct dbg; vm_compute in A; discriminate A. }
  assert (R3 : r3 = true).
  { destruct (H' K256) as [A _]. clear -A. destruct r3; [reflexivity|]. exfalso. destruct dbg; vm_compute in A; discriminate A. }
  subst r1 r2 r3. assert (O : o = true).
  { destruct (H' K128) as [_ A]. clear -A. destruct o; [reflexivity|]. exfalso. destruct dbg; vm_compute in A; discriminate A. }
  subst o. repeat (split; [reflexivity|]). reflexivity.
Qed.
Lemma ct_be_missing e dbg : fips_ciphers (default_of dbg (bitslice_ops true) (bx_ext e true) None) -> ed_be_rot e = true /\ ed_be_rcon e = true.
Proof.
  intros H. pose proof (proj1 (H K128 (key_0 K128) (bytes_0_to 16) (bytes_0_to_ok _ (key_len_256 K128)) (bytes_0_to_ok 16 ltac:(lia)))) as A. clear H.
  destruct e as [o p r1 r2 r3 b1 b2 ch]. cbn [ed_be_rot ed_be_rcon].
  destruct b1, b2; [split; reflexivity|exfalso; destruct dbg; vm_compute in A; discriminate A..].
Qed.

(** ** For every set of edits and every configuration: the build compiles and follows FIPS-197 if and only if it has the
    edits it needs.  The left-to-right direction asks for everything of [fips_build], the other only for [fips_ciphers]:
    a build without one of its edits gives wrong bytes for some key and block. *)
Theorem C56_exactly_these_edits : forall e c, rustc_ok c = true ->
  (needs c e -> exists i, impl_with e c = Some i /\ fips_build i) /\
  ((exists i, impl_with e c = Some i /\ fips_ciphers i) -> needs c e).
Proof.
  intros e c H. pose proof (compiles e c H) as C. split.
  - intros (N1 & N2 & N3). destruct (impl_with e c) as [i|] eqn:E.
    + exists i. split; [reflexivity|]. destruct (impl_with_fips e c i E) as (pre & f1 & f2 & f4 & P & R).
      * intros X. destruct (N2 X) as (A & B & D & F & G). unfold rx_needs. now rewrite A, B, D, F, G.
      * intros X. destruct (N3 X) as (A & B). unfold bx_needs. now rewrite A, B.
      * exact (build_ok i pre f1 f2 f4 P R).
    + destruct (be_arm c); [rewrite (N1 eq_refl) in C|]; discriminate C.
  - intros (i & E & F). split; [|split].
    + intros X. rewrite E, X in C. cbn [negb orb] in C. now symmetry.
    + intros X. pose proof (rv32_with e c i H X E) as ->. exact (rv32_missing e (c_dbg c) F).
    + intros X. pose proof (ct_be_with e c i H X E) as ->. exact (ct_be_missing e (c_dbg c) F).
Qed.
Print Assumptions C56_exactly_these_edits.
(** RV32 with four of its five edits still fails, whatever else is edited; with the five it is FIPS-197. *)
Example C56_exactly_these_edits_case :
  ~ needs c_rv32 (Edits true true true true false true true true) /\ needs c_rv32 (Edits true true true true true false false false) /\
  needs c_ct_be (Edits false false false false false true true false) /\ needs c_x86 no_edits /\ ~ needs c_ct_be no_edits.
Proof.
  unfold needs. cbn. repeat split; try discriminate; try reflexivity.
  - intros (_ & X & _). destruct (X eq_refl) as (_ & _ & _ & _ & Y). discriminate Y.
  - intros (_ & _ & X). destruct (X eq_refl) as (Y & _). discriminate Y.
Qed.

(** ** None of the eight is superfluous, and together they are enough on every configuration *)
Definition c_be_arm : cfg := Cfg Aarch64 true false false false true false false false false false true.
Theorem C56_all_edits_needed : forall e,
  (forall c, rustc_ok c = true -> exists i, impl_with e c = Some i /\ fips_build i) <-> e = all_edits.
Proof.
  intros e. split.
  - intros H.
    assert (N : forall c, rustc_ok c = true -> needs c e).
    { intros c Hc. apply (C56_exactly_these_edits e c Hc). destruct (H c Hc) as (i & E & F). exists i. split; [exact E|apply F]. }
    destruct (N c_rv32 eq_refl) as (_ & A & _). destruct (A eq_refl) as (A1 & A2 & A3 & A4 & A5).
    destruct (N c_ct_be eq_refl) as (_ & _ & B). destruct (B eq_refl) as (B1 & B2).
    destruct (N c_be_arm eq_refl) as (D & _). pose proof (D eq_refl) as D1.
    destruct e as [o p r1 r2 r3 b1 b2 ch]. cbn [ed_order ed_pre ed_rot128 ed_rot192 ed_rot256 ed_be_rot ed_be_rcon ed_chain] in *. now subst.
  - intros -> c Hc. apply (C56_exactly_these_edits all_edits c Hc). repeat split.
Qed.
Print Assumptions C56_all_edits_needed.
Example C56_all_edits_needed_case : rustc_ok c_rv32 = true /\ rustc_ok c_ct_be = true /\ rustc_ok c_be_arm = true /\ impl_of c_be_arm = None /\
  exists i, impl_with all_edits c_be_arm = Some i /\ fips_build i.
Proof.
  split; [reflexivity|]. split; [reflexivity|]. split; [reflexivity|]. split; [reflexivity|].
  apply (proj2 (C56_all_edits_needed all_edits) eq_refl c_be_arm). reflexivity.
Qed.
(** On the configurations C01 speaks about, the edits change nothing: any set of them leaves the build as correct as it is. *)
Theorem C56_edits_harmless : forall e c i, rustc_ok c = true -> conforming c = true -> impl_of c = Some i ->
  exists j, impl_with e c = Some j /\ fips_build j.
Proof.
  intros e c i H C E. apply (C56_exactly_these_edits e c H). unfold conforming in C. apply andb_true_iff in C as [C1 C2].
  apply negb_true_iff in C1, C2. unfold needs. rewrite C1, C2. split; [|split; discriminate].
  intros B. pose proof (compiles no_edits c H) as Q. rewrite no_edit, E, B in Q. discriminate Q.
Qed.
Print Assumptions C56_edits_harmless.
Example C56_edits_harmless_case : exists i, impl_of c_neon = Some i /\ conforming c_neon = true /\ select_pre_with all_edits c_neon = true.
Proof. eexists. split; [reflexivity|]. split; reflexivity. Qed.

(** ** The project's tests see each of the edits: on every configuration and for every set of edits that compiles, the
    suite is green if and only if the build follows FIPS-197 in everything. *)
Lemma results_each i : forallb (fun b => b) (results i) = true ->
  aesenc_test i = true /\ expansion_test i K128 = true /\ expansion_test i K192 = true /\ expansion_test i K256 = true /\ cipher_test i K128 = true.
Proof. unfold results. cbn [forallb]. rewrite !andb_true_iff. tauto. Qed.
Lemma rv32_suite e dbg : forallb (fun b => b) (results (default_of dbg (rx_ops e) (rx_ext e) (Some (rx_pre_enc e, rx_pre_dec e)))) = true ->
  ed_order e = true /\ ed_pre e = true /\ ed_rot128 e = true /\ ed_rot192 e = true /\ ed_rot256 e = true.
Proof.
  intros H. destruct (results_each _ H) as (A & E1 & E2 & E3 & F). clear H.
  destruct e as [o p r1 r2 r3 b1 b2 ch]. cbn [ed_order ed_pre ed_rot128 ed_rot192 ed_rot256].
  assert (O : o = true) by (clear -A; destruct o; [reflexivity|exfalso; destruct p, dbg; vm_compute in A; discriminate A]).
  assert (R1 : r1 = true) by (clear -E1; destruct r1; [reflexivity|exfalso; destruct dbg; vm_compute in E1; discriminate E1]).
  assert (R2 : r2 = true) by (clear -E2; destruct r2; [reflexivity|exfalso; destruct dbg; vm_compute in E2; discriminate E2]).
  assert (R3 : r3 = true) by (clear -E3; destruct r3; [reflexivity|exfalso; destruct dbg; vm_compute in E3; discriminate E3]).
  subst o r1 r2 r3. assert (P : p = true) by (clear -F; destruct p; [reflexivity|exfalso; destruct dbg; vm_compute in F; discriminate F]).
  subst p. repeat (split; [reflexivity|]). reflexivity.
Qed.
Lemma ct_be_suite e dbg : forallb (fun b => b) (results (default_of dbg (bitslice_ops true) (bx_ext e true) None)) = true -> ed_be_rot e = true /\ ed_be_rcon e = true.
Proof.
  intros H. destruct (results_each _ H) as (_ & A & _). clear H.
  destruct e as [o p r1 r2 r3 b1 b2 ch]. cbn [ed_be_rot ed_be_rcon].
  destruct b1, b2; [split; reflexivity|exfalso; destruct dbg; vm_compute in A; discriminate A..].
Qed.
Theorem C56_suite_green_iff_repaired : forall e c i, rustc_ok c = true -> impl_with e c = Some i ->
  (suite_passes c i = true <-> fips_build i).
Proof.
  intros e c i H E. split.
  - intros S. unfold suite_passes in S. rewrite forallb_app in S. apply andb_true_iff in S as [S _].
    assert (N : needs c e).
    { split; [|split].
      - intros X. pose proof (compiles e c H) as C. rewrite E, X in C. cbn [negb orb] in C. now symmetry.
      - intros X. pose proof (rv32_with e c i H X E) as ->. exact (rv32_suite e (c_dbg c) S).
      - intros X. pose proof (ct_be_with e c i H X E) as ->. exact (ct_be_suite e (c_dbg c) S). }
    destruct (proj1 (C56_exactly_these_edits e c H) N) as (j & Ej & F). rewrite E in Ej. injection Ej as <-. exact F.
  - intros F. assert (N : needs c e) by (apply (C56_exactly_these_edits e c H); exists i; split; [exact E|apply F]).
    destruct N as (_ & N2 & N3). destruct (impl_with_fips e c i E) as (pre & f1 & f2 & f4 & P & R).
    + intros X. destruct (N2 X) as (A & B & D & G & K). unfold rx_needs. now rewrite A, B, D, G, K.
    + intros X. destruct (N3 X) as (A & B). unfold bx_needs. now rewrite A, B.
    + unfold suite_passes. rewrite forallb_app, (results_pass i pre f1 f2 f4 P (fips_rk_ok pre P) R), bitslice_passes. reflexivity.
Qed.
Print Assumptions C56_suite_green_iff_repaired.
Example C56_suite_green_iff_repaired_case : exists i, impl_with all_edits c_rv32 = Some i /\ suite_passes c_rv32 i = true.
Proof.
  destruct (proj2 (C56_all_edits_needed all_edits) eq_refl c_rv32 eq_refl) as (i & E & F). exists i. split; [exact E|].
  now apply (C56_suite_green_iff_repaired all_edits c_rv32 i eq_refl E).
Qed.
