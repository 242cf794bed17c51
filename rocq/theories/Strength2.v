(** Strength.v for the claims tested in Model_Tests2 and for those of Model_Tests that concern configurations and programs. *)
From Coq Require Import String Arith Lia.
From Verif Require Import Word Interface Fips197 Spec_Api Spec_Reach Spec_User Spec_Cfg Spec_Leak Spec_Actual Spec_Insn Spec_Mem Spec_Algebra Spec_Client Spec_ClientActual Spec_Threads Spec_LeakBlock Spec_LeakClient Spec_LeakSoft Tables.
From Verif Require Import Model_Lib Model_Cfg Model_Leak Model_LeakAccel Model_LeakSoft Model_Running Model_LeakTable Model_LeakBlock Model_Mem Model_Client Model_LeakClient Model_Tests Model_Tests2.
From Verif Require Import Model_Table Model_Bitslice Model_X86 Model_Vaes Model_Arm Model_Rv64 Model_Rv32 Model_Wide.
From Verif Require Import Proof_Word Proof_Reach.
From Verif Require Import Props_Cfg Props_Blocks Props_Rounds Props_Total Props_Leak Props_LeakAccel Props_Actual Props_Keys Props_Insn Props_Mem Props_Algebra Props_Client Props_ClientActual Props_Threads Props_LeakBlock Props_LeakClient Props_LeakSoft Strength.
Open Scope N_scope.
Open Scope list_scope.

(** ** C25, C32 *)
Lemma every_ok f : (forall c, f c = true) -> every_cfg f = true.
Proof. intros H. unfold every_cfg. repeat (apply forallb_forall; intros ? _). apply H. Qed.
Lemma t25_follows : every_cfg t25_one = true.
Proof.
  apply every_ok. intros c. unfold t25_one. destruct (rustc_ok c) eqn:Hc; [|reflexivity]. cbn [implb]. destruct (C25_nightly_only_when_asked c Hc) as (_ & -> & -> & ->). rewrite !Bool.eqb_reflx.
  pose proof (C25_running_is_readme c Hc) as Q. unfold running in Q. destruct (select_block c), (select_x2 c), (select_x4 c); try discriminate Q; injection Q as <-; reflexivity.
Qed.
Lemma t32_follows : every_cfg t32_one = true.
Proof.
  apply every_ok. intros c. unfold t32_one. destruct (rustc_ok c) eqn:Hc; [|reflexivity]. cbn [implb]. destruct (impl_of c) as [i|] eqn:E; [reflexivity|].
  destruct (be_arm_aes c) eqn:B; [|destruct (C32_compiles_unless_be_arm_aes c Hc) as [_ H]; destruct (H B) as [i Hi]; congruence].
  revert B. unfold be_arm_aes, is_neon_arch, is_arch. destruct (c_aes c), (c_be c), (c_arch c), (c_nightly c), (c_v8 c); cbn; congruence.
Qed.

(** ** C29, C36 *)
Lemma event_eqb_refl a : event_eqb a a = true.
Proof. destruct a; cbn; rewrite ?String.eqb_refl, ?N.eqb_refl, ?Bool.eqb_reflx; reflexivity. Qed.
Lemma trace_eqb_refl a : trace_eqb a a = true. Proof. induction a; cbn; [reflexivity|]. now rewrite event_eqb_refl. Qed.
Lemma key16 k : is_bytes (key_len k) (t_key k). Proof. apply is_bytesb_correct. destruct k; vm_compute; reflexivity. Qed.
Lemma key16' k : is_bytes (key_len k) (t_key' k). Proof. apply is_bytesb_correct. destruct k; vm_compute; reflexivity. Qed.
Lemma engine_follows c i p e shapes sizes : rustc_ok c = true -> impl_of c = Some i -> running c = Some p -> engine_of p (c_be c) = Some e -> p <> P_software ->
  Forall (fun gm : group * nat * nat * list N => let '(g, n, m, msg) := gm in n = vec_n p g /\ m = vec_m p g /\ is_bytes (group_len g) msg) shapes ->
  t_engine c e shapes sizes = true.
Proof.
  intros Hc E Hr He Hp F. unfold t_engine. rewrite E. apply forallb_forall. intros k _. apply (forallb_ok _ _ _ F). intros [[[g n] m] msg] (-> & -> & B). cbv zeta.
  destruct (C36_programs_are_the_api c p i e k g (t_key k) msg Hc E Hr He (key16 k) B) as (H1 & H2 & H3). ands; try (now apply is_ok).
  apply forallb_forall. intros q Hq. assert (L : length (t_key k) = length (t_key' k)) by (destruct (key16 k), (key16' k); congruence).
  rewrite (C36_accelerated_constant_time p (c_be c) e k g (t_key k) msg (t_key' k) (rev msg) He Hp L (eq_sym (rev_length msg)) q Hq). apply trace_eqb_refl.
Qed.
Ltac engine := eapply engine_follows; [reflexivity|reflexivity|reflexivity|reflexivity|discriminate|repeat (apply Forall_cons || apply Forall_nil); (split; [reflexivity|split; [reflexivity|apply is_bytesb_correct; vm_compute; reflexivity]])].
Lemma t29_follows : t29_bitslice false = true /\ t29_bitslice true = true. Proof. split; engine. Qed.
Lemma t36_follows : t36 c_x86 x86_engine [(Two, 1, 2, blkA ++ blkB)]%nat && t36 c_vaes256 x86_engine [(Four, 2, 2, abcd)]%nat && t36 c_vaes512 x86_engine [(Four, 4, 1, abcd)]%nat &&
  t36 c_neon arm_engine [] && t36 c_rv64 rv64_engine [] && t36 c_rv32 rv32_engine [] = true.
Proof. ands; engine. Qed.
Lemma t29_table_follows : t29_table = true.
Proof. apply forallb_forall. intros k _. apply is_ok. apply (C29_table_program_is_the_api c_soft); [reflexivity|reflexivity|apply key16|exact A16]. Qed.

(** ** C33, C34 *)
Lemma impl_ok c f : (forall i, impl_of c = Some i -> f i = true) -> (exists i, impl_of c = Some i) -> with_impl c f = true.
Proof. intros H [i E]. unfold with_impl. rewrite E. now apply H. Qed.
Lemma t33_follows : t33 = true.
Proof.
  apply impl_ok; [|eexists; reflexivity]. intros i E. assert (C : rv32_zk c_rv32 = true) by reflexivity.
  assert (R : forall a b, is_bytes 16 a -> is_bytes 16 b -> op2_bytes i (o_dec (i_ops1 i)) a b = Ret (rv32_dec a b) /\ op2_bytes i (o_dec_last (i_ops1 i)) a b = Ret (rv32_dec_last a b) /\
    op1_bytes i (e_mc (i_ext i)) a = Ret (rv32_mc a) /\ op1_bytes i (e_imc (i_ext i)) a = Ret (rv32_imc a)).
  { intros a b Ha Hb. destruct (made1 _ _ E a Ha) as (x & Hx & Fx & Sx), (made1 _ _ E b Hb) as (y & Hy & Fy & Sy). unfold op2_bytes, op1_bytes. rewrite Fx, Fy. cbn [bind].
    exact (C33_rv32_rounds_exact _ i x y a b E C Hx Hy Sx Sy). }
  unfold t33. ands.
  - apply key_sizes_ok. intros k key Hk. cbv zeta. apply and_ok; [now apply is_ok2, (C33_rv32_key_schedule_exact c_rv32)|].
    apply (forallb_ok _ (is_bytes 16)); [repeat constructor; (apply A16 || apply C16)|]. intros p Hp. destruct (C33_rv32_ciphers_exact _ i k key p E C Hk Hp) as (H1 & H2 & H3). ands; now apply is_ok.
  - apply (forallb_ok _ (both 16)); [apply both_list; vm_compute; reflexivity|]. intros [a b] [Ha Hb]. cbn [fst snd] in *. destruct (R a b Ha Hb) as (H1 & H2 & _). ands; now apply is_ok.
  - apply (forallb_ok _ (is_bytes 16)); [exact blks16|]. intros a Ha. destruct (R a a Ha Ha) as (_ & _ & H1 & H2). ands; now apply is_ok.
Qed.
Lemma t34_follows : t34 = true.
Proof.
  apply impl_ok; [|eexists; reflexivity]. intros i E. apply key_sizes_ok. intros k key Hk. cbv zeta. apply and_ok; [now apply is_ok2, (C34_be_key_schedule_exact c_ct_be)|].
  apply (forallb_ok _ (is_bytes 16)); [repeat constructor; (apply A16 || apply C16)|]. intros p Hp. destruct (C34_be_ciphers_exact c_ct_be i k key p eq_refl E eq_refl Hk Hp) as (H1 & H2 & H3). ands; now apply is_ok.
Qed.

(** ** C35 *)
Lemma lleqb_eq a b : lleqb a b = true -> a = b.
Proof. revert b. induction a as [|x a IH]; intros [|y b] H; try discriminate; [reflexivity|]. cbn in H. apply andb_prop in H as [H1 H2]. apply leqb_eq in H1. f_equal; auto. Qed.
Lemma other_bytes n j key : is_bytes n key -> (j < n)%nat -> is_bytes n (other_key j key) /\ key <> other_key j key.
Proof.
  intros [L F] Hj. unfold other_key. split.
  - split; [rewrite app_length; cbn [List.length]; rewrite firstn_length, skipn_length; lia|]. apply Forall_app. split; [now apply Proof_Sem.Forall_firstn'|]. constructor; [|now apply Proof_Mem.Forall_skipn'].
    rewrite Forall_forall in F. assert (H : nth j key 0 < 256) by (apply F, nth_In; lia). apply (lxor_lt _ _ 8); [exact H|reflexivity].
  - intros H. apply (f_equal (fun l => nth j l 0)) in H. rewrite app_nth2 in H by (rewrite firstn_length; lia). rewrite firstn_length, Nat.min_l, Nat.sub_diag in H by lia. cbn in H.
    assert (Q : N.lxor (nth j key 0) (N.lxor (nth j key 0) 1) = 0) by (rewrite <- H; apply N.lxor_nilpotent). rewrite <- N.lxor_assoc, N.lxor_nilpotent in Q. discriminate.
Qed.
Lemma nth_firstn' {A} n j (l : list A) d : (j < n)%nat -> nth j (firstn n l) d = nth j l d.
Proof. revert j l. induction n as [|n IH]; intros j l H; [lia|]. destruct l, j; cbn; try reflexivity. apply IH. lia. Qed.
Lemma t35_follows c i : rustc_ok c = true -> impl_of c = Some i -> t35 i = true.
Proof.
  intros Hc E. apply key_sizes_ok. intros k key Hk. apply (forallb_ok _ (fun j => (j < key_len k)%nat)); [destruct k; repeat constructor; cbn; lia|]. intros j Hj.
  destruct (other_bytes (key_len k) j key Hk Hj) as [Hk' Ne]. destruct (key_bytes i k key) as [a| |] eqn:Ka; try reflexivity. destruct (key_bytes i k (other_key j key)) as [b| |] eqn:Kb; try reflexivity.
  apply forallb_forall. intros r Hr. apply in_seq in Hr. apply Bool.negb_true_iff. destruct (lleqb _ _) eqn:L; [|reflexivity]. apply lleqb_eq in L. exfalso. apply Ne.
  apply (C35_adjacent_round_keys_determine_key c i k _ _ a b r Hc E Hk Hk' Ka Kb); [destruct k; cbn in *; lia|]. intros q Hq. assert (W : window k = t_window k) by now destruct k. rewrite W in Hq.
  rewrite <- !Proof_Mem.nth_skipn. apply (f_equal (fun l => nth q l [])) in L. rewrite !nth_firstn' in L by exact Hq. exact L.
Qed.

(** ** C37 *)
Lemma some_ok f : (forall c, f c = true) -> some_cfg f = true.
Proof. intros H. unfold some_cfg. repeat (apply forallb_forall; intros ? _). apply H. Qed.
Lemma t37_follows : some_cfg t37_one = true.
Proof.
  apply some_ok. intros c. unfold t37_one. destruct (rustc_ok c) eqn:Hc; [|reflexivity]. cbn [implb]. destruct (C36_every_build_runs_one c Hc) as (p & e0 & Hp & _). rewrite Hp.
  destruct (engine_of p (c_be c)) as [e|] eqn:He; [|reflexivity]. apply forallb_forall. intros k _. apply forallb_forall. intros g _. apply forallb_forall. intros q Hq. apply forallb_forall. intros n Hn.
  exact (C37_only_promised_instructions c p e k g q n Hc Hp He Hq Hn).
Qed.

(** ** C38 *)
Lemma nth_mem a b : length a = length b -> (forall j, nth j a 0 = nth j b 0) -> leqb a b = true.
Proof. intros L H. apply leqb_eq. apply (nth_ext _ _ 0 0); [exact L|]. intros j _. apply H. Qed.
Lemma t38_one_follows T (o : ops T) n (reach : T -> Prop) p l : pointer_code o p -> lossless T o n reach -> stores_anywhere T o n reach -> reads_anywhere T o n reach ->
  Forall (is_bytes n) l -> (2 <= n <= 64)%nat -> t38_one o p n l = true.
Proof.
  intros Hp (_ & Mk & _) [_ St] [_ Rd] F Hn.
  set (als := [(0, n); (1, n); (3, n + 5); (7, n - 1); (5, 0); (150 - n, n)]%nat).
  assert (In' : Forall (fun al : nat * nat => inside t_mem (Slice (fst al) (snd al))) als) by (unfold als; repeat (apply Forall_cons; [unfold inside; cbn [fst snd s_addr s_len]; change (length t_mem) with 150%nat; lia|]); apply Forall_nil).
  assert (Bm : Forall (fun b => b < 256) t_mem) by (apply Forall_forall; intros x Hx; apply in_map_iff in Hx as (q & <- & Hq); apply in_seq in Hq; lia).
  unfold t38_one. fold als. apply and_ok.
  - apply (forallb_ok _ _ _ F). intros b B. destruct (Mk b B) as (x & Hx & Fx & _ & _ & Sx). rewrite Fx. apply (forallb_ok _ _ _ In'). intros [a len] Hi. cbv zeta. cbn [fst snd] in *.
    pose proof (St p x b t_mem (Slice a len) Hp Hx Sx Hi) as Q. cbn [s_len s_addr] in Q. destruct (Nat.ltb_spec len n) as [L|L].
    + rewrite Q. cbn [panics andb]. apply leqb_refl.
    + destruct Q as (m' & -> & Lb & W). cbn [okr holds andb]. apply leqb_eq. apply with_bytes_overwrite; [|exact W]. unfold inside in Hi. cbn [s_addr s_len] in Hi. lia.
  - apply forallb_forall. intros dbg _. apply (forallb_ok _ _ _ In'). intros [a len] Hi. cbv zeta. cbn [fst snd] in *.
    pose proof (Rd p dbg (fun j => (8 * j + 1)%nat) t_mem (Slice a len) Hp Bm Hi) as Q. cbn [s_len s_addr] in Q. destruct (Nat.ltb_spec len n) as [L|L].
    + rewrite Q. cbn [andb]. apply Nat.eqb_refl.
    + destruct Q as (x & _ & -> & S). cbn [negb andb]. now apply shows_ok.
Qed.
Ltac trivial_true := match goal with |- true = true => reflexivity end.
Ltac at1 c := let E := fresh in assert (E : exists i, impl_of c = Some i) by (eexists; reflexivity); destruct E as [i E]; pose proof E as E'; injection E' as <-;
  destruct (C15_byte_conversions_lossless c _ E) as (L1 & L2 & L4); destruct (C38_store_to_any_address c _ E) as (S1 & S2 & S4); destruct (C38_try_from_any_address c _ E) as (R1 & R2 & R4).
Definition with_dbg (d : bool) (c : cfg) : cfg := let '(Cfg a be n ct s e v z v8 r t _) := c in Cfg a be n ct s e v z v8 r t d.
Lemma t38_follows : forallb snd t38 = true.
Proof.
  unfold t38. cbn [forallb snd]. ands; try trivial_true.
  - at1 c_soft. apply (t38_one_follows _ _ _ _ _ _ PC_table L1 S1 R1 blks16). lia.
  - at1 c_ct_le. apply (t38_one_follows _ _ _ _ _ _ (PC_bitslice _) L1 S1 R1 blks16). lia.
  - at1 c_ct_be. apply (t38_one_follows _ _ _ _ _ _ (PC_bitslice _) L1 S1 R1 blks16). lia.
  - at1 c_x86. apply (t38_one_follows _ _ _ _ _ _ PC_x86 L1 S1 R1 blks16). lia.
  - at1 c_vaes512. apply (t38_one_follows _ _ _ _ _ _ PC_vaes2 L2 S2 R2 wide2_32). lia.
  - at1 c_vaes512. apply (t38_one_follows _ _ _ _ _ _ PC_vaes4 L4 S4 R4 wide4_64). lia.
  - at1 c_neon. apply (t38_one_follows _ _ _ _ _ _ (PC_arm _) L1 S1 R1 blks16). lia.
  - at1 c_arm32. apply (t38_one_follows _ _ _ _ _ _ (PC_arm _) L1 S1 R1 blks16). lia.
  - at1 c_rv64. apply (t38_one_follows _ _ _ _ _ _ PC_rv64 L1 S1 R1 blks16). lia.
  - at1 c_rv32. apply (t38_one_follows _ _ _ _ _ _ PC_rv32 L1 S1 R1 blks16). lia.
  - cbn [bools forallb]. ands; try trivial_true.
    + at1 (with_dbg true c_rv64). apply (t38_one_follows _ _ _ _ _ _ (PC_pair _ _ _ _ _ PC_rv64) L2 S2 R2 wide2_32). lia.
    + at1 (with_dbg false c_rv64). apply (t38_one_follows _ _ _ _ _ _ (PC_pair _ _ _ _ _ PC_rv64) L2 S2 R2 wide2_32). lia.
  - cbn [bools forallb]. ands; try trivial_true.
    + at1 (with_dbg true c_soft). apply (t38_one_follows _ _ _ _ _ _ (PC_pair _ _ _ _ _ (PC_pair _ _ _ _ _ PC_table)) L4 S4 R4 wide4_64). lia.
    + at1 (with_dbg true c_vaes256). apply (t38_one_follows _ _ _ _ _ _ (PC_pair _ _ _ _ _ PC_vaes2) L4 S4 R4 wide4_64). lia.
    + at1 (with_dbg false c_soft). apply (t38_one_follows _ _ _ _ _ _ (PC_pair _ _ _ _ _ (PC_pair _ _ _ _ _ PC_table)) L4 S4 R4 wide4_64). lia.
    + at1 (with_dbg false c_vaes256). apply (t38_one_follows _ _ _ _ _ _ (PC_pair _ _ _ _ _ PC_vaes2) L4 S4 R4 wide4_64). lia.
Qed.

(** ** C39 *)
Lemma same_ok T (o : ops T) x y b : x = y -> shows o x b -> same o x y = true.
Proof. intros <- S. now apply (same_refl o x b). Qed.
Lemma added_follows T (o : ops T) n (reach : T -> Prop) wth ws :
  (forall x a b, reach x -> reach a -> reach b -> reach (o_enc o x (o_xor o a b)) /\ reach (o_dec o x (o_xor o a b)) /\ reach (o_enc_last o x (o_xor o a b)) /\ reach (o_dec_last o x (o_xor o a b))) ->
  (forall x, reach x -> exists b, shows o x b) -> key_added_last T o n reach ->
  (forall b f, is_bytes n b -> (forall x, reach x -> shows o x b -> f x = true) -> wth b f = true) ->
  is_bytes n (nth 0 ws []) -> is_bytes n (nth 1 ws []) -> is_bytes n (nth 5 ws []) -> t_added o wth ws = true.
Proof.
  intros Cl Sh K W H0 H1 H2. unfold t_added. apply W; [exact H0|]. intros x Hx _. apply W; [exact H1|]. intros a Ha _. apply W; [exact H2|]. intros b Hb _.
  destruct (K x a b Hx Ha Hb) as (E1 & E2 & E3 & E4). destruct (Cl x a b Hx Ha Hb) as (C1 & C2 & C3 & C4).
  destruct (Sh _ C1) as [b1 S1], (Sh _ C2) as [b2 S2], (Sh _ C3) as [b3 S3], (Sh _ C4) as [b4 S4]. ands; eapply same_ok; eassumption.
Qed.
Lemma t39_follows c i : impl_of c = Some i -> t39 i = true.
Proof.
  intros E. pose proof (reach_closed i) as A. destruct (C39_key_is_added_last c i E) as (K1 & K2 & K4). unfold t39. ands.
  - apply (added_follows _ _ 16 (reach1 i)); [|intros x Hx; destruct (shown1 c i E x Hx) as (b & _ & S & _); now exists b|exact K1|apply (with1_ok c i E)|apply A16|apply B16|apply is_bytesb_correct; reflexivity].
    intros x a b Hx Ha Hb. repeat split; apply A; auto; now apply A.
  - apply (added_follows _ _ 32 (reach2 i)); [|intros x Hx; destruct (shown2 c i E x Hx) as (b & _ & S & _); now exists b|exact K2|apply (with2_ok c i E)|apply is_bytesb_correct; reflexivity..].
    intros x a b Hx Ha Hb. repeat split; apply A; auto; now apply A.
  - apply (added_follows _ _ 64 (reach4 i)); [|intros x Hx; destruct (shown4 c i E x Hx) as (b & _ & S & _); now exists b|exact K4|apply (with4_ok c i E)|apply is_bytesb_correct; reflexivity..].
    intros x a b Hx Ha Hb. repeat split; apply A; auto; now apply A.
  - apply (forallb_ok _ (both 16)); [apply both_list; vm_compute; reflexivity|]. intros [a b] [Ha Hb]. cbn [fst snd] in *.
    apply (with1_ok c i E); [exact Ha|]. intros x Hx _. apply (with1_ok c i E); [exact Hb|]. intros y Hy _. cbv zeta.
    destruct (C39_mc_imc_linear c i x y E Hx Hy) as [M1 M2].
    assert (R1 : reach1 i (e_mc (i_ext i) (o_xor (i_ops1 i) x y))) by (apply A; now apply A). assert (R2 : reach1 i (e_imc (i_ext i) (o_xor (i_ops1 i) x y))) by (apply A; now apply A).
    destruct (shown1 c i E _ R1) as (b1 & _ & S1 & _), (shown1 c i E _ R2) as (b2 & _ & S2 & _). ands; eapply same_ok; eassumption.
  - apply (forallb_ok _ (fun j => (j < 16)%nat)); [repeat constructor; lia|]. intros j Hj. destruct (other_bytes 16 j blkA A16 Hj) as [Bo No].
    destruct (made1 c i E blkA A16) as (x & Hx & Fx & Sx), (made1 c i E _ Bo) as (y & Hy & Fy & Sy), (made1 c i E blkB B16) as (k & Hk & Fk & Sk).
    assert (D : differing 16 blkA (other_key j blkA) = [j]) by (do 16 (destruct j as [|j]; [vm_compute; reflexivity|]); lia).
    destruct (C39_enc_diffusion c i E x y k k _ _ j Hx Hy Hk Hk Sx Sy D) as (a1 & b1 & a2 & b2 & Q1 & Q2 & Q3 & _). unfold op2_bytes. rewrite Fx, Fy, Fk. cbn [bind]. unfold shows in Q1, Q2. rewrite Q1, Q2, Q3. apply leqb_refl.
Qed.

(** ** C40 *)
Lemma answers_refl a : answers_eqb a a = true.
Proof. induction a as [|x a IH]; cbn; [reflexivity|]. rewrite IH, andb_true_r. destruct x; cbn; rewrite ?Nat.eqb_refl, ?leqb_refl, ?N.eqb_refl, ?Bool.eqb_reflx, ?String.eqb_refl; reflexivity. Qed.
Lemma straight_only ok l : forallb ok l = true -> makes_only ok (straight l).
Proof. induction l as [|c l IH]; cbn; [trivial|]. intros H. apply andb_prop in H as [H1 H2]. auto. Qed.
Lemma part_follows c i l : impl_of c = Some i -> forallb (permits (level_of c)) l = true -> t40_on i l = true.
Proof. intros E H. unfold t40_on. rewrite (C40_any_client c i _ E (straight_only _ _ H)). apply answers_refl. Qed.
Lemma t40_follows nm c : (exists i, impl_of c = Some i) -> forallb snd (t40 (nm, c)) = true.
Proof.
  intros [i E]. unfold t40. cbn [fst snd]. rewrite E. destruct (conforming c) eqn:C.
  - assert (P : forall l, t40_on i l = true). { intros l. unfold t40_on. rewrite (C40_clients_see_fips197 c i _ E C). apply answers_refl. }
    destruct (rv32_zk c); cbn [app forallb snd]; ands; auto.
  - destruct (rv32_zk c) eqn:Z; cbn [app forallb snd]; ands; auto; apply (part_follows c i _ E); unfold level_of; rewrite ?Z; try destruct (be_constant_time c); vm_compute; reflexivity.
Qed.

(** ** C41, C42 *)
Lemma t41_follows c : (exists i, impl_of c = Some i) -> rustc_ok c = true -> t41 c = true.
Proof.
  intros [i E] RO. unfold t41, with_impl. rewrite E. apply forallb_forall. intros l _. unfold t41_on.
  rewrite (C41_every_client_on_every_build c i _ RO E). apply answers_refl.
Qed.
Lemma prefix_app a b : prefix_of a (a ++ b) = true.
Proof. pose proof (fun x => answers_refl [x]) as R. induction a as [|x a IH]; cbn; [reflexivity|]. rewrite IH. specialize (R x). cbn in R. apply andb_prop in R as [R _]. now rewrite R. Qed.
Lemma prefixes_pointwise : forall a b, List.length a = List.length b -> (forall t x y, nth_error a t = Some x -> nth_error b t = Some y -> prefix_of x y = true) -> prefixes a b = true.
Proof.
  induction a as [|x a IH]; destruct b as [|y b]; cbn; try discriminate; [reflexivity|]. intros L H. apply andb_true_intro. split; [now apply (H O)|].
  apply IH; [congruence|]. intros t. exact (H (S t)).
Qed.
Lemma nth_map {A B} (f : A -> B) l n y : nth_error (map f l) n = Some y -> exists x, nth_error l n = Some x /\ y = f x.
Proof. intros H. rewrite nth_error_map in H. destruct (nth_error l n) as [x|]; [|discriminate]. exists x. split; [reflexivity|]. now injection H as <-. Qed.
Lemma t42_follows c : (exists i, impl_of c = Some i) -> rustc_ok c = true -> t42 c = true.
Proof.
  intros [i E] RO. unfold t42, with_impl. rewrite E. apply forallb_forall. intros sch _. apply prefixes_pointwise.
  - unfold t42_seen, t42_solo. cbv zeta. rewrite !map_length. rewrite (proj2 (C42_shared_values_stay i _ _ sch)). now rewrite map_length.
  - intros t x y Hx Hy. unfold t42_seen, t42_solo in *. cbv zeta in *. apply nth_map in Hx as (th & Ht & ->). apply nth_map in Hy as (l & Hl & ->).
    destruct (C42_every_schedule c i _ _ sch t th RO E Ht) as (p & rest & Hp & P & _). apply nth_map in Hp as (l' & Hl' & ->).
    assert (l' = l) as -> by congruence. rewrite P, map_app. apply prefix_app.
Qed.

(** ** C43 *)
Lemma event_is a b : event_eqb a b = true -> a = b.
Proof.
  destruct a, b; cbn; try discriminate.
  - intros H. apply andb_prop in H as [H1 H2]. apply String.eqb_eq in H1. apply N.eqb_eq in H2. congruence.
  - intros H. apply Bool.eqb_prop in H. congruence.
  - intros H. apply andb_prop in H as [H1 H2]. apply N.eqb_eq in H1, H2. congruence.
  - intros H. apply andb_prop in H as [H1 H2]. apply String.eqb_eq in H1. apply N.eqb_eq in H2. congruence.
Qed.
Lemma trace_is a : forall b, trace_eqb a b = true -> a = b.
Proof. induction a as [|x a IH]; destruct b as [|y b]; cbn; try discriminate; [reflexivity|]. intros H. apply andb_prop in H as [H1 H2]. f_equal; [now apply event_is|now apply IH]. Qed.
Lemma t43_ops_ok g : Forall (is_bytes (group_len g)) (t43_ops g). Proof. destruct g; repeat (apply Forall_cons || apply Forall_nil); apply is_bytesb_correct; vm_compute; reflexivity. Qed.
Lemma t43_pairs_ok g : Forall (fun ab => is_bytes (group_len g) (fst ab) /\ is_bytes (group_len g) (snd ab)) (t43_pairs g). Proof. destruct g; repeat (apply Forall_cons || apply Forall_nil); (split; apply is_bytesb_correct; vm_compute; reflexivity). Qed.
Definition shows (tables : bool) (p : stmt) : Prop := forall a b, low_equal a b -> map (veil tables) (trace p a) = map (veil tables) (trace p b).
Lemma ct_shows p : constant_time p -> shows true p. Proof. intros H a b L. f_equal. now apply H. Qed.
Lemma quiet_follows tables p g k k' : shows tables p -> List.length k = List.length k' -> t43_quiet tables p g k k' = true.
Proof.
  intros CT L. unfold t43_quiet. pose proof (t43_ops_ok g) as H. destruct (t43_ops g) as [|a [|b l]] eqn:E; [now destruct g|now destruct g|]. inversion H as [|? ? Ha H1]; subst. inversion H1 as [|? ? Hb _]; subst.
  rewrite (CT _ (start k' b)); [apply trace_eqb_refl|]. apply start_low; [assumption|]. now rewrite (proj1 Ha), (proj1 Hb).
Qed.
Lemma binary_follows tables i be n m g f e : (forall a b, is_bytes (group_len g) a -> is_bytes (group_len g) b -> binary_bytes i g f a b = Ret (t43_run (binary_program be n m e) b a)) ->
  shows tables (binary_program be n m e) -> t43_binary tables i be n m g f e = true.
Proof.
  intros H CT. unfold t43_binary. pose proof (t43_ops_ok g) as Q. destruct (t43_ops g) as [|a [|b l]] eqn:E; [now destruct g|now destruct g|]. inversion Q as [|? ? Ha H1]; subst. inversion H1 as [|? ? Hb _]; subst.
  rewrite is_ok by now apply H. apply quiet_follows; [exact CT|]. now rewrite (proj1 Ha), (proj1 Hb).
Qed.
Lemma engine_shows p be e g : engine_of p be = Some e -> let n := vec_n p g in let m := vec_m p g in
  (forall round, In round [g_enc e n; g_enc_last e n; g_dec e n; g_dec_last e n] -> shows (sees_all p) (binary_program (g_be e) n m round)) /\
  (forall (dec : bool) keys, shows (sees_all p) (chain_program (g_be e) n m (option_map (if dec then snd else fst) (g_pre e)) (if dec then g_dec e n else g_enc e n) keys)).
Proof.
  intros He n m. assert (D : p = P_software \/ p <> P_software) by (destruct p; (now left) || (right; discriminate)). destruct D as [->|Hp].
  - injection He as <-. destruct (C45_rounds_and_chains_constant_time_but_lookups g) as (R & _ & C). assert (V : n = 1%nat) by (unfold n; destruct g; reflexivity). rewrite V. split.
    + intros round H. exact (R round H).
    + intros dec keys. destruct dec; [exact (C true keys)|exact (C false keys)].
  - destruct (C43_rounds_and_chains_constant_time p be e g He Hp) as (R & _ & C). assert (V : sees_all p = true) by (destruct p; reflexivity || congruence). rewrite V. split.
    + intros round H. now apply ct_shows, R.
    + intros dec keys. apply ct_shows, C.
Qed.
Lemma t43_follows c : (exists i, impl_of c = Some i) -> rustc_ok c = true -> t43 c = true.
Proof.
  intros [i E] RO. unfold t43, with_impl. rewrite E. destruct (C36_every_build_runs_one c RO) as (p & e0 & Hp & _). rewrite Hp.
  assert (GO : forall g, Forall (is_bytes (group_len g)) (t43_ops g)) by exact t43_ops_ok.
  apply andb_true_intro. split.
  - apply forallb_forall. intros g _. pose proof (fun a b Ha Hb => C43_data_operations_are_the_api c p i g a b RO E Hp Ha Hb) as D. cbv zeta in D.
    pose proof (C43_data_operations_constant_time p (c_be c) g) as CT. cbv zeta in CT. unfold t43_data. cbv zeta.
    assert (Z1 : is_bytes (group_len g) (repeat 0 (group_len g - 1) ++ [1])) by (destruct g; apply is_bytesb_correct; vm_compute; reflexivity).
    assert (Z : is_bytes (group_len g) (repeat 0 (group_len g))) by (destruct g; apply is_bytesb_correct; vm_compute; reflexivity).
    ands.
    + apply binary_follows; [intros a b Ha Hb; apply (D a b Ha Hb)|apply ct_shows, CT; now left].
    + apply binary_follows; [intros a b Ha Hb; apply (D a b Ha Hb)|apply ct_shows, CT; right; now left].
    + apply binary_follows; [intros a b Ha Hb; apply (D a b Ha Hb)|apply ct_shows, CT; do 2 right; now left].
    + apply forallb_forall. intros a Ha. pose proof (GO g) as Q. rewrite Forall_forall in Q. apply is_ok. now apply (D a a); apply Q.
    + apply quiet_follows; [apply ct_shows, CT; do 3 right; now left|reflexivity].
    + apply forallb_forall. intros a Ha. pose proof (GO g) as Q. rewrite Forall_forall in Q. assert (B : is_bytes (group_len g) a) by (destruct Ha as [<-|[<-|Ha]]; auto). apply is_ok. now apply (D a a).
    + apply quiet_follows; [apply ct_shows, CT; do 4 right; now left|reflexivity].
    + apply forallb_forall. intros ab Hab. pose proof (t43_pairs_ok g) as Q. rewrite Forall_forall in Q. destruct (Q ab Hab). apply is_ok. now apply D.
    + apply forallb_forall. intros x Hx. apply forallb_forall. intros y Hy. pose proof (t43_pairs_ok g) as Q. rewrite Forall_forall in Q. destruct (Q x Hx) as [X1 X2], (Q y Hy) as [Y1 Y2].
      pose proof (C43_equality_shows_the_agreeing_prefix p (c_be c) g _ _ _ _ X1 X2 Y1 Y2) as T. cbv zeta in T. apply Bool.eqb_true_iff. apply Bool.eq_true_iff_eq. rewrite Nat.eqb_eq, <- T. split; [apply trace_is|intros ->; apply trace_eqb_refl].
  - destruct (engine_of p (c_be c)) as [e|] eqn:He; [|reflexivity].
    pose proof (fun g a b Ha Hb => C43_rounds_are_the_api c p i e g a b RO E Hp He Ha Hb) as D. cbv zeta in D.
    pose proof (fun g => engine_shows p (c_be c) e g He) as CT. cbv zeta in CT.
    assert (RC : forall g round, In round [g_enc e (vec_n p g); g_enc_last e (vec_n p g); g_dec e (vec_n p g); g_dec_last e (vec_n p g)] -> shows (sees_all p) (binary_program (g_be e) (vec_n p g) (vec_m p g) round))
      by (intros g; apply CT).
    ands.
    + apply forallb_forall. intros g _. unfold t43_engine. cbv zeta. ands.
      * apply binary_follows; [intros a b Ha Hb; apply (D g a b Ha Hb)|apply RC; now left].
      * apply binary_follows; [intros a b Ha Hb; apply (D g a b Ha Hb)|apply RC; right; now left].
      * apply binary_follows; [intros a b Ha Hb; apply (D g a b Ha Hb)|apply RC; do 2 right; now left].
      * apply binary_follows; [intros a b Ha Hb; apply (D g a b Ha Hb)|apply RC; do 3 right; now left].
      * apply forallb_forall. intros dec _. pose proof (GO g) as Q. rewrite Forall_forall in Q. ands.
        -- apply forallb_forall. intros a Ha. apply is_ok. assert (L2 : List.length (t43_ops g) = 2%nat) by now destruct g. rewrite <- L2.
           apply (C43_chains_are_the_api c p i e g dec a (t43_ops g) RO E Hp He (Q a Ha) (GO g)). now destruct g.
        -- apply quiet_follows; [apply CT|]. now rewrite rev_length.
    + apply orb_true_intro. right. apply binary_follows; [intros a b Ha Hb; apply (D Four a b Ha Hb)|apply RC; do 2 right; now left].
    + apply forallb_forall. intros a Ha. pose proof (GO One) as Q. rewrite Forall_forall in Q. destruct (C43_mix_is_the_api c p i e a [] RO E Hp He (Q a Ha)) as [M1 M2]. cbv zeta beta in M1, M2. apply and_ok; apply is_ok; [exact M1|exact M2].
Qed.

(** ** C44 *)
Lemma traces_eqb_refl l : traces_eqb l l = true.
Proof. induction l as [|t l IH]; [reflexivity|]. cbn [traces_eqb]. now rewrite trace_eqb_refl. Qed.
Lemma shapes_filter tables p l l' : map shape l = map shape l' -> map shape (filter (silent tables p) l) = map shape (filter (silent tables p) l').
Proof.
  revert l'. induction l as [|x l IH]; intros [|x' l'] H; try discriminate H; [reflexivity|]. cbn [map] in H.
  pose proof (f_equal (hd (shape x)) H) as H1. pose proof (f_equal (@tl _) H) as H2. cbn [hd tl] in H1, H2. cbn [filter].
  rewrite <- (Proof_LeakWatch.silent_shape tables p x x') by now apply Proof_LeakWatch.shape_same. destruct (silent tables p x); [|now apply IH]. cbn [map]. now rewrite H1, (IH l' H2).
Qed.
Lemma t44_shapes : map shape (t44_calls true) = map shape (t44_calls false) /\ map shape (t44_keys true) = map shape (t44_keys false).
Proof. split; vm_compute; reflexivity. Qed.
Lemma two_lists {A B} (f : A -> B) (R : B -> B -> Prop) a b a' b' l l' : R (f a) (f a') -> R (f b) (f b') -> In (l, l') (combine (map f [a; b]) (map f [a'; b'])) -> R l l'.
Proof. intros H1 H2 [E|[E|[]]]; injection E as <- <-; assumption. Qed.
Lemma t44_with_follows tables c : (exists i, impl_of c = Some i) -> rustc_ok c = true -> t44_with tables c = true.
Proof.
  intros [i E] RO. unfold t44_with, with_impl. rewrite E. destruct (C36_every_build_runs_one c RO) as (p & e0 & Hp & _). rewrite Hp. cbv zeta.
  assert (SI : forall flip, Forall (Forall (fun q => silent tables p q = true)) (t44_lists tables p flip)).
  { intros flip. apply Forall_forall. intros l Hl. unfold t44_lists in Hl. apply in_map_iff in Hl as (l0 & <- & _). apply Forall_forall. intros q Hq. now apply filter_In in Hq. }
  apply forallb_forall. intros [l l'] Hl. cbn [fst snd].
  assert (X : Forall (fun q => silent tables p q = true) l /\ map shape l = map shape l').
  { pose proof (SI true) as Q. rewrite Forall_forall in Q. split; [apply Q, (in_combine_l _ _ _ _ Hl)|]. destruct t44_shapes as [T1 T2].
    apply (two_lists (filter (silent tables p)) (fun l l' => map shape l = map shape l') _ _ _ _ l l' (shapes_filter tables p _ _ T1) (shapes_filter tables p _ _ T2) Hl). }
  destruct X as [X1 X2]. destruct tables.
  - rewrite (C44_straight_line c p i l l' RO E Hp X1 X2). apply traces_eqb_refl.
  - change (veil false) with hide. rewrite (C45_straight_line c p i l l' RO E Hp X1 X2). apply traces_eqb_refl.
Qed.
Lemma t44_follows c : (exists i, impl_of c = Some i) -> rustc_ok c = true -> t44 c = true.
Proof.
  intros [i E] RO. unfold t44. rewrite (t44_with_follows true c (ex_intro _ i E) RO). unfold with_impl. rewrite E. destruct (C36_every_build_runs_one c RO) as (p & e0 & Hp & _). rewrite Hp. cbv zeta.
  apply forallb_forall. intros l Hl. rewrite (C44_timed_is_the_crate c p i (straight l) RO E Hp); [apply answers_refl|].
  unfold no_formatting. rewrite <- Forall_map with (f := fst) (P := fun q => formats q = false). rewrite straight_calls.
  destruct Hl as [<-|[<-|[]]]; repeat constructor.
Qed.

(** ** C45 *)
Lemma t45_follows c : (exists i, impl_of c = Some i) -> rustc_ok c = true -> t45 c = true.
Proof. apply t44_with_follows. Qed.
Lemma small_follows t : lookups_below 256 t -> forallb (fun e => match e with Lookup _ i => i <? 256 | _ => true end) t = true.
Proof. intros H. apply forallb_forall. intros [| | |n i] Hi; try reflexivity. apply N.ltb_lt. now apply (H n). Qed.
Lemma t45_counts_follows : t45_counts = true.
Proof.
  unfold t45_counts. apply and_ok.
  - assert (X : forall k g, let n := match g with One => 1 | Two => 2 | Four => 4 end%nat in n = group_size g /\ List.length (firstn (key_len k) abcd) = key_len k /\ List.length (firstn (group_len g) abcd) = group_len g) by (intros [] []; split; try split; reflexivity).
    apply forallb_forall. intros [k g] _. cbv zeta. destruct (X k g) as (-> & Lk & Lm). clear X.
    destruct (C45_lookup_count k g _ _ Lk Lm) as (Q1 & Q2 & Q3). cbv zeta in Q1, Q2, Q3. rewrite Q1, Q2, Q3, !Nat.eqb_refl.
    destruct C45_lookups_exist as [B _]. rewrite !small_follows by (apply B; cbn; auto). reflexivity.
  - destruct C45_lookups_exist as [_ B]. apply forallb_forall. rewrite Forall_forall in B. intros t Ht. apply Nat.eqb_eq. now apply B.
Qed.
