(** C43: the calls of the block types are constant time too, except ==, and exactly what == shows. *)
From Coq Require Import Lia Arith String.
From Coq Require Import List.
From Verif Require Import Word Interface Fips197 Spec_Api Spec_Cfg Spec_User Spec_Leak Spec_LeakBlock Model_Lib Model_Cfg Model_Bitslice Model_Leak Model_LeakAccel Model_LeakSoft Model_LeakBlock Model_Running.
From Verif Require Import Proof_Shape Proof_Word Proof_Fips Proof_Ok Proof_Sem Proof_Lib Proof_Main Proof_Leak Proof_LeakRun Proof_LeakEngine Proof_LeakBlock Proof_LeakEqual Proof_LeakOps Props_Cfg Props_Leak Props_LeakAccel.
From Verif Require Import Samples.
Open Scope string_scope.
Open Scope list_scope.
Open Scope N_scope.

Lemma group_vec p g : group_len g = (16 * vec_n p g * vec_m p g)%nat.
Proof. destruct p, g; reflexivity. Qed.
Lemma vec_pos p g : (1 <= vec_n p g)%nat /\ (1 <= vec_m p g)%nat.
Proof. destruct p, g; cbn; lia. Qed.
Lemma vec_m_is p g : vec_m p g = 1%nat \/ vec_m p g = 2%nat \/ vec_m p g = 4%nat.
Proof. destruct p, g; cbn; auto. Qed.

(** ** The programs are the calls *)
(** enc, enc_last, dec and dec_last at each width, in every build *)
Theorem C43_rounds_are_the_api : forall c p i e g a b,
  rustc_ok c = true -> impl_of c = Some i -> running c = Some p -> engine_of p (c_be c) = Some e ->
  is_bytes (group_len g) a -> is_bytes (group_len g) b ->
  let n := vec_n p g in
  let run f := Ret (arrs (final (binary_program (g_be e) n (vec_m p g) f) (start b a)) "out") in
  binary_bytes i g (fun T o => o_enc o) a b = run (g_enc e n) /\
  binary_bytes i g (fun T o => o_enc_last o) a b = run (g_enc_last e n) /\
  binary_bytes i g (fun T o => o_dec o) a b = run (g_dec e n) /\
  binary_bytes i g (fun T o => o_dec_last o) a b = run (g_dec_last e n).
Proof.
  intros c p i e g a b Hc Ei Hr He Ha Hb n run. destruct (build_engine c p i e Hc Ei Hr He) as (f1 & f2 & f4 & s & R & S0 & V & _ & _). specialize (V g).
  assert (X : forall (F : forall T, ops T -> T -> T -> T) f G, bop_ok G -> (forall T (o : ops T) m h, rounds_ok o m h s -> lane_ok (F T o) m h G) -> vop e f n G -> binary_bytes i g F a b = run f).
  { intros F f G HG HF Hf. rewrite (round_bytes i f1 f2 f4 s g F G a b R HG HF Ha Hb). unfold run. f_equal. rewrite (group_vec p g) in Ha, Hb.
    rewrite (binary_run (g_be e) n (vec_m p g) (vec_m_le p g) f (on_lanes n G) (on_lanes (n * vec_m p g) G) b a); [now rewrite <- (vec_size p g)|exact Hf|now apply on_lanes_vectorwise|exact Ha|exact Hb]. }
  split; [|split; [|split]].
  - apply (X _ _ (s_enc s)); [apply S0|intros T o m h H; apply H|apply V].
  - apply (X _ _ (s_enc_last s)); [apply S0|intros T o m h H; apply H|apply V].
  - apply (X _ _ (s_dec s)); [apply S0|intros T o m h H; apply H|apply V].
  - apply (X _ _ (s_dec_last s)); [apply S0|intros T o m h H; apply H|apply V].
Qed.
Print Assumptions C43_rounds_are_the_api.
(** All builds with an engine, all widths, one non-trivial pair of operands. *)
Definition engine_samples : list cfg := c_soft :: c_soft_be :: c_ct_le :: c_ct_be :: accelerated_samples.
Lemma engine_sample c : In c engine_samples -> exists p i e, rustc_ok c = true /\ impl_of c = Some i /\ running c = Some p /\ engine_of p (c_be c) = Some e.
Proof. intros H. unfold engine_samples, accelerated_samples in H. repeat (destruct H as [<-|H]; [do 3 eexists; split; [reflexivity|split; [reflexivity|split; reflexivity]]|]). destruct H. Qed.
Lemma group_message_ok g : is_bytes (group_len g) (group_message g). Proof. destruct g; vm_compute; repeat constructor. Qed.
Lemma group_rev_ok g : is_bytes (group_len g) (rev (group_message g)). Proof. destruct g; vm_compute; repeat constructor. Qed.
Example C43_rounds_case : forall c g, In c engine_samples -> exists p i e, impl_of c = Some i /\ running c = Some p /\ engine_of p (c_be c) = Some e /\
  binary_bytes i g (fun T o => o_enc o) (group_message g) (rev (group_message g)) =
    Ret (arrs (final (binary_program (g_be e) (vec_n p g) (vec_m p g) (g_enc e (vec_n p g))) (start (rev (group_message g)) (group_message g))) "out").
Proof.
  intros c g H. destruct (engine_sample c H) as (p & i & e & X1 & X2 & X3 & X4). exists p, i, e. split; [exact X2|split; [exact X3|split; [exact X4|]]].
  apply (C43_rounds_are_the_api c p i e g _ _ X1 X2 X3 X4 (group_message_ok g) (group_rev_ok g)).
Qed.
(** mc and imc of AesBlock *)
Theorem C43_mix_is_the_api : forall c p i e a unused,
  rustc_ok c = true -> impl_of c = Some i -> running c = Some p -> engine_of p (c_be c) = Some e -> is_bytes 16 a ->
  let run f := Ret (arrs (final (unary_program (g_be e) 1 1 f) (start unused a)) "out") in
  (x <- o_from (i_ops1 i) a ;; to_bytes (i_ops1 i) (e_mc (i_ext i) x)) = run (g_mc e) /\
  (x <- o_from (i_ops1 i) a ;; to_bytes (i_ops1 i) (e_imc (i_ext i) x)) = run (g_imc e).
Proof.
  intros c p i e a unused Hc Ei Hr He Ha run. destruct (build_engine c p i e Hc Ei Hr He) as (f1 & f2 & f4 & s & R & S0 & _ & M1 & M2).
  pose proof (R_d1 _ _ _ _ _ R) as D. rewrite (dk_from _ _ _ D) by assumption. cbn [bind]. rewrite (R_mc _ _ _ _ _ R), (R_imc _ _ _ _ _ R) by assumption.
  assert (X : forall f G, uop e f G -> (forall x, is_bytes 16 x -> is_bytes 16 (G x)) -> to_bytes (i_ops1 i) (f1 (G a)) = run f).
  { intros f G Hf HG. rewrite (to_bytes_ok _ 16 f1) by auto. unfold run. f_equal. symmetry. apply (unary_run (g_be e) 1 1 ltac:(lia) f G G); [exact Hf| |exact Ha].
    intros x Hx. split; [now apply HG|]. intros j Hj. assert (j = 0)%nat as -> by lia. unfold piece. rewrite Nat.mul_0_r. cbn [skipn]. rewrite !firstn_all2; [reflexivity|rewrite (proj1 Hx); reflexivity|rewrite (proj1 (HG x Hx)); reflexivity]. }
  split; apply X; [exact M1|apply S0|exact M2|apply S0].
Qed.
Print Assumptions C43_mix_is_the_api.
Example C43_mix_case : forall c, In c engine_samples -> exists p i e, impl_of c = Some i /\ running c = Some p /\ engine_of p (c_be c) = Some e /\
  (x <- o_from (i_ops1 i) other_block ;; to_bytes (i_ops1 i) (e_imc (i_ext i) x)) = Ret (arrs (final (unary_program (g_be e) 1 1 (g_imc e)) (start [] other_block)) "out").
Proof.
  intros c H. destruct (engine_sample c H) as (p & i & e & X1 & X2 & X3 & X4). exists p, i, e. split; [exact X2|split; [exact X3|split; [exact X4|]]].
  apply (C43_mix_is_the_api c p i e other_block [] X1 X2 X3 X4). exact (group_message_ok One).
Qed.
(** chain_enc and chain_dec with any number of keys (with none they panic: C17) *)
Theorem C43_chains_are_the_api : forall c p i e g dec a keys,
  rustc_ok c = true -> impl_of c = Some i -> running c = Some p -> engine_of p (c_be c) = Some e ->
  is_bytes (group_len g) a -> Forall (is_bytes (group_len g)) keys -> keys <> [] ->
  let n := vec_n p g in
  chain_call_bytes i g dec a keys =
  Ret (arrs (final (chain_program (g_be e) n (vec_m p g) (option_map (if dec then snd else fst) (g_pre e)) (if dec then g_dec e n else g_enc e n) (length keys))
                   (start (concat keys) a)) "out").
Proof.
  intros c p i e g dec a keys Hc Ei Hr He Ha Hk Ne n. destruct (build_engine c p i e Hc Ei Hr He) as (f1 & f2 & f4 & s & R & S0 & V & _ & _). specialize (V g).
  rewrite (chain_bytes i f1 f2 f4 s g dec a keys R S0 Ne Ha Hk). f_equal. rewrite (group_vec p g) in Ha, Hk. destruct (vec_pos p g) as [Pn Pm].
  set (m := vec_m p g) in *. set (G := if dec then s_dec s else s_enc s).
  assert (HG : bop_ok G) by (unfold G; destruct dec; apply S0).
  assert (VG : vop e (if dec then g_dec e n else g_enc e n) n G) by (unfold G; destruct dec; apply V).
  rewrite <- (vec_size p g). fold n m. symmetry.
  apply (chain_run (g_be e) n m (vec_m_le p g) _ _ (option_map (on_lanes (n * m)) (s_pre1 s dec)) (on_lanes n G) (on_lanes (n * m) G) (map2 N.lxor) (map2 N.lxor)); auto using on_lanes_vectorwise, xor_vec2, map2_vectorwise, lxor_byte.
  unfold vec_opt, s_pre1. pose proof (v_pre _ _ _ V) as Vp. pose proof (so_pre s S0) as Sp. fold n in Vp.
  destruct (g_pre e) as [[q r]|], (s_pre s) as [[sq sr]|]; cbn [option_map]; try contradiction; [|exact I]. destruct Vp as [Vq Vr], Sp as [Sq Sr].
  destruct dec; cbn [fst snd]; [exists (on_lanes n sr)|exists (on_lanes n sq)]; auto using on_lanes_vectorwise.
Qed.
Print Assumptions C43_chains_are_the_api.
Example C43_chains_case : forall c g (dec : bool), In c engine_samples -> exists p i e, impl_of c = Some i /\ running c = Some p /\ engine_of p (c_be c) = Some e /\
  let keys := [rev (group_message g); group_message g; repeat 77 (group_len g)] in
  chain_call_bytes i g dec (group_message g) keys = Ret (arrs (final
    (chain_program (g_be e) (vec_n p g) (vec_m p g) (option_map (if dec then snd else fst) (g_pre e)) (if dec then g_dec e (vec_n p g) else g_enc e (vec_n p g)) 3)
    (start (concat keys) (group_message g))) "out").
Proof.
  intros c g dec H. destruct (engine_sample c H) as (p & i & e & X1 & X2 & X3 & X4). exists p, i, e. split; [exact X2|split; [exact X3|split; [exact X4|]]]. intros keys.
  apply (C43_chains_are_the_api c p i e g dec _ keys X1 X2 X3 X4 (group_message_ok g)); [|discriminate].
  repeat constructor; try apply group_rev_ok; try apply group_message_ok; [apply repeat_length|]. apply Forall_forall. intros x Hx. apply repeat_spec in Hx. subst. reflexivity.
Qed.
(** &, |, ^, !, is_zero and == at each width, in every build whatever *)
Theorem C43_data_operations_are_the_api : forall c p i g a b,
  rustc_ok c = true -> impl_of c = Some i -> running c = Some p ->
  is_bytes (group_len g) a -> is_bytes (group_len g) b ->
  let be := block_be p (c_be c) in let n := vec_n p g in let m := vec_m p g in
  let run program := Ret (arrs (final program (start b a)) "out") in
  binary_bytes i g (fun T o => o_and o) a b = run (binary_program be n m (Bin And)) /\
  binary_bytes i g (fun T o => o_or o) a b = run (binary_program be n m (Bin Or)) /\
  binary_bytes i g (fun T o => o_xor o) a b = run (binary_program be n m (Bin Xor)) /\
  unary_bytes i g (fun T o => o_not o) a = run (unary_program be n m (x_not n)) /\
  is_zero_bytes i g a = run (is_zero_program be n m) /\
  equal_bytes i g a b = run (equal_program be n m (eq_fields p)).
Proof.
  intros c p i g a b Hc Ei Hr Ha Hb be n m run. destruct (build_data c i Ei) as (f1 & f2 & f4 & s & R & S0). pose proof Ha as Ha'. pose proof Hb as Hb'. rewrite (group_vec p g) in Ha', Hb'. fold n m in Ha', Hb'.
  assert (X : forall (F : forall T, ops T -> T -> T -> T) f h, (forall T (o : ops T) f, data_ok o (group_len g) f -> F T o (f a) (f b) = f (map2 h a b)) -> (forall x y, x < 256 -> y < 256 -> h x y < 256) ->
    vec2 be n f (map2 h) -> binary_bytes i g F a b = run (binary_program be n m f)).
  { intros F f h HF Hh Hf. assert (Q : is_bytes (group_len g) (map2 h a b)) by (rewrite (group_vec p g); apply (map2_vectorwise n m h Hh a b Ha' Hb')).
    rewrite (binary_data i f1 f2 f4 s g F (map2 h) a b R HF Q Ha Hb). unfold run. f_equal.
    symmetry. apply (binary_run be n m (vec_m_le p g) f (map2 h) (map2 h)); auto using map2_vectorwise. }
  split; [|split; [|split; [|split; [|split]]]].
  - apply (X _ _ N.land); [intros T o f D; now apply (dk_and _ _ _ D)|apply land_byte|apply and_vec2].
  - apply (X _ _ N.lor); [intros T o f D; now apply (dk_or _ _ _ D)|apply lor_byte|apply or_vec2].
  - apply (X _ _ N.lxor); [intros T o f D; now apply (dk_xor _ _ _ D)|apply lxor_byte|apply xor_vec2].
  - assert (N8 : forall x, x < 256 -> bnot 8 x < 256) by (intros x; apply (bnot_lt 8)).
    rewrite (unary_data i f1 f2 f4 s g (fun T o => o_not o) (map (bnot 8)) a R); [|intros T o f D; now apply (dk_not _ _ _ D)| |exact Ha].
    + unfold run. f_equal. symmetry. apply (unary_run be n m (vec_m_le p g) _ (map (bnot 8)) (map (bnot 8))); auto using not_vec1, map_vectorwise.
    + rewrite (group_vec p g). now apply (map_vectorwise n m _ N8).
  - rewrite (is_zero_data i f1 f2 f4 s g a R Ha). unfold run. f_equal. rewrite (is_zero_run be n m (vec_m_is p g) b a Ha'). now rewrite (group_vec p g).
  - rewrite (equal_data i f1 f2 f4 s g a b R Ha Hb). unfold run. f_equal. symmetry.
    apply (equal_run be n m (eq_fields p) (16 * n / eq_fields p) (vec_m_is p g)); [destruct p; cbn; lia|destruct p, g; reflexivity|exact Ha'|exact Hb'].
Qed.
Print Assumptions C43_data_operations_are_the_api.
Example C43_data_case : forall c g, In c engine_samples -> exists p i, impl_of c = Some i /\ running c = Some p /\
  equal_bytes i g (group_message g) (rev (group_message g)) =
    Ret (arrs (final (equal_program (block_be p (c_be c)) (vec_n p g) (vec_m p g) (eq_fields p)) (start (rev (group_message g)) (group_message g))) "out") /\
  equal_bytes i g (group_message g) (rev (group_message g)) = Ret [0] /\ equal_bytes i g (group_message g) (group_message g) = Ret [1].
Proof.
  intros c g H. assert (X : exists p i, rustc_ok c = true /\ impl_of c = Some i /\ running c = Some p).
  { destruct (engine_sample c H) as (p & i & e & X1 & X2 & X3 & _). eauto. }
  destruct X as (p & i & X1 & X2 & X3). exists p, i. split; [exact X2|split; [exact X3|]].
  split; [apply (C43_data_operations_are_the_api c p i g _ _ X1 X2 X3 (group_message_ok g) (group_rev_ok g))|].
  destruct (build_data c i X2) as (f1 & f2 & f4 & s & R & _).
  rewrite !(equal_data i f1 f2 f4 s g) by auto using group_message_ok, group_rev_ok. destruct g; split; reflexivity.
Qed.

(** ** Everything but == is constant time *)
Theorem C43_data_operations_constant_time : forall p be g program,
  let n := vec_n p g in let m := vec_m p g in let be := block_be p be in
  In program [binary_program be n m (Bin And); binary_program be n m (Bin Or); binary_program be n m (Bin Xor); unary_program be n m (x_not n); is_zero_program be n m] ->
  constant_time program.
Proof.
  intros p be g program n m be' H s t Hst. apply checker_sound; [|exact Hst]. subst n m be'.
  repeat (destruct H as [<-|H]; [destruct p, g, be; vm_compute; reflexivity|]). destruct H.
Qed.
Print Assumptions C43_data_operations_constant_time.
(** Other operands, the same non-empty trace. *)
Example C43_data_trace_case : let prog := is_zero_program true 1 4 in
  let s1 := start [] (group_message Four) in let s2 := start [] (repeat 0 64) in
  trace prog s1 = trace prog s2 /\ (64 <? length (trace prog s1))%nat = true /\ arrs (final prog s1) "out" = [0] /\ arrs (final prog s2) "out" = [1].
Proof.
  intros prog s1 s2. split; [apply (C43_data_operations_constant_time P_software false Four); [do 4 right; now left|now apply start_low]|]. vm_compute. auto.
Qed.
Theorem C43_rounds_and_chains_constant_time : forall p be e g, engine_of p be = Some e -> p <> P_software ->
  let n := vec_n p g in let m := vec_m p g in
  (forall round, In round [g_enc e n; g_enc_last e n; g_dec e n; g_dec_last e n] -> constant_time (binary_program (g_be e) n m round)) /\
  (forall mix, In mix [g_mc e; g_imc e] -> constant_time (unary_program (g_be e) 1 1 mix)) /\
  (forall (dec : bool) keys, constant_time (chain_program (g_be e) n m (option_map (if dec then snd else fst) (g_pre e)) (if dec then g_dec e n else g_enc e n) keys)).
Proof.
  intros p be e g He Hp n m. split; [|split].
  - intros round H s t Hst. apply checker_sound; [|exact Hst]. subst n m. destruct p; try congruence; injection He as <-; repeat (destruct H as [<-|H]; [destruct g; try destruct be; vm_compute; reflexivity|]); destruct H.
  - intros mix H s t Hst. apply checker_sound; [|exact Hst]. destruct p; try congruence; injection He as <-; repeat (destruct H as [<-|H]; [try destruct be; vm_compute; reflexivity|]); destruct H.
  - intros dec keys s t Hst. apply checker_sound; [|exact Hst]. subst n m. destruct p; try congruence; injection He as <-; destruct dec, g; try destruct be; vm_compute; reflexivity.
Qed.
Print Assumptions C43_rounds_and_chains_constant_time.
Example C43_chain_trace_case : let prog := chain_program false 1 2 (option_map fst (g_pre arm_engine)) (g_enc arm_engine 1) 3 in
  let s1 := start (repeat 9 96) (group_message Two) in let s2 := start (map N.of_nat (seq 1 96)) (rev (group_message Two)) in
  trace prog s1 = trace prog s2 /\ (96 <? length (trace prog s1))%nat = true /\ s1 <> s2.
Proof.
  intros prog s1 s2. split; [|split; [vm_compute; reflexivity|]].
  - apply (C43_rounds_and_chains_constant_time P_neon false arm_engine Two eq_refl ltac:(discriminate)) with (dec := false). now apply start_low.
  - intros E. apply (f_equal (fun s => arrs s "in")) in E. discriminate E.
Qed.

(** ** What == shows *)
(** The trace of a == b is a function of the position of the first differing field, and tells it (the last field's comparison is not
    branched on): two calls look the same exactly when the same number of leading fields agree. *)
Theorem C43_equality_shows_the_agreeing_prefix : forall p be g a b a' b',
  is_bytes (group_len g) a -> is_bytes (group_len g) b -> is_bytes (group_len g) a' -> is_bytes (group_len g) b' ->
  let fields := (vec_m p g * eq_fields p)%nat in
  let size := (group_len g / fields)%nat in
  let program := equal_program (block_be p be) (vec_n p g) (vec_m p g) (eq_fields p) in
  trace program (start b a) = trace program (start b' a') <-> agreeing size (fields - 1) a b = agreeing size (fields - 1) a' b'.
Proof.
  intros p be g a b a' b' Ha Hb Ha' Hb' fields size program.
  assert (Es : size = (16 * vec_n p g / eq_fields p)%nat) by (destruct p, g; reflexivity).
  assert (Hf : (0 < eq_fields p)%nat) by (destruct p; cbn; lia). assert (Hs : (16 * vec_n p g = size * eq_fields p)%nat) by (rewrite Es; destruct p, g; reflexivity).
  assert (L : low_equal (start b a) (start b' a')) by (apply start_low; [rewrite (proj1 Hb), (proj1 Hb'); reflexivity|rewrite (proj1 Ha), (proj1 Ha'); reflexivity]).
  rewrite (group_vec p g) in Ha, Hb, Ha', Hb'.
  destruct (equal_run (block_be p be) (vec_n p g) (vec_m p g) (eq_fields p) size (vec_m_is p g) Hf Hs b a Ha Hb) as [T _].
  destruct (equal_run (block_be p be) (vec_n p g) (vec_m p g) (eq_fields p) size (vec_m_is p g) Hf Hs b' a' Ha' Hb') as [T' _].
  unfold program. rewrite T, T'. clear T T'.
  set (load := Seq (s_input (block_be p be) (16 * vec_n p g) (vec_m p g)) (s_operand (block_be p be) (16 * vec_n p g) (vec_m p g) (Lit 0))).
  assert (Q : quiet_stmt true load = true) by (unfold load; clear; destruct p, g, be; vm_compute; reflexivity).
  rewrite (checker_sound load Q (start b a) (start b' a') L). clear Q L.
  set (pre := trace load _). clearbody pre. clear load. fold fields.
  pose proof (leaves_compare (block_be p be) (vec_n p g) (vec_m p g) (eq_fields p) (vec_m_is p g) Hf) as Lc. fold fields in Lc.
  assert (Hle : forall x y, (agreeing size fields x y <= fields)%nat).
  { intros x y. rewrite agreeing_lead. eapply Nat.le_trans; [apply lead_le|]. rewrite map_length, seq_length. reflexivity. }
  pose proof (tree_iff (compare (block_be p be) (vec_n p g) (vec_m p g) (eq_fields p)) (agreeing size fields a b) (agreeing size fields a' b')) as TI. rewrite Lc in TI. specialize (TI (Hle a b) (Hle a' b')).
  rewrite (agreeing_min size (fields - 1) fields a b), (agreeing_min size (fields - 1) fields a' b') by lia. rewrite <- TI. split.
  - intros E. apply app_inv_tail in E. now apply app_inv_head in E.
  - intros ->. reflexivity.
Qed.
Print Assumptions C43_equality_shows_the_agreeing_prefix.
(** RISC-V 64 compares two halves: a difference in the first half shows, one in the second does not. *)
Definition flip_at (k : nat) (l : list N) : list N := firstn k l ++ N.lxor 1 (nth k l 0) :: skipn (S k) l.
Example C43_prefix_case : let eq x y := trace (equal_program false 1 1 2) (start y x) in
  eq other_block other_block = eq other_block (flip_at 8 other_block) /\ eq other_block other_block <> eq other_block (flip_at 7 other_block) /\
  eq other_block (flip_at 0 other_block) = eq other_block (flip_at 7 other_block) /\
  agreeing 8 1 other_block (flip_at 8 other_block) = 1%nat /\ agreeing 8 1 other_block (flip_at 7 other_block) = 0%nat /\ agreeing 4 3 other_block (flip_at 7 other_block) = 1%nat.
Proof.
  intros eq.
  assert (H : forall k, (k < 16)%nat -> is_bytes 16 (flip_at k other_block)) by (intros k Hk; do 16 (destruct k as [|k]; [vm_compute; repeat constructor|]); lia).
  pose proof (group_message_ok One) as B. change (group_len One) with 16%nat in B. change (group_message One) with other_block in B.
  pose proof (fun x y x' y' => C43_equality_shows_the_agreeing_prefix P_rv64 false One x y x' y') as X. cbv beta zeta in X.
  change (vec_m P_rv64 One * eq_fields P_rv64)%nat with 2%nat in X. change (group_len One / 2)%nat with 8%nat in X. change (block_be P_rv64 false) with false in X.
  change (2 - 1)%nat with 1%nat in X. change (vec_n P_rv64 One) with 1%nat in X. change (vec_m P_rv64 One) with 1%nat in X. change (eq_fields P_rv64) with 2%nat in X. change (group_len One) with 16%nat in X. subst eq. cbv beta.
  split; [apply X; [exact B|exact B|exact B|apply H; lia|reflexivity]|]. split; [intros E; apply (proj1 (X _ _ _ _ B B B (H 7%nat ltac:(lia)))) in E; vm_compute in E; congruence|].
  split; [apply X; [exact B|apply H; lia|exact B|apply H; lia|reflexivity]|]. split; [reflexivity|split; reflexivity].
Qed.

(** So == is constant time exactly where one comparison does it. *)
Theorem C43_equality_constant_time_iff : forall p be g,
  constant_time (equal_program (block_be p be) (vec_n p g) (vec_m p g) (eq_fields p)) <-> (vec_m p g * eq_fields p = 1)%nat.
Proof.
  intros p be g. split.
  - intros CT. set (z := repeat 0 (group_len g)). set (o := 1 :: repeat 0 (group_len g - 1)).
    assert (Hz : is_bytes (group_len g) z) by (split; [apply repeat_length|apply Forall_forall; intros x Hx; apply repeat_spec in Hx; subst; reflexivity]).
    assert (Ho : is_bytes (group_len g) o) by (destruct g; vm_compute; repeat constructor).
    assert (T : trace (equal_program (block_be p be) (vec_n p g) (vec_m p g) (eq_fields p)) (start z z) = trace (equal_program (block_be p be) (vec_n p g) (vec_m p g) (eq_fields p)) (start o z)).
    { apply CT, start_low; [rewrite (proj1 Hz), (proj1 Ho); reflexivity|reflexivity]. }
    apply (C43_equality_shows_the_agreeing_prefix p be g z z z o Hz Hz Hz Ho) in T. clear CT Hz Ho. subst z o. destruct p, g; vm_compute in T |- *; try reflexivity; discriminate T.
  - intros H s t Hst. apply checker_sound; [|exact Hst]. destruct p, g; cbn in H; try discriminate H; destruct be; vm_compute; reflexivity.
Qed.
Print Assumptions C43_equality_constant_time_iff.
Example C43_iff_case : map (fun pg => Nat.eqb (vec_m (fst pg) (snd pg) * eq_fields (fst pg)) 1)
    [(P_aesni, One); (P_neon, One); (P_constant_time, One); (P_aesni_vaes2, Two); (P_aesni_vaes4, Four); (P_rv64, One); (P_rv32, One); (P_software, One); (P_constant_time, Two); (P_aesni, Two); (P_aesni_vaes2, Four)] =
  [true; true; true; true; true; false; false; false; false; false; false].
Proof. reflexivity. Qed.
(** That is: AES-NI, NEON and constant-time AesBlock, VAES AesBlockX2, and AesBlockX4 with avx512f.  Under feature constant-time the
    comparison of an AesBlockX2 shows whether the first blocks are equal: README.md:23-25 read as being about the whole API is refuted. *)
Definition every_equality_constant_time (c : cfg) : Prop := forall p g, running c = Some p ->
  constant_time (equal_program (block_be p (c_be c)) (vec_n p g) (vec_m p g) (eq_fields p)).
Theorem C43_constant_time_feature_equality_refuted : exists c, rustc_ok c = true /\ c_ct c = true /\ running c = Some P_constant_time /\ ~ every_equality_constant_time c.
Proof.
  exists c_ct_le. split; [reflexivity|]. split; [reflexivity|]. split; [reflexivity|]. intros H. specialize (H P_constant_time Two eq_refl).
  apply C43_equality_constant_time_iff in H. discriminate H.
Qed.
Print Assumptions C43_constant_time_feature_equality_refuted.
(** The only builds in which no == shows anything are those with AES-NI, VAES and avx512f. *)
Theorem C43_equality_constant_time_builds : forall c, rustc_ok c = true -> (every_equality_constant_time c <-> running c = Some P_aesni_vaes4).
Proof.
  intros c Hc. rewrite (running_readme c Hc). split.
  - intros H. specialize (H (readme c) Four (running_readme c Hc)). apply C43_equality_constant_time_iff in H. destruct (readme c); cbn in H; try discriminate H; reflexivity.
  - intros E p g Hp. rewrite (running_readme c Hc), E in Hp. injection Hp as <-. apply C43_equality_constant_time_iff. now destruct g.
Qed.
Print Assumptions C43_equality_constant_time_builds.
Example C43_builds_case : running c_vaes512 = Some P_aesni_vaes4 /\ rustc_ok c_vaes512 = true /\ running c_x86 = Some P_aesni /\ rustc_ok c_x86 = true.
Proof. repeat split. Qed.
