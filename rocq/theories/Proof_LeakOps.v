(** From vectors to blocks: the programs of Model_LeakBlock.v compute the calls of the block types. *)
From Coq Require Import Lia Arith String.
From Coq Require Import List.
From Verif Require Import Word Interface Fips197 Spec_Api Spec_Cfg Spec_User Spec_Leak Spec_LeakBlock Model_Lib Model_Cfg Model_Bitslice Model_Leak Model_LeakAccel Model_LeakBlock Model_Running.
From Verif Require Import Proof_Shape Proof_Word Proof_Shift Proof_Fips Proof_Ok Proof_Sem Proof_Lib Proof_Reach Proof_Inst Proof_Main Proof_X86 Proof_Arm Proof_Rv64 Proof_KeyX86 Proof_KeyRv64 Proof_Bitslice Proof_Leak Proof_KeySpec Proof_LeakRun Proof_LeakEngine Proof_LeakAccel Proof_LeakKeys Proof_LeakSoft Proof_Table Proof_KeyTable Proof_Actual Proof_LeakBlock Proof_LeakEqual Props_Cfg Props_Leak Props_LeakAccel.
Open Scope string_scope.
Open Scope list_scope.
Open Scope N_scope.

(** ** Operations that act on each vector *)
Section Vectors.
Context (n m : nat).
Notation W := (16 * n)%nat.
Lemma pieces_of (f : nat -> list N) : (forall j, (j < m)%nat -> length (f j) = W) -> forall j, (j < m)%nat -> piece W j (concat (map f (seq 0 m))) = f j.
Proof.
  intros H j Hj. assert (G : forall s k q, (forall t, (s <= t < s + k)%nat -> length (f t) = W) -> (q < k)%nat -> piece W q (concat (map f (seq s k))) = f (s + q)%nat).
  { clear. intros s k. revert s. induction k as [|k IH]; intros s q H Hq; [lia|]. cbn [seq map concat]. pose proof (H s ltac:(lia)) as L. destruct q as [|q].
    - unfold piece. rewrite Nat.mul_0_r, Nat.add_0_r. cbn [skipn]. rewrite firstn_app, L, Nat.sub_diag. cbn [firstn]. rewrite app_nil_r. apply firstn_all2. lia.
    - rewrite piece_skip. rewrite skipn_app, L, Nat.sub_diag, skipn_all2 by lia. cbn [app skipn]. rewrite IH; [f_equal; lia|intros t Ht; apply H; lia|lia]. }
  apply (G 0%nat m j); [intros t Ht; apply H; lia|exact Hj].
Qed.
Lemma map2_pieces (h : list N -> list N -> list N) (H : list N -> list N -> list N) a b : is_bytes (W * m) a -> is_bytes (W * m) b ->
  (forall x y, is_bytes W x -> is_bytes W y -> is_bytes W (h x y)) ->
  H a b = concat (map (fun j => h (piece W j a) (piece W j b)) (seq 0 m)) ->
  is_bytes (W * m) (H a b) /\ forall j, (j < m)%nat -> piece W j (H a b) = h (piece W j a) (piece W j b).
Proof.
  intros Ha Hb Hh E.
  assert (P : forall j, (j < m)%nat -> is_bytes W (h (piece W j a) (piece W j b))) by (intros j Hj; apply Hh; now apply (piece_bytes W m)).
  rewrite E. split.
  - assert (G : forall l, (forall j, In j l -> (j < m)%nat) -> is_bytes (W * length l) (concat (map (fun j => h (piece W j a) (piece W j b)) l))).
    { induction l as [|j l IH]; intros Hl; [rewrite Nat.mul_0_r; split; [reflexivity|constructor]|]. cbn [map concat length]. replace (W * S (length l))%nat with (W + W * length l)%nat by lia.
      apply is_bytes_app; [apply P, Hl; now left|apply IH; intros q Hq; apply Hl; now right]. }
    specialize (G (seq 0 m)). rewrite seq_length in G. apply G. intros j Hj. apply in_seq in Hj. lia.
  - apply pieces_of. intros j Hj. apply (P j Hj).
Qed.
Lemma on_lanes_vectorwise G : bop_ok G -> vectorwise n m (on_lanes n G) (on_lanes (n * m) G).
Proof.
  intros HG a b Ha Hb. apply map2_pieces; [exact Ha|exact Hb|intros; now apply on_lanes_bytes|].
  unfold on_lanes at 1. rewrite !lanes_chunks by (apply Ha || apply Hb). rewrite <- !seq_lanes, !map_map. fold (piece W). 
  assert (E : forall l, (forall j, In j l -> (j < m)%nat) ->
    concat (map2 G (concat (map (fun j => lanes n (piece W j a)) l)) (concat (map (fun j => lanes n (piece W j b)) l))) =
    concat (map (fun j => on_lanes n G (piece W j a) (piece W j b)) l)).
  { induction l as [|j l IH]; intros Hl; [reflexivity|]. cbn [map concat]. rewrite map2_app by now rewrite !lanes_length. rewrite concat_app. f_equal. apply IH. intros q Hq. apply Hl. now right. }
  apply E. intros j Hj. apply in_seq in Hj. lia.
Qed.
Lemma map2_concat (f : N -> N -> N) (l : list nat) (u v : nat -> list N) : (forall j, In j l -> length (u j) = length (v j)) ->
  map2 f (concat (map u l)) (concat (map v l)) = concat (map (fun j => map2 f (u j) (v j)) l).
Proof.
  induction l as [|j l IH]; intros H; [reflexivity|]. cbn [map concat]. rewrite map2_app by (apply H; now left). f_equal. apply IH. intros q Hq. apply H. now right.
Qed.
Lemma map2_vectorwise (f : N -> N -> N) : (forall x y, x < 256 -> y < 256 -> f x y < 256) -> vectorwise n m (map2 f) (map2 f).
Proof.
  intros Hf a b Ha Hb. apply (map2_pieces (map2 f) (map2 f)); [exact Ha|exact Hb| |].
  - intros x y [Lx Bx] [Ly By]. split; [rewrite map2_length; lia|]. eapply Forall_map2; [|exact Bx|exact By]. exact Hf.
  - rewrite <- (pieces_concat W m a) at 1 by apply Ha. rewrite <- (pieces_concat W m b) at 1 by apply Hb. apply map2_concat.
    intros j Hj. apply in_seq in Hj. rewrite (proj1 (piece_bytes W m j a Ha ltac:(lia))), (proj1 (piece_bytes W m j b Hb ltac:(lia))). reflexivity.
Qed.
Lemma map_vectorwise (f : N -> N) : (forall x, x < 256 -> f x < 256) -> vectorwise1 n m (map f) (map f).
Proof.
  intros Hf a Ha. split; [split; [rewrite map_length; apply Ha|apply map_ok; [exact Hf|apply Ha]]|]. intros j Hj. unfold piece. now rewrite skipn_map, firstn_map.
Qed.
Lemma land_byte x y : x < 256 -> y < 256 -> N.land x y < 256.
Proof. intros Hx Hy. destruct (N.eq_dec (N.land x y) 0) as [->|Q]; [lia|]. change 256 with (2 ^ 8) in *. apply N.log2_lt_pow2; [lia|]. eapply N.le_lt_trans; [apply N.log2_land|]. apply N.min_lt_iff. destruct (N.eq_dec x 0) as [->|]; [now rewrite N.land_0_l in Q|]. left. apply N.log2_lt_pow2; [lia|assumption]. Qed.
Lemma lor_byte x y : x < 256 -> y < 256 -> N.lor x y < 256.
Proof. intros Hx Hy. destruct (N.eq_dec x 0) as [->|Qx]; [now rewrite N.lor_0_l|]. destruct (N.eq_dec y 0) as [->|Qy]; [now rewrite N.lor_0_r|]. change 256 with (2 ^ 8) in *.
  assert (Q : N.lor x y <> 0) by (intros E; apply N.lor_eq_0_iff in E; tauto). apply N.log2_lt_pow2; [lia|]. rewrite N.log2_lor. apply N.max_lub_lt; apply N.log2_lt_pow2; lia. Qed.
Context (be : bool).
Lemma and_vec2 : vec2 be n (Bin And) (map2 N.land).
Proof. exists N.land. split; [intros st a b; reflexivity|]. intros a b [La Ba] [Lb Bb]. symmetry. apply of_ne_land; [assumption|assumption|lia]. Qed.
Lemma or_vec2 : vec2 be n (Bin Or) (map2 N.lor).
Proof. exists N.lor. split; [intros st a b; reflexivity|]. intros a b [La Ba] [Lb Bb]. symmetry. apply of_ne_lor; [assumption|assumption|lia]. Qed.
Lemma xor_vec2 : vec2 be n (Bin Xor) (map2 N.lxor).
Proof. exists N.lxor. split; [intros st a b; reflexivity|]. intros a b [La Ba] [Lb Bb]. symmetry. apply of_ne_lxor; [assumption|assumption|lia]. Qed.
Lemma not_vec1 : vec1 be n (x_not n) (map (bnot 8)).
Proof.
  exists (fun x => N.lxor x (N.ones (8 * N.of_nat W))). split; [intros st a; reflexivity|]. intros a [La Ba]. rewrite of_ne_bnot, La by assumption. reflexivity.
Qed.
Lemma lxor_byte x y : x < 256 -> y < 256 -> N.lxor x y < 256.
Proof. intros Hx Hy. change 256 with (2 ^ 8) in *. destruct (N.eq_dec x 0) as [->|Qx]; [now rewrite N.lxor_0_l|]. destruct (N.eq_dec y 0) as [->|Qy]; [now rewrite N.lxor_0_r|].
  destruct (N.eq_dec (N.lxor x y) 0) as [->|Q]; [lia|]. apply N.log2_lt_pow2; [lia|]. eapply N.le_lt_trans; [apply N.log2_lxor|]. apply N.max_lub_lt; apply N.log2_lt_pow2; lia. Qed.
End Vectors.
Lemma vop_vec2 e n G (g : engine) : vop g e n G -> vec2 (g_be g) n e (on_lanes n G). Proof. exact (fun H => H). Qed.

(** ** Blocks of any width *)
Lemma by_group_data i f1 f2 f4 s (g : group) (P : forall T, ops T -> Prop) : refines i f1 f2 f4 s ->
  (forall T (o : ops T) f, data_ok o (group_len g) f -> P T o) -> at_width i g P.
Proof. intros R H. destruct g; cbn [at_width]; [apply (H _ _ f1)|apply (H _ _ f2)|apply (H _ _ f4)]; apply R. Qed.
Lemma binary_data i f1 f2 f4 s g (F : forall T, ops T -> T -> T -> T) (h : list N -> list N -> list N) a b : refines i f1 f2 f4 s ->
  (forall T (o : ops T) f, data_ok o (group_len g) f -> F T o (f a) (f b) = f (h a b)) -> is_bytes (group_len g) (h a b) ->
  is_bytes (group_len g) a -> is_bytes (group_len g) b -> binary_bytes i g F a b = Ret (h a b).
Proof.
  intros R H Hh Ha Hb. unfold binary_bytes.
  assert (X : forall T (o : ops T) f, data_ok o (group_len g) f -> (x <- o_from o a;; y <- o_from o b;; to_bytes o (F T o x y)) = Ret (h a b)).
  { intros T o f D. rewrite !(dk_from _ _ _ D) by assumption. cbn [bind]. rewrite (H T o f D). now apply (to_bytes_ok o (group_len g) f). }
  destruct g; cbn [at_width]; [apply (X _ _ f1)|apply (X _ _ f2)|apply (X _ _ f4)]; apply R.
Qed.
Lemma unary_data i f1 f2 f4 s g (F : forall T, ops T -> T -> T) (h : list N -> list N) a : refines i f1 f2 f4 s ->
  (forall T (o : ops T) f, data_ok o (group_len g) f -> F T o (f a) = f (h a)) -> is_bytes (group_len g) (h a) ->
  is_bytes (group_len g) a -> unary_bytes i g F a = Ret (h a).
Proof.
  intros R H Hh Ha. unfold unary_bytes.
  assert (X : forall T (o : ops T) f, data_ok o (group_len g) f -> (x <- o_from o a;; to_bytes o (F T o x)) = Ret (h a)).
  { intros T o f D. rewrite !(dk_from _ _ _ D) by assumption. cbn [bind]. rewrite (H T o f D). now apply (to_bytes_ok o (group_len g) f). }
  destruct g; cbn [at_width]; [apply (X _ _ f1)|apply (X _ _ f2)|apply (X _ _ f4)]; apply R.
Qed.
Lemma is_zero_data i f1 f2 f4 s g a : refines i f1 f2 f4 s -> is_bytes (group_len g) a ->
  is_zero_bytes i g a = Ret (bool_byte (if list_eq_dec N.eq_dec a (repeat 0 (group_len g)) then true else false)).
Proof.
  intros R Ha. unfold is_zero_bytes.
  assert (X : forall T (o : ops T) f, data_ok o (group_len g) f -> (x <- o_from o a;; Ret (bool_byte (o_is_zero o x))) = Ret (bool_byte (if list_eq_dec N.eq_dec a (repeat 0 (group_len g)) then true else false))).
  { intros T o f D. rewrite !(dk_from _ _ _ D) by assumption. cbn [bind]. do 2 f_equal. pose proof (dk_is_zero _ _ _ D a Ha) as Q.
    destruct (list_eq_dec N.eq_dec a (repeat 0 (group_len g))), (o_is_zero o (f a)); tauto || (symmetry; tauto) || (exfalso; intuition congruence) || idtac. }
  destruct g; cbn [at_width]; [apply (X _ _ f1)|apply (X _ _ f2)|apply (X _ _ f4)]; apply R.
Qed.
Lemma equal_data i f1 f2 f4 s g a b : refines i f1 f2 f4 s -> is_bytes (group_len g) a -> is_bytes (group_len g) b ->
  equal_bytes i g a b = Ret (bool_byte (if list_eq_dec N.eq_dec a b then true else false)).
Proof.
  intros R Ha Hb. unfold equal_bytes.
  assert (X : forall T (o : ops T) f, data_ok o (group_len g) f -> (x <- o_from o a;; y <- o_from o b;; Ret (bool_byte (o_eq o x y))) = Ret (bool_byte (if list_eq_dec N.eq_dec a b then true else false))).
  { intros T o f D. rewrite !(dk_from _ _ _ D) by assumption. cbn [bind]. do 2 f_equal. pose proof (dk_eq _ _ _ D a b Ha Hb) as Q.
    destruct (list_eq_dec N.eq_dec a b), (o_eq o (f a) (f b)); tauto || (symmetry; tauto) || (exfalso; intuition congruence) || idtac. }
  destruct g; cbn [at_width]; [apply (X _ _ f1)|apply (X _ _ f2)|apply (X _ _ f4)]; apply R.
Qed.
Lemma round_bytes i f1 f2 f4 s g (F : forall T, ops T -> T -> T -> T) (G : bop) a b : refines i f1 f2 f4 s -> bop_ok G ->
  (forall T (o : ops T) m f, rounds_ok o m f s -> lane_ok (F T o) m f G) ->
  is_bytes (group_len g) a -> is_bytes (group_len g) b -> binary_bytes i g F a b = Ret (on_lanes (group_size g) G a b).
Proof.
  intros R HG H Ha Hb. unfold binary_bytes.
  assert (X : forall T (o : ops T) f, data_ok o (16 * group_size g) f -> rounds_ok o (group_size g) f s -> (x <- o_from o a;; y <- o_from o b;; to_bytes o (F T o x y)) = Ret (on_lanes (group_size g) G a b)).
  { assert (Eg : group_len g = (16 * group_size g)%nat) by now destruct g. rewrite Eg in Ha, Hb.
    intros T o f D RO. rewrite !(dk_from _ _ _ D) by assumption. cbn [bind]. rewrite (H T o _ f RO a b Ha Hb). apply (to_bytes_ok o (16 * group_size g) f); [exact D|]. now apply on_lanes_bytes. }
  destruct g; cbn [at_width]; [apply (X _ _ f1)|apply (X _ _ f2)|apply (X _ _ f4)]; apply R.
Qed.

(** ** Chains *)
Lemma omapM_from {T} (o : ops T) n f keys : data_ok o n f -> Forall (is_bytes n) keys -> omapM (o_from o) keys = Ret (map f keys).
Proof. intros D H. induction H as [|k keys Hk _ IH]; [reflexivity|]. cbn [omapM map]. rewrite (dk_from _ _ _ D) by assumption. cbn [bind]. rewrite IH. reflexivity. Qed.
Lemma s_chain_n m pre G x keys : keys <> [] -> s_chain m pre G x keys = Ret (n_chain (option_map (on_lanes m) pre) (on_lanes m G) (map2 N.lxor) x keys).
Proof. intros Ne. destruct keys as [|k0 r]; [congruence|]. destruct pre; reflexivity. Qed.
Lemma chain_bytes i f1 f2 f4 s g dec a keys : refines i f1 f2 f4 s -> sem_ok s -> keys <> [] -> is_bytes (group_len g) a -> Forall (is_bytes (group_len g)) keys ->
  chain_call_bytes i g dec a keys = Ret (n_chain (option_map (on_lanes (group_size g)) (s_pre1 s dec)) (on_lanes (group_size g) (if dec then s_dec s else s_enc s)) (map2 N.lxor) a keys).
Proof.
  intros R S0 Ne Ha Hk.
  assert (HG : bop_ok (if dec then s_dec s else s_enc s)) by (destruct dec; apply S0).
  assert (HP : pre_opt_ok (s_pre1 s dec)) by (apply s_pre1_ok; assumption).
  assert (X : forall T (o : ops T) f (chain : T -> list T -> outcome T), data_ok o (group_len g) f ->
    chain (f a) (map f keys) = omap f (s_chain (group_size g) (s_pre1 s dec) (if dec then s_dec s else s_enc s) a keys) ->
    (x <- o_from o a;; ks <- omapM (o_from o) keys;; y <- chain x ks;; to_bytes o y) =
    Ret (n_chain (option_map (on_lanes (group_size g)) (s_pre1 s dec)) (on_lanes (group_size g) (if dec then s_dec s else s_enc s)) (map2 N.lxor) a keys)).
  { intros T o f chain D E. rewrite (dk_from _ _ _ D), (omapM_from _ _ _ _ D) by assumption. cbn [bind]. rewrite E, s_chain_n by assumption. cbn [omap bind].
    apply (to_bytes_ok o (group_len g) f); [exact D|]. assert (Eg : group_len g = (16 * group_size g)%nat) by now destruct g. rewrite Eg in *.
    apply (s_chain_bytes (group_size g) (s_pre1 s dec) (if dec then s_dec s else s_enc s) a keys); auto. now apply s_chain_n. }
  destruct g; cbn [chain_call_bytes]; [apply (X _ _ f1)|apply (X _ _ f2)|apply (X _ _ f4)]; try (apply R); destruct dec.
  - now apply (chain_dec1_ok i f1 f2 f4 s).
  - now apply (chain_enc1_ok i f1 f2 f4 s).
  - now apply (chain_dec2_ok i f1 f2 f4 s).
  - now apply (chain_enc2_ok i f1 f2 f4 s).
  - now apply (chain_dec4_ok i f1 f2 f4 s).
  - now apply (chain_enc4_ok i f1 f2 f4 s).
Qed.

(** ** The code a build runs *)
Lemma build_engine c p i e : rustc_ok c = true -> impl_of c = Some i -> running c = Some p -> engine_of p (c_be c) = Some e ->
  exists f1 f2 f4 s, refines i f1 f2 f4 s /\ sem_ok s /\ (forall g, vec_ok e s (vec_n p g)) /\ uop e (g_mc e) (s_mc s) /\ uop e (g_imc e) (s_imc s).
Proof.
  intros Hc E Hr He. apply (running_is c p Hc) in Hr. subst p. rewrite (C25_readme_is_selection c Hc) in E. destruct (be_arm_aes c); [discriminate|].
  injection E as <-. pose proof (fips_rk_ok None (or_introl eq_refl)) as S0. pose proof (fips_rk_ok (Some neon_pre) (or_intror eq_refl)) as S1.
  destruct (readme c) eqn:P; cbn [engine_of] in He; try discriminate; injection He as <-; cbn [implementation].
  - do 3 eexists. exists (fips_sem None round_keys). split; [apply vaes4_refines|]. split; [exact S0|]. split; [intros g; apply x86_vec|]. split; [apply x86_mc_u|apply x86_imc_u].
  - do 3 eexists. exists (fips_sem None round_keys). split; [apply vaes2_refines|]. split; [exact S0|]. split; [intros g; apply x86_vec|]. split; [apply x86_mc_u|apply x86_imc_u].
  - do 3 eexists. exists (fips_sem None round_keys). split; [|split; [exact S0|split; [intros g; apply x86_vec|split; [apply x86_mc_u|apply x86_imc_u]]]].
    apply default_fips; [apply x86_data_ok|apply x86_enc_ok|apply x86_dec_ok|apply x86_mix_ok|apply x86_key_ok].
  - do 3 eexists. exists (fips_sem (Some neon_pre) round_keys). split; [apply arm_refines|]. split; [exact S1|]. split; [intros g; exact arm_vec|]. split; [apply arm_mc_u|apply arm_imc_u].
  - do 3 eexists. exists (fips_sem None round_keys). split; [|split; [exact S0|split; [intros g; exact rv64_vec|split; [apply rv64_mc_u|apply rv64_imc_u]]]].
    apply default_fips; [apply rv64_data_ok|apply rv64_enc_ok|apply rv64_dec_ok|apply rv64_mix_ok|apply rv64_key_ok].
  - do 3 eexists. exists rv32_exact. split; [apply rv32_exact_refines|]. split; [exact rv32_exact_ok|]. split; [intros g; exact rv32_vec|]. split; [apply rv32_mc_u|apply rv32_imc_u].
  - destruct (bitslice_refines (c_dbg c) (c_be c)) as [R S2].
    do 3 eexists. exists (fips_sem None (bitslice_keys (c_be c))). split; [exact R|]. split; [exact S2|]. split; [intros g; exact (bitslice_vec (c_be c))|]. split; [apply bitslice_mc|apply bitslice_imc].
  - do 3 eexists. exists (fips_sem None round_keys). split; [|split; [exact S0|split; [intros g; exact table_vec|split; [apply table_mc_u|apply table_imc_u]]]].
    apply default_fips; [apply table_data_ok|apply table_enc_ok|apply table_dec_ok|apply table_mix_ok|apply table_key_ok].
Qed.
Lemma build_data c i : impl_of c = Some i -> exists f1 f2 f4 s, refines i f1 f2 f4 s /\ sem_ok s.
Proof. intros E. destruct (impl_refines c i E) as [(pre & keys & _ & _ & _ & [S (f1 & f2 & f4 & R)])|[_ [S (f1 & f2 & f4 & R)]]]; do 4 eexists; eauto. Qed.
Lemma engine_be p be e : engine_of p be = Some e -> g_be e = block_be p be.
Proof. destruct p; cbn [engine_of]; intros [= <-]; reflexivity. Qed.
