(** C09 - C14, C28: the round functions, chains and wide rounds, for every configuration. *)
From Coq Require Import Lia Arith.
From Verif Require Import Word Interface Fips197 Spec_Api Spec_Reach Spec_Cfg Spec_User Model_Lib Model_Cfg.
From Verif Require Import Proof_Word Proof_Fips Proof_Ok Proof_Sem Proof_Lib Proof_Reach Proof_Inst Proof_Cipher Proof_Main.
From Verif Require Import Samples.
Open Scope N_scope.

Lemma ln1 {T} (op : T -> T -> T) f g a k : lane_ok op 1 f g -> is_bytes 16 a -> is_bytes 16 k -> op (f a) (f k) = f (g a k).
Proof. intros H Ha Hk. rewrite (H a k) by assumption. rewrite on_lanes_1 by (eapply is_bytes_len; eassumption). reflexivity. Qed.

Lemma undo_enc a : is_bytes 16 a -> inv_sub_bytes (inv_shift_rows (sub_bytes (shift_rows a))) = a.
Proof. intros [L F]. now rewrite <- shift_sub, inv_shift_shift, inv_sub_sub by (assumption || (unfold sub_bytes; now rewrite map_length)). Qed.
Lemma undo_dec a : is_bytes 16 a -> sub_bytes (shift_rows (inv_sub_bytes (inv_shift_rows a))) = a.
Proof. intros [L F]. now rewrite <- inv_shift_sub, shift_inv_shift, sub_inv_sub by (assumption || (unfold inv_sub_bytes; now rewrite map_length)). Qed.

(** ** C09: every configuration, RV32 and big-endian included *)
Theorem C09_enc_is_documented_round : forall c i x k a b,
  impl_of c = Some i -> reach1 i x -> reach1 i k ->
  shows (i_ops1 i) x a -> shows (i_ops1 i) k b ->
  shows (i_ops1 i) (o_enc (i_ops1 i) x k) (spec_enc a b) /\
  shows (i_ops1 i) (o_enc_last (i_ops1 i) x k) (spec_enc_last a b).
Proof.
  intros c i x k a b E Hx Hk Sx Sk. destruct (inst_any c i E) as (s & f1 & f2 & f4 & E1 & E2 & S1 & R). unreach R S1.
  pose proof (R_d1 _ _ _ _ _ R) as D. unshow D.
  rewrite (ln1 _ f1 (s_enc s)), (ln1 _ f1 (s_enc_last s)) by (try assumption; apply R).
  rewrite E1, E2. split; apply (to_bytes_ok _ 16); try assumption; [rewrite <- E1|rewrite <- E2]; apply S1; assumption.
Qed.
Print Assumptions C09_enc_is_documented_round.
Example C09_enc_is_documented_round_case : forall c k, In c samples -> with_values c k (fun i u =>
  shows (i_ops1 i) (o_enc (i_ops1 i) (u_x u) (u_y u)) (spec_enc fips_block other_block) /\ shows (i_ops1 i) (o_enc_last (i_ops1 i) (u_x u) (u_y u)) (spec_enc_last fips_block other_block)).
Proof. intros c k H. apply case_any; [exact H|]. intros i u E. apply (C09_enc_is_documented_round c); auto with cases. Qed.

(** ** C10 *)
Theorem C10_dec_is_documented_round : forall c i x k a b,
  impl_of c = Some i -> rv32_zk c = false -> reach1 i x -> reach1 i k ->
  shows (i_ops1 i) x a -> shows (i_ops1 i) k b ->
  shows (i_ops1 i) (o_dec (i_ops1 i) x k) (spec_dec a b) /\
  shows (i_ops1 i) (o_dec_last (i_ops1 i) x k) (spec_dec_last a b).
Proof.
  intros c i x k a b E C Hx Hk Sx Sk. destruct (inst c i E C) as (pre & keys & f1 & f2 & f4 & Hpre & K & S1 & R). unreach R S1.
  pose proof (R_d1 _ _ _ _ _ R) as D. unshow D.
  rewrite (ln1 _ f1 spec_dec), (ln1 _ f1 spec_dec_last) by (try assumption; apply R).
  split; apply (to_bytes_ok _ 16); try assumption; [apply spec_dec_bop|apply spec_dec_last_bop]; assumption.
Qed.
Print Assumptions C10_dec_is_documented_round.
Example C10_dec_is_documented_round_case : forall c k, In c fips_samples -> with_values c k (fun i u =>
  shows (i_ops1 i) (o_dec (i_ops1 i) (u_x u) (u_y u)) (spec_dec fips_block other_block) /\ shows (i_ops1 i) (o_dec_last (i_ops1 i) (u_x u) (u_y u)) (spec_dec_last fips_block other_block)).
Proof. intros c k H. apply case_fips; [exact H|]. intros i u E C. apply (C10_dec_is_documented_round c); auto with cases. Qed.

(** ** C11 *)
Theorem C11_mc_imc : forall c i x a,
  impl_of c = Some i -> rv32_zk c = false -> reach1 i x -> shows (i_ops1 i) x a ->
  shows (i_ops1 i) (e_mc (i_ext i) x) (mix_columns a) /\
  shows (i_ops1 i) (e_imc (i_ext i) x) (inv_mix_columns a) /\
  e_imc (i_ext i) (e_mc (i_ext i) x) = x /\ e_mc (i_ext i) (e_imc (i_ext i) x) = x.
Proof.
  intros c i x a E C Hx Sx. destruct (inst c i E C) as (pre & keys & f1 & f2 & f4 & Hpre & K & S1 & R). unreach R S1.
  pose proof (R_d1 _ _ _ _ _ R) as D. unshow D. rename b into a, B into Ha.
  pose proof (mix_columns_bytes a Ha). pose proof (inv_mix_columns_bytes a Ha).
  pose proof (R_mc _ _ _ _ _ R) as M. pose proof (R_imc _ _ _ _ _ R) as IM. cbn [fips_sem s_mc s_imc] in M, IM.
  split; [|split; [|split]].
  - rewrite M by assumption. now apply (to_bytes_ok _ 16).
  - rewrite IM by assumption. now apply (to_bytes_ok _ 16).
  - rewrite M, IM by assumption. now rewrite inv_mix_mix.
  - rewrite IM, M by assumption. now rewrite mix_inv_mix.
Qed.
Print Assumptions C11_mc_imc.
Example C11_mc_imc_case : forall c k, In c fips_samples -> with_values c k (fun i u =>
  shows (i_ops1 i) (e_mc (i_ext i) (u_y u)) (mix_columns other_block) /\ e_imc (i_ext i) (e_mc (i_ext i) (u_y u)) = u_y u).
Proof. intros c k H. apply case_fips; [exact H|]. intros i u E C. destruct (C11_mc_imc c i (u_y u) other_block) as (A & _ & B & _); auto with cases. Qed.

(** ** C12 *)
Section Chain.
Context {T : Type} (o : ops T) (m : nat) (f : list N -> T).
Lemma lanes_pre (dec : bool) x keys : is_bytes (16 * m) x -> Forall (is_bytes (16 * m)) keys -> keys <> [] ->
  s_chain m (Some (if dec then snd neon_pre else fst neon_pre)) (if dec then spec_dec else spec_enc) x keys = s_chain m None (if dec then spec_dec else spec_enc) x keys.
Proof.
  intros Hx Hk Hne. set (g := if dec then spec_dec else spec_enc). set (p := if dec then snd neon_pre else fst neon_pre).
  destruct keys as [|k0 r]; [congruence|]. clear Hne. unfold s_chain, s_chain_pre, s_chain_post. f_equal.
  assert (Hg : bop_ok g) by (unfold g; destruct dec; [apply spec_dec_bop|apply spec_enc_bop]).
  assert (Hp : bop_ok p) by (unfold p; destruct (fips_sem_ok (Some neon_pre) round_keys ltac:(now right) round_keys_ok); cbn in so_pre; destruct dec; apply so_pre).
  assert (Q : forall y a b, is_bytes (16 * m) y -> is_bytes (16 * m) a -> is_bytes (16 * m) b ->
     map2 N.lxor (on_lanes m p y a) b = on_lanes m g (map2 N.lxor y a) b).
  { intros y a b Hy Ha Hb.
    rewrite (xor_as_lanes m (on_lanes m p y a) b), (xor_as_lanes m y a) by (apply is_bytes_len; try assumption; now apply on_lanes_bytes).
    unfold on_lanes at 1 3. rewrite !lanes_on_lanes by (assumption || apply xor_bop). f_equal.
    pose proof (lanes_bytes m y Hy) as Ly. pose proof (lanes_bytes m a Ha) as La. pose proof (lanes_bytes m b Hb) as Lb.
    revert Ly La Lb. generalize (lanes m y), (lanes m a), (lanes m b). intros ly. induction ly as [|y0 ly IH]; intros [|a0 la] [|b0 lb] F1 F2 F3; cbn; try reflexivity.
    inversion F1; inversion F2; inversion F3; subst. f_equal; [|auto].
    pose proof (b_chain_pre_spec (Some neon_pre) g y0 [a0; b0] dec ltac:(now right) eq_refl) as Z.
    unfold b_chain in Z. cbn [removelast last fold_left] in Z. unfold neon_pre in Z at 1. unfold p, neon_pre. cbn [fst snd].
    destruct dec; apply Z; try assumption; try discriminate; auto using Forall_cons, Forall_nil. }
  revert x k0 Hx Hk. induction r as [|k1 r IH]; intros x k0 Hx Hk; [reflexivity|].
  inversion Hk as [|? ? Hk0 Hk']; subst. inversion Hk' as [|? ? Hk1 Hr]; subst.
  change (removelast (k0 :: k1 :: r)) with (k0 :: removelast (k1 :: r)). change (last (k0 :: k1 :: r) []) with (last (k1 :: r) []).
  cbn [fold_left]. rewrite IH; [|now apply on_lanes_bytes|assumption]. now rewrite Q.
Qed.
End Chain.

Lemma chain_documented {T} (o : ops T) m (f : list N -> T) s (dec : bool) round ch pre keys x ks :
  s = fips_sem pre keys -> pre_fips pre -> data_ok o (16 * m) f -> bop_ok (if dec then spec_dec else spec_enc) ->
  lane_ok round m f (if dec then spec_dec else spec_enc) ->
  (forall x ks, is_bytes (16 * m) x -> Forall (is_bytes (16 * m)) ks -> ch (f x) (map f ks) = omap f (s_chain m (s_pre1 s dec) (if dec then spec_dec else spec_enc) x ks)) ->
  is_bytes (16 * m) x -> Forall (is_bytes (16 * m)) ks ->
  ch (f x) (map f ks) = documented_chain o round (f x) (map f ks).
Proof.
  intros -> Hp D Hg L H Hx Hk. rewrite H by assumption. destruct ks as [|k0 r].
  - cbn. destruct Hp as [-> | ->]; reflexivity.
  - assert (Q : s_chain m (s_pre1 (fips_sem pre keys) dec) (if dec then spec_dec else spec_enc) x (k0 :: r) = s_chain m None (if dec then spec_dec else spec_enc) x (k0 :: r)).
    { destruct Hp as [-> | ->]; [reflexivity|]. rewrite <- (lanes_pre m dec x (k0 :: r)) by (assumption || discriminate). unfold s_pre1, fips_sem, neon_pre. cbn [s_pre fst snd]. destruct dec; reflexivity. }
    rewrite Q. cbn [s_chain s_chain_post documented_chain map]. inversion Hk; subst.
    rewrite (dk_xor _ _ _ D) by assumption. rewrite (fold_lane_ok round m f (if dec then spec_dec else spec_enc)); [reflexivity|assumption|assumption|now apply xor_bytes|assumption].
Qed.

Theorem C12_chains_are_documented : forall c i,
  impl_of c = Some i -> rv32_zk c = false ->
  (forall x ks, reach1 i x -> Forall (reach1 i) ks ->
     chain_enc1 i x ks = documented_chain (i_ops1 i) (o_enc (i_ops1 i)) x ks /\
     chain_dec1 i x ks = documented_chain (i_ops1 i) (o_dec (i_ops1 i)) x ks) /\
  (forall x ks, reach2 i x -> Forall (reach2 i) ks ->
     chain_enc2 i x ks = documented_chain (i_ops2 i) (o_enc (i_ops2 i)) x ks /\
     chain_dec2 i x ks = documented_chain (i_ops2 i) (o_dec (i_ops2 i)) x ks) /\
  (forall x ks, reach4 i x -> Forall (reach4 i) ks ->
     chain_enc4 i x ks = documented_chain (i_ops4 i) (o_enc (i_ops4 i)) x ks /\
     chain_dec4 i x ks = documented_chain (i_ops4 i) (o_dec (i_ops4 i)) x ks).
Proof.
  intros c i E C. destruct (inst c i E C) as (pre & keys & f1 & f2 & f4 & Hpre & K & S1 & R). split; [|split]; intros x ks Hx Hk.
  - unreach R S1. assert (Hk' : Forall (img 16 f1) ks) by (eapply Forall_impl; [|exact Hk]; apply (reach1_img _ _ _ _ _ R S1)).
    apply Forall_img in Hk' as (l & Fl & ->).
    split; [eapply (chain_documented _ 1 f1 _ false _ _ pre keys)|eapply (chain_documented _ 1 f1 _ true _ _ pre keys)];
      try reflexivity; try assumption; try apply R; try apply spec_enc_bop; try apply spec_dec_bop; apply (chain_enc1_ok _ _ _ _ _ R S1) || apply (chain_dec1_ok _ _ _ _ _ R S1).
  - unreach R S1. assert (Hk' : Forall (img 32 f2) ks) by (eapply Forall_impl; [|exact Hk]; apply (reach2_img _ _ _ _ _ R S1)).
    apply Forall_img in Hk' as (l & Fl & ->).
    split; [eapply (chain_documented _ 2 f2 _ false _ _ pre keys)|eapply (chain_documented _ 2 f2 _ true _ _ pre keys)];
      try reflexivity; try assumption; try apply R; try apply spec_enc_bop; try apply spec_dec_bop; apply (chain_enc2_ok _ _ _ _ _ R S1) || apply (chain_dec2_ok _ _ _ _ _ R S1).
  - unreach R S1. assert (Hk' : Forall (img 64 f4) ks) by (eapply Forall_impl; [|exact Hk]; apply (reach4_img _ _ _ _ _ R S1)).
    apply Forall_img in Hk' as (l & Fl & ->).
    split; [eapply (chain_documented _ 4 f4 _ false _ _ pre keys)|eapply (chain_documented _ 4 f4 _ true _ _ pre keys)];
      try reflexivity; try assumption; try apply R; try apply spec_enc_bop; try apply spec_dec_bop; apply (chain_enc4_ok _ _ _ _ _ R S1) || apply (chain_dec4_ok _ _ _ _ _ R S1).
Qed.
Print Assumptions C12_chains_are_documented.
Example C12_chains_are_documented_case : forall c k, In c fips_samples -> with_values c k (fun i u =>
  chain_enc1 i (u_x u) [u_y u; u_x u; u_y u] = Ret (o_enc (i_ops1 i) (o_enc (i_ops1 i) (o_xor (i_ops1 i) (u_x u) (u_y u)) (u_x u)) (u_y u))).
Proof. intros c k H. apply case_fips; [exact H|]. intros i u E C. destruct (C12_chains_are_documented c i E C) as (A & _). apply A; auto with cases. Qed.
(** The empty slice panics in every configuration. *)
Theorem C12_empty_slice_panics : forall i x1 x2 x4,
  chain_enc1 i x1 [] = Panic /\ chain_dec1 i x1 [] = Panic /\ chain_enc2 i x2 [] = Panic /\
  chain_dec2 i x2 [] = Panic /\ chain_enc4 i x4 [] = Panic /\ chain_dec4 i x4 [] = Panic.
Proof.
  intros. unfold chain_enc1, chain_dec1, chain_enc2, chain_dec2, chain_enc4, chain_dec4, pre4, pre2, pre1. 
  destruct (i_pre_chain i) as [[p q]|]; repeat split; reflexivity.
Qed.
Print Assumptions C12_empty_slice_panics.
Example C12_empty_slice_panics_case : forall c k, In c samples -> with_values c k (fun i u =>
  chain_enc1 i (u_x u) [] = Panic).
Proof. intros c k H. apply case_any; [exact H|]. intros i u E. apply (C12_empty_slice_panics i (u_x u) (u_x2 u) (u_x4 u)). Qed.

(** ** C13 *)
Theorem C13_rounds_can_be_undone : forall c i x k,
  impl_of c = Some i -> rv32_zk c = false -> reach1 i x -> reach1 i k ->
  let o := i_ops1 i in
  o_dec_last o (e_imc (i_ext i) (o_xor o (o_enc o x k) k)) (o_zero o) = x /\
  o_enc_last o (e_mc (i_ext i) (o_xor o (o_dec o x k) k)) (o_zero o) = x /\
  o_dec_last o (o_xor o (o_enc_last o x k) k) (o_zero o) = x /\
  o_enc_last o (o_xor o (o_dec_last o x k) k) (o_zero o) = x.
Proof.
  intros c i x k E C Hx Hk o. destruct (inst c i E C) as (pre & keys & f1 & f2 & f4 & Hpre & K & S1 & R). unreach R S1. subst o.
  pose proof (R_d1 _ _ _ _ _ R) as D. pose proof (R_mc _ _ _ _ _ R) as M. pose proof (R_imc _ _ _ _ _ R) as IM. cbn [fips_sem s_mc s_imc] in M, IM.
  assert (Z : is_bytes 16 (repeat 0 16)) by (split; [reflexivity|repeat constructor]).
  pose proof (fun a k => ln1 (o_enc (i_ops1 i)) f1 spec_enc a k ltac:(apply R)) as Le.
  pose proof (fun a k => ln1 (o_dec (i_ops1 i)) f1 spec_dec a k ltac:(apply R)) as Ld.
  pose proof (fun a k => ln1 (o_enc_last (i_ops1 i)) f1 spec_enc_last a k ltac:(apply R)) as Lel.
  pose proof (fun a k => ln1 (o_dec_last (i_ops1 i)) f1 spec_dec_last a k ltac:(apply R)) as Ldl.
  assert (X : forall u v, is_bytes 16 u -> is_bytes 16 v -> map2 N.lxor (map2 N.lxor u v) v = u).
  { intros u v Hu Hv. apply (xor_xor 16); [apply Hu|apply Hv]. }
  assert (X0 : forall u, is_bytes 16 u -> map2 N.lxor u (repeat 0 16) = u).
  { intros u Hu. apply (xor_zero_r 16). apply Hu. }
  rewrite (dk_zero _ _ _ D).
  pose proof shift_rows_bytes as Q1. pose proof inv_shift_rows_bytes as Q2. pose proof (sub_bytes_bytes 16) as Q3. pose proof (inv_sub_bytes_bytes 16) as Q4.
  pose proof mix_columns_bytes as Q5. pose proof inv_mix_columns_bytes as Q6. pose proof (xor_bytes 16) as Q7.
  rename b into a, B into Ha, b0 into b, B0 into Hb.
  split; [|split; [|split]].
  - rewrite Le by assumption. unfold spec_enc, add_round_key. rewrite (dk_xor _ _ _ D) by auto 9. rewrite X, IM, Ldl by auto 9.
    unfold spec_dec_last, add_round_key. rewrite inv_mix_mix by auto. rewrite X0 by auto 9. now rewrite undo_enc.
  - rewrite Ld by assumption. unfold spec_dec, add_round_key. rewrite (dk_xor _ _ _ D) by auto 9. rewrite X, M, Lel by auto 9.
    unfold spec_enc_last, add_round_key. rewrite mix_inv_mix by auto. rewrite X0 by auto 9. now rewrite undo_dec.
  - rewrite Lel by assumption. unfold spec_enc_last, add_round_key. rewrite (dk_xor _ _ _ D) by auto 9. rewrite X, Ldl by auto 9.
    unfold spec_dec_last, add_round_key. rewrite X0 by auto 9. now rewrite undo_enc.
  - rewrite Ldl by assumption. unfold spec_dec_last, add_round_key. rewrite (dk_xor _ _ _ D) by auto 9. rewrite X, Lel by auto 9.
    unfold spec_enc_last, add_round_key. rewrite X0 by auto 9. now rewrite undo_dec.
Qed.
Print Assumptions C13_rounds_can_be_undone.
Example C13_rounds_can_be_undone_case : forall c k, In c fips_samples -> with_values c k (fun i u =>
  o_dec_last (i_ops1 i) (o_xor (i_ops1 i) (o_enc_last (i_ops1 i) (u_x u) (u_y u)) (u_y u)) (o_zero (i_ops1 i)) = u_x u).
Proof. intros c k H. apply case_fips; [exact H|]. intros i u E C. apply (C13_rounds_can_be_undone c); auto with cases. Qed.

(** ** C14: wide rounds are lane-wise, every configuration *)
Lemma ln2 {T} (op : T -> T -> T) f g a b k l : bop_ok g -> lane_ok op 2 f g -> is_bytes 16 a -> is_bytes 16 b -> is_bytes 16 k -> is_bytes 16 l ->
  op (f (a ++ b)) (f (k ++ l)) = f (g a k ++ g b l).
Proof.
  intros Hg H Ha Hb Hk Hl. rewrite (H (a ++ b) (k ++ l)) by (apply (is_bytes_app 16 16); assumption).
  rewrite (on_lanes_halves g 1) by assumption. now rewrite !on_lanes_1 by (eapply is_bytes_len; eassumption).
Qed.
Lemma ln4 {T} (op : T -> T -> T) f g a b c d k l m n : bop_ok g -> lane_ok op 4 f g ->
  is_bytes 16 a -> is_bytes 16 b -> is_bytes 16 c -> is_bytes 16 d -> is_bytes 16 k -> is_bytes 16 l -> is_bytes 16 m -> is_bytes 16 n ->
  op (f (a ++ b ++ c ++ d)) (f (k ++ l ++ m ++ n)) = f (g a k ++ g b l ++ g c m ++ g d n).
Proof.
  intros Hg H Ha Hb Hc Hd Hk Hl Hm Hn.
  pose proof (is_bytes_app 16 16 a b Ha Hb). pose proof (is_bytes_app 16 16 c d Hc Hd). pose proof (is_bytes_app 16 16 k l Hk Hl). pose proof (is_bytes_app 16 16 m n Hm Hn).
  rewrite !(app_assoc a b), !(app_assoc k l). rewrite (H ((a ++ b) ++ c ++ d) ((k ++ l) ++ m ++ n)) by (apply (is_bytes_app 32 32); assumption).
  rewrite (on_lanes_halves g 2) by assumption. rewrite !(on_lanes_halves g 1) by assumption.
  rewrite !on_lanes_1 by (eapply is_bytes_len; eassumption). now rewrite <- app_assoc.
Qed.

Definition lanewise2 (i : impl) (op2 : T2 i -> T2 i -> T2 i) (op1 : T1 i -> T1 i -> T1 i) : Prop :=
  forall x k, reach2 i x -> reach2 i k ->
  forall a b k1 k2, x2_to_pair i x = (a, b) -> x2_to_pair i k = (k1, k2) ->
  op2 x k = x2_of_pair i (op1 a k1, op1 b k2) /\ x2_to_pair i (op2 x k) = (op1 a k1, op1 b k2).
Definition lanewise4 (i : impl) (op4 : T4 i -> T4 i -> T4 i) (op1 : T1 i -> T1 i -> T1 i) : Prop :=
  forall x k, reach4 i x -> reach4 i k ->
  forall a b c d k1 k2 k3 k4, x4_to_quad i x = (a, b, c, d) -> x4_to_quad i k = (k1, k2, k3, k4) ->
  op4 x k = x4_of_quad i (op1 a k1, op1 b k2, op1 c k3, op1 d k4) /\
  x4_to_quad i (op4 x k) = (op1 a k1, op1 b k2, op1 c k3, op1 d k4).

Theorem C14_wide_rounds_are_lanewise : forall c i,
  impl_of c = Some i ->
  lanewise2 i (o_enc (i_ops2 i)) (o_enc (i_ops1 i)) /\
  lanewise2 i (o_dec (i_ops2 i)) (o_dec (i_ops1 i)) /\
  lanewise2 i (o_enc_last (i_ops2 i)) (o_enc_last (i_ops1 i)) /\
  lanewise2 i (o_dec_last (i_ops2 i)) (o_dec_last (i_ops1 i)) /\
  lanewise4 i (o_enc (i_ops4 i)) (o_enc (i_ops1 i)) /\
  lanewise4 i (o_dec (i_ops4 i)) (o_dec (i_ops1 i)) /\
  lanewise4 i (o_enc_last (i_ops4 i)) (o_enc_last (i_ops1 i)) /\
  lanewise4 i (o_dec_last (i_ops4 i)) (o_dec_last (i_ops1 i)).
Proof.
  intros c i E. destruct (inst_any c i E) as (s & f1 & f2 & f4 & E1 & E2 & S1 & R).
  assert (W2 : forall op2 op1 g, bop_ok g -> lane_ok op2 2 f2 g -> lane_ok op1 1 f1 g -> lanewise2 i op2 op1).
  { intros op2 op1 g Hg L2 L1 x k Hx Hk a b k1 k2 Px Pk. unreach R S1.
    destruct (split2 _ B) as (u & v & Hu & Hv & ->). destruct (split2 _ B0) as (u' & v' & Hu' & Hv' & ->).
    rewrite (R_x2_to_pair _ _ _ _ _ R) in Px, Pk by assumption. injection Px as <- <-. injection Pk as <- <-.
    rewrite (ln2 op2 f2 g) by assumption. rewrite !(ln1 op1 f1 g) by assumption.
    rewrite (R_x2_of_pair _ _ _ _ _ R), (R_x2_to_pair _ _ _ _ _ R) by (apply Hg; assumption). split; reflexivity. }
  assert (W4 : forall op4 op1 g, bop_ok g -> lane_ok op4 4 f4 g -> lane_ok op1 1 f1 g -> lanewise4 i op4 op1).
  { intros op4 op1 g Hg L2 L1 x k Hx Hk p q r t k1 k2 k3 k4 Px Pk. unreach R S1.
    destruct (split4 _ B) as (u & v & w & z & Hu & Hv & Hw & Hz & ->). destruct (split4 _ B0) as (u' & v' & w' & z' & Hu' & Hv' & Hw' & Hz' & ->).
    rewrite (R_x4_to_quad _ _ _ _ _ R) in Px, Pk by assumption. injection Px as <- <- <- <-. injection Pk as <- <- <- <-.
    rewrite (ln4 op4 f4 g) by assumption. rewrite !(ln1 op1 f1 g) by assumption.
    rewrite (R_x4_of_quad _ _ _ _ _ R), (R_x4_to_quad _ _ _ _ _ R) by (apply Hg; assumption). split; reflexivity. }
  refine (conj _ (conj _ (conj _ (conj _ (conj _ (conj _ (conj _ _))))))); (first [eapply W2|eapply W4]; [|apply R|apply R]; apply S1).
Qed.
Print Assumptions C14_wide_rounds_are_lanewise.
Example C14_wide_rounds_are_lanewise_case : forall c k, In c samples -> with_values c k (fun i u =>
  exists a b, x2_to_pair i (u_x2 u) = (a, b) /\ x2_to_pair i (o_enc (i_ops2 i) (u_x2 u) (u_x2 u)) = (o_enc (i_ops1 i) a a, o_enc (i_ops1 i) b b)).
Proof. intros c k H. apply case_any; [exact H|]. intros i u E. destruct (x2_to_pair i (u_x2 u)) as [a b] eqn:X. exists a, b. split; [reflexivity|]. destruct (C14_wide_rounds_are_lanewise c i E) as (A & _). refine (proj2 (A _ _ _ _ a b a b X X)); auto with cases. Qed.

(** ** C28 for the rounds: each is a bijection on the reachable blocks *)
Definition bijective_on {A} (P : A -> Prop) (f : A -> A) : Prop :=
  (forall x, P x -> P (f x)) /\
  (forall x y, P x -> P y -> f x = f y -> x = y) /\
  (forall y, P y -> exists x, P x /\ f x = y).
Theorem C28_rounds_are_permutations : forall c i k,
  impl_of c = Some i -> rv32_zk c = false -> reach1 i k ->
  bijective_on (reach1 i) (fun x => o_enc (i_ops1 i) x k) /\
  bijective_on (reach1 i) (fun x => o_dec (i_ops1 i) x k) /\
  bijective_on (reach1 i) (fun x => o_enc_last (i_ops1 i) x k) /\
  bijective_on (reach1 i) (fun x => o_dec_last (i_ops1 i) x k) /\
  bijective_on (reach1 i) (e_mc (i_ext i)) /\ bijective_on (reach1 i) (e_imc (i_ext i)).
Proof.
  intros c i k E C Hk. destruct (inst c i E C) as (pre & keys & f1 & f2 & f4 & Hpre & K & S1 & R).
  pose proof (R_d1 _ _ _ _ _ R) as D.
  assert (BI : forall (h : T1 i -> T1 i) (g g' : list N -> list N),
     (forall a, is_bytes 16 a -> is_bytes 16 (g a) /\ is_bytes 16 (g' a) /\ g' (g a) = a /\ g (g' a) = a) ->
     (forall a, is_bytes 16 a -> h (f1 a) = f1 (g a)) -> bijective_on (reach1 i) h).
  { intros h g g' Hg Hh. split; [|split].
    - intros x Hx. unreach R S1. rewrite Hh by assumption. apply (img_reach1 _ _ _ _ _ R). now apply Hg.
    - intros x y Hx Hy Eq. unreach R S1. rewrite !Hh in Eq by assumption. apply (f_inj _ 16 _ _ _ D) in Eq; [|now apply Hg|now apply Hg].
      destruct (Hg b B) as (_ & _ & Q1 & _), (Hg b0 B0) as (_ & _ & Q2 & _). congruence.
    - intros y Hy. unreach R S1. destruct (Hg b B) as (_ & Q1 & _ & Q2). exists (f1 (g' b)). split; [now apply (img_reach1 _ _ _ _ _ R)|].
      rewrite Hh by assumption. now rewrite Q2. }
  unreach R S1. rename b into kk, B into Hkk.
  pose proof shift_rows_bytes as Q1. pose proof inv_shift_rows_bytes as Q2. pose proof (sub_bytes_bytes 16) as Q3. pose proof (inv_sub_bytes_bytes 16) as Q4.
  pose proof mix_columns_bytes as Q5. pose proof inv_mix_columns_bytes as Q6. pose proof (xor_bytes 16) as Q7.
  assert (X : forall u v, is_bytes 16 u -> is_bytes 16 v -> map2 N.lxor (map2 N.lxor u v) v = u).
  { intros u v Hu Hv. apply (xor_xor 16); [apply Hu|apply Hv]. }
  split; [|split; [|split; [|split; [|split]]]].
  - apply (BI _ (fun a => spec_enc a kk) (fun a => inv_sub_bytes (inv_shift_rows (inv_mix_columns (map2 N.lxor a kk))))).
    + intros a Ha. unfold spec_enc, add_round_key. split; [auto 9|split; [auto 9|split]].
      * rewrite X, inv_mix_mix by auto 9. now apply undo_enc.
      * rewrite undo_dec, mix_inv_mix, X by auto 9. reflexivity.
    + intros a Ha. apply ln1; try assumption. apply R.
  - apply (BI _ (fun a => spec_dec a kk) (fun a => sub_bytes (shift_rows (mix_columns (map2 N.lxor a kk))))).
    + intros a Ha. unfold spec_dec, add_round_key. split; [auto 9|split; [auto 9|split]].
      * rewrite X, mix_inv_mix by auto 9. now apply undo_dec.
      * rewrite undo_enc, inv_mix_mix, X by auto 9. reflexivity.
    + intros a Ha. apply ln1; try assumption. apply R.
  - apply (BI _ (fun a => spec_enc_last a kk) (fun a => inv_sub_bytes (inv_shift_rows (map2 N.lxor a kk)))).
    + intros a Ha. unfold spec_enc_last, add_round_key. split; [auto 9|split; [auto 9|split]].
      * rewrite X by auto 9. now apply undo_enc.
      * rewrite undo_dec, X by auto 9. reflexivity.
    + intros a Ha. apply ln1; try assumption. apply R.
  - apply (BI _ (fun a => spec_dec_last a kk) (fun a => sub_bytes (shift_rows (map2 N.lxor a kk)))).
    + intros a Ha. unfold spec_dec_last, add_round_key. split; [auto 9|split; [auto 9|split]].
      * rewrite X by auto 9. now apply undo_dec.
      * rewrite undo_enc, X by auto 9. reflexivity.
    + intros a Ha. apply ln1; try assumption. apply R.
  - apply (BI _ mix_columns inv_mix_columns); [|apply R]. intros a Ha. rewrite mix_inv_mix, inv_mix_mix by assumption. auto.
  - apply (BI _ inv_mix_columns mix_columns); [|apply R]. intros a Ha. rewrite mix_inv_mix, inv_mix_mix by assumption. auto.
Qed.
Print Assumptions C28_rounds_are_permutations.
Example C28_rounds_are_permutations_case : forall c k, In c fips_samples -> with_values c k (fun i u =>
  o_enc (i_ops1 i) (u_x u) (u_y u) <> o_enc (i_ops1 i) (u_y u) (u_y u) /\ e_mc (i_ext i) (u_x u) <> e_mc (i_ext i) (u_y u)).
Proof. intros c k H. apply case_fips; [exact H|]. intros i u E C. destruct (C28_rounds_are_permutations c i (u_y u) E C (u_reach_y _ _ u)) as ((_ & A & _) & _ & _ & _ & (_ & B & _) & _). split; intros X; apply (u_differ _ _ u); [apply A|apply B]; auto with cases. Qed.
