(** C39: what designers of other AES-based constructions use: the round key is added last, mc and imc are linear,
    chains of any length are permutations, one changed byte spreads to a column in one round and to the whole block in two. *)
From Coq Require Import Lia Arith.
From Verif Require Import Word Interface Fips197 Spec_Api Spec_Actual Spec_Algebra Spec_Reach Spec_Cfg Spec_User Model_Lib Model_Cfg.
From Verif Require Import Proof_Shape Proof_Word Proof_Fips Proof_Ok Proof_Sem Proof_Lib Proof_Reach Proof_Inst Proof_Cipher Proof_Main Proof_Actual Proof_Algebra Props_Blocks Props_Rounds Props_Actual.
From Verif Require Import Samples.
Open Scope N_scope.

Lemma bij_perm g : bij g -> perm 16 g.
Proof. intros [g' H]. split; [intros a Ha; now apply H|]. exists g'. intros a Ha. destruct (H a Ha) as (_ & A & B & C). auto. Qed.
Lemma bij_inv_shift : bij inv_shift_rows.
Proof. exists shift_rows. intros a Ha. split; [now apply inv_shift_rows_bytes|]. split; [now apply shift_rows_bytes|]. split; [apply shift_inv_shift, Ha|apply inv_shift_shift, Ha]. Qed.
Lemma bij_dec k : is_bytes 16 k -> bij (fun x => spec_dec x k).
Proof. intros Hk. apply (bij_comp (fun x => inv_mix_columns (inv_sub_bytes (inv_shift_rows x))) _ (bij_comp (fun x => inv_sub_bytes (inv_shift_rows x)) _ (bij_comp _ _ bij_inv_shift bij_inv_sub) bij_inv_mix) (bij_ark k Hk)). Qed.
Record algebra (s : sem) : Prop := {
  al_enc : adds_key (s_enc s); al_dec : adds_key (s_dec s); al_enc_last : adds_key (s_enc_last s); al_dec_last : adds_key (s_dec_last s);
  al_mc : linear16 (s_mc s); al_imc : linear16 (s_imc s);
  al_penc : bop_perm (s_enc s); al_pdec : bop_perm (s_dec s); al_pre : forall dec, pre_perm (s_pre1 s dec)
}.
Lemma algebra_inst c i : impl_of c = Some i -> exists s f1 f2 f4, sem_ok s /\ refines i f1 f2 f4 s /\ algebra s /\ s_enc s = spec_enc /\ (rv32_zk c = false -> s_dec s = spec_dec).
Proof.
  intros E. assert (PE : bop_perm spec_enc) by (intros k Hk; now apply bij_perm, bij_enc). assert (PD : bop_perm spec_dec) by (intros k Hk; now apply bij_perm, bij_dec).
  assert (PR : bop_perm rv32_dec) by (intros k Hk; now apply bij_perm, bij_rv32_dec).
  destruct (rv32_zk c) eqn:C.
  - destruct (rv32_inst c i E C) as (f1 & f2 & f4 & R). exists rv32_exact, f1, f2, f4. split; [exact rv32_exact_ok|]. split; [exact R|]. split; [|split; [reflexivity|discriminate]].
    split; cbn [rv32_exact s_enc s_enc_last s_dec s_dec_last s_mc s_imc]; auto using adds_enc, adds_enc_last, adds_rv32_dec, adds_rv32_dec_last.
    1: apply linear_rv32_mc. 1: apply linear_rv32_mc. intros []; cbn; assumption.
  - destruct (inst c i E C) as (pre & keys & f1 & f2 & f4 & Hp & _ & S1 & R). exists (fips_sem pre keys), f1, f2, f4. split; [exact S1|]. split; [exact R|]. split; [|split; reflexivity].
    split; cbn [fips_sem s_enc s_enc_last s_dec s_dec_last s_mc s_imc]; auto using adds_enc, adds_enc_last, adds_dec, adds_dec_last, linear_mix, linear_inv_mix.
    intros dec. destruct Hp as [->| ->]; [exact I|]. unfold s_pre1. cbn [fips_sem s_pre neon_pre pre_perm]. destruct dec; intros k Hk.
    + apply (perm_comp 16 (fun x => map2 N.lxor x k) (fun x => inv_mix_columns (inv_sub_bytes (inv_shift_rows x))) (perm_xor 16 k Hk)). apply bij_perm.
      exact (bij_comp (fun x => inv_sub_bytes (inv_shift_rows x)) _ (bij_comp _ _ bij_inv_shift bij_inv_sub) bij_inv_mix).
    + apply (perm_comp 16 (fun x => map2 N.lxor x k) (fun x => mix_columns (sub_bytes (shift_rows x))) (perm_xor 16 k Hk)). apply bij_perm.
      exact (bij_comp (fun x => sub_bytes (shift_rows x)) _ (bij_comp _ _ bij_shift bij_sub) bij_mix).
Qed.

(** ** x.round(a ^ b) = x.round(a) ^ b, all four rounds, all widths, all builds *)
Definition key_added_last (T : Type) (o : ops T) (n : nat) (reach : T -> Prop) : Prop := forall x a b, reach x -> reach a -> reach b ->
  o_enc o x (o_xor o a b) = o_xor o (o_enc o x a) b /\ o_dec o x (o_xor o a b) = o_xor o (o_dec o x a) b /\
  o_enc_last o x (o_xor o a b) = o_xor o (o_enc_last o x a) b /\ o_dec_last o x (o_xor o a b) = o_xor o (o_dec_last o x a) b.
Theorem C39_key_is_added_last : forall c i, impl_of c = Some i -> for_all_widths i key_added_last.
Proof.
  intros c i E. destruct (algebra_inst c i E) as (s & f1 & f2 & f4 & S1 & R & A & _ & _).
  assert (X : forall T (o : ops T) m f (reach : T -> Prop), data_ok o (16 * m) f -> rounds_ok o m f s -> (forall x, reach x -> img (16 * m) f x) -> key_added_last T o (16 * m) reach).
  { intros T o m f reach D Rd HR x a b Hx Ha Hb. destruct (HR x Hx) as (x' & Bx & ->), (HR a Ha) as (a' & Ba & ->), (HR b Hb) as (b' & Bb & ->).
    rewrite (dk_xor _ _ _ D) by assumption. pose proof (xor_bytes _ _ _ Ba Bb) as Bab.
    assert (Q : forall op g, lane_ok op m f g -> adds_key g -> op (f x') (f (map2 N.lxor a' b')) = o_xor o (op (f x') (f a')) (f b')).
    { intros op g L Ad. rewrite !L by assumption. rewrite (dk_xor _ _ _ D) by (assumption || (apply on_lanes_bytes; [now apply adds_bop|assumption|assumption])). f_equal. now apply adds_lanes. }
    split; [|split; [|split]]; eapply Q; try apply Rd; apply A. }
  split; [|split].
  - apply (X _ _ 1%nat f1); [apply R|apply R|apply (reach1_img _ _ _ _ _ R S1)].
  - apply (X _ _ 2%nat f2); [apply R|apply R|apply (reach2_img _ _ _ _ _ R S1)].
  - apply (X _ _ 4%nat f4); [apply R|apply R|apply (reach4_img _ _ _ _ _ R S1)].
Qed.
Print Assumptions C39_key_is_added_last.
Example C39_key_is_added_last_case : forall c k, In c samples -> with_values c k (fun i u =>
  o_dec (i_ops1 i) (u_x u) (o_xor (i_ops1 i) (u_x u) (u_y u)) = o_xor (i_ops1 i) (o_dec (i_ops1 i) (u_x u) (u_x u)) (u_y u)).
Proof. intros c k H. apply case_any; [exact H|]. intros i u E. destruct (C39_key_is_added_last c i E) as (A & _). apply A; auto with cases. Qed.

(** ** mc and imc are linear, in every build *)
Theorem C39_mc_imc_linear : forall c i x y, impl_of c = Some i -> reach1 i x -> reach1 i y ->
  e_mc (i_ext i) (o_xor (i_ops1 i) x y) = o_xor (i_ops1 i) (e_mc (i_ext i) x) (e_mc (i_ext i) y) /\
  e_imc (i_ext i) (o_xor (i_ops1 i) x y) = o_xor (i_ops1 i) (e_imc (i_ext i) x) (e_imc (i_ext i) y).
Proof.
  intros c i x y E Hx Hy. destruct (algebra_inst c i E) as (s & f1 & f2 & f4 & S1 & R & A & _ & _). unreach R S1. pose proof (R_d1 _ _ _ _ _ R) as D.
  rewrite (dk_xor _ _ _ D) by assumption. match goal with Ha : is_bytes 16 ?a, Hb : is_bytes 16 ?b |- context [map2 N.lxor ?a ?b] => pose proof (xor_bytes 16 a b Ha Hb) end.
  rewrite !(R_mc _ _ _ _ _ R), !(R_imc _ _ _ _ _ R) by assumption. rewrite !(dk_xor _ _ _ D) by (apply S1; assumption).
  split; f_equal; [apply (al_mc s A)|apply (al_imc s A)]; assumption.
Qed.
Print Assumptions C39_mc_imc_linear.
Example C39_mc_imc_linear_case : forall c k, In c samples -> with_values c k (fun i u =>
  e_imc (i_ext i) (o_xor (i_ops1 i) (u_x u) (u_y u)) = o_xor (i_ops1 i) (e_imc (i_ext i) (u_x u)) (e_imc (i_ext i) (u_y u))).
Proof. intros c k H. apply case_any; [exact H|]. intros i u E. apply (C39_mc_imc_linear c i); auto with cases. Qed.

(** ** chain_enc and chain_dec with fixed keys, however many, are permutations of the blocks; every build, every width *)
Definition permutes {T} (reach : T -> Prop) (f : T -> outcome T) : Prop := exists p, bijective_on reach p /\ forall x, reach x -> f x = Ret (p x).
Theorem C39_chains_are_permutations : forall c i, impl_of c = Some i ->
  (forall ks, ks <> [] -> Forall (reach1 i) ks -> permutes (reach1 i) (fun x => chain_enc1 i x ks) /\ permutes (reach1 i) (fun x => chain_dec1 i x ks)) /\
  (forall ks, ks <> [] -> Forall (reach2 i) ks -> permutes (reach2 i) (fun x => chain_enc2 i x ks) /\ permutes (reach2 i) (fun x => chain_dec2 i x ks)) /\
  (forall ks, ks <> [] -> Forall (reach4 i) ks -> permutes (reach4 i) (fun x => chain_enc4 i x ks) /\ permutes (reach4 i) (fun x => chain_dec4 i x ks)).
Proof.
  intros c i E. destruct (algebra_inst c i E) as (s & f1 & f2 & f4 & S1 & R & A & _ & _).
  assert (X : forall T (o : ops T) m f (reach : T -> Prop) chain pre g, data_ok o (16 * m) f -> (forall x, reach x <-> img (16 * m) f x) -> pre_perm pre -> bop_perm g ->
    (forall x keys, is_bytes (16 * m) x -> Forall (is_bytes (16 * m)) keys -> chain (f x) (map f keys) = omap f (s_chain m pre g x keys)) ->
    forall ks, ks <> [] -> Forall reach ks -> permutes reach (fun x => chain x ks)).
  { intros T o m f reach chain pre g D HR Hp Hg Hc ks Hne Hk. assert (Hk' : Forall (img (16 * m) f) ks) by (eapply Forall_impl; [|exact Hk]; apply HR).
    apply Forall_img in Hk' as (l & Fl & ->). assert (Hl : l <> []) by (intros ->; now apply Hne).
    destruct (perm_chain m pre g l Hp Hg Fl Hl) as (F & [PF [G PG]] & EF).
    exists (fun x => match chain x (map f l) with Ret y => y | _ => x end).
    assert (C : forall b, is_bytes (16 * m) b -> chain (f b) (map f l) = Ret (f (F b))) by (intros b B; rewrite Hc by assumption; now rewrite EF).
    split; [split; [|split]|].
    - intros x Hx. apply HR in Hx as (b & B & ->). rewrite C by assumption. apply HR. exists (F b). split; [now apply PF|reflexivity].
    - intros x y Hx Hy Q. apply HR in Hx as (b & B & ->). apply HR in Hy as (d & Bd & ->). rewrite !C in Q by assumption.
      apply (f_inj _ _ _ _ _ D) in Q; [|now apply PF|now apply PF]. destruct (PG b B) as (_ & Q1 & _), (PG d Bd) as (_ & Q2 & _). congruence.
    - intros y Hy. apply HR in Hy as (b & B & ->). destruct (PG b B) as (Q1 & _ & Q2). exists (f (G b)). split; [apply HR; now exists (G b)|]. rewrite C by assumption. now rewrite Q2.
    - intros x Hx. apply HR in Hx as (b & B & ->). now rewrite C. }
  assert (P1 : forall x, reach1 i x <-> img 16 f1 x) by (intros x; split; [apply (reach1_img _ _ _ _ _ R S1)|intros (b & B & ->); now apply (img_reach1 _ _ _ _ _ R)]).
  assert (P2 : forall x, reach2 i x <-> img 32 f2 x) by (intros x; split; [apply (reach2_img _ _ _ _ _ R S1)|intros (b & B & ->); now apply (img_reach2 _ _ _ _ _ R)]).
  assert (P4 : forall x, reach4 i x <-> img 64 f4 x) by (intros x; split; [apply (reach4_img _ _ _ _ _ R S1)|intros (b & B & ->); now apply (img_reach4 _ _ _ _ _ R)]).
  split; [|split]; intros ks Hne Hk; split.
  - apply (X _ (i_ops1 i) 1%nat f1 _ _ (s_pre1 s false) (s_enc s)); auto; try apply A; [apply R|]. apply (chain_enc1_ok _ _ _ _ _ R S1).
  - apply (X _ (i_ops1 i) 1%nat f1 _ _ (s_pre1 s true) (s_dec s)); auto; try apply A; [apply R|]. apply (chain_dec1_ok _ _ _ _ _ R S1).
  - apply (X _ (i_ops2 i) 2%nat f2 _ _ (s_pre1 s false) (s_enc s)); auto; try apply A; [apply R|]. apply (chain_enc2_ok _ _ _ _ _ R S1).
  - apply (X _ (i_ops2 i) 2%nat f2 _ _ (s_pre1 s true) (s_dec s)); auto; try apply A; [apply R|]. apply (chain_dec2_ok _ _ _ _ _ R S1).
  - apply (X _ (i_ops4 i) 4%nat f4 _ _ (s_pre1 s false) (s_enc s)); auto; try apply A; [apply R|]. apply (chain_enc4_ok _ _ _ _ _ R S1).
  - apply (X _ (i_ops4 i) 4%nat f4 _ _ (s_pre1 s true) (s_dec s)); auto; try apply A; [apply R|]. apply (chain_dec4_ok _ _ _ _ _ R S1).
Qed.
Print Assumptions C39_chains_are_permutations.
Example C39_chains_are_permutations_case : forall c k, In c samples -> with_values c k (fun i u =>
  permutes (reach4 i) (fun x => chain_dec4 i x [u_x4 u; u_x4 u; u_x4 u])).
Proof. intros c k H. apply case_any; [exact H|]. intros i u E. destruct (C39_chains_are_permutations c i E) as (_ & _ & A). apply A; [discriminate|]. repeat constructor; auto with cases. Qed.

(** ** Diffusion *)
(** Two blocks that differ in exactly one byte, at position j: after one [enc] with the same key they differ in exactly the
    four bytes of one column, after a second one in all sixteen bytes. *)
Definition diffuses (i : impl) (r : T1 i -> T1 i -> T1 i) (col : nat -> nat) : Prop :=
  forall x y k k2 a b j, reach1 i x -> reach1 i y -> reach1 i k -> reach1 i k2 -> shows (i_ops1 i) x a -> shows (i_ops1 i) y b -> differing 16 a b = [j] ->
  exists a1 b1 a2 b2, shows (i_ops1 i) (r x k) a1 /\ shows (i_ops1 i) (r y k) b1 /\ differing 16 a1 b1 = column (col j) /\
    shows (i_ops1 i) (r (r x k) k2) a2 /\ shows (i_ops1 i) (r (r y k) k2) b2 /\ differing 16 a2 b2 = seq 0 16.
Lemma diffuses_of i f1 f2 f4 s r g col : sem_ok s -> refines i f1 f2 f4 s -> lane_ok r 1 f1 g -> bop_ok g ->
  (forall j a b k k2, is_bytes 16 a -> is_bytes 16 b -> is_bytes 16 k -> is_bytes 16 k2 -> differing 16 a b = [j] ->
    differing 16 (g a k) (g b k) = column (col j) /\ differing 16 (g (g a k) k2) (g (g b k) k2) = seq 0 16) -> diffuses i r col.
Proof.
  intros S1 R L G H x y k k2 a b j Hx Hy Hk Hk2 Sx Sy Hd. pose proof (R_d1 _ _ _ _ _ R) as D.
  pose proof (reach1_img _ _ _ _ _ R S1) as P. apply P in Hx as (a' & Ba & ->), Hy as (b' & Bb & ->), Hk as (k' & Bk & ->), Hk2 as (q & Bq & ->).
  assert (T : forall u, is_bytes 16 u -> to_bytes (i_ops1 i) (f1 u) = Ret u) by (intros u Hu; now apply (to_bytes_ok (i_ops1 i) 16)).
  unfold shows in *. rewrite T in Sx, Sy by assumption. injection Sx as ->. injection Sy as ->.
  pose proof (fun u v Hu Hv => ln1 r f1 g u v L Hu Hv) as L1. rewrite !L1 by (try apply G; assumption).
  destruct (H j a b k' q Ba Bb Bk Bq Hd) as [Q1 Q2].
  exists (g a k'), (g b k'), (g (g a k') q), (g (g b k') q). rewrite !T by (repeat apply G; assumption). auto 10.
Qed.
Theorem C39_enc_diffusion : forall c i, impl_of c = Some i -> diffuses i (o_enc (i_ops1 i)) (fun j => (j / 4 + 4 - j mod 4) mod 4)%nat.
Proof.
  intros c i E. destruct (algebra_inst c i E) as (s & f1 & f2 & f4 & S1 & R & A & Ee & _).
  apply (diffuses_of i f1 f2 f4 s _ spec_enc _ S1 R); [rewrite <- Ee; apply (R_r1 _ _ _ _ _ R)|exact spec_enc_bop|].
  apply (one_byte_rounds spec_enc _ spec_enc_bop); [intros j _; now apply Nat.mod_upper_bound|exact enc_one_byte|exact enc_column].
Qed.
Print Assumptions C39_enc_diffusion.
(** The same for [dec], in every build but RV32's. *)
Theorem C39_dec_diffusion : forall c i, impl_of c = Some i -> rv32_zk c = false -> diffuses i (o_dec (i_ops1 i)) (fun j => (j / 4 + j mod 4) mod 4)%nat.
Proof.
  intros c i E C. destruct (algebra_inst c i E) as (s & f1 & f2 & f4 & S1 & R & A & _ & Ed). specialize (Ed C).
  apply (diffuses_of i f1 f2 f4 s _ spec_dec _ S1 R); [rewrite <- Ed; apply (R_r1 _ _ _ _ _ R)|exact spec_dec_bop|].
  apply (one_byte_rounds spec_dec _ spec_dec_bop); [intros j _; now apply Nat.mod_upper_bound|exact dec_one_byte|exact dec_column].
Qed.
Print Assumptions C39_dec_diffusion.
(** Blocks that differ in byte 9 only. *)
Example C39_diffusion_case : differing 16 fips_block (firstn 9 fips_block ++ [1] ++ skipn 10 fips_block) = [9%nat] /\
  forall c, In c samples -> exists i, impl_of c = Some i /\ diffuses i (o_enc (i_ops1 i)) (fun j => (j / 4 + 4 - j mod 4) mod 4)%nat /\
  exists x y, reach1 i x /\ reach1 i y /\ shows (i_ops1 i) x fips_block /\ shows (i_ops1 i) y (firstn 9 fips_block ++ [1] ++ skipn 10 fips_block).
Proof.
  split; [vm_compute; reflexivity|]. intros c H. destruct (sample_impl c H) as [i E]. exists i. split; [exact E|]. split; [now apply (C39_enc_diffusion c)|].
  destruct (C15_byte_conversions_lossless c i E) as ((_ & A & _) & _). assert (B : is_bytes 16 (firstn 9 fips_block ++ [1] ++ skipn 10 fips_block)) by (vm_compute; repeat constructor).
  destruct (A _ fips_block_ok) as (x & X1 & _ & _ & _ & X2). destruct (A _ B) as (y & Y1 & _ & _ & _ & Y2). now exists x, y.
Qed.
