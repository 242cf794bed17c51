(** From "every configuration refines a byte-level semantics" to facts about reachable values. *)
From Coq Require Import Lia Arith.
From Verif Require Import Word Interface Fips197 Spec_Api Spec_Reach Spec_Cfg Spec_User Model_Lib Model_Cfg.
From Verif Require Import Proof_Word Proof_Fips Proof_Ok Proof_Sem Proof_Lib Proof_Reach Proof_Inst Proof_Cipher.
Open Scope N_scope.

(** ** Choice of a representation *)
Lemma inst c i : impl_of c = Some i -> rv32_zk c = false ->
  exists pre keys f1 f2 f4, pre_fips pre /\ (conforming c = true -> keys = round_keys) /\
    sem_ok (fips_sem pre keys) /\ refines i f1 f2 f4 (fips_sem pre keys).
Proof.
  intros E H. destruct (impl_refines c i E) as [(pre & keys & _ & P & K & S1 & f1 & f2 & f4 & R)|[H' _]]; [|congruence].
  now exists pre, keys, f1, f2, f4.
Qed.
Lemma inst_any c i : impl_of c = Some i ->
  exists s f1 f2 f4, s_enc s = spec_enc /\ s_enc_last s = spec_enc_last /\ sem_ok s /\ refines i f1 f2 f4 s.
Proof.
  intros E. destruct (impl_refines c i E) as [(pre & keys & _ & P & K & S1 & f1 & f2 & f4 & R)|[H' (S1 & f1 & f2 & f4 & R)]].
  - now exists (fips_sem pre keys), f1, f2, f4.
  - now exists rv32_sem, f1, f2, f4.
Qed.
Lemma conforming_rv c : conforming c = true -> rv32_zk c = false.
Proof. unfold conforming. destruct (rv32_zk c); [discriminate|reflexivity]. Qed.

(** ** Bytes of values *)
Lemma to_bytes_ok {T} (o : ops T) n f b : data_ok o n f -> is_bytes n b -> to_bytes o (f b) = Ret b.
Proof.
  intros D H. unfold to_bytes. rewrite (dk_store _ _ _ D), (dk_size _ _ _ D), repeat_length, Nat.leb_refl by assumption.
  rewrite skipn_all2 by (rewrite repeat_length; lia). now rewrite app_nil_r.
Qed.
Lemma f_inj {T} (o : ops T) n f a b : data_ok o n f -> is_bytes n a -> is_bytes n b -> f a = f b -> a = b.
Proof. intros D Ha Hb E. pose proof (to_bytes_ok o n f a D Ha) as X. rewrite E, (to_bytes_ok o n f b D Hb) in X. now injection X. Qed.
Lemma shows_f {T} (o : ops T) n f b c : data_ok o n f -> is_bytes n b -> (shows o (f b) c <-> c = b).
Proof. intros D H. unfold shows. rewrite (to_bytes_ok o n f b D H). split; [now intros [=]|now intros ->]. Qed.

(** [reach1 i x] becomes [x = f1 b] with [is_bytes 16 b], etc. *)
Ltac unreach R S :=
  repeat match goal with
  | H : reach1 _ ?x |- _ => apply (reach1_img _ _ _ _ _ R S) in H; let b := fresh "b" in let B := fresh "B" in destruct H as (b & B & ->)
  | H : reach2 _ ?x |- _ => apply (reach2_img _ _ _ _ _ R S) in H; let b := fresh "b" in let B := fresh "B" in destruct H as (b & B & ->)
  | H : reach4 _ ?x |- _ => apply (reach4_img _ _ _ _ _ R S) in H; let b := fresh "b" in let B := fresh "B" in destruct H as (b & B & ->)
  | H : reachE _ _ ?x |- _ => apply (reachE_img _ _ _ _ _ R S) in H; let r := fresh "rks" in let G := fresh "G" in destruct H as (r & G & ->)
  | H : reachD _ _ ?x |- _ => apply (reachD_img _ _ _ _ _ R S) in H; let r := fresh "rks" in let G := fresh "G" in destruct H as (r & G & ->)
  end.
Ltac unshow D :=
  repeat match goal with
  | H : shows _ (_ ?b) _, B : is_bytes _ ?b |- _ => apply (proj1 (shows_f _ _ _ _ _ D B)) in H; subst
  end.

(** The three block types of any configuration, with the values a program can hold. *)
Definition width_ok {T} (o : ops T) (n : nat) (reach : T -> Prop) : Prop :=
  exists f, data_ok o n f /\ forall x, reach x <-> img n f x.
Lemma widths c i : impl_of c = Some i ->
  width_ok (i_ops1 i) 16 (reach1 i) /\ width_ok (i_ops2 i) 32 (reach2 i) /\ width_ok (i_ops4 i) 64 (reach4 i).
Proof.
  intros E. destruct (inst_any c i E) as (s & f1 & f2 & f4 & _ & _ & S1 & R). split; [|split].
  - exists f1. split; [apply R|]. intros x. split; [apply (reach1_img _ _ _ _ _ R S1)|]. intros (b & B & ->). now apply (img_reach1 _ _ _ _ _ R).
  - exists f2. split; [apply R|]. intros x. split; [apply (reach2_img _ _ _ _ _ R S1)|]. intros (b & B & ->). now apply (img_reach2 _ _ _ _ _ R).
  - exists f4. split; [apply R|]. intros x. split; [apply (reach4_img _ _ _ _ _ R S1)|]. intros (b & B & ->). now apply (img_reach4 _ _ _ _ _ R).
Qed.
