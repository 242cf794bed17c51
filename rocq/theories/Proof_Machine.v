(** What a user's program relies on (for C59): blocks that are bytes and, for each key, a function and its inverse. *)
From Coq Require Import Lia Arith ZifyN ZifyNat.
From Verif Require Import Word Interface Fips197 Spec_Api Spec_Reach Spec_Cfg Spec_User Spec_Modes Spec_Modes2 Model_Lib Model_Cfg.
From Verif Require Import Proof_Shape Proof_Word Proof_Fips Proof_Ok Proof_Sem Proof_Lib Proof_Reach Proof_Inst Proof_Cipher Proof_Main.
From Verif Require Import Samples Props_Batch Props_Cipher Props_Modes.
Open Scope N_scope.

(** ** What a build gives its user: blocks that are bytes, and for each key a function [f] and a function [g]. *)
Record embeds (i : impl) (f1 : list N -> T1 i) (f4 : list N -> T4 i) : Prop := {
  em1 : data_ok (i_ops1 i) 16 f1;
  em4 : data_ok (i_ops4 i) 64 f4;
  emq : forall a b c d, is_bytes 16 a -> is_bytes 16 b -> is_bytes 16 c -> is_bytes 16 d -> x4_of_quad i (f1 a, f1 b, f1 c, f1 d) = f4 (a ++ b ++ c ++ d)
}.
Definition runs (i : impl) (f1 : list N -> T1 i) (f4 : list N -> T4 i) (run1 : T1 i -> outcome (T1 i)) (run4 : T4 i -> outcome (T4 i)) (f : list N -> list N) : Prop :=
  (forall x, is_bytes 16 x -> is_bytes 16 (f x)) /\
  (forall x, is_bytes 16 x -> run1 (f1 x) = Ret (f1 (f x))) /\
  (forall x, is_bytes 64 x -> run4 (f4 x) = Ret (f4 (concat (map f (lanes 4 x))))).
Definition keyed (i : impl) f1 f4 (k : key_size) (key : list N) (f g : list N -> list N) : Prop :=
  exists e d, enc_new i k key = Ret e /\ dec_new i k key = Ret d /\
    runs i f1 f4 (encrypt_block i k e) (encrypt_4_blocks i k e) f /\ runs i f1 f4 (decrypt_block i k d) (decrypt_4_blocks i k d) g.
Definition inverse (f g : list N -> list N) : Prop := forall x, is_bytes 16 x -> g (f x) = x /\ f (g x) = x.
Lemma refines_embeds i f1 f2 f4 s : refines i f1 f2 f4 s -> embeds i f1 f4.
Proof. intros R. split; [apply R|apply R|]. intros. now rewrite (R_x4_of_quad _ _ _ _ _ R). Qed.
Lemma keyed_sem i f1 f2 f4 s k key : refines i f1 f2 f4 s -> sem_ok s -> is_bytes (key_len k) key ->
  keyed i f1 f4 k key (b_encrypt s k (s_keys s k key)) (b_decrypt s k (b_swap (s_imc s) (s_keys s k key))).
Proof.
  intros R S1 Hk. pose proof (keys_good s S1 k key Hk) as G.
  assert (G' : good_keys k (b_swap (s_imc s) (s_keys s k key))) by (apply b_swap_good; [apply S1|exact G]).
  exists (EncObj (map f1 (s_keys s k key))), (DecObj (map f1 (b_swap (s_imc s) (s_keys s k key)))).
  split; [now apply (enc_new_ok _ _ _ _ _ R)|]. split; [now apply (dec_new_ok _ _ _ _ _ R S1)|]. split; (split; [|split]); intros x Hx.
  - apply b_run_bytes; [apply S1|apply S1|apply (s_pre1_ok s S1 false)|assumption|assumption].
  - now apply (encrypt_block_ok _ _ _ _ _ R S1).
  - now apply (encrypt_4_ok _ _ _ _ _ R S1).
  - apply b_run_bytes; [apply S1|apply S1|apply (s_pre1_ok s S1 true)|assumption|assumption].
  - now apply (decrypt_block_ok _ _ _ _ _ R S1).
  - now apply (decrypt_4_ok _ _ _ _ _ R S1).
Qed.
Lemma runs_ext i f1 f4 r1 r4 f g : (forall x, is_bytes 16 x -> f x = g x) -> runs i f1 f4 r1 r4 f -> runs i f1 f4 r1 r4 g.
Proof.
  intros H (A & B & C). split; [|split].
  - intros x Hx. rewrite <- H by assumption. now apply A.
  - intros x Hx. rewrite <- H by assumption. now apply B.
  - intros x Hx. rewrite C by assumption. f_equal. f_equal. f_equal. apply map_ext_in. intros y Hy. apply H.
    pose proof (lanes_bytes 4 x Hx) as F. rewrite Forall_forall in F. now apply F.
Qed.
Lemma conforming_machine c i : impl_of c = Some i -> conforming c = true ->
  exists f1 f4, embeds i f1 f4 /\ forall k key, is_bytes (key_len k) key -> keyed i f1 f4 k key (aes_encrypt k key) (aes_decrypt k key).
Proof.
  intros E C. destruct (inst c i E (conforming_rv c C)) as (pre & keys & f1 & f2 & f4 & Hpre & K & S1 & R). rewrite (K C) in *.
  exists f1, f4. split; [now apply (refines_embeds i f1 f2 f4 (fips_sem pre round_keys))|]. intros k key Hk. destruct (keyed_sem _ _ _ _ _ k key R S1 Hk) as (e & d & E1 & E2 & R1 & R2).
  exists e, d. split; [exact E1|]. split; [exact E2|]. split.
  - revert R1. apply runs_ext. intros x Hx. now apply b_encrypt_fips.
  - revert R2. apply runs_ext. intros x Hx. now apply b_decrypt_fips.
Qed.
Lemma fips_machine c i : impl_of c = Some i -> rv32_zk c = false ->
  exists f1 f4, embeds i f1 f4 /\ forall k key, is_bytes (key_len k) key -> exists f g, keyed i f1 f4 k key f g /\ inverse f g.
Proof.
  intros E C. destruct (inst c i E C) as (pre & keys & f1 & f2 & f4 & Hpre & K & S1 & R).
  exists f1, f4. split; [now apply (refines_embeds i f1 f2 f4 (fips_sem pre keys))|]. intros k key Hk. pose proof (keys_good _ S1 k key Hk) as G.
  eexists. eexists. split; [now apply (keyed_sem i f1 f2 f4 (fips_sem pre keys))|]. intros x Hx. cbn [fips_sem s_imc s_keys]. split.
  - now apply (rt_enc pre keys Hpre S1 k (keys k key) x).
  - now apply (rt_dec pre keys Hpre S1 k (keys k key) x).
Qed.
