(** C26: the public API never panics and never leaves its slices, in any configuration (RV32 included). *)
From Coq Require Import Lia Arith.
From Verif Require Import Word Interface Fips197 Spec_Api Spec_Reach Spec_Cfg Spec_User Model_Lib Model_Cfg Tables Model_Table.
From Verif Require Import Proof_Word Proof_Fips Proof_Ok Proof_Sem Proof_Lib Proof_Reach Proof_Inst Proof_Cipher Proof_Main Props_Blocks.
From Verif Require Import Samples.
Open Scope N_scope.

(** The call returns (no panic, no access outside its slice), and the value it returns is again a
    value of the API. *)
Definition returns {A} (r : outcome A) (P : A -> Prop) : Prop := exists a, r = Ret a /\ P a.
Definition in_bytes (n : nat) : list N -> Prop := is_bytes n.

Definition block_calls_return (T : Type) (o : ops T) (n : nat) (reach : T -> Prop) : Prop :=
  (forall b, is_bytes n b -> returns (o_new o b) reach /\ returns (o_from o b) reach /\ returns (from_ref o b) reach) /\
  (forall dbg slice, Forall (fun b => b < 256) slice ->
     returns (try_from o dbg slice) (fun r => match r with Ok x => reach x | Err m => m = length slice end)) /\
  (forall x, reach x -> returns (to_bytes o x) (in_bytes n)) /\
  (* store_to: returns on every long enough destination, otherwise a panic - never an out-of-bounds write *)
  (forall x dst, reach x -> if Nat.ltb (length dst) n then fst (o_store o x dst) = Panic else fst (o_store o x dst) = Ret tt).

Theorem C26_block_calls_return : forall c i, impl_of c = Some i -> for_all_widths i block_calls_return.
Proof.
  intros c i E. apply (by_width c i _ E). intros T o n f reach D HR.
  assert (HI : forall b, is_bytes n b -> reach (f b)) by (intros b B; apply HR; now exists b).
  split; [|split; [|split]].
  - intros b B. split; [|split]; exists (f b); (split; [now apply D|now apply HI]).
  - intros dbg sl F. unfold try_from, try_from_slice. rewrite (dk_size _ _ _ D). destruct (Nat.leb_spec n (length sl)) as [L|L].
    + assert (B : is_bytes n (firstn n sl)) by (split; [rewrite firstn_length; lia|now apply Forall_firstn']).
      exists (Ok (f (firstn n sl))). split; [|now apply HI].
      unfold array_from_slice, raw_read. cbn [Nat.add skipn]. rewrite (proj2 (Nat.leb_le _ _) L). cbn [negb andb]. rewrite andb_false_r. cbn [bind].
      now rewrite (dk_from _ _ _ D) by assumption.
    + exists (Err (length sl)). split; reflexivity.
  - intros x Hx. unimg HR. exists b. split; [now apply (to_bytes_ok o n)|exact B].
  - intros x dst Hx. unimg HR. rewrite (dk_store _ _ _ D) by assumption. rewrite Nat.ltb_antisym. now destruct (Nat.leb n (length dst)).
Qed.
Print Assumptions C26_block_calls_return.
Example C26_block_calls_return_case : forall c k, In c samples -> with_values c k (fun i u =>
  returns (o_new (i_ops2 i) (fips_block ++ other_block)) (reach2 i)).
Proof. intros c k H. apply case_any; [exact H|]. intros i u E. destruct (C26_block_calls_return c i E) as (_ & (A & _) & _). apply A. vm_compute; repeat constructor. Qed.

Theorem C26_u128_calls_return : forall c i, impl_of c = Some i ->
  (forall v, v < 2 ^ 128 -> returns (of_u128 (i_ops1 i) v) (reach1 i)) /\
  (forall x, reach1 i x -> returns (to_u128 (i_ops1 i) x) (fun v => v < 2 ^ 128)).
Proof.
  intros c i E. destruct (C18_u128_conversions c i E) as [H1 H2]. split.
  - intros v Hv. destruct (H1 v Hv) as (x & Hx & Ex & _). now exists x.
  - intros x Hx. destruct (H2 x Hx) as (v & Hv & Ev & _). now exists v.
Qed.
Print Assumptions C26_u128_calls_return.
Example C26_u128_calls_return_case : forall c k, In c samples -> with_values c k (fun i u =>
  returns (of_u128 (i_ops1 i) (2 ^ 127 + 1)) (reach1 i)).
Proof. intros c k H. apply case_any; [exact H|]. intros i u E. apply (C26_u128_calls_return c i E). reflexivity. Qed.

(** Key set-up, conversions between the key objects, encryption and decryption. *)
Theorem C26_cipher_calls_return : forall c i k, impl_of c = Some i ->
  (forall key, is_bytes (key_len k) key -> returns (enc_new i k key) (reachE i k) /\ returns (dec_new i k key) (reachD i k)) /\
  (forall e, reachE i k e -> returns (decrypter i k e) (reachD i k)) /\
  (forall d, reachD i k d -> returns (encrypter i k d) (reachE i k)) /\
  (forall e x, reachE i k e -> reach1 i x -> returns (encrypt_block i k e x) (reach1 i)) /\
  (forall e x, reachE i k e -> reach2 i x -> returns (encrypt_2_blocks i k e x) (reach2 i)) /\
  (forall e x, reachE i k e -> reach4 i x -> returns (encrypt_4_blocks i k e x) (reach4 i)) /\
  (forall d x, reachD i k d -> reach1 i x -> returns (decrypt_block i k d x) (reach1 i)) /\
  (forall d x, reachD i k d -> reach2 i x -> returns (decrypt_2_blocks i k d x) (reach2 i)) /\
  (forall d x, reachD i k d -> reach4 i x -> returns (decrypt_4_blocks i k d x) (reach4 i)).
Proof.
  intros c i k E. destruct (inst_any c i E) as (s & f1 & f2 & f4 & _ & _ & S1 & R). pose proof (reach_closed i) as A.
  assert (X : forall T (r : outcome T) (P : T -> Prop), (exists a, r = Ret a) -> (forall b, r = Ret b -> P b) -> returns r P) by (intros T r P [a Ha] HP; exists a; auto).
  refine (conj _ (conj _ (conj _ (conj _ (conj _ (conj _ (conj _ (conj _ _)))))))).
  - intros key Hk. split; eapply X.
    + eexists; now apply (enc_new_ok _ _ _ _ _ R).
    + intros e. now apply (ac_enc_new _ _ _ _ _ _ A).
    + eexists; now apply (dec_new_ok _ _ _ _ _ R S1).
    + intros e. now apply (ac_dec_new _ _ _ _ _ _ A).
  - intros e He. eapply X; [|intros d; now apply (ac_decrypter _ _ _ _ _ _ A)]. unreach R S1. eexists. now apply (decrypter_ok _ _ _ _ _ R).
  - intros e He. eapply X; [|intros d; now apply (ac_encrypter _ _ _ _ _ _ A)]. unreach R S1. eexists. now apply (encrypter_ok _ _ _ _ _ R).
  - intros e x He Hx. eapply X; [|intros y; now apply (ac_encrypt_1 _ _ _ _ _ _ A)]. unreach R S1. eexists. now apply (encrypt_block_ok _ _ _ _ _ R S1).
  - intros e x He Hx. eapply X; [|intros y; now apply (ac_encrypt_2 _ _ _ _ _ _ A)]. unreach R S1. eexists. now apply (encrypt_2_ok _ _ _ _ _ R S1).
  - intros e x He Hx. eapply X; [|intros y; now apply (ac_encrypt_4 _ _ _ _ _ _ A)]. unreach R S1. eexists. now apply (encrypt_4_ok _ _ _ _ _ R S1).
  - intros e x He Hx. eapply X; [|intros y; now apply (ac_decrypt_1 _ _ _ _ _ _ A)]. unreach R S1. eexists. now apply (decrypt_block_ok _ _ _ _ _ R S1).
  - intros e x He Hx. eapply X; [|intros y; now apply (ac_decrypt_2 _ _ _ _ _ _ A)]. unreach R S1. eexists. now apply (decrypt_2_ok _ _ _ _ _ R S1).
  - intros e x He Hx. eapply X; [|intros y; now apply (ac_decrypt_4 _ _ _ _ _ _ A)]. unreach R S1. eexists. now apply (decrypt_4_ok _ _ _ _ _ R S1).
Qed.
Print Assumptions C26_cipher_calls_return.
Example C26_cipher_calls_return_case : forall c k, In c samples -> with_values c k (fun i u =>
  returns (encrypt_4_blocks i k (u_enc u) (u_x4 u)) (reach4 i) /\ returns (decrypt_2_blocks i k (u_dec u) (u_x2 u)) (reach2 i)).
Proof. intros c k H. apply case_any; [exact H|]. intros i u E. destruct (C26_cipher_calls_return c i k E) as (_ & _ & _ & _ & _ & A & _ & B & _). split; [apply A|apply B]; auto with cases. Qed.

(** chain_enc / chain_dec: return on every non-empty slice of keys. *)
Lemma s_chain_ret m pre g x keys : keys <> [] -> exists y, s_chain m pre g x keys = Ret y.
Proof. intros H. destruct keys as [|k r]; [congruence|]. unfold s_chain. destruct pre; eexists; reflexivity. Qed.
Theorem C26_chain_calls_return : forall c i, impl_of c = Some i ->
  (forall x ks, ks <> [] -> reach1 i x -> Forall (reach1 i) ks -> returns (chain_enc1 i x ks) (reach1 i) /\ returns (chain_dec1 i x ks) (reach1 i)) /\
  (forall x ks, ks <> [] -> reach2 i x -> Forall (reach2 i) ks -> returns (chain_enc2 i x ks) (reach2 i) /\ returns (chain_dec2 i x ks) (reach2 i)) /\
  (forall x ks, ks <> [] -> reach4 i x -> Forall (reach4 i) ks -> returns (chain_enc4 i x ks) (reach4 i) /\ returns (chain_dec4 i x ks) (reach4 i)).
Proof.
  intros c i E. destruct (inst_any c i E) as (s & f1 & f2 & f4 & _ & _ & S1 & R). pose proof (reach_closed i) as A.
  assert (X : forall T (r : outcome T) (P : T -> Prop), (exists f q, r = omap f q /\ (exists y : list N, q = Ret y)) -> (forall b, r = Ret b -> P b) -> returns r P).
  { intros T r P (f & q & Hr & y & ->) HP. exists (f y). split; [exact Hr|]. apply HP. exact Hr. }
  assert (NE : forall T (f : list N -> T) l, map f l <> [] -> l <> []) by (intros T f [|]; [intros H; now elim H|discriminate]).
  split; [|split]; intros x ks Hne Hx Hk.
  - assert (Hk' : Forall (img 16 f1) ks) by (eapply Forall_impl; [|exact Hk]; apply (reach1_img _ _ _ _ _ R S1)).
    split; eapply X; try (intros y; (now apply (ac_chain_enc1 _ _ _ _ _ _ A)) || (now apply (ac_chain_dec1 _ _ _ _ _ _ A)));
      apply Forall_img in Hk' as (l & Fl & ->); unreach R S1;
      do 2 eexists; (split; [first [now apply (chain_enc1_ok _ _ _ _ _ R S1) | now apply (chain_dec1_ok _ _ _ _ _ R S1)] | apply s_chain_ret; eapply NE; eassumption]).
  - assert (Hk' : Forall (img 32 f2) ks) by (eapply Forall_impl; [|exact Hk]; apply (reach2_img _ _ _ _ _ R S1)).
    split; eapply X; try (intros y; (now apply (ac_chain_enc2 _ _ _ _ _ _ A)) || (now apply (ac_chain_dec2 _ _ _ _ _ _ A)));
      apply Forall_img in Hk' as (l & Fl & ->); unreach R S1;
      do 2 eexists; (split; [first [now apply (chain_enc2_ok _ _ _ _ _ R S1) | now apply (chain_dec2_ok _ _ _ _ _ R S1)] | apply s_chain_ret; eapply NE; eassumption]).
  - assert (Hk' : Forall (img 64 f4) ks) by (eapply Forall_impl; [|exact Hk]; apply (reach4_img _ _ _ _ _ R S1)).
    split; eapply X; try (intros y; (now apply (ac_chain_enc4 _ _ _ _ _ _ A)) || (now apply (ac_chain_dec4 _ _ _ _ _ _ A)));
      apply Forall_img in Hk' as (l & Fl & ->); unreach R S1;
      do 2 eexists; (split; [first [now apply (chain_enc4_ok _ _ _ _ _ R S1) | now apply (chain_dec4_ok _ _ _ _ _ R S1)] | apply s_chain_ret; eapply NE; eassumption]).
Qed.
Print Assumptions C26_chain_calls_return.
Example C26_chain_calls_return_case : forall c k, In c samples -> with_values c k (fun i u =>
  returns (chain_enc1 i (u_x u) [u_y u; u_x u]) (reach1 i)).
Proof. intros c k H. apply case_any; [exact H|]. intros i u E. destruct (C26_chain_calls_return c i E) as (A & _). apply A; auto with cases. discriminate. Qed.

(** The lookups of the table backend, which the model writes as total functions: the ten tables have
    256 entries and the index is always below 256. *)
Theorem C26_table_index_in_range : forall t x,
  In t [TE0; TE1; TE2; TE3; TE4; TD0; TD1; TD2; TD3; TD4] ->
  length t = 256%nat /\ (N.to_nat (as_u8 x) < length t)%nat /\ get t (N.to_nat (as_u8 x)) = Ret (lut t x).
Proof.
  intros t x H. assert (L : length t = 256%nat) by (cbn [In] in H; intuition (subst; reflexivity)).
  assert (B : (N.to_nat (as_u8 x) < length t)%nat).
  { rewrite L. assert (as_u8 x < 256) by (exact (trunc_lt 8 x)). lia. }
  split; [assumption|]. split; [assumption|]. unfold get, lut. now rewrite (nth_error_nth' t 0 B).
Qed.
Print Assumptions C26_table_index_in_range.
Example C26_table_index_case : get TE4 (N.to_nat (as_u8 0xdeadbeef)) = Ret (lut TE4 0xdeadbeef).
Proof. apply C26_table_index_in_range. cbn. tauto. Qed.
