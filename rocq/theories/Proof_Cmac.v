(** CMAC on top of the crate (for C59). *)
From Coq Require Import Lia Arith ZifyN ZifyNat.
From Verif Require Import Word Interface Fips197 Spec_Api Spec_Cfg Spec_User Spec_Modes2 Model_Lib.
From Verif Require Import Proof_Shape Proof_Word Proof_Fips Proof_Ok Proof_Sem Proof_Lib Proof_Inst Proof_Main Samples Props_Batch Props_Modes Proof_Machine.
Open Scope N_scope.

Lemma u128_double_spec v : v < 2 ^ 128 -> u128_double v = (if v <? 2 ^ 127 then 2 * v else N.lxor ((2 * v) mod 2 ^ 128) 0x87) /\ u128_double v < 2 ^ 128.
Proof.
  intros H. unfold u128_double, u128_shl. change (2 ^ 1) with 2. rewrite (N.mul_comm v 2). destruct (N.ltb_spec v (2 ^ 127)) as [L|L].
  - rewrite (N.div_small v (2 ^ 127)) by exact L. change (0x87 * 0) with 0. rewrite N.lxor_0_r. assert (2 * v < 2 ^ 128) by (change (2 ^ 128) with (2 * 2 ^ 127); lia). rewrite N.mod_small by assumption. now split.
  - replace (v / 2 ^ 127) with 1. 2:{ apply (N.div_unique v (2 ^ 127) 1 (v - 2 ^ 127)); [change (2 ^ 128) with (2 * 2 ^ 127) in H; lia|lia]. }
    change (0x87 * 1) with 0x87. split; [reflexivity|]. pose proof (N.mod_lt (2 * v) (2 ^ 128)) as M. specialize (M ltac:(discriminate)).
    set (w := (2 * v) mod 2 ^ 128) in *. destruct (N.eq_dec (N.lxor w 135) 0) as [->|NZ]; [reflexivity|]. apply N.log2_lt_pow2; [lia|].
    eapply N.le_lt_trans; [apply N.log2_lxor|]. apply N.max_lub_lt; [|reflexivity]. destruct (N.eq_dec w 0) as [->|]; [reflexivity|]. apply N.log2_lt_pow2; [lia|exact M].
Qed.
Lemma of_be_128 b : is_bytes 16 b -> of_be b < 2 ^ 128.
Proof. intros [L F]. unfold of_be. rewrite <- rev_length in L. change (2 ^ 128) with (2 ^ (8 * N.of_nat 16)). rewrite <- L. apply of_le_lt. now apply Forall_rev. Qed.
Lemma doubled_ok b : is_bytes 16 b -> to_be 16 (u128_double (of_be b)) = doubled b.
Proof. intros B. unfold doubled. cbv zeta. now destruct (u128_double_spec (of_be b) (of_be_128 b B)) as [-> _]. Qed.
Lemma doubled_twice b : is_bytes 16 b -> to_be 16 (u128_double (u128_double (of_be b))) = doubled (doubled b).
Proof.
  intros B. rewrite <- (doubled_ok b B). rewrite <- doubled_ok by apply to_be_bytes. f_equal. f_equal. symmetry. apply of_be_to_be.
  apply (proj2 (u128_double_spec (of_be b) (of_be_128 b B))).
Qed.
Lemma to_u128_ok {T} (o : ops T) f b : data_ok o 16 f -> is_bytes 16 b -> to_u128 o (f b) = Ret (of_be b).
Proof. intros D B. unfold to_u128. now rewrite (to_bytes_ok _ 16) by assumption. Qed.

Lemma blocks_before (m : list N) : (Nat.div (length m - 1) 16 = Nat.max 1 (Nat.div (length m + 15) 16) - 1)%nat.
Proof. generalize (length m) as n. intros [|n]; [reflexivity|]. replace (S n + 15)%nat with (n + 1 * 16)%nat by lia. rewrite Nat.div_add by discriminate. replace (S n - 1)%nat with n by lia. lia. Qed.
Lemma bytes_skipn n (l : list N) : bytes_ok l -> bytes_ok (skipn n l).
Proof. intros F. unfold bytes_ok in *. rewrite Forall_forall in *. intros x Hx. apply F. rewrite <- (firstn_skipn n l). apply in_or_app. now right. Qed.
Lemma bytes_firstn n (l : list N) : bytes_ok l -> bytes_ok (firstn n l).
Proof. intros F. now apply Forall_firstn'. Qed.
Lemma bytes_repeat n v : v < 256 -> bytes_ok (repeat v n).
Proof. intros V. apply Forall_forall. intros x Hx. apply repeat_spec in Hx. now subst. Qed.
Lemma xorb_bytes n a b : is_bytes n a -> is_bytes n b -> is_bytes n (xorb a b).
Proof. apply xor_bytes. Qed.

Section Cmac.
  Context (i : impl) (f1 : list N -> T1 i) (f4 : list N -> T4 i) (E : embeds i f1 f4) (k : key_size) (key : list N) (f g : list N -> list N) (K : keyed i f1 f4 k key f g).
  Lemma cbc_mac_ok dbg e : runs i f1 f4 (encrypt_block i k e) (encrypt_4_blocks i k e) f -> forall bs c, is_bytes 16 c -> Forall (is_bytes 16) bs ->
    cbc_mac i k dbg e (f1 c) bs = Ret (f1 (fold_left (fun c b => f (xorb c b)) bs c)) /\ is_bytes 16 (fold_left (fun c b => f (xorb c b)) bs c).
  Proof.
    intros (R1 & R2 & _). pose proof (em1 _ _ _ E) as D. induction bs as [|b r IH]; intros c Hc F; [split; [reflexivity|exact Hc]|].
    apply Forall_cons_iff in F as [Fb Fr]. cbn [cbc_mac fold_left]. rewrite (try_from_ok _ 16 f1) by assumption. cbn [bind unwrap]. rewrite (dk_xor _ _ _ D) by assumption.
    pose proof (xorb_bytes 16 c b Hc Fb) as X. unfold xorb in *. rewrite R2 by assumption. cbn [bind]. apply IH; [now apply R1|assumption].
  Qed.
  Lemma cmac_tag_ok dbg m : bytes_ok m -> cmac_tag i k dbg key m = Ret (cmac f m) /\ is_bytes 16 (cmac f m).
  Proof.
    intros F. destruct K as (e & d & Ee & _ & R & _). pose proof R as (R1 & R2 & _). pose proof (em1 _ _ _ E) as D.
    unfold cmac_tag, cmac. rewrite Ee. cbn [bind]. rewrite (dk_zero _ _ _ D). assert (Z : is_bytes 16 (repeat 0 16)) by (apply is_bytesb_correct; reflexivity).
    rewrite R2 by exact Z. cbn [bind]. rewrite (to_u128_ok _ f1) by auto. cbn [bind]. cbv zeta. rewrite <- blocks_before. set (q := Nat.div (length m - 1) 16).
    assert (Lq : (16 * q <= length m)%nat) by (unfold q; pose proof (Nat.mul_div_le (length m - 1) 16); lia).
    assert (Lr : (length m - 16 * q <= 16)%nat).
    { unfold q. pose proof (Nat.div_mod (length m - 1) 16). pose proof (Nat.mod_upper_bound (length m - 1) 16). lia. }
    set (l := skipn (16 * q) m). assert (Ll : (length l <= 16)%nat) by (unfold l; rewrite skipn_length; exact Lr).
    assert (Fl : bytes_ok l) by now apply bytes_skipn.
    assert (FC : Forall (is_bytes 16) (chunks 16 q m)).
    { apply Forall_forall. intros c Hc. destruct (in_chunks _ _ _ _ Hc) as (_ & A & B). split; [apply A; lia|now apply B]. }
    destruct (cbc_mac_ok dbg e R (chunks 16 q m) (repeat 0 16) Z FC) as [-> Hc]. cbn [bind]. rewrite fold_left_app. set (c := fold_left _ (chunks 16 q m) _) in *. cbn [fold_left].
    pose proof (R1 _ Z) as Hf. set (b0 := f (repeat 0 16)) in *.
    assert (P : is_bytes 16 (if (length l =? 16)%nat then l else l ++ 128 :: repeat 0 (15 - length l))).
    { destruct (Nat.eqb_spec (length l) 16) as [L|L]; [now split|]. split; [rewrite app_length; cbn [length]; rewrite repeat_length; lia|].
      apply bytes_ok_app; [exact Fl|]. constructor; [reflexivity|now apply bytes_repeat]. }
    rewrite (dk_from _ _ _ D) by exact P. cbn [bind]. rewrite (of_u128_ok _ f1) by exact D. cbn [bind].
    rewrite !(dk_xor _ _ _ D) by (try apply to_be_bytes; try assumption; now apply xorb_bytes).
    match goal with |- context [encrypt_block i k e (f1 ?a)] => set (x := a) end.
    assert (X : x = xorb c (if (length l =? 16)%nat then xorb (doubled b0) l else xorb (doubled (doubled b0)) (l ++ [128] ++ repeat 0 (15 - length l)))).
    { unfold x, xorb. rewrite xor_assoc. f_equal. destruct (length l =? 16)%nat; rewrite xor_comm; f_equal; [now apply doubled_ok|now apply doubled_twice]. }
    rewrite <- X. assert (Bx : is_bytes 16 x) by (unfold x; apply xor_bytes; [now apply xor_bytes|apply to_be_bytes]).
    rewrite R2 by exact Bx. cbn [bind]. rewrite (dk_store _ _ _ D) by auto. rewrite repeat_length. cbn [Nat.leb bind]. rewrite skipn_all2 by (rewrite repeat_length; lia). rewrite app_nil_r.
    split; [reflexivity|now apply R1].
  Qed.
End Cmac.
