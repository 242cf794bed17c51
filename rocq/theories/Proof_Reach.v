(** Every value a user can obtain is the image of a byte array, and every key object holds Nr+1
    such blocks. *)
From Coq Require Import Lia Arith.
From Verif Require Import Word Interface Fips197 Spec_Api Spec_Reach Model_Wide Model_Lib Proof_Word Proof_Fips Proof_Ok Proof_X86 Proof_Wide Proof_Sem Proof_Lib.
Open Scope N_scope.

(** The reachable sets are closed. *)
Ltac reach_spec :=
  match goal with C : api_closed _ _ _ _ _ _ |- _ =>
    repeat match goal with
    | H : reach1 _ _ |- _ => specialize (H _ _ _ _ _ C)
    | H : reach2 _ _ |- _ => specialize (H _ _ _ _ _ C)
    | H : reach4 _ _ |- _ => specialize (H _ _ _ _ _ C)
    | H : reachE _ _ _ |- _ => specialize (H _ _ _ _ _ C)
    | H : reachD _ _ _ |- _ => specialize (H _ _ _ _ _ C)
    end
  end.
Local Opaque chain_enc1 chain_dec1 chain_enc2 chain_dec2 chain_enc4 chain_dec4 enc_new dec_new decrypter encrypter
  encrypt_block encrypt_2_blocks encrypt_4_blocks decrypt_block decrypt_2_blocks decrypt_4_blocks of_u128.
Lemma reach_closed i : api_closed i (reach1 i) (reach2 i) (reach4 i) (reachE i) (reachD i).
Proof.
  assert (F1 : forall P1 P2 P4 PE PD ks, api_closed i P1 P2 P4 PE PD -> Forall (reach1 i) ks -> Forall P1 ks).
  { intros * C F. induction F; constructor; [eapply H; eassumption|assumption]. }
  assert (F2 : forall P1 P2 P4 PE PD ks, api_closed i P1 P2 P4 PE PD -> Forall (reach2 i) ks -> Forall P2 ks).
  { intros * C F. induction F; constructor; [eapply H; eassumption|assumption]. }
  assert (F4 : forall P1 P2 P4 PE PD ks, api_closed i P1 P2 P4 PE PD -> Forall (reach4 i) ks -> Forall P4 ks).
  { intros * C F. induction F; constructor; [eapply H; eassumption|assumption]. }
  split.
  1-3: split; repeat intro;
       reach_spec; match goal with C : api_closed _ _ _ _ _ _ |- _ =>
         first [solve [destruct (ac_1 _ _ _ _ _ _ C); eauto 6] | solve [destruct (ac_2 _ _ _ _ _ _ C); eauto 6] | solve [destruct (ac_4 _ _ _ _ _ _ C); eauto 6]] end.
  all: try (intros x Hx; unfold reach2, reach4 in Hx;
      match goal with |- match ?t with _ => _ end => destruct t as [a b] eqn:E end;
      split; intros P1 P2 P4 PE PD C; specialize (Hx _ _ _ _ _ C);
      first [pose proof (ac_x2_to_pair _ _ _ _ _ _ C x Hx) as G; rewrite E in G; tauto | pose proof (ac_x4_to_pair _ _ _ _ _ _ C x Hx) as G; rewrite E in G; tauto]).
  all: try (intros x Hx; unfold reach4 in Hx;
      match goal with |- match ?t with _ => _ end => destruct t as [[[a b] c] d] eqn:E end;
      repeat split; intros P1 P2 P4 PE PD C; specialize (Hx _ _ _ _ _ C);
      pose proof (ac_x4_to_quad _ _ _ _ _ _ C x Hx) as G; rewrite E in G; tauto).
  all: try (intros * Hx Hk E P1 P2 P4 PE PD C; first
      [ eapply (ac_chain_enc1 _ _ _ _ _ _ C); [eapply Hx; eassumption|eapply F1; eassumption|eassumption]
      | eapply (ac_chain_dec1 _ _ _ _ _ _ C); [eapply Hx; eassumption|eapply F1; eassumption|eassumption]
      | eapply (ac_chain_enc2 _ _ _ _ _ _ C); [eapply Hx; eassumption|eapply F2; eassumption|eassumption]
      | eapply (ac_chain_dec2 _ _ _ _ _ _ C); [eapply Hx; eassumption|eapply F2; eassumption|eassumption]
      | eapply (ac_chain_enc4 _ _ _ _ _ _ C); [eapply Hx; eassumption|eapply F4; eassumption|eassumption]
      | eapply (ac_chain_dec4 _ _ _ _ _ _ C); [eapply Hx; eassumption|eapply F4; eassumption|eassumption] ]).
  all: repeat intro; reach_spec.
  all: match goal with C : api_closed _ _ _ _ _ _ |- _ => first
    [ solve [eapply (ac_u128 _ _ _ _ _ _ C); eassumption]
    | solve [eapply (ac_mc _ _ _ _ _ _ C); eassumption]
    | solve [eapply (ac_imc _ _ _ _ _ _ C); eassumption]
    | solve [eapply (ac_x2_of_pair _ _ _ _ _ _ C); eassumption]
    | solve [eapply (ac_x2_of_block _ _ _ _ _ _ C); eassumption]
    | solve [eapply (ac_x4_of_quad _ _ _ _ _ _ C); eassumption]
    | solve [eapply (ac_x4_of_pair _ _ _ _ _ _ C); eassumption]
    | solve [eapply (ac_x4_of_block _ _ _ _ _ _ C); eassumption]
    | solve [eapply (ac_x4_of_x2 _ _ _ _ _ _ C); eassumption]
    | solve [eapply (ac_enc_new _ _ _ _ _ _ C); eassumption]
    | solve [eapply (ac_dec_new _ _ _ _ _ _ C); eassumption]
    | solve [eapply (ac_decrypter _ _ _ _ _ _ C); eassumption]
    | solve [eapply (ac_encrypter _ _ _ _ _ _ C); eassumption]
    | solve [eapply (ac_encrypt_1 _ _ _ _ _ _ C); eassumption]
    | solve [eapply (ac_encrypt_2 _ _ _ _ _ _ C); eassumption]
    | solve [eapply (ac_encrypt_4 _ _ _ _ _ _ C); eassumption]
    | solve [eapply (ac_decrypt_1 _ _ _ _ _ _ C); eassumption]
    | solve [eapply (ac_decrypt_2 _ _ _ _ _ _ C); eassumption]
    | solve [eapply (ac_decrypt_4 _ _ _ _ _ _ C); eassumption] ] end.
Qed.
Local Transparent chain_enc1 chain_dec1 chain_enc2 chain_dec2 chain_enc4 chain_dec4 enc_new dec_new decrypter encrypter
  encrypt_block encrypt_2_blocks encrypt_4_blocks decrypt_block decrypt_2_blocks decrypt_4_blocks of_u128.

Section Reach.
Context (i : impl) (f1 : list N -> T1 i) (f2 : list N -> T2 i) (f4 : list N -> T4 i) (s : sem).
Context (R : refines i f1 f2 f4 s) (S0 : sem_ok s).

Definition img {T} (n : nat) (f : list N -> T) (x : T) : Prop := exists b, is_bytes n b /\ x = f b.
Definition imgE (k : key_size) (e : enc_obj i) : Prop := exists rks, good_keys k rks /\ e = EncObj (map f1 rks).
Definition imgD (k : key_size) (d : dec_obj i) : Prop := exists rks, good_keys k rks /\ d = DecObj (map f1 rks).

Lemma img_ops_closed {T} dbg (o : ops T) m (f : list N -> T) : data_ok o (16 * m) f -> rounds_ok o m f s -> ops_closed dbg o (img (16 * m) f).
Proof.
  intros D Rr.
  assert (Hn : forall b x, is_bytes (o_size o) b -> o_new o b = Ret x -> img (16 * m) f x).
  { intros b x Hb E. rewrite (dk_size _ _ _ D) in Hb. rewrite (dk_new _ _ _ D) in E by assumption. injection E as <-. exists b. auto. }
  assert (Hf : forall b x, is_bytes (o_size o) b -> o_from o b = Ret x -> img (16 * m) f x).
  { intros b x Hb E. rewrite (dk_size _ _ _ D) in Hb. rewrite (dk_from _ _ _ D) in E by assumption. injection E as <-. exists b. auto. }
  assert (Hz : img (16 * m) f (o_zero o)).
  { exists (repeat 0 (16 * m)). split; [apply zeros_bytes|apply D]. }
  assert (Ha : forall x y, img (16 * m) f x -> img (16 * m) f y -> img (16 * m) f (o_and o x y)).
  { intros x y (a & Ha & ->) (b & Hb & ->). rewrite (dk_and _ _ _ D) by assumption. eexists. split; [|reflexivity]. now apply is_bytes_and. }
  assert (Ho : forall x y, img (16 * m) f x -> img (16 * m) f y -> img (16 * m) f (o_or o x y)).
  { intros x y (a & Hxa & ->) (b & Hb & ->). rewrite (dk_or _ _ _ D) by assumption. eexists. split; [|reflexivity]. now apply is_bytes_or. }
  assert (Hx : forall x y, img (16 * m) f x -> img (16 * m) f y -> img (16 * m) f (o_xor o x y)).
  { intros x y (a & Hxa & ->) (b & Hb & ->). rewrite (dk_xor _ _ _ D) by assumption. eexists. split; [|reflexivity]. now apply xor_bytes. }
  assert (HL : forall op g, bop_ok g -> lane_ok op m f g -> forall x y, img (16 * m) f x -> img (16 * m) f y -> img (16 * m) f (op x y)).
  { intros op g Hg Hop x y (a & Hxa & ->) (b & Hb & ->). rewrite Hop by assumption. eexists. split; [|reflexivity]. now apply on_lanes_bytes. }
  split; try assumption.
  - intros n sl x [_ Fs] E. unfold try_from, try_from_slice in E. destruct (Nat.leb_spec (o_size o) (length sl)) as [L|L]; [|discriminate].
    rewrite array_from_slice_ok in E by lia. cbn [bind] in E. change (skipn 0 sl) with sl in E.
    assert (Hb : is_bytes (16 * m) (firstn (o_size o) sl)).
    { rewrite (dk_size _ _ _ D) in *. split; [rewrite firstn_length; lia|now apply bytes_ok_firstn]. }
    rewrite (dk_from _ _ _ D) in E by assumption. injection E as <-. eexists. split; [eassumption|reflexivity].
  - intros x (a & Hxa & ->). rewrite (dk_not _ _ _ D) by assumption. eexists. split; [|reflexivity]. now apply is_bytes_not.
  - apply (HL _ (s_enc s)); [apply S0|apply Rr].
  - apply (HL _ (s_dec s)); [apply S0|apply Rr].
  - apply (HL _ (s_enc_last s)); [apply S0|apply Rr].
  - apply (HL _ (s_dec_last s)); [apply S0|apply Rr].
Qed.

Lemma Forall_img {T} n (f : list N -> T) ks : Forall (img n f) ks -> exists l, Forall (is_bytes n) l /\ ks = map f l.
Proof.
  induction 1 as [|x ks (b & Hb & ->) _ (l & Hl & ->)]; [exists []; split; [constructor|reflexivity]|].
  exists (b :: l). split; [now constructor|reflexivity].
Qed.
Lemma s_chain_bytes m pre g x keys y : pre_opt_ok pre -> bop_ok g -> is_bytes (16 * m) x -> Forall (is_bytes (16 * m)) keys ->
  s_chain m pre g x keys = Ret y -> is_bytes (16 * m) y.
Proof.
  intros Hp Hg Hx Hk. unfold s_chain. destruct pre as [p|]; destruct keys as [|k0 r]; try discriminate; cbn [s_chain_pre s_chain_post]; intros E; injection E as <-.
  - change (match r with [] => k0 | _ :: _ => last r [] end) with (last (k0 :: r) []).
    apply xor_bytes; [|apply (Forall_last (is_bytes (16 * m))); [assumption|discriminate]]. apply fold_bytes; try assumption.
    change (match r with [] => [] | _ :: _ => k0 :: removelast r end) with (removelast (k0 :: r)).
    rewrite removelast_firstn_pred. now apply Forall_firstn'.
  - inversion Hk; subst. apply fold_bytes; try assumption. now apply xor_bytes.
Qed.
Lemma chain_closed {T} m (f : list N -> T) (ch : T -> list T -> outcome T) pre g :
  pre_opt_ok pre -> bop_ok g ->
  (forall x keys, is_bytes (16 * m) x -> Forall (is_bytes (16 * m)) keys -> ch (f x) (map f keys) = omap f (s_chain m pre g x keys)) ->
  forall x ks y, img (16 * m) f x -> Forall (img (16 * m) f) ks -> ch x ks = Ret y -> img (16 * m) f y.
Proof.
  intros Hp Hg Hc x ks y (a & Ha & ->) Hk E. destruct (Forall_img _ _ _ Hk) as (l & Hl & ->). rewrite Hc in E by assumption.
  destruct (s_chain m pre g a l) as [b| |] eqn:Eb; cbn in E; try discriminate. injection E as <-. exists b. split; [|reflexivity].
  eapply s_chain_bytes; eassumption.
Qed.
Lemma split16 n x : is_bytes (16 + n) x -> exists a b, is_bytes 16 a /\ is_bytes n b /\ x = a ++ b.
Proof. intros H. exists (firstn 16 x), (skipn 16 x). split; [eapply is_bytes_firstn; eassumption|split; [eapply is_bytes_skipn; eassumption|symmetry; apply firstn_skipn]]. Qed.
Lemma split2 x : is_bytes 32 x -> exists a b, is_bytes 16 a /\ is_bytes 16 b /\ x = a ++ b.
Proof. apply (split16 16). Qed.
Lemma split4 x : is_bytes 64 x -> exists a b c d, is_bytes 16 a /\ is_bytes 16 b /\ is_bytes 16 c /\ is_bytes 16 d /\ x = a ++ b ++ c ++ d.
Proof.
  intros H. destruct (split16 48 x H) as (a & y & Ha & Hy & ->). destruct (split16 32 y Hy) as (b & z & Hb & Hz & ->).
  destruct (split2 z Hz) as (c & d & Hc & Hd & ->). exists a, b, c, d. auto 10.
Qed.
Lemma split22 x : is_bytes 64 x -> exists a b, is_bytes 32 a /\ is_bytes 32 b /\ x = a ++ b.
Proof. intros H. exists (firstn 32 x), (skipn 32 x). split; [apply (is_bytes_firstn 32 32 x H)|split; [apply (is_bytes_skipn 32 32 x H)|symmetry; apply firstn_skipn]]. Qed.

Lemma b_lanes_bytes m k pre g gl rks x : bop_ok g -> bop_ok gl -> pre_opt_ok pre -> good_keys k rks -> is_bytes (16 * m) x ->
  is_bytes (16 * m) (concat (map (b_run pre g gl (nr_of k) rks) (lanes m x))).
Proof.
  intros Hg Hgl Hp Hk Hx.
  assert (F : Forall (is_bytes 16) (map (b_run pre g gl (nr_of k) rks) (lanes m x))).
  { apply Forall_forall. intros y Hy. apply in_map_iff in Hy as (z & <- & Hz). apply b_run_bytes; auto.
    pose proof (lanes_bytes m x Hx) as F. rewrite Forall_forall in F. auto. }
  pose proof (concat_bytes _ F) as B. rewrite map_length, lanes_length in B. exact B.
Qed.

Lemma img_closed : api_closed i (img 16 f1) (img 32 f2) (img 64 f4) imgE imgD.
Proof.
  pose proof (s_pre1_ok s S0) as HP.
  split.
  - apply (img_ops_closed _ _ 1); apply R.
  - apply (img_ops_closed _ _ 2); apply R.
  - apply (img_ops_closed _ _ 4); apply R.
  - intros v x Hv E. unfold of_u128 in E.
    assert (Hb : is_bytes 16 (to_be 16 v)).
    { split; [unfold to_be; rewrite rev_length; apply to_le_length|]. unfold to_be. apply bytes_ok_rev, to_le_ok. }
    rewrite (dk_from _ _ _ (R_d1 _ _ _ _ _ R)) in E by assumption. injection E as <-. eexists. split; [eassumption|reflexivity].
  - intros x (a & Ha & ->). rewrite (R_mc _ _ _ _ _ R) by assumption. eexists. split; [|reflexivity]. now apply S0.
  - intros x (a & Ha & ->). rewrite (R_imc _ _ _ _ _ R) by assumption. eexists. split; [|reflexivity]. now apply S0.
  - intros x y (a & Ha & ->) (b & Hb & ->). rewrite (R_x2_of_pair _ _ _ _ _ R) by assumption. eexists. split; [|reflexivity]. now apply (is_bytes_app 16 16).
  - intros x (a & Ha & ->). rewrite (R_x2_of_block _ _ _ _ _ R) by assumption. eexists. split; [|reflexivity]. now apply (is_bytes_app 16 16).
  - intros x (y & Hy & ->). destruct (split2 y Hy) as (a & b & Ha & Hb & ->). rewrite (R_x2_to_pair _ _ _ _ _ R) by assumption. split; eexists; eauto.
  - intros x y z w (a & Ha & ->) (b & Hb & ->) (c & Hc & ->) (d & Hd & ->). rewrite (R_x4_of_quad _ _ _ _ _ R) by assumption. eexists. split; [|reflexivity].
    apply (is_bytes_app 16 48); [assumption|]. apply (is_bytes_app 16 32); [assumption|]. now apply (is_bytes_app 16 16).
  - intros x y (a & Ha & ->) (b & Hb & ->). rewrite (R_x4_of_pair _ _ _ _ _ R) by assumption. eexists. split; [|reflexivity]. now apply (is_bytes_app 32 32).
  - intros x (a & Ha & ->). rewrite (R_x4_of_block _ _ _ _ _ R) by assumption. eexists. split; [|reflexivity].
    apply (is_bytes_app 16 48); [assumption|]. apply (is_bytes_app 16 32); [assumption|]. now apply (is_bytes_app 16 16).
  - intros x (a & Ha & ->). rewrite (R_x4_of_x2 _ _ _ _ _ R) by assumption. eexists. split; [|reflexivity]. now apply (is_bytes_app 32 32).
  - intros x (y & Hy & ->). destruct (split4 y Hy) as (a & b & c & d & Ha & Hb & Hc & Hd & ->). rewrite (R_x4_to_quad _ _ _ _ _ R) by assumption.
    repeat split; eexists; eauto.
  - intros x (y & Hy & ->). destruct (split22 y Hy) as (a & b & Ha & Hb & ->). rewrite (R_x4_to_pair _ _ _ _ _ R) by assumption. split; eexists; eauto.
  - apply (chain_closed 1 f1 _ (s_pre1 s false) (s_enc s)); [apply HP|apply S0|apply (chain_enc1_ok i f1 f2 f4 s R S0)].
  - apply (chain_closed 1 f1 _ (s_pre1 s true) (s_dec s)); [apply HP|apply S0|apply (chain_dec1_ok i f1 f2 f4 s R S0)].
  - apply (chain_closed 2 f2 _ (s_pre1 s false) (s_enc s)); [apply HP|apply S0|apply (chain_enc2_ok i f1 f2 f4 s R S0)].
  - apply (chain_closed 2 f2 _ (s_pre1 s true) (s_dec s)); [apply HP|apply S0|apply (chain_dec2_ok i f1 f2 f4 s R S0)].
  - apply (chain_closed 4 f4 _ (s_pre1 s false) (s_enc s)); [apply HP|apply S0|apply (chain_enc4_ok i f1 f2 f4 s R S0)].
  - apply (chain_closed 4 f4 _ (s_pre1 s true) (s_dec s)); [apply HP|apply S0|apply (chain_dec4_ok i f1 f2 f4 s R S0)].
  - intros k key e Hk E. rewrite (enc_new_ok i f1 f2 f4 s R) in E by assumption. injection E as <-. eexists. split; [|reflexivity]. now apply keys_good.
  - intros k key d Hk E. rewrite (dec_new_ok i f1 f2 f4 s R S0) in E by assumption. injection E as <-. eexists. split; [|reflexivity].
    apply b_swap_good; [apply S0|now apply keys_good].
  - intros k e d (rks & Hk & ->) E. rewrite (decrypter_ok i f1 f2 f4 s R) in E by assumption. injection E as <-. eexists. split; [|reflexivity].
    apply b_swap_good; [apply S0|assumption].
  - intros k d e (rks & Hk & ->) E. rewrite (encrypter_ok i f1 f2 f4 s R) in E by assumption. injection E as <-. eexists. split; [|reflexivity].
    apply b_swap_good; [apply S0|assumption].
  - intros k e x y (rks & Hk & ->) (a & Ha & ->) E. rewrite (encrypt_block_ok i f1 f2 f4 s R S0) in E by assumption. injection E as <-.
    eexists. split; [|reflexivity]. apply b_run_bytes; try assumption; try apply S0; apply HP.
  - intros k e x y (rks & Hk & ->) (a & Ha & ->) E. rewrite (encrypt_2_ok i f1 f2 f4 s R S0) in E by assumption. injection E as <-.
    eexists. split; [|reflexivity]. apply (b_lanes_bytes 2); try assumption; try apply S0; apply HP.
  - intros k e x y (rks & Hk & ->) (a & Ha & ->) E. rewrite (encrypt_4_ok i f1 f2 f4 s R S0) in E by assumption. injection E as <-.
    eexists. split; [|reflexivity]. apply (b_lanes_bytes 4); try assumption; try apply S0; apply HP.
  - intros k e x y (rks & Hk & ->) (a & Ha & ->) E. rewrite (decrypt_block_ok i f1 f2 f4 s R S0) in E by assumption. injection E as <-.
    eexists. split; [|reflexivity]. apply b_run_bytes; try assumption; try apply S0; apply HP.
  - intros k e x y (rks & Hk & ->) (a & Ha & ->) E. rewrite (decrypt_2_ok i f1 f2 f4 s R S0) in E by assumption. injection E as <-.
    eexists. split; [|reflexivity]. apply (b_lanes_bytes 2); try assumption; try apply S0; apply HP.
  - intros k e x y (rks & Hk & ->) (a & Ha & ->) E. rewrite (decrypt_4_ok i f1 f2 f4 s R S0) in E by assumption. injection E as <-.
    eexists. split; [|reflexivity]. apply (b_lanes_bytes 4); try assumption; try apply S0; apply HP.
Qed.

Lemma reach1_img x : reach1 i x -> img 16 f1 x.
Proof. intros H. exact (H _ _ _ _ _ img_closed). Qed.
Lemma reach2_img x : reach2 i x -> img 32 f2 x.
Proof. intros H. exact (H _ _ _ _ _ img_closed). Qed.
Lemma reach4_img x : reach4 i x -> img 64 f4 x.
Proof. intros H. exact (H _ _ _ _ _ img_closed). Qed.
Lemma reachE_img k e : reachE i k e -> imgE k e.
Proof. intros H. exact (H _ _ _ _ _ img_closed). Qed.
Lemma reachD_img k d : reachD i k d -> imgD k d.
Proof. intros H. exact (H _ _ _ _ _ img_closed). Qed.
Lemma img_reach1 b : is_bytes 16 b -> reach1 i (f1 b).
Proof. intros H P1 P2 P4 PE PD C. apply (cl_new _ _ _ (ac_1 _ _ _ _ _ _ C) b); [rewrite (dk_size _ _ _ (R_d1 _ _ _ _ _ R)); assumption|apply R; assumption]. Qed.
Lemma img_reach2 b : is_bytes 32 b -> reach2 i (f2 b).
Proof. intros H P1 P2 P4 PE PD C. apply (cl_new _ _ _ (ac_2 _ _ _ _ _ _ C) b); [rewrite (dk_size _ _ _ (R_d2 _ _ _ _ _ R)); assumption|apply R; assumption]. Qed.
Lemma img_reach4 b : is_bytes 64 b -> reach4 i (f4 b).
Proof. intros H P1 P2 P4 PE PD C. apply (cl_new _ _ _ (ac_4 _ _ _ _ _ _ C) b); [rewrite (dk_size _ _ _ (R_d4 _ _ _ _ _ R)); assumption|apply R; assumption]. Qed.
End Reach.
