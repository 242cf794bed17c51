(** Strength.v for the claims C46 to C54. *)
From Coq Require Import String Arith Lia Permutation.
From Verif Require Import Word Interface Fips197 Spec_Api Spec_Reach Spec_User Spec_Cfg Spec_Fmt Spec_Leak Spec_Client Spec_LeakClient Spec_LeakSoft Spec_Assemble Spec_Modes Spec_Cost Spec_Aegis Spec_Eic Spec_Layout Spec_Sink.
From Verif Require Import Model_Lib Model_Cfg Model_Fmt Model_Leak Model_LeakAccel Model_LeakSoft Model_Running Model_LeakTable Model_LeakBlock Model_LeakClient Model_Client Model_Layout Model_Sink Model_Tests Model_Tests2.
From Verif Require Import Model_Rv64.
From Verif Require Import Proof_Word Proof_Fips Proof_Ok Proof_Sem Proof_Lib Proof_Reach Proof_Inst Proof_Main Proof_Layout.
From Verif Require Import Props_Cfg Props_Blocks Props_LeakReveal Props_Assemble Props_Modes Props_Cost Props_Aegis Props_Layout Props_Eic Props_Sink Props_Total Strength Strength2.
From Verif Require Import Spec_Cost.
Open Scope N_scope.
Open Scope list_scope.

(** ** C46 *)
Lemma abcd_bytes n : (n <= 64)%nat -> is_bytes n (firstn n abcd).
Proof. intros H. split; [rewrite firstn_length; apply Nat.min_l; exact H|]. apply Forall_forall. intros x Hx. assert (A : is_bytes 64 abcd) by (apply is_bytesb_correct; vm_compute; reflexivity).
  apply (proj1 (Forall_forall _ _) (proj2 A)). rewrite <- (firstn_skipn n abcd). apply in_or_app. now left. Qed.
Lemma traces_is a b : traces_eqb [a] [b] = true -> a = b.
Proof. cbn [traces_eqb]. rewrite Bool.andb_true_r. apply trace_is. Qed.
Lemma differ_follows l l' : last_seen false l <> last_seen false l' -> negb (traces_eqb [last (watch (timed P_software false) [] (straight l)) []] [last (watch (timed P_software false) [] (straight l')) []]) = true.
Proof. fold (last_seen false l) (last_seen false l'). intros H. destruct (traces_eqb [last_seen false l] [last_seen false l']) eqn:E; [|reflexivity]. apply traces_is in E. contradiction. Qed.
Lemma same_follows l l' : last_seen false l = last_seen false l' -> negb (negb (traces_eqb [last (watch (timed P_software false) [] (straight l)) []] [last (watch (timed P_software false) [] (straight l')) []])) = true.
Proof. fold (last_seen false l) (last_seen false l'). intros ->. rewrite Bool.negb_involutive. cbn [traces_eqb]. now rewrite trace_eqb_refl. Qed.
Definition flip j (l : list N) := firstn j l ++ match skipn j l with x :: r => N.lxor x 128 :: r | [] => [] end.
Lemma flip_ok n j l : is_bytes n l -> (j < n)%nat -> is_bytes n (flip j l) /\ l <> flip j l.
Proof.
  intros [L B] J. unfold flip. assert (E := firstn_skipn j l). destruct (skipn j l) as [|x r] eqn:S; [apply (f_equal (@length N)) in E; rewrite app_nil_r, firstn_length in E; lia|].
  assert (B' : Forall (fun b => b < 256) (firstn j l ++ x :: r)) by (rewrite E; exact B). apply Forall_app in B' as [B1 B2]. apply Forall_cons_iff in B2 as [Bx Br]. split; [split|].
  - apply (f_equal (@length N)) in E. rewrite app_length in E |- *. cbn [length] in E |- *. lia.
  - apply Forall_app. split; [exact B1|]. constructor; [|exact Br]. apply (lxor_lt _ _ 8); [exact Bx|reflexivity].
  - rewrite <- E at 1. intros Q. apply app_inv_head in Q. injection Q as Q. assert (Z : N.lxor x (N.lxor x 128) = 0) by (rewrite <- Q; apply N.lxor_nilpotent). rewrite <- N.lxor_assoc, N.lxor_nilpotent, N.lxor_0_l in Z. discriminate Z.
Qed.
Lemma t46_follows : t46 = true.
Proof.
  unfold t46. cbv zeta. apply and_ok.
  - apply forallb_forall. intros k _. assert (HK : is_bytes (key_len k) (firstn (key_len k) abcd)) by (apply abcd_bytes; destruct k; cbn; lia). assert (HM : is_bytes 32 (firstn 32 abcd)) by (apply abcd_bytes; lia).
    apply and_ok; apply forallb_forall; intros j Hj; fold (flip j).
    + assert (J : (j < key_len k)%nat) by (destruct k, Hj as [<-|[<-|[<-|[]]]]; cbn; lia). fold (flip j (firstn (key_len k) abcd)). destruct (flip_ok _ _ _ HK J) as [HK' N].
      ands; apply differ_follows; intros Q.
      * now apply (C46_key_setup_reveals_key false k _ _ HK HK') in Q.
      * now apply (C46_key_setup_reveals_key false k _ _ HK HK') in Q.
      * now apply (C46_conversion_reveals_key false k _ _ HK HK') in Q.
      * now apply (C46_conversion_reveals_key false k _ _ HK HK') in Q.
      * apply (C46_encrypt_reveals_key_and_message false k Two _ _ _ _ HK HK' HM HM) in Q. destruct Q. contradiction.
    + assert (J : (j < 32)%nat) by (destruct Hj as [<-|[<-|[]]]; lia). destruct (flip_ok _ _ _ HM J) as [HM' N]. fold (flip j (firstn 32 abcd)).
      ands; apply differ_follows; intros Q.
      * apply (C46_encrypt_reveals_key_and_message false k Two _ _ _ _ HK HK HM HM') in Q. destruct Q. contradiction.
      * apply (C46_decrypt_reveals_key_and_message false k Two _ _ _ _ HK HK HM HM') in Q. destruct Q. contradiction.
  - apply forallb_forall. intros j Hj. apply in_seq in Hj. assert (HA : is_bytes 16 (firstn 16 abcd)) by (apply abcd_bytes; lia). destruct (flip_ok 16 j _ HA) as [HA' N]; [lia|]. fold (flip j (firstn 16 abcd)). ands.
    + pose proof (C46_mixing_reveals_block false Mc _ _ (or_introl eq_refl) HA HA') as M. apply differ_follows. intros Q. now apply M in Q.
    + pose proof (C46_mixing_reveals_block false Imc _ _ (or_intror (or_introl eq_refl)) HA HA') as M. apply differ_follows. intros Q. now apply M in Q.
    + apply forallb_forall. intros r Hr. pose proof (fun a a' b b' => C46_round_reveals_first_operand false One r a a' b b' Hr) as R. cbv zeta in R. apply and_ok.
      * apply differ_follows. intros Q. apply R in Q; [contradiction|assumption..].
      * apply same_follows. apply R; [assumption..|reflexivity].
Qed.

Lemma impl_follows c f : (exists i, impl_of c = Some i) -> (forall i, impl_of c = Some i -> f i = true) -> with_impl c f = true.
Proof. intros [i E] H. unfold with_impl. rewrite E. now apply H. Qed.
(** ** C47 *)
Lemma t47_follows c : (exists i, impl_of c = Some i) -> t47 c = true.
Proof.
  intros H. apply impl_follows; [exact H|]. clear H. intros i E. apply key_sizes_ok. intros k key HK. cbv zeta. assert (HM : is_bytes (groups_len [Two; One]) (firstn 48 abcd)) by (apply abcd_bytes; lia). apply and_ok.
  - apply is_ok. now apply (C47_encryption_from_rounds c).
  - destruct (rv32_zk c) eqn:Z; [reflexivity|]. cbn [orb]. assert (HB : is_bytes 16 (firstn 16 (firstn 48 abcd))) by (apply is_bytesb_correct; vm_compute; reflexivity). destruct (C47_chains_with_own_schedule c i k key _ E Z HK HB) as [C1 C2].
    ands; apply is_ok; [|exact C1|exact C2]. now apply (C47_decryption_from_rounds c).
Qed.
(** ** C48 *)
Lemma t48_follows c : (exists i, impl_of c = Some i) -> t48 c = true.
Proof.
  intros H. apply impl_follows; [exact H|]. clear H. intros i E. cbv zeta.
  assert (HK : is_bytes (key_len K192) (firstn (key_len K192) abcd)) by (apply abcd_bytes; cbn; lia).
  assert (T : is_bytes 192 (abcd ++ abcd ++ abcd)) by (apply is_bytesb_correct; vm_compute; reflexivity). revert T. generalize (abcd ++ abcd ++ abcd). intros text T.
  assert (TB : forall n, bytes_ok (firstn n text)) by (intros n; apply Forall_forall; intros x Hx; apply (proj1 (Forall_forall _ _) (proj2 T)); rewrite <- (firstn_skipn n text); apply in_or_app; now left).
  apply and_ok.
  - apply (forallb_ok _ (fun nt => snd nt < 2 ^ 128)); [repeat constructor|]. intros [n t] Ht. cbn [snd] in Ht.
    destruct (C48_counter_mode_undoes_itself c i K192 true false _ t (firstn n text) E HK Ht (TB n)) as (out & E1 & _ & E2). rewrite E1. apply and_ok; [now apply is_ok|].
    destruct (conforming c) eqn:C; [|reflexivity]. cbn [negb orb]. apply leqb_eq. rewrite (C48_counter_mode c i K192 true _ t (firstn n text) E C HK Ht (TB n)) in E1. now injection E1.
  - destruct (rv32_zk c) eqn:Z; [reflexivity|]. cbn [orb]. apply (forallb_ok _ (fun n => 16 * n <= 192)%nat); [repeat constructor|]. intros n Hn.
    assert (P : is_bytes (16 * n) (firstn (16 * n) text)) by (split; [rewrite firstn_length, (proj1 T); lia|apply TB]). assert (IV : is_bytes 16 (firstn 16 (rev abcd))) by (apply is_bytesb_correct; vm_compute; reflexivity).
    destruct (C48_chaining_round_trip c i K192 _ _ n _ E Z HK IV P) as (out & E1 & _ & E2). rewrite E1. apply and_ok; [now apply is_ok|].
    destruct (conforming c) eqn:C; [|reflexivity]. cbn [negb orb]. apply leqb_eq. destruct (C48_cipher_block_chaining c i K192 _ _ n _ E C HK IV P) as [E3 _]. rewrite E3 in E1. now injection E1.
Qed.
(** ** C49 *)
Definition expand (b : bill) : list aes := flat_map (fun x => repeat (fst x) (snd x)) b.
Lemma count_repeat a x n : times a (repeat x n) = if aes_eq_dec x a then n else 0%nat.
Proof. unfold times. induction n as [|n IH]; [now destruct (aes_eq_dec x a)|]. cbn [repeat count_occ]. rewrite IH. now destruct (aes_eq_dec x a). Qed.
Lemma times_app a l l' : times a (l ++ l') = (times a l + times a l')%nat. Proof. apply count_occ_app. Qed.
Lemma expand_ok b : (forall a, times a (expand b) = on_bill a b) /\ length (expand b) = bill_total b.
Proof.
  unfold expand, on_bill, bill_total. induction b as [|[x n] b [IH1 IH2]]; [split; reflexivity|]. cbn [flat_map map list_sum fold_right fst snd]. split.
  - intros a. rewrite times_app, count_repeat, IH1. reflexivity.
  - rewrite app_length, repeat_length, IH2. reflexivity.
Qed.
Lemma bill_follows l b : (forall a, times a l = on_bill a b) -> t49_bill l b = true.
Proof.
  intros H. unfold t49_bill. apply and_ok; [apply forallb_forall; intros x _; now rewrite H, Nat.eqb_refl|]. destruct (expand_ok b) as [E1 E2]. rewrite <- E2. apply Nat.eqb_eq, Permutation_length.
  apply (Permutation_count_occ aes_eq_dec). intros a. change (times a l = times a (expand b)). now rewrite H, E1.
Qed.
Lemma t49_follows c : rustc_ok c = true -> t49 c = true.
Proof.
  intros RO. unfold t49. destruct (Props_LeakAccel.C36_every_build_runs_one c RO) as (p & e & Hp & He). rewrite Hp, He. cbv zeta.
  assert (L : forall g, length (firstn (group_len g) abcd) = group_len g) by (intros []; reflexivity).
  destruct (C49_calls_cost c p e K128 Two (firstn 16 abcd) _ RO Hp He eq_refl (L Two)) as (A & _ & _). destruct (C49_calls_cost c p e K128 One (firstn 16 abcd) _ RO Hp He eq_refl (L One)) as (_ & B & C).
  destruct (C49_rounds_cost c p e Four abcd abcd RO Hp He) as (_ & _ & _ & D). ands; apply bill_follows; [exact A|exact B|exact C|exact D].
Qed.
(** ** C50 *)
Lemma t50_follows c : (exists i, impl_of c = Some i) -> t50 c = true.
Proof.
  intros H. apply impl_follows; [exact H|]. clear H. intros i E. cbv zeta. assert (HK : is_bytes 16 (firstn 16 abcd)) by (apply abcd_bytes; lia). assert (HN : is_bytes 16 (firstn 16 (rev abcd))) by (apply is_bytesb_correct; vm_compute; reflexivity).
  assert (HA : bytes_ok (firstn 5 abcd)) by (apply (abcd_bytes 5); lia). assert (HM : bytes_ok (firstn 41 abcd)) by (apply (abcd_bytes 41); lia).
  revert HK HN HA HM. generalize (firstn 16 abcd), (firstn 16 (rev abcd)), (firstn 5 abcd), (firstn 41 abcd). intros key nonce ad msg HK HN HA HM.
  destruct (C50_aegis_sealing c i key nonce ad msg E HK HN HA HM) as [S1 S2]. destruct (aegis_seal key nonce ad msg) as [ct tag] eqn:Seal. apply and_ok.
  - assert (Q : is (fun a b => leqb (fst a) (fst b) && leqb (snd a) (snd b)) (Ret (ct, tag)) (ct, tag) = true) by (cbn; now rewrite !leqb_refl). cbn [forallb]. now rewrite S1, S2, Q.
  - assert (B : bytes_ok ct /\ is_bytes 16 tag).
    { unfold aegis_seal in Seal. assert (S : Props_Aegis.state (fold_left absorb (pieces ad) (init key nonce))).
      { clear Seal. pose proof (init_ok key nonce HK HN) as H. revert H. generalize (init key nonce). pose proof (pieces_are (Nat.div (length ad + 31) 32) ad HA) as P. fold (pieces ad) in P.
        induction P as [|p ps P _ IH]; intros st H; [exact H|]. cbn [fold_left]. apply IH. now apply absorb_state. }
      pose proof (over_length false (Nat.div (length msg + 31) 32) _ msg S HM) as O. fold (pieces msg) in O. cbn iota in O. destruct (over_pieces enc_block _ (pieces msg)) as [st o]. destruct O as (S' & O & _).
      injection Seal as <- <-. split; [exact O|now apply finalize_bytes]. }
    destruct B as [BC BT]. destruct (flip_ok 16 0 tag BT) as [BT' N]; [lia|]. change (match tag with [] => [] | x :: r => N.lxor x 128 :: r end) with (flip 0 tag).
    rewrite (proj2 (C50_aegis_opening c i key nonce ad ct tag E HK HN HA BC BT)), (proj1 (C50_aegis_opening c i key nonce ad ct (flip 0 tag) E HK HN HA BC BT')).
    pose proof (proj1 (C50_opens_what_was_sealed c c i i key nonce ad msg ct tag E E HK HN HA HM BC BT) S2) as Q. rewrite (proj1 (C50_aegis_opening c i key nonce ad ct tag E HK HN HA BC BT)) in Q. injection Q as Q.
    rewrite Q. unfold aegis_open in Q |- *. destruct (over_pieces dec_block _ (pieces ct)) as [st m]. destruct (list_eq_dec N.eq_dec tag _) as [e|]; [|discriminate Q].
    destruct (list_eq_dec N.eq_dec (flip 0 tag) _) as [e'|]; [destruct N; etransitivity; [exact e|symmetry; exact e']|]. apply leqb_refl.
Qed.
(** ** C51, C52 *)
Lemma t51_follows : t51 = true.
Proof.
  unfold t51. apply forallb_forall. intros back _. cbv zeta. pose proof (compile_follows back) as F. apply forallb_forall. intros p Hp.
  assert (R : exists c, running c = Some p) by (destruct Hp as [<-|[<-|[<-|[<-|[<-|[<-|[<-|[<-|[]]]]]]]]]; [exists c_vaes512|exists c_vaes256|exists c_x86|exists c_neon|exists c_rv64|exists c_rv32|exists c_ct_le|exists c_soft]; reflexivity).
  destruct R as [c R]. destruct (C51_sizes_and_no_padding c p (compile back) 3 R F) as ((A1 & A2 & A3 & A4) & (B1 & B2 & B3 & B4)). destruct (C51_reinterpretations_are_sound c p (compile back) R F) as (T & V). ands.
  - assert (Q : forall t n, size (compile back t) = n -> no_padding (compile back) t -> Nat.eqb (size (compile back t)) n && forallb (fun j => existsb (within j) (parts (compile back) t)) (seq 0 n) = true).
    { intros t n S P. apply and_ok; [now apply Nat.eqb_eq|]. apply forallb_forall. intros j Hj. apply in_seq in Hj. apply existsb_exists. apply P. lia. }
    cbn [forallb]. rewrite (Q _ _ A1 B1), (Q _ _ A2 B2), (Q _ _ A3 B3), (Q _ 48%nat A4 B4). reflexivity.
  - apply (forallb_ok _ _ _ T). intros st [H _]. now apply Nat.eqb_eq.
  - apply (forallb_ok _ _ _ V). intros [[t u] n] ([_ D] & S & _). apply and_ok; [now apply Nat.eqb_eq|]. apply Nat.eqb_eq. apply Nat.mod_divide; [|exact D]. intros Z. rewrite Z in D.
    pose proof (compile_sound back u) as [[e E] _]. rewrite E in Z. now apply Nat.pow_nonzero in Z.
Qed.
Lemma t52_follows : t52 = true.
Proof.
  unfold t52. cbv zeta. apply and_ok.
  - destruct C52_forwards as (F & S & H). destruct (H (firstn 24 abcd)) as (a & E1 & E2); [apply abcd_bytes; lia|]. rewrite E1, E2. apply lleqb_refl.
  - destruct (C52_wrong_otherwise (compile true) (compile_follows true)) as [B W]; [reflexivity|intros [D _]; vm_compute in D; discriminate D|]. change (map N.of_nat (seq 0 24)) with (Samples.fips_key K192).
    destruct (r64_keygen_192_by (compile true) (Samples.fips_key K192)) as [[b|]| |] eqn:E; [|reflexivity..]. destruct (lleqb (map r64_bytes b) (round_keys K192 (Samples.fips_key K192))) eqn:Q; [|reflexivity].
    apply lleqb_eq in Q. destruct W. exists b. split; [exact E|exact Q].
Qed.
(** ** C53 *)
Lemma shown_follows i l bs : Forall2 (Spec_User.shows (i_ops1 i)) l bs -> map (fun x => match to_bytes (i_ops1 i) x with Ret b => b | _ => [] end) l = bs.
Proof. induction 1 as [|x b l bs H _ IH]; [reflexivity|]. cbn [map]. rewrite IH. unfold Spec_User.shows in H. now rewrite H. Qed.
Lemma keys_shown c i k : impl_of c = Some i ->
  (forall e, reachE i k e -> exists rks, Forall2 (Spec_User.shows (i_ops1 i)) (enc_keys e) rks) /\ (forall d, reachD i k d -> exists rks, Forall2 (Spec_User.shows (i_ops1 i)) (dec_keys d) rks).
Proof.
  intros E. destruct (inst_any c i E) as (s & f1 & f2 & f4 & _ & _ & S1 & R). pose proof (R_d1 _ _ _ _ _ R) as D.
  assert (Q : forall rks, Forall (is_bytes 16) rks -> Forall2 (Spec_User.shows (i_ops1 i)) (map f1 rks) rks) by (induction 1 as [|b rks B _ IH]; [constructor|]; cbn [map]; constructor; [now apply (to_bytes_ok _ 16 f1)|exact IH]).
  split; intros e He; unreach R S1; cbn [enc_keys dec_keys]; eexists; apply Q, G.
Qed.
Lemma t53_follows c : (exists i, impl_of c = Some i) -> t53 c = true.
Proof.
  intros H. unfold t53. destruct (rv32_zk c) eqn:Z; [reflexivity|]. cbn [orb]. apply impl_follows; [exact H|]. clear H. intros i E. apply key_sizes_ok. intros k key HK. cbv zeta.
  assert (HA : is_bytes 16 (firstn 16 abcd)) by (apply abcd_bytes; lia). destruct (made1 c i E _ HA) as (x & Rx & Ex & Sx). rewrite Ex.
  destruct (C26_cipher_calls_return c i k E) as (Q & _). destruct (Q key HK) as ((e & Ee & Re) & (d & Ed & Rd)). rewrite Ee, Ed. destruct (keys_shown c i k E) as [K1 K2].
  destruct (K1 e Re) as (rks & S1). destruct (K2 d Rd) as (dks & S2). destruct (C53_objects_run_the_keys_they_hold c i k x _ E Z Rx Sx) as [O1 O2].
  destruct (O1 e rks Re S1) as (_ & y & Ey & Sy). destruct (O2 d dks Rd S2) as (_ & z & Ez & Sz). rewrite (shown_follows i _ _ S1), (shown_follows i _ _ S2), Ey, Ez. cbn [bind]. ands.
  - destruct (conforming c) eqn:C; [|reflexivity]. cbn [negb orb]. destruct (C53_decrypter_holds_eic_keys c i k key E C HK) as (d' & Ed' & _ & S'). rewrite Ed in Ed'. injection Ed' as <-.
    rewrite <- (shown_follows i _ _ S'), (shown_follows i _ _ S2). apply leqb_refl.
  - now apply is_ok.
  - now apply is_ok.
Qed.
(** ** C54 *)
Lemma moody_feed n ps : forall l, (length l <= n)%nat -> feed (moody n) l ps = (l ++ firstn (S n - length l) ps, Nat.leb (length l + length ps) n).
Proof.
  induction ps as [|p ps IH]; intros l L; [cbn [feed]; rewrite firstn_nil, app_nil_r; cbn [length]; rewrite (proj2 (Nat.leb_le _ _)) by lia; reflexivity|].
  cbn [feed]. change (write (moody n) l p) with (l ++ [p], negb (Nat.eqb (length l) n)). destruct (Nat.eqb_spec (length l) n) as [e|ne]; cbn [negb].
  - replace (S n - length l)%nat with 1%nat by lia. cbn [firstn length]. rewrite (proj2 (Nat.leb_gt _ _)) by lia. reflexivity.
  - rewrite IH by (rewrite app_length; cbn [length]; lia). rewrite app_length. cbn [length]. replace (S n - length l)%nat with (S (S n - (length l + 1))) by lia. cbn [firstn]. rewrite <- app_assoc. cbn [app].
    now replace (length l + S (length ps))%nat with (length l + 1 + length ps)%nat by lia.
Qed.
Lemma patient_feed ps : forall l, feed patient l ps = (l ++ ps, true).
Proof. induction ps as [|p ps IH]; intros l; [cbn [feed]; now rewrite app_nil_r|]. cbn [feed]. change (write patient l p) with (l ++ [p], true). cbv iota beta. rewrite IH, <- app_assoc. reflexivity. Qed.
Lemma obeys_follows p t s : prints_as p s -> t = Ret s -> obeys p t = true.
Proof.
  intros (ps & T & P) ->. unfold obeys. rewrite P, patient_feed. cbn [app]. rewrite T, String.eqb_refl. cbn [andb]. apply forallb_forall. intros n _. rewrite P, moody_feed by (cbn [length]; lia).
  cbn [length app]. rewrite Nat.sub_0_r. cbn [plus]. rewrite Bool.eqb_reflx, String.eqb_refl, firstn_length, Nat.eqb_refl. reflexivity.
Qed.
Lemma numbers c i x : impl_of c = Some i -> reach1 i x -> exists v, to_u128 (i_ops1 i) x = Ret v.
Proof. intros E H. destruct (C26_u128_calls_return c i E) as (_ & A). destruct (A x H) as (v & B & _). now exists v. Qed.
Lemma shows_numbers i l bs : Forall2 (Spec_User.shows (i_ops1 i)) l bs -> exists vs, Forall2 (fun x v => to_u128 (i_ops1 i) x = Ret v) l vs.
Proof. induction 1 as [|x b l bs H _ (vs & IH)]; [exists []; constructor|]. exists (of_be b :: vs). constructor; [|exact IH]. unfold to_u128. unfold Spec_User.shows in H. now rewrite H. Qed.
Lemma t54_follows c : (exists i, impl_of c = Some i) -> t54 c = true.
Proof.
  intros H. apply impl_follows; [exact H|]. clear H. intros i E. assert (H1 : is_bytes 16 (firstn 16 abcd)) by (apply abcd_bytes; lia). assert (H2 : is_bytes 32 (firstn 32 abcd)) by (apply abcd_bytes; lia). assert (H4 : is_bytes 64 abcd) by (apply is_bytesb_correct; vm_compute; reflexivity).
  destruct (made1 c i E _ H1) as (x & Rx & -> & Sx). destruct (made2 c i E _ H2) as (x2 & R2 & -> & S2). destruct (made4 c i E _ H4) as (x4 & R4 & -> & S4).
  assert (K1 : is_bytes (key_len K128) (firstn 16 abcd)) by exact H1. assert (K2 : is_bytes (key_len K192) (firstn 24 abcd)) by (apply abcd_bytes; cbn; lia).
  destruct (C26_cipher_calls_return c i K128 E) as (Q & _). destruct (Q _ K1) as ((e & -> & Re) & _). clear Q. destruct (C26_cipher_calls_return c i K192 E) as (Q & _). destruct (Q _ K2) as (_ & (d & -> & Rd)). clear Q.
  destruct (keys_shown c i K128 E) as [Q _]. destruct (Q e Re) as (rks & SE). clear Q. destruct (keys_shown c i K192 E) as [_ Q]. destruct (Q d Rd) as (dks & SD). clear Q. apply shows_numbers in SE as (ve & SE). apply shows_numbers in SD as (vd & SD).
  destruct (numbers c i x E Rx) as (v & V). destruct (x2_to_pair i x2) as [a b] eqn:X2. destruct (x4_to_quad i x4) as [[[p q] r] s] eqn:X4.
  assert (RP : reach1 i a /\ reach1 i b) by (split; intros P1 P2 P4 PE PD A; pose proof (ac_x2_to_pair _ _ _ _ _ _ A x2 (R2 _ _ _ _ _ A)) as W; rewrite X2 in W; apply W).
  assert (RQ : reach1 i p /\ reach1 i q /\ reach1 i r /\ reach1 i s) by (repeat split; intros P1 P2 P4 PE PD A; pose proof (ac_x4_to_quad _ _ _ _ _ _ A x4 (R4 _ _ _ _ _ A)) as W; rewrite X4 in W; apply W).
  destruct RP as [Ra Rb]. destruct RQ as (Rp & Rq & Rr & Rs). destruct (numbers c i a E Ra) as (na & Va). destruct (numbers c i b E Rb) as (nb & Vb).
  destruct (numbers c i p E Rp) as (np & Vp). destruct (numbers c i q E Rq) as (nq & Vq). destruct (numbers c i r E Rr) as (nr & Vr). destruct (numbers c i s E Rs) as (ns & Vs).
  apply (forallb_ok _ (fun f => f = FOpts (f_alternate f) (f_width f))); [repeat constructor|]. intros [alt w] _.
  destruct (C54_blocks_to_any_sink c i x v alt w E Rx V) as (B1 & B2 & B3 & B4 & B5). destruct (Props_Fmt.C23_printed_forms c i x v alt w E Rx V) as (T1 & T2 & T3 & T4 & T5). rewrite T4 in T5.
  destruct (C54_wide_and_key_objects_to_any_sink c i K128 alt w E) as (W2 & W4 & WE & _). destruct (C54_wide_and_key_objects_to_any_sink c i K192 alt w E) as (_ & _ & _ & WD).
  destruct (Props_Fmt.C24_wide_debug c i alt w E) as (U2 & U4). destruct (Props_Fmt.C24_key_object_debug c i K128 alt w E) as (UE & _). destruct (Props_Fmt.C24_key_object_debug c i K192 alt w E) as (_ & UD).
  ands.
  - exact (obeys_follows _ _ _ B3 T3).
  - exact (obeys_follows _ _ _ B1 T1).
  - exact (obeys_follows _ _ _ B2 T2).
  - exact (obeys_follows _ _ _ B4 T4).
  - exact (obeys_follows _ _ _ B5 T5).
  - exact (obeys_follows _ _ _ (W2 x2 a b na nb R2 X2 Va Vb) (U2 x2 a b na nb R2 X2 Va Vb)).
  - exact (obeys_follows _ _ _ (W4 x4 p q r s np nq nr ns R4 X4 Vp Vq Vr Vs) (U4 x4 p q r s np nq nr ns R4 X4 Vp Vq Vr Vs)).
  - exact (obeys_follows _ _ _ (WE e ve Re SE) (UE e ve Re SE)).
  - exact (obeys_follows _ _ _ (WD d vd Rd SD) (UD d vd Rd SD)).
Qed.
