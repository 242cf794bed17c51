(** C33, C34, C28 on RV32, and C08 on RV32 refuted: exactly what the two non-conforming builds compute.
    [Spec_Actual] is the reference; where it differs from FIPS 197 the difference is the defect. *)
From Coq Require Import Lia Arith.
From Verif Require Import Word Interface Fips197 Spec_Api Spec_Reach Spec_Cfg Spec_User Spec_Actual Model_Lib Model_Cfg.
From Verif Require Import Proof_Word Proof_Fips Proof_Ok Proof_Sem Proof_Lib Proof_Reach Proof_Inst Proof_Cipher Proof_Main Proof_KeyGen Proof_Actual.
From Verif Require Import Samples Props_Rounds.
Open Scope N_scope.

(** All values of a list show the given byte strings. *)
Definition all_show {T} (o : ops T) (xs : list T) (bs : list (list N)) : Prop := Forall2 (shows o) xs bs.

Lemma all_show_map {T} (o : ops T) n f l : data_ok o n f -> Forall (is_bytes n) l -> all_show o (map f l) l.
Proof. intros D. induction 1; constructor; [now apply (to_bytes_ok o n)|assumption]. Qed.
Lemma all_show_inv {T} (o : ops T) n f l bs : data_ok o n f -> Forall (is_bytes n) l -> all_show o (map f l) bs -> bs = l.
Proof.
  intros D F. revert bs. induction F as [|b l Hb _ IH]; intros bs H; inversion H as [|? b' ? ? H1 H2]; subst; [reflexivity|].
  apply (shows_f o n f b b' D Hb) in H1. subst. f_equal. now apply IH.
Qed.
Lemma show_keys {T} (o : ops T) f rks : data_ok o 16 f -> Forall (is_bytes 16) rks ->
  fold_right (fun k r => b <- to_bytes o k ;; r' <- r ;; Ret (b :: r')) (Ret []) (map f rks) = Ret rks.
Proof. intros D. induction 1 as [|b l Hb _ IH]; [reflexivity|]. cbn [map fold_right]. rewrite (to_bytes_ok o 16 f b D Hb), IH. reflexivity. Qed.

(** ** C33: the RV32 key schedule *)
Theorem C33_rv32_key_schedule_exact : forall c i k key,
  impl_of c = Some i -> rv32_zk c = true -> is_bytes (key_len k) key ->
  key_bytes i k key = Ret (rv32_round_keys k key).
Proof.
  intros c i k key E C Hk. destruct (rv32_inst c i E C) as (f1 & f2 & f4 & R). pose proof rv32_exact_ok as S1.
  unfold key_bytes. rewrite (enc_new_ok _ _ _ _ _ R) by assumption. cbn [bind enc_keys].
  apply show_keys; [apply R|]. apply (so_keys _ S1 k key Hk).
Qed.
Print Assumptions C33_rv32_key_schedule_exact.
Example C33_rv32_key_schedule_exact_case : forall k, exists i, impl_of c_rv32 = Some i /\ key_bytes i k (fips_key k) = Ret (rv32_round_keys k (fips_key k)).
Proof. intros k. eexists. split; [reflexivity|]. apply (C33_rv32_key_schedule_exact c_rv32); auto with cases. Qed.

(** For AES-256 all round keys but the last are right. *)
Lemma expand_agree first nk c : forall s w0, (forall i t, (s <= i < s + c)%nat -> Nat.modulo i nk = 0%nat -> first (Nat.div i nk) t = std_first (Nat.div i nk) t) ->
  xexpand first nk c s w0 = xexpand std_first nk c s w0.
Proof.
  induction c as [|c IH]; intros s w0 H; [reflexivity|]. unfold xexpand. cbn [seq fold_left].
  assert (E : expand_step_with first nk w0 s = expand_step_with std_first nk w0 s).
  { unfold expand_step_with. destruct (Nat.eqb_spec (s mod nk) 0) as [Q|Q]; [|reflexivity]. rewrite H by (assumption || lia). reflexivity. }
  rewrite E. apply (IH (S s)). intros i t Hi. apply H. lia.
Qed.
Lemma kx_split first nk nr key n m : (n + m)%nat = (4 * (nr + 1) - nk)%nat ->
  key_expansion_with first nk nr key = xexpand first nk m (nk + n) (xexpand first nk n nk (chunks 4 nk key)).
Proof. intros H. rewrite <- xexpand_app, H. reflexivity. Qed.
Lemma kx_256 first key : key_expansion_with first (nk_of K256) (nr_of K256) key = xexpand first 8 4 56 (xexpand first 8 48 8 (chunks 4 8 key)).
Proof. exact (kx_split first 8 14 key 48 4 eq_refl). Qed.
Theorem C33_rv32_aes256_schedule_right_until_last : forall c i key,
  impl_of c = Some i -> rv32_zk c = true -> is_bytes 32 key ->
  exists rks, key_bytes i K256 key = Ret rks /\ firstn 14 rks = firstn 14 (round_keys K256 key).
Proof.
  intros c i key E C Hk. exists (rv32_round_keys K256 key). split; [now apply (C33_rv32_key_schedule_exact c)|].
  unfold rv32_round_keys. rewrite <- (round_keys_std K256 key). unfold round_keys_with. rewrite !firstn_map.
  apply map_ext_in. intros r Hr. change (firstn 14 (seq 0 (nr_of K256 + 1))) with (seq 0 14) in Hr. apply in_seq in Hr. unfold round_key.
  rewrite !kx_256. assert (A : xexpand (rv32_first K256) 8 48 8 (chunks 4 8 key) = xexpand std_first 8 48 8 (chunks 4 8 key)).
  { apply expand_agree. intros j t Hj M. unfold rv32_first, rv32_rotates.
    destruct (Nat.eqb_spec (j / 8) 7) as [Q|Q]; [|reflexivity]. pose proof (Nat.div_mod j 8 ltac:(lia)). lia. }
  rewrite A. apply (f_equal (@concat N)). set (w := xexpand std_first 8 48 8 (chunks 4 8 key)).
  assert (L : length w = 56%nat) by (unfold w; now rewrite xexpand_length by apply Proof_KeySpec.key_chunks_length).
  rewrite !(Proof_KeySpec.firstn_seq_nth []) by (rewrite xexpand_length by exact L; lia).
  apply map_ext_in. intros j Hj. apply in_seq in Hj. now rewrite !xexpand_prefix by (exact L || lia).
Qed.
Print Assumptions C33_rv32_aes256_schedule_right_until_last.
Example C33_rv32_aes256_schedule_right_until_last_case : exists i rks, impl_of c_rv32 = Some i /\ key_bytes i K256 (fips_key K256) = Ret rks /\
  firstn 14 rks = firstn 14 (round_keys K256 (fips_key K256)) /\ rks <> round_keys K256 (fips_key K256).
Proof.
  eexists. exists (rv32_round_keys K256 (fips_key K256)). split; [reflexivity|]. split; [apply (C33_rv32_key_schedule_exact c_rv32); auto with cases|].
  split; [vm_compute; reflexivity|]. vm_compute. discriminate.
Qed.

(** ** C33: the RV32 rounds *)
Theorem C33_rv32_rounds_exact : forall c i x k a b,
  impl_of c = Some i -> rv32_zk c = true -> reach1 i x -> reach1 i k ->
  shows (i_ops1 i) x a -> shows (i_ops1 i) k b ->
  shows (i_ops1 i) (o_dec (i_ops1 i) x k) (rv32_dec a b) /\
  shows (i_ops1 i) (o_dec_last (i_ops1 i) x k) (rv32_dec_last a b) /\
  shows (i_ops1 i) (e_mc (i_ext i) x) (rv32_mc a) /\
  shows (i_ops1 i) (e_imc (i_ext i) x) (rv32_imc a).
Proof.
  intros c i x k a b E C Hx Hk Sx Sk. destruct (rv32_inst c i E C) as (f1 & f2 & f4 & R). pose proof rv32_exact_ok as S1. unreach R S1.
  pose proof (R_d1 _ _ _ _ _ R) as D. unshow D.
  rewrite (ln1 _ f1 rv32_dec), (ln1 _ f1 rv32_dec_last) by (try assumption; apply R).
  rewrite (R_mc _ _ _ _ _ R), (R_imc _ _ _ _ _ R) by assumption. cbn [rv32_exact s_mc s_imc].
  split; [|split; [|split]]; apply (to_bytes_ok _ 16); try assumption;
    [now apply rv32_dec_bytes|now apply rv32_dec_last_bytes|now apply rv32_mc_bytes|now apply rv32_imc_bytes].
Qed.
Print Assumptions C33_rv32_rounds_exact.
Example C33_rv32_rounds_exact_case : forall k, with_values c_rv32 k (fun i u =>
  shows (i_ops1 i) (o_dec (i_ops1 i) (u_x u) (u_y u)) (rv32_dec fips_block other_block) /\ shows (i_ops1 i) (e_mc (i_ext i) (u_x u)) (rv32_mc fips_block)).
Proof. intros k. apply case_any; [apply in_app_iff; right; right; now left|]. intros i u E. destruct (C33_rv32_rounds_exact c_rv32 i (u_x u) (u_y u) fips_block other_block) as (A & _ & B & _); auto with cases. Qed.

(** They agree with the documentation on, and only on, blocks whose rows 1 and 3 repeat after two columns. *)
Definition rows_repeat (s : list N) : Prop := forall r c, (r = 1 \/ r = 3)%nat -> (c < 2)%nat -> st s r c = st s r (c + 2).
Lemma rows_repeat_16 b0 b1 b2 b3 b4 b5 b6 b7 b8 b9 b10 b11 b12 b13 b14 b15 : let s := [b0;b1;b2;b3;b4;b5;b6;b7;b8;b9;b10;b11;b12;b13;b14;b15] in
  (shift_rows s = inv_shift_rows s <-> rows_repeat s) /\ (shift_rows (shift_rows s) = s <-> rows_repeat s).
Proof.
  intros s. assert (Q : rows_repeat s <-> b1 = b9 /\ b5 = b13 /\ b3 = b11 /\ b7 = b15).
  { unfold rows_repeat, st. split.
    - intros A. pose proof (A 1%nat 0%nat ltac:(lia) ltac:(lia)). pose proof (A 1%nat 1%nat ltac:(lia) ltac:(lia)).
      pose proof (A 3%nat 0%nat ltac:(lia) ltac:(lia)). pose proof (A 3%nat 1%nat ltac:(lia) ltac:(lia)). cbn [s nth Nat.add Nat.mul] in *. auto.
    - intros (-> & -> & -> & ->) r c Hr Hc. destruct c as [|[|c]]; [| |lia]; destruct Hr as [-> | ->]; reflexivity. }
  rewrite Q. clear Q. subst s. rewrite !shift_rows_16, inv_shift_rows_16. split; split.
  - intros X. pose proof (f_equal (fun l => nth 1 l 0) X) as Y1. pose proof (f_equal (fun l => nth 5 l 0) X) as Y2. pose proof (f_equal (fun l => nth 3 l 0) X) as Y3. pose proof (f_equal (fun l => nth 7 l 0) X) as Y4. cbn [nth] in *. auto.
  - intros (-> & -> & -> & ->). reflexivity.
  - intros X. pose proof (f_equal (fun l => nth 1 l 0) X) as Y1. pose proof (f_equal (fun l => nth 5 l 0) X) as Y2. pose proof (f_equal (fun l => nth 3 l 0) X) as Y3. pose proof (f_equal (fun l => nth 7 l 0) X) as Y4. cbn [nth] in *. auto.
  - intros (-> & -> & -> & ->). reflexivity.
Qed.
Lemma rows_repeat_shift s : is_bytes 16 s -> (shift_rows s = inv_shift_rows s <-> rows_repeat s) /\ (shift_rows (shift_rows s) = s <-> rows_repeat s).
Proof. intros [L _]. explode L. apply rows_repeat_16. Qed.
Lemma ark_inj a b k : is_bytes 16 a -> is_bytes 16 b -> is_bytes 16 k -> add_round_key a k = add_round_key b k -> a = b.
Proof. intros Ha Hb Hk H. rewrite <- (ark_ark a k), <- (ark_ark b k) by (apply Ha || apply Hb || apply Hk). now rewrite H. Qed.
Lemma inv_sub_inj a b : bytes_ok a -> bytes_ok b -> inv_sub_bytes a = inv_sub_bytes b -> a = b.
Proof. intros Ha Hb H. rewrite <- (sub_inv_sub a Ha), <- (sub_inv_sub b Hb). now rewrite H. Qed.
Lemma inv_mix_inj a b : is_bytes 16 a -> is_bytes 16 b -> inv_mix_columns a = inv_mix_columns b -> a = b.
Proof. intros Ha Hb H. rewrite <- (mix_inv_mix a Ha), <- (mix_inv_mix b Hb). now rewrite H. Qed.
Lemma mix_inj a b : is_bytes 16 a -> is_bytes 16 b -> mix_columns a = mix_columns b -> a = b.
Proof. intros Ha Hb H. rewrite <- (inv_mix_mix a Ha), <- (inv_mix_mix b Hb). now rewrite H. Qed.
Theorem C33_rv32_rounds_agree_iff : forall c i x k a b,
  impl_of c = Some i -> rv32_zk c = true -> reach1 i x -> reach1 i k ->
  shows (i_ops1 i) x a -> shows (i_ops1 i) k b ->
  (shows (i_ops1 i) (o_dec (i_ops1 i) x k) (spec_dec a b) <-> rows_repeat a) /\
  (shows (i_ops1 i) (o_dec_last (i_ops1 i) x k) (spec_dec_last a b) <-> rows_repeat a) /\
  (shows (i_ops1 i) (e_mc (i_ext i) x) (mix_columns a) <-> rows_repeat a) /\
  (shows (i_ops1 i) (e_imc (i_ext i) x) (inv_mix_columns a) <-> rows_repeat a).
Proof.
  intros c i x k a b E C Hx Hk Sx Sk. destruct (C33_rv32_rounds_exact c i x k a b E C Hx Hk Sx Sk) as (S1 & S2 & S3 & S4).
  assert (Ba : is_bytes 16 a /\ is_bytes 16 b).
  { destruct (rv32_inst c i E C) as (f1 & f2 & f4 & R). pose proof rv32_exact_ok as Q. unreach R Q. pose proof (R_d1 _ _ _ _ _ R) as D. unshow D. split; assumption. }
  destruct Ba as [Ha Hb]. destruct (rows_repeat_shift a Ha) as [P1 P2].
  assert (G : forall y u v, shows (i_ops1 i) y u -> (shows (i_ops1 i) y v <-> u = v)).
  { intros y u v H. unfold shows in *. rewrite H. split; [apply ret_inj|now intros ->]. }
  rewrite (G _ _ _ S1), (G _ _ _ S2), (G _ _ _ S3), (G _ _ _ S4).
  pose proof (shift_rows_bytes a Ha) as B1. pose proof (shift_rows_bytes _ B1) as B2. pose proof (inv_shift_rows_bytes a Ha) as B3.
  pose proof (inv_sub_bytes_bytes 16 _ B1) as B4. pose proof (inv_sub_bytes_bytes 16 _ B3) as B5.
  split; [|split; [|split]].
  - rewrite <- P1. unfold rv32_dec, spec_dec. split; [|now intros ->].
    intros H. apply ark_inj in H; [|now apply inv_mix_columns_bytes|now apply inv_mix_columns_bytes|assumption]. apply inv_mix_inj in H; try assumption. apply inv_sub_inj in H; [assumption|apply B1|apply B3].
  - rewrite <- P1. unfold rv32_dec_last, spec_dec_last. split; [|now intros ->].
    intros H. apply ark_inj in H; try assumption. apply inv_sub_inj in H; [assumption|apply B1|apply B3].
  - rewrite <- P2. unfold rv32_mc. split; [|now intros ->]. now apply mix_inj.
  - rewrite <- P2. unfold rv32_imc. split; [|now intros ->]. now apply inv_mix_inj.
Qed.
Print Assumptions C33_rv32_rounds_agree_iff.
Example C33_rv32_rounds_agree_iff_case : forall k, with_values c_rv32 k (fun i u =>
  ~ shows (i_ops1 i) (e_mc (i_ext i) (u_x u)) (mix_columns fips_block)) /\ rows_repeat (repeat 7 16).
Proof.
  intros k. split.
  - apply case_any; [apply in_app_iff; right; right; now left|]. intros i u E.
    destruct (C33_rv32_rounds_agree_iff c_rv32 i (u_x u) (u_y u) fips_block other_block) as (_ & _ & B & _); auto with cases.
    rewrite B. intros H. specialize (H 1%nat 0%nat ltac:(lia) ltac:(lia)). vm_compute in H. discriminate.
  - intros r c Hr Hc. destruct c as [|[|c]]; [| |lia]; destruct Hr as [-> | ->]; reflexivity.
Qed.

(** ** C33: the RV32 chains, all three widths *)
Definition chain_shows {T} (o : ops T) (m : nat) (reach : T -> Prop) (ch : T -> list T -> outcome T) (round : list N -> list N -> list N) : Prop :=
  forall x ks a bs, reach x -> Forall reach ks -> ks <> [] -> shows o x a -> all_show o ks bs ->
  exists y, ch x ks = Ret y /\ shows o y (rv32_chain (on_lanes m round) a bs).
Lemma chain_shows_ok {T} (o : ops T) m (reach : T -> Prop) ch (f : list N -> T) (p g : bop) :
  data_ok o (16 * m) f -> bop_ok p -> (forall x, reach x -> img (16 * m) f x) ->
  (forall x ks, is_bytes (16 * m) x -> Forall (is_bytes (16 * m)) ks -> ch (f x) (map f ks) = omap f (s_chain m (Some p) g x ks)) ->
  chain_shows o m reach ch p.
Proof.
  intros D Hp Hr H x ks a bs Hx Hks Ne Sx Sk. destruct (Hr x Hx) as (b & B & ->). apply (shows_f o (16 * m) f b a D B) in Sx. subst a.
  assert (Hk' : Forall (img (16 * m) f) ks) by (eapply Forall_impl; [|exact Hks]; exact Hr). apply Forall_img in Hk' as (l & Fl & ->).
  apply (all_show_inv o (16 * m) f l bs D Fl) in Sk. subst bs. destruct l as [|k0 r]; [now contradiction Ne|].
  exists (f (map2 N.lxor (fold_left (on_lanes m p) (removelast (k0 :: r)) b) (last (k0 :: r) []))). split; [rewrite H by assumption; reflexivity|].
  apply (to_bytes_ok o (16 * m)); [assumption|]. apply xor_bytes.
  - apply fold_bytes; [assumption|assumption|]. rewrite removelast_firstn_pred. now apply Forall_firstn'.
  - apply (Forall_last (is_bytes (16 * m))); [assumption|discriminate].
Qed.
Theorem C33_rv32_chains_exact : forall c i,
  impl_of c = Some i -> rv32_zk c = true ->
  chain_shows (i_ops1 i) 1 (reach1 i) (chain_enc1 i) spec_enc /\ chain_shows (i_ops1 i) 1 (reach1 i) (chain_dec1 i) rv32_dec /\
  chain_shows (i_ops2 i) 2 (reach2 i) (chain_enc2 i) spec_enc /\ chain_shows (i_ops2 i) 2 (reach2 i) (chain_dec2 i) rv32_dec /\
  chain_shows (i_ops4 i) 4 (reach4 i) (chain_enc4 i) spec_enc /\ chain_shows (i_ops4 i) 4 (reach4 i) (chain_dec4 i) rv32_dec.
Proof.
  intros c i E C. destruct (rv32_inst c i E C) as (f1 & f2 & f4 & R). pose proof rv32_exact_ok as S1.
  pose proof spec_enc_bop as Be. pose proof rv32_dec_bytes as Bd.
  refine (conj _ (conj _ (conj _ (conj _ (conj _ _))))).
  - apply (chain_shows_ok _ 1 _ _ f1 _ spec_enc); [apply R|assumption|apply (reach1_img _ _ _ _ _ R S1)|apply (chain_enc1_ok _ _ _ _ _ R S1)].
  - apply (chain_shows_ok _ 1 _ _ f1 _ rv32_dec); [apply R|assumption|apply (reach1_img _ _ _ _ _ R S1)|apply (chain_dec1_ok _ _ _ _ _ R S1)].
  - apply (chain_shows_ok _ 2 _ _ f2 _ spec_enc); [apply R|assumption|apply (reach2_img _ _ _ _ _ R S1)|apply (chain_enc2_ok _ _ _ _ _ R S1)].
  - apply (chain_shows_ok _ 2 _ _ f2 _ rv32_dec); [apply R|assumption|apply (reach2_img _ _ _ _ _ R S1)|apply (chain_dec2_ok _ _ _ _ _ R S1)].
  - apply (chain_shows_ok _ 4 _ _ f4 _ spec_enc); [apply R|assumption|apply (reach4_img _ _ _ _ _ R S1)|apply (chain_enc4_ok _ _ _ _ _ R S1)].
  - apply (chain_shows_ok _ 4 _ _ f4 _ rv32_dec); [apply R|assumption|apply (reach4_img _ _ _ _ _ R S1)|apply (chain_dec4_ok _ _ _ _ _ R S1)].
Qed.
Print Assumptions C33_rv32_chains_exact.
Example C33_rv32_chains_exact_case : forall k, with_values c_rv32 k (fun i u =>
  exists y, chain_enc1 i (u_x u) [u_y u; u_x u] = Ret y /\ shows (i_ops1 i) y (add_round_key (spec_enc fips_block other_block) fips_block)).
Proof.
  intros k. apply case_any; [apply in_app_iff; right; right; now left|]. intros i u E. destruct (C33_rv32_chains_exact c_rv32 i E eq_refl) as (A & _).
  destruct (A (u_x u) [u_y u; u_x u] fips_block [other_block; fips_block]) as (y & Y & Z).
  - auto with cases.
  - repeat constructor; auto with cases.
  - discriminate.
  - auto with cases.
  - repeat constructor; auto with cases.
  - exists y. split; [exact Y|]. unfold rv32_chain in Z. cbn [removelast last fold_left] in Z. rewrite on_lanes_1 in Z by reflexivity. exact Z.
Qed.

(** ** C33: the RV32 ciphers *)
Theorem C33_rv32_ciphers_exact : forall c i k key p,
  impl_of c = Some i -> rv32_zk c = true -> is_bytes (key_len k) key -> is_bytes 16 p ->
  let rks := rv32_round_keys k key in
  encrypt_bytes i k key p = Ret (rv32_encrypt k rks p) /\
  decrypt_bytes i k key p = Ret (rv32_decrypt k (rv32_dec_keys rks) p) /\
  decrypt_bytes_via_enc i k key p = Ret (rv32_decrypt k (rv32_dec_keys rks) p).
Proof.
  intros c i k key p E C Hk Hp rks. destruct (rv32_inst c i E C) as (f1 & f2 & f4 & R). pose proof rv32_exact_ok as S1.
  pose proof (keys_good _ S1 k key Hk) as G. change (s_keys rv32_exact k key) with rks in G.
  assert (Gd : good_keys k (b_swap rv32_imc rks)) by (apply b_swap_good; [apply rv32_imc_bytes|assumption]).
  assert (P1 : pre_opt_ok (Some spec_enc)) by apply spec_enc_bop. assert (P2 : pre_opt_ok (Some rv32_dec)) by apply rv32_dec_bytes.
  split; [|split].
  - unfold encrypt_bytes. rewrite (enc_new_ok _ _ _ _ _ R) by assumption. cbn [bind]. rewrite (dk_from _ _ _ (R_d1 _ _ _ _ _ R)) by assumption. cbn [bind].
    change (s_keys rv32_exact k key) with rks. rewrite (encrypt_block_ok _ _ _ _ _ R S1) by assumption. cbn [bind]. rewrite <- rv32_b_encrypt by assumption.
    apply (to_bytes_ok _ 16); [apply R|]. apply b_run_bytes; try assumption; apply spec_enc_last_bop.
  - unfold decrypt_bytes. rewrite (dec_new_ok _ _ _ _ _ R S1) by assumption. cbn [bind]. rewrite (dk_from _ _ _ (R_d1 _ _ _ _ _ R)) by assumption. cbn [bind].
    change (s_keys rv32_exact k key) with rks. change (s_imc rv32_exact) with rv32_imc. rewrite (decrypt_block_ok _ _ _ _ _ R S1) by assumption. cbn [bind].
    rewrite <- (rv32_swap k) by assumption. refine (to_bytes_ok _ 16 _ _ (R_d1 _ _ _ _ _ R) _). apply b_run_bytes; try assumption; apply rv32_dec_last_bytes.
  - unfold decrypt_bytes_via_enc. rewrite (enc_new_ok _ _ _ _ _ R) by assumption. cbn [bind]. change (s_keys rv32_exact k key) with rks.
    rewrite (decrypter_ok _ _ _ _ _ R) by assumption. cbn [bind]. change (s_imc rv32_exact) with rv32_imc. rewrite (dk_from _ _ _ (R_d1 _ _ _ _ _ R)) by assumption. cbn [bind].
    rewrite (decrypt_block_ok _ _ _ _ _ R S1) by assumption. cbn [bind].
    rewrite <- (rv32_swap k) by assumption. refine (to_bytes_ok _ 16 _ _ (R_d1 _ _ _ _ _ R) _). apply b_run_bytes; try assumption; apply rv32_dec_last_bytes.
Qed.
Print Assumptions C33_rv32_ciphers_exact.
Example C33_rv32_ciphers_exact_case : exists i, impl_of c_rv32 = Some i /\
  encrypt_bytes i K128 (fips_key K128) fips_block = Ret (rv32_encrypt K128 (rv32_round_keys K128 (fips_key K128)) fips_block) /\
  rv32_encrypt K128 (rv32_round_keys K128 (fips_key K128)) fips_block <> aes_encrypt K128 (fips_key K128) fips_block.
Proof.
  destruct (impl_of c_rv32) as [i|] eqn:E; [|discriminate]. exists i. split; [reflexivity|].
  destruct (C33_rv32_ciphers_exact c_rv32 i K128 (fips_key K128) fips_block E eq_refl (fips_key_ok K128) fips_block_ok) as (A & _).
  split; [exact A|]. clear A. vm_compute. discriminate.
Qed.

(** ** C33, C30: conversions on RV32: a pair of encrypter/decrypter conversions does not give the object back, two pairs do *)
Theorem C33_rv32_conversions_twice : forall c i k,
  impl_of c = Some i -> rv32_zk c = true ->
  (forall e n, reachE i k e -> enc_round_trips i k (n + n) e = Ret e) /\
  (forall d n, reachD i k d -> dec_round_trips i k (n + n) d = Ret d) /\
  (forall key, is_bytes (key_len k) key -> dec_new i k key = (e <- enc_new i k key ;; decrypter i k e)).
Proof.
  intros c i k E C. destruct (rv32_inst c i E C) as (f1 & f2 & f4 & R). pose proof rv32_exact_ok as S1.
  pose proof rv32_imc_bytes as Bi. pose proof rv32_mc_bytes as Bm.
  assert (SS : forall g h rks, (forall a, is_bytes 16 a -> is_bytes 16 (g a)) -> (forall a, is_bytes 16 a -> is_bytes 16 (h a)) ->
    (forall a, is_bytes 16 a -> h (g (h (g a))) = a) -> good_keys k rks -> b_swap h (b_swap g (b_swap h (b_swap g rks))) = rks).
  { intros g h rks Hg Hh Q G. assert (Y : b_swap h (b_swap g rks) = b_swap (fun a => a) (b_swap (fun a => h (g a)) rks)).
    { destruct G as [L F]. destruct k; cbn in L; explode L; reflexivity. }
    rewrite Y. assert (Y2 : b_swap h (b_swap g (b_swap (fun a => a) (b_swap (fun a => h (g a)) rks))) = b_swap (fun a => h (g a)) (b_swap (fun a => h (g a)) rks)).
    { destruct G as [L F]. destruct k; cbn in L; explode L; reflexivity. }
    rewrite Y2. now apply (b_swap_swap _ _ k). }
  split; [|split].
  - intros e n He. unreach R S1. induction n as [|n IH]; [reflexivity|]. rewrite Nat.add_succ_r, Nat.add_succ_l. cbn [enc_round_trips].
    assert (G1 : good_keys k (b_swap rv32_imc rks)) by now apply b_swap_good. assert (G2 : good_keys k (b_swap rv32_mc (b_swap rv32_imc rks))) by now apply b_swap_good.
    assert (G3 : good_keys k (b_swap rv32_imc (b_swap rv32_mc (b_swap rv32_imc rks)))) by now apply b_swap_good.
    rewrite (decrypter_ok _ _ _ _ _ R) by assumption. cbn [bind rv32_exact s_imc]. rewrite (encrypter_ok _ _ _ _ _ R) by assumption. cbn [bind rv32_exact s_mc].
    rewrite (decrypter_ok _ _ _ _ _ R) by assumption. cbn [bind rv32_exact s_imc]. rewrite (encrypter_ok _ _ _ _ _ R) by assumption. cbn [bind rv32_exact s_mc].
    rewrite SS; try assumption; apply rv32_mc_imc_twice.
  - intros d n Hd. unreach R S1. induction n as [|n IH]; [reflexivity|]. rewrite Nat.add_succ_r, Nat.add_succ_l. cbn [dec_round_trips].
    assert (G1 : good_keys k (b_swap rv32_mc rks)) by now apply b_swap_good. assert (G2 : good_keys k (b_swap rv32_imc (b_swap rv32_mc rks))) by now apply b_swap_good.
    assert (G3 : good_keys k (b_swap rv32_mc (b_swap rv32_imc (b_swap rv32_mc rks)))) by now apply b_swap_good.
    rewrite (encrypter_ok _ _ _ _ _ R) by assumption. cbn [bind rv32_exact s_mc]. rewrite (decrypter_ok _ _ _ _ _ R) by assumption. cbn [bind rv32_exact s_imc].
    rewrite (encrypter_ok _ _ _ _ _ R) by assumption. cbn [bind rv32_exact s_mc]. rewrite (decrypter_ok _ _ _ _ _ R) by assumption. cbn [bind rv32_exact s_imc].
    rewrite SS; try assumption; apply rv32_imc_mc_twice.
  - reflexivity.
Qed.
Print Assumptions C33_rv32_conversions_twice.
Example C33_rv32_conversions_twice_case : forall k, with_values c_rv32 k (fun i u => enc_round_trips i k 2 (u_enc u) = Ret (u_enc u) /\ dec_round_trips i k 6 (u_dec u) = Ret (u_dec u)).
Proof.
  intros k. apply case_any; [apply in_app_iff; right; right; now left|]. intros i u E. destruct (C33_rv32_conversions_twice c_rv32 i k E eq_refl) as (A & B & _).
  split; [apply (A _ 1%nat)|apply (B _ 3%nat)]; auto with cases.
Qed.
(** One pair of conversions does change it: C08 as stated is false of this backend. *)
Theorem C30_rv32_conversions_refuted : forall k,
  ~ (forall c i, impl_of c = Some i -> rv32_zk c = true -> forall e, reachE i k e -> enc_round_trips i k 1 e = Ret e).
Proof.
  intros k H. destruct (impl_of c_rv32) as [i|] eqn:E; [|discriminate]. pose proof rv32_exact_ok as S1.
  assert (Hk : is_bytes (key_len k) (fips_key k)) by auto with cases.
  assert (Q : exists e, enc_new i k (fips_key k) = Ret e).
  { destruct (rv32_inst c_rv32 i E eq_refl) as (f1 & f2 & f4 & R). eexists. now apply (enc_new_ok _ _ _ _ _ R). }
  destruct Q as (e & N1). assert (Re : reachE i k e) by (eapply (ac_enc_new _ _ _ _ _ _ (reach_closed i)); eassumption).
  specialize (H c_rv32 i E eq_refl e Re).
  destruct (rv32_inst c_rv32 i E eq_refl) as (f1 & f2 & f4 & R). rewrite (enc_new_ok _ _ _ _ _ R) in N1 by assumption. apply ret_inj in N1. subst e.
  change (s_keys rv32_exact k (fips_key k)) with (rv32_round_keys k (fips_key k)) in *.
  pose proof (keys_good _ S1 k (fips_key k) Hk) as G. change (s_keys rv32_exact k (fips_key k)) with (rv32_round_keys k (fips_key k)) in G. cbn [enc_round_trips] in H.
  assert (G1 : good_keys k (b_swap rv32_imc (rv32_round_keys k (fips_key k)))) by (apply b_swap_good; [apply rv32_imc_bytes|assumption]).
  assert (G2 : good_keys k (b_swap rv32_mc (b_swap rv32_imc (rv32_round_keys k (fips_key k))))) by (apply b_swap_good; [apply rv32_mc_bytes|assumption]).
  rewrite (decrypter_ok _ _ _ _ _ R) in H by assumption. cbn [bind rv32_exact s_imc] in H. rewrite (encrypter_ok _ _ _ _ _ R) in H by assumption. cbn [bind rv32_exact s_mc] in H.
  apply ret_inj in H. apply (f_equal enc_keys) in H. cbn [enc_keys] in H.
  assert (I : forall l l', Forall (is_bytes 16) l -> Forall (is_bytes 16) l' -> map f1 l = map f1 l' -> l = l').
  { intros l l' F. revert l'. induction F as [|a l Ha _ IH]; intros l' F' M; destruct F' as [|a' l' Ha' F']; try discriminate; [reflexivity|].
    cbn [map] in M. injection M as M1 M2. apply (f_inj _ 16 _ _ _ (R_d1 _ _ _ _ _ R)) in M1; [|assumption|assumption]. subst. f_equal. now apply IH. }
  apply I in H; [|apply G2|apply G]. clear - H. destruct k; vm_compute in H; discriminate.
Qed.
Print Assumptions C30_rv32_conversions_refuted.

(** ** C28 on RV32: even there the rounds and ciphers are permutations *)
Definition bij (g : list N -> list N) : Prop := exists g', forall a, is_bytes 16 a -> is_bytes 16 (g a) /\ is_bytes 16 (g' a) /\ g' (g a) = a /\ g (g' a) = a.
Lemma bij_comp g h : bij g -> bij h -> bij (fun x => h (g x)).
Proof.
  intros [g' G] [h' H]. exists (fun x => g' (h' x)). intros a Ha. destruct (G a Ha) as (G1 & G2 & G3 & G4). destruct (H a Ha) as (H1 & H2 & H3 & H4).
  destruct (H _ G1) as (K1 & K2 & K3 & K4). destruct (G _ H2) as (J1 & J2 & J3 & J4). rewrite K3, J4. auto.
Qed.
Lemma bij_fold p ks : (forall k, is_bytes 16 k -> bij (fun x => p x k)) -> Forall (is_bytes 16) ks -> bij (fun x => fold_left p ks x).
Proof.
  intros H F. induction F as [|k ks Hk F IH]; [exists (fun x => x); auto|]. apply (bij_comp (fun x => p x k) (fun x => fold_left p ks x)); auto.
Qed.
Lemma bij_ark k : is_bytes 16 k -> bij (fun x => map2 N.lxor x k).
Proof. intros Hk. exists (fun x => map2 N.lxor x k). intros a Ha. rewrite (xor_xor 16) by (apply Ha || apply Hk). pose proof (xor_bytes 16 a k Ha Hk). auto. Qed.
Lemma bij_shift : bij shift_rows.
Proof. exists inv_shift_rows. intros a Ha. rewrite shift_inv_shift, inv_shift_shift by apply Ha. pose proof (shift_rows_bytes a Ha). pose proof (inv_shift_rows_bytes a Ha). auto. Qed.
Lemma bij_sub : bij sub_bytes.
Proof. exists inv_sub_bytes. intros a Ha. rewrite sub_inv_sub, inv_sub_sub by apply Ha. pose proof (sub_bytes_bytes 16 a Ha). pose proof (inv_sub_bytes_bytes 16 a Ha). auto. Qed.
Lemma bij_inv_sub : bij inv_sub_bytes.
Proof. exists sub_bytes. intros a Ha. rewrite sub_inv_sub, inv_sub_sub by apply Ha. pose proof (sub_bytes_bytes 16 a Ha). pose proof (inv_sub_bytes_bytes 16 a Ha). auto. Qed.
Lemma bij_mix : bij mix_columns.
Proof. exists inv_mix_columns. intros a Ha. rewrite mix_inv_mix, inv_mix_mix by assumption. pose proof (mix_columns_bytes a Ha). pose proof (inv_mix_columns_bytes a Ha). auto. Qed.
Lemma bij_inv_mix : bij inv_mix_columns.
Proof. exists mix_columns. intros a Ha. rewrite mix_inv_mix, inv_mix_mix by assumption. pose proof (mix_columns_bytes a Ha). pose proof (inv_mix_columns_bytes a Ha). auto. Qed.
Lemma bij_enc k : is_bytes 16 k -> bij (fun x => spec_enc x k).
Proof. intros Hk. apply (bij_comp (fun x => mix_columns (sub_bytes (shift_rows x))) _ (bij_comp (fun x => sub_bytes (shift_rows x)) _ (bij_comp _ _ bij_shift bij_sub) bij_mix) (bij_ark k Hk)). Qed.
Lemma bij_enc_last k : is_bytes 16 k -> bij (fun x => spec_enc_last x k).
Proof. intros Hk. apply (bij_comp (fun x => sub_bytes (shift_rows x)) _ (bij_comp _ _ bij_shift bij_sub) (bij_ark k Hk)). Qed.
Lemma bij_rv32_dec k : is_bytes 16 k -> bij (fun x => rv32_dec x k).
Proof. intros Hk. apply (bij_comp (fun x => inv_mix_columns (inv_sub_bytes (shift_rows x))) _ (bij_comp (fun x => inv_sub_bytes (shift_rows x)) _ (bij_comp _ _ bij_shift bij_inv_sub) bij_inv_mix) (bij_ark k Hk)). Qed.
Lemma bij_rv32_dec_last k : is_bytes 16 k -> bij (fun x => rv32_dec_last x k).
Proof. intros Hk. apply (bij_comp (fun x => inv_sub_bytes (shift_rows x)) _ (bij_comp _ _ bij_shift bij_inv_sub) (bij_ark k Hk)). Qed.
Lemma bij_rv32_mc : bij rv32_mc.
Proof. apply (bij_comp (fun x => shift_rows (shift_rows x)) _ (bij_comp _ _ bij_shift bij_shift) bij_mix). Qed.
Lemma bij_rv32_imc : bij rv32_imc.
Proof. apply (bij_comp (fun x => shift_rows (shift_rows x)) _ (bij_comp _ _ bij_shift bij_shift) bij_inv_mix). Qed.
Lemma bij_run p g gl k rks : (forall q, is_bytes 16 q -> bij (fun x => p x q)) -> (forall q, is_bytes 16 q -> bij (fun x => gl x q)) ->
  good_keys k rks -> bij (b_run (Some p) g gl (nr_of k) rks).
Proof.
  intros Hp Hl G. destruct (good_first k rks G) as (F & Ne & Hn). unfold b_run, b_chain.
  apply (bij_comp (fun x => map2 N.lxor (fold_left p (removelast (firstn (nr_of k) rks)) x) (last (firstn (nr_of k) rks) [])) (fun y => gl y (nth (nr_of k) rks []))); [|now apply Hl].
  apply (bij_comp (fun x => fold_left p (removelast (firstn (nr_of k) rks)) x) (fun y => map2 N.lxor y (last (firstn (nr_of k) rks) []))).
  - apply bij_fold; [assumption|]. rewrite removelast_firstn_pred. now apply Forall_firstn'.
  - apply bij_ark. now apply (Forall_last (is_bytes 16)).
Qed.
Lemma bij_on {T} (f : list N -> T) (o : ops T) (P : T -> Prop) (g : list N -> list N) h : data_ok o 16 f -> (forall x, P x <-> img 16 f x) ->
  bij g -> (forall a, is_bytes 16 a -> h (f a) = f (g a)) -> bijective_on P h.
Proof.
  intros D Hp [g' Hg] Hh. split; [|split].
  - intros x Hx. apply Hp in Hx as (b & B & ->). apply Hp. rewrite Hh by assumption. exists (g b). split; [now apply Hg|reflexivity].
  - intros x y Hx Hy Q. apply Hp in Hx as (b & B & ->). apply Hp in Hy as (d & Bd & ->). rewrite !Hh in Q by assumption. apply (f_inj _ 16 _ _ _ D) in Q; [|now apply Hg|now apply Hg].
    destruct (Hg b B) as (_ & _ & Q1 & _), (Hg d Bd) as (_ & _ & Q2 & _). congruence.
  - intros y Hy. apply Hp in Hy as (b & B & ->). destruct (Hg b B) as (_ & Q1 & _ & Q2). exists (f (g' b)). split; [apply Hp; now exists (g' b)|]. rewrite Hh by assumption. now rewrite Q2.
Qed.
Theorem C28_rv32_rounds_are_permutations : forall c i k,
  impl_of c = Some i -> rv32_zk c = true -> reach1 i k ->
  bijective_on (reach1 i) (fun x => o_enc (i_ops1 i) x k) /\
  bijective_on (reach1 i) (fun x => o_dec (i_ops1 i) x k) /\
  bijective_on (reach1 i) (fun x => o_enc_last (i_ops1 i) x k) /\
  bijective_on (reach1 i) (fun x => o_dec_last (i_ops1 i) x k) /\
  bijective_on (reach1 i) (e_mc (i_ext i)) /\ bijective_on (reach1 i) (e_imc (i_ext i)).
Proof.
  intros c i k E C Hk. destruct (rv32_inst c i E C) as (f1 & f2 & f4 & R). pose proof rv32_exact_ok as S1. pose proof (R_d1 _ _ _ _ _ R) as D.
  assert (P : forall x, reach1 i x <-> img 16 f1 x).
  { intros x. split; [apply (reach1_img _ _ _ _ _ R S1)|]. intros (b & B & ->). now apply (img_reach1 _ _ _ _ _ R). }
  unreach R S1. split; [|split; [|split; [|split; [|split]]]].
  - apply (bij_on f1 _ _ (fun x => spec_enc x b) _ D P); [now apply bij_enc|]. intros a Ha. apply ln1; try assumption. apply R.
  - apply (bij_on f1 _ _ (fun x => rv32_dec x b) _ D P); [now apply bij_rv32_dec|]. intros a Ha. apply ln1; try assumption. apply R.
  - apply (bij_on f1 _ _ (fun x => spec_enc_last x b) _ D P); [now apply bij_enc_last|]. intros a Ha. apply ln1; try assumption. apply R.
  - apply (bij_on f1 _ _ (fun x => rv32_dec_last x b) _ D P); [now apply bij_rv32_dec_last|]. intros a Ha. apply ln1; try assumption. apply R.
  - apply (bij_on f1 _ _ rv32_mc _ D P); [apply bij_rv32_mc|apply R].
  - apply (bij_on f1 _ _ rv32_imc _ D P); [apply bij_rv32_imc|apply R].
Qed.
Print Assumptions C28_rv32_rounds_are_permutations.
Example C28_rv32_rounds_are_permutations_case : forall k, with_values c_rv32 k (fun i u =>
  o_dec (i_ops1 i) (u_x u) (u_y u) <> o_dec (i_ops1 i) (u_y u) (u_y u) /\ e_mc (i_ext i) (u_x u) <> e_mc (i_ext i) (u_y u)).
Proof.
  intros k. apply case_any; [apply in_app_iff; right; right; now left|]. intros i u E.
  destruct (C28_rv32_rounds_are_permutations c_rv32 i (u_y u) E eq_refl (u_reach_y _ _ u)) as (_ & (_ & A & _) & _ & _ & (_ & B & _) & _).
  split; intros X; apply (u_differ _ _ u); [apply A|apply B]; auto with cases.
Qed.
Theorem C28_rv32_ciphers_are_permutations : forall c i k e d,
  impl_of c = Some i -> rv32_zk c = true -> reachE i k e -> reachD i k d ->
  (exists p, bijective_on (reach1 i) p /\ forall x, reach1 i x -> encrypt_block i k e x = Ret (p x)) /\
  (exists p, bijective_on (reach1 i) p /\ forall x, reach1 i x -> decrypt_block i k d x = Ret (p x)).
Proof.
  intros c i k e d E C He Hd. destruct (rv32_inst c i E C) as (f1 & f2 & f4 & R). pose proof rv32_exact_ok as S1. pose proof (R_d1 _ _ _ _ _ R) as D.
  assert (P : forall x, reach1 i x <-> img 16 f1 x).
  { intros x. split; [apply (reach1_img _ _ _ _ _ R S1)|]. intros (b & B & ->). now apply (img_reach1 _ _ _ _ _ R). }
  unreach R S1. split.
  - exists (fun x => match encrypt_block i k (EncObj (map f1 rks)) x with Ret y => y | _ => x end). split.
    + apply (bij_on f1 _ _ (b_encrypt rv32_exact k rks) _ D P); [apply bij_run; [apply bij_enc|apply bij_enc_last|assumption]|].
      intros a Ha. now rewrite (encrypt_block_ok _ _ _ _ _ R S1) by assumption.
    + intros x Hx. unreach R S1. now rewrite (encrypt_block_ok _ _ _ _ _ R S1) by assumption.
  - exists (fun x => match decrypt_block i k (DecObj (map f1 rks0)) x with Ret y => y | _ => x end). split.
    + apply (bij_on f1 _ _ (b_decrypt rv32_exact k rks0) _ D P); [apply bij_run; [apply bij_rv32_dec|apply bij_rv32_dec_last|assumption]|].
      intros a Ha. now rewrite (decrypt_block_ok _ _ _ _ _ R S1) by assumption.
    + intros x Hx. unreach R S1. now rewrite (decrypt_block_ok _ _ _ _ _ R S1) by assumption.
Qed.
Print Assumptions C28_rv32_ciphers_are_permutations.
Example C28_rv32_ciphers_are_permutations_case : forall k, with_values c_rv32 k (fun i u => encrypt_block i k (u_enc u) (u_x u) <> encrypt_block i k (u_enc u) (u_y u)).
Proof.
  intros k. apply case_any; [apply in_app_iff; right; right; now left|]. intros i u E.
  destruct (C28_rv32_ciphers_are_permutations c_rv32 i k (u_enc u) (u_dec u) E eq_refl) as ((p & (_ & I & _) & A) & _); auto with cases.
  rewrite !A by auto with cases. intros X. apply (u_differ _ _ u), I; auto with cases. now apply ret_inj in X.
Qed.

(** ** C34: the big-endian constant-time build *)
Theorem C34_be_key_schedule_exact : forall c i k key,
  rustc_ok c = true -> impl_of c = Some i -> be_constant_time c = true -> is_bytes (key_len k) key ->
  key_bytes i k key = Ret (be_round_keys k key).
Proof.
  intros c i k key O E C Hk. destruct (be_inst c i O E C) as (f1 & f2 & f4 & R). pose proof be_exact_ok as S1.
  unfold key_bytes. rewrite (enc_new_ok _ _ _ _ _ R) by assumption. cbn [bind enc_keys].
  apply show_keys; [apply R|]. apply (so_keys _ S1 k key Hk).
Qed.
Print Assumptions C34_be_key_schedule_exact.
Example C34_be_key_schedule_exact_case : forall k, exists i, impl_of c_ct_be = Some i /\ key_bytes i k (fips_key k) = Ret (be_round_keys k (fips_key k)).
Proof. intros k. eexists. split; [reflexivity|]. apply (C34_be_key_schedule_exact c_ct_be); auto with cases. Qed.
(** Apart from the round keys it is AES: CIPHER and INVCIPHER run on the wrong schedule. *)
Theorem C34_be_ciphers_exact : forall c i k key p,
  rustc_ok c = true -> impl_of c = Some i -> be_constant_time c = true -> is_bytes (key_len k) key -> is_bytes 16 p ->
  encrypt_bytes i k key p = Ret (cipher_with k (be_round_keys k key) p) /\
  decrypt_bytes i k key p = Ret (inv_cipher_with k (be_round_keys k key) p) /\
  decrypt_bytes_via_enc i k key p = Ret (inv_cipher_with k (be_round_keys k key) p).
Proof.
  intros c i k key p O E C Hk Hp. destruct (be_inst c i O E C) as (f1 & f2 & f4 & R). pose proof be_exact_ok as S1.
  pose proof (keys_good _ S1 k key Hk) as G. change (s_keys be_exact k key) with (be_round_keys k key) in G.
  assert (Gd : good_keys k (b_swap inv_mix_columns (be_round_keys k key))) by (apply b_swap_good; [apply inv_mix_columns_bytes|assumption]).
  assert (P : pre_fips None) by now left.
  rewrite cipher_with_g, inv_cipher_with_g by assumption.
  rewrite <- (b_encrypt_cipher None be_round_keys) by assumption. rewrite <- (b_decrypt_cipher None be_round_keys) by assumption.
  change (fips_sem None be_round_keys) with be_exact.
  assert (B1 : is_bytes 16 (b_encrypt be_exact k (be_round_keys k key) p)) by (apply b_run_bytes; [apply S1|apply S1|exact I|assumption|assumption]).
  assert (B2 : is_bytes 16 (b_decrypt be_exact k (b_swap inv_mix_columns (be_round_keys k key)) p)) by (apply b_run_bytes; [apply S1|apply S1|exact I|assumption|assumption]).
  split; [|split].
  - unfold encrypt_bytes. rewrite (enc_new_ok _ _ _ _ _ R) by assumption. cbn [bind]. rewrite (dk_from _ _ _ (R_d1 _ _ _ _ _ R)) by assumption. cbn [bind].
    change (s_keys be_exact k key) with (be_round_keys k key). rewrite (encrypt_block_ok _ _ _ _ _ R S1) by assumption. cbn [bind]. apply (to_bytes_ok _ 16); [apply R|assumption].
  - unfold decrypt_bytes. rewrite (dec_new_ok _ _ _ _ _ R S1) by assumption. cbn [bind]. rewrite (dk_from _ _ _ (R_d1 _ _ _ _ _ R)) by assumption. cbn [bind].
    change (s_keys be_exact k key) with (be_round_keys k key). change (s_imc be_exact) with inv_mix_columns. rewrite (decrypt_block_ok _ _ _ _ _ R S1) by assumption. cbn [bind].
    apply (to_bytes_ok _ 16); [apply R|assumption].
  - unfold decrypt_bytes_via_enc. rewrite (enc_new_ok _ _ _ _ _ R) by assumption. cbn [bind]. change (s_keys be_exact k key) with (be_round_keys k key).
    rewrite (decrypter_ok _ _ _ _ _ R) by assumption. cbn [bind]. change (s_imc be_exact) with inv_mix_columns. rewrite (dk_from _ _ _ (R_d1 _ _ _ _ _ R)) by assumption. cbn [bind].
    rewrite (decrypt_block_ok _ _ _ _ _ R S1) by assumption. cbn [bind]. apply (to_bytes_ok _ 16); [apply R|assumption].
Qed.
Print Assumptions C34_be_ciphers_exact.
Example C34_be_ciphers_exact_case : exists i, impl_of c_ct_be = Some i /\
  encrypt_bytes i K192 (fips_key K192) fips_block = Ret (cipher_with K192 (be_round_keys K192 (fips_key K192)) fips_block) /\
  cipher_with K192 (be_round_keys K192 (fips_key K192)) fips_block <> aes_encrypt K192 (fips_key K192) fips_block /\
  cipher_with K192 (round_keys K192 (fips_key K192)) fips_block = aes_encrypt K192 (fips_key K192) fips_block.
Proof.
  destruct (impl_of c_ct_be) as [i|] eqn:E; [|discriminate]. exists i. split; [reflexivity|].
  destruct (C34_be_ciphers_exact c_ct_be i K192 (fips_key K192) fips_block eq_refl E eq_refl (fips_key_ok K192) fips_block_ok) as (A & _).
  split; [exact A|]. clear A. split; [vm_compute; discriminate|vm_compute; reflexivity].
Qed.
