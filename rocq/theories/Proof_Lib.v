(** lib.rs over an implementation that refines a byte-level semantics. *)
From Coq Require Import Lia Arith.
From Verif Require Import Word Interface Fips197 Spec_Api Spec_Reach Model_Wide Model_Lib Proof_Word Proof_Fips Proof_Ok Proof_X86 Proof_Wide Proof_Sem.
Open Scope N_scope.

(** ** Byte-level algorithms *)
Definition b_chain (pre : option bop) (g : bop) (x : list N) (keys : list (list N)) : list N :=
  match pre with
  | None => match keys with [] => x | k0 :: r => fold_left g r (map2 N.lxor x k0) end
  | Some p => map2 N.lxor (fold_left p (removelast keys) x) (last keys [])
  end.
Definition b_run (pre : option bop) (g gl : bop) (nr : nat) (keys : list (list N)) (x : list N) : list N :=
  gl (b_chain pre g x (firstn nr keys)) (nth nr keys []).
Definition b_swap (g : list N -> list N) (l : list (list N)) : list (list N) :=
  let n := length l in
  map (fun j => if Nat.eqb j 0 || Nat.eqb j (n - 1) then nth (n - 1 - j) l [] else g (nth (n - 1 - j) l [])) (seq 0 n).

Definition good_keys (k : key_size) (rks : list (list N)) : Prop :=
  length rks = (nr_of k + 1)%nat /\ Forall (is_bytes 16) rks.

Lemma on_lanes_bcast m g ls k : bop_ok g -> Forall (is_bytes 16) ls -> length ls = m -> is_bytes 16 k ->
  on_lanes m g (concat ls) (bcast m k) = concat (map (fun y => g y k) ls).
Proof.
  intros Hg Hl <- Hk. unfold on_lanes. rewrite lanes_concat, lanes_bcast by assumption. f_equal.
  clear Hl. induction ls as [|y ls IH]; [reflexivity|]. cbn [length repeat map2 map]. now rewrite IH.
Qed.
Lemma Forall_map_bytes g ls k : bop_ok g -> Forall (is_bytes 16) ls -> is_bytes 16 k -> Forall (is_bytes 16) (map (fun y => g y k) ls).
Proof. intros Hg Hl Hk. induction Hl; cbn; constructor; auto. Qed.
Lemma fold_bcast m g l : forall ls, bop_ok g -> Forall (is_bytes 16) ls -> length ls = m -> Forall (is_bytes 16) l ->
  fold_left (on_lanes m g) (map (bcast m) l) (concat ls) = concat (map (fun y => fold_left g l y) ls).
Proof.
  induction l as [|k l IH]; intros ls Hg Hl Hm Hk.
  - cbn. now rewrite map_id.
  - inversion Hk; subst. cbn [map fold_left]. rewrite on_lanes_bcast by auto.
    rewrite IH; auto using Forall_map_bytes; [|now rewrite map_length]. now rewrite map_map.
Qed.
Lemma xor_bcast m ls k : Forall (is_bytes 16) ls -> length ls = m -> is_bytes 16 k ->
  map2 N.lxor (concat ls) (bcast m k) = concat (map (fun y => map2 N.lxor y k) ls).
Proof.
  intros Hl Hm Hk. rewrite (xor_as_lanes m).
  - apply on_lanes_bcast; auto using xor_bop.
  - rewrite <- Hm. apply concat_bytes, Hl.
  - apply bcast_bytes, Hk.
Qed.
Lemma removelast_map {A B} (f : A -> B) l : removelast (map f l) = map f (removelast l).
Proof. rewrite !removelast_firstn_pred, map_length, firstn_map. reflexivity. Qed.

Lemma foldg_bytes (g : bop) l z : bop_ok g -> Forall (is_bytes 16) l -> is_bytes 16 z -> is_bytes 16 (fold_left g l z).
Proof. intros Hg Hl. revert z. induction Hl; intros z Hz; [exact Hz|]. cbn [fold_left]. auto. Qed.
Definition pre_opt_ok (pre : option bop) : Prop := match pre with None => True | Some p => bop_ok p end.

(** All [m] lanes run the same chain. *)
Lemma s_chain_lanes m pre g ls keys : bop_ok g -> pre_opt_ok pre ->
  Forall (is_bytes 16) ls -> length ls = m -> Forall (is_bytes 16) keys -> keys <> [] ->
  s_chain m pre g (concat ls) (map (bcast m) keys) = Ret (concat (map (fun y => b_chain pre g y keys) ls)).
Proof.
  intros Hg Hp Hl Hm Hk Hne. destruct keys as [|k0 r]; [congruence|]. inversion Hk; subst. unfold s_chain, b_chain. destruct pre as [p|].
  - unfold s_chain_pre. rewrite removelast_map. cbn [map]. f_equal.
    assert (Hrl : Forall (is_bytes 16) (removelast (k0 :: r))) by (rewrite removelast_firstn_pred; now apply Forall_firstn').
    rewrite fold_bcast by auto. change (bcast (length ls) k0 :: map (bcast (length ls)) r) with (map (bcast (length ls)) (k0 :: r)).
    assert (E : last (map (bcast (length ls)) (k0 :: r)) [] = bcast (length ls) (last (k0 :: r) [])).
    { clear. revert k0. induction r as [|y r IH]; intros; [reflexivity|]. exact (IH y). }
    rewrite E, xor_bcast.
    + now rewrite map_map.
    + apply Forall_forall. intros y Hy. apply in_map_iff in Hy as (z & <- & Hz). apply foldg_bytes; [assumption|assumption|].
      rewrite Forall_forall in Hl. auto.
    + now rewrite map_length.
    + apply (Forall_last (is_bytes 16)); [assumption|discriminate].
  - cbn [map s_chain_post]. f_equal. rewrite xor_bcast by auto. rewrite fold_bcast.
    + now rewrite map_map.
    + assumption.
    + apply Forall_map_bytes; auto using xor_bop.
    + now rewrite map_length.
    + assumption.
Qed.
Lemma b_chain_bytes pre g x keys : bop_ok g -> pre_opt_ok pre ->
  is_bytes 16 x -> Forall (is_bytes 16) keys -> keys <> [] -> is_bytes 16 (b_chain pre g x keys).
Proof.
  intros Hg Hp Hx Hk Hne. unfold b_chain. destruct pre as [p|].
  - apply xor_bytes.
    + apply foldg_bytes; [assumption| |assumption]. rewrite removelast_firstn_pred. now apply Forall_firstn'.
    + now apply (Forall_last (is_bytes 16)).
  - destruct keys as [|k0 r]; [congruence|]. inversion Hk; subst. apply foldg_bytes; auto. now apply xor_bytes.
Qed.
Lemma Forall_nth' {A} (P : A -> Prop) l i d : Forall P l -> (i < length l)%nat -> P (nth i l d).
Proof. intros H Hi. rewrite Forall_forall in H. apply H, nth_In, Hi. Qed.

Lemma good_first k rks : good_keys k rks -> Forall (is_bytes 16) (firstn (nr_of k) rks) /\ firstn (nr_of k) rks <> [] /\ is_bytes 16 (nth (nr_of k) rks []).
Proof.
  intros [L F]. split; [now apply Forall_firstn'|split].
  - intros E. apply (f_equal (@length _)) in E. rewrite firstn_length, L in E. destruct k; cbn in E; lia.
  - apply (Forall_nth' (is_bytes 16)); [assumption|lia].
Qed.
Lemma b_run_bytes pre g gl k rks x : bop_ok g -> bop_ok gl -> pre_opt_ok pre -> good_keys k rks -> is_bytes 16 x ->
  is_bytes 16 (b_run pre g gl (nr_of k) rks x).
Proof.
  intros Hg Hgl Hp Hk Hx. destruct (good_first k rks Hk) as (H1 & H2 & H3). unfold b_run. apply Hgl; [|assumption].
  now apply b_chain_bytes.
Qed.

Lemma b_swap_good g k rks : (forall a, is_bytes 16 a -> is_bytes 16 (g a)) -> good_keys k rks -> good_keys k (b_swap g rks).
Proof.
  intros Hg [L F]. split.
  - unfold b_swap. now rewrite map_length, seq_length.
  - unfold b_swap. apply Forall_forall. intros y Hy. apply in_map_iff in Hy as (j & <- & Hj). apply in_seq in Hj.
    assert (is_bytes 16 (nth (length rks - 1 - j) rks [])) by (apply (Forall_nth' (is_bytes 16)); [assumption|lia]).
    destruct (_ || _); auto.
Qed.

Section Lib.
Context (i : impl) (f1 : list N -> T1 i) (f2 : list N -> T2 i) (f4 : list N -> T4 i) (s : sem).
Context (R : refines i f1 f2 f4 s) (S0 : sem_ok s).

Lemma s_pre1_ok dec : pre_opt_ok (s_pre1 s dec).
Proof. unfold pre_opt_ok, s_pre1. pose proof (so_pre _ S0) as H. destruct (s_pre s) as [[p q]|]; [|exact I]. destruct dec; tauto. Qed.

Definition pre_rel {T} (m : nat) (f : list N -> T) (pre : option (T -> T -> T)) (spre : option bop) : Prop :=
  match pre, spre with None, None => True | Some p, Some sp => bop_ok sp /\ lane_ok p m f sp | _, _ => False end.
Lemma pre1_ok dec : pre_rel 1 f1 (pre1 i dec) (s_pre1 s dec).
Proof.
  unfold pre_rel, pre1, s_pre1. pose proof (R_pre _ _ _ _ _ R) as H. pose proof (so_pre _ S0) as H'.
  destruct (i_pre_chain i) as [[p q]|], (s_pre s) as [[sp sq]|]; try contradiction; cbn; [|exact I].
  destruct dec; cbn [fst snd]; tauto.
Qed.
Lemma pre_pair_ok {A B} (fa : list N -> A) (fb : list N -> B) to_pair of_pair m p sp :
  (forall a b, is_bytes (16 * m) a -> is_bytes (16 * m) b -> to_pair (fb (a ++ b)) = (fa a, fa b)) ->
  (forall a b, is_bytes (16 * m) a -> is_bytes (16 * m) b -> of_pair (fa a, fa b) = fb (a ++ b)) ->
  bop_ok sp -> lane_ok p m fa sp -> lane_ok (pre_pair to_pair of_pair p) (m + m) fb sp.
Proof.
  intros Ht Ho Hs Hp a k Ha Hk. destruct (split_bytes m a Ha) as [A1 A2], (split_bytes m k Hk) as [K1 K2].
  rewrite <- (firstn_skipn (16 * m) a), <- (firstn_skipn (16 * m) k). unfold pre_pair. rewrite !Ht by assumption.
  rewrite !Hp by assumption. rewrite Ho by (apply on_lanes_bytes; assumption). now rewrite on_lanes_halves.
Qed.
Lemma pre2_ok dec : pre_rel 2 f2 (pre2 i dec) (s_pre1 s dec).
Proof.
  unfold pre_rel, pre2. pose proof (pre1_ok dec) as H. unfold pre_rel in H.
  destruct (pre1 i dec) as [p|], (s_pre1 s dec) as [sp|]; try contradiction; cbn [option_map']; [|exact I].
  destruct H as [H1 H2]. split; [assumption|]. apply (pre_pair_ok f1 f2 _ _ 1).
  - apply (R_x2_to_pair _ _ _ _ _ R).
  - apply (R_x2_of_pair _ _ _ _ _ R).
  - assumption.
  - assumption.
Qed.
Lemma pre4_ok dec : pre_rel 4 f4 (pre4 i dec) (s_pre1 s dec).
Proof.
  unfold pre_rel, pre4. pose proof (pre2_ok dec) as H. unfold pre_rel in H.
  destruct (pre2 i dec) as [p|], (s_pre1 s dec) as [sp|]; try contradiction; cbn [option_map']; [|exact I].
  destruct H as [H1 H2]. split; [assumption|]. apply (pre_pair_ok f2 f4 _ _ 2).
  - apply (R_x4_to_pair _ _ _ _ _ R).
  - apply (R_x4_of_pair _ _ _ _ _ R).
  - assumption.
  - assumption.
Qed.

Lemma chain_enc1_ok x keys : is_bytes 16 x -> Forall (is_bytes 16) keys ->
  chain_enc1 i (f1 x) (map f1 keys) = omap f1 (s_chain 1 (s_pre1 s false) (s_enc s) x keys).
Proof. intros Hx Hk. apply (chain_ok _ 1); [apply R|apply S0|apply R|apply pre1_ok|exact Hx|exact Hk]. Qed.
Lemma chain_dec1_ok x keys : is_bytes 16 x -> Forall (is_bytes 16) keys ->
  chain_dec1 i (f1 x) (map f1 keys) = omap f1 (s_chain 1 (s_pre1 s true) (s_dec s) x keys).
Proof. intros Hx Hk. apply (chain_ok _ 1); [apply R|apply S0|apply R|apply pre1_ok|exact Hx|exact Hk]. Qed.
Lemma chain_enc2_ok x keys : is_bytes 32 x -> Forall (is_bytes 32) keys ->
  chain_enc2 i (f2 x) (map f2 keys) = omap f2 (s_chain 2 (s_pre1 s false) (s_enc s) x keys).
Proof. intros Hx Hk. apply (chain_ok _ 2); [apply R|apply S0|apply R|apply pre2_ok|exact Hx|exact Hk]. Qed.
Lemma chain_dec2_ok x keys : is_bytes 32 x -> Forall (is_bytes 32) keys ->
  chain_dec2 i (f2 x) (map f2 keys) = omap f2 (s_chain 2 (s_pre1 s true) (s_dec s) x keys).
Proof. intros Hx Hk. apply (chain_ok _ 2); [apply R|apply S0|apply R|apply pre2_ok|exact Hx|exact Hk]. Qed.
Lemma chain_enc4_ok x keys : is_bytes 64 x -> Forall (is_bytes 64) keys ->
  chain_enc4 i (f4 x) (map f4 keys) = omap f4 (s_chain 4 (s_pre1 s false) (s_enc s) x keys).
Proof. intros Hx Hk. apply (chain_ok _ 4); [apply R|apply S0|apply R|apply pre4_ok|exact Hx|exact Hk]. Qed.
Lemma chain_dec4_ok x keys : is_bytes 64 x -> Forall (is_bytes 64) keys ->
  chain_dec4 i (f4 x) (map f4 keys) = omap f4 (s_chain 4 (s_pre1 s true) (s_dec s) x keys).
Proof. intros Hx Hk. apply (chain_ok _ 4); [apply R|apply S0|apply R|apply pre4_ok|exact Hx|exact Hk]. Qed.

(** ** run *)
Lemma lib_nr_ok k : lib_nr k = nr_of k. Proof. now destruct k. Qed.
Lemma run_ok {T} (o : ops T) m (f : list N -> T) chain pre (g gl : bop) last k rks x :
  (m > 0)%nat -> bop_ok g -> bop_ok gl -> pre_opt_ok pre ->
  (forall x keys, is_bytes (16 * m) x -> Forall (is_bytes (16 * m)) keys -> chain (f x) (map f keys) = omap f (s_chain m pre g x keys)) ->
  lane_ok last m f gl -> good_keys k rks -> is_bytes (16 * m) x ->
  run chain last k (map f (map (bcast m) rks)) (f x) = Ret (f (concat (map (b_run pre g gl (nr_of k) rks) (lanes m x)))).
Proof.
  intros Hm Hg Hgl Hp Hc Hl Hk Hx. destruct (good_first k rks Hk) as (H1 & H2 & H3). destruct Hk as [L F].
  unfold run. rewrite lib_nr_ok. unfold slice_to. rewrite !map_length, L.
  assert (E : (nr_of k <=? nr_of k + 1)%nat = true) by (apply Nat.leb_le; lia). rewrite E. cbn [bind].
  rewrite !firstn_map, Hc.
  - rewrite <- (concat_lanes m x) at 1 by apply Hx. pose proof (lanes_bytes m x Hx) as Hls.
    rewrite s_chain_lanes; [|assumption|assumption|assumption|apply lanes_length|assumption|assumption].
    cbn [omap bind]. unfold get. rewrite map_map, nth_error_map, (nth_error_nth' rks []) by lia. cbn [option_map bind].
    assert (Hb : Forall (is_bytes 16) (map (fun y => b_chain pre g y (firstn (nr_of k) rks)) (lanes m x))).
    { apply Forall_forall. intros y Hy. apply in_map_iff in Hy as (z & <- & Hz). apply b_chain_bytes; auto. rewrite Forall_forall in Hls. auto. }
    rewrite Hl.
    + rewrite on_lanes_bcast by (try assumption; rewrite map_length; apply lanes_length). now rewrite map_map.
    + pose proof (concat_bytes _ Hb) as B. rewrite map_length, lanes_length in B. exact B.
    + now apply bcast_bytes.
  - assumption.
  - apply Forall_forall. intros y Hy. apply in_map_iff in Hy as (z & <- & Hz). apply bcast_bytes. rewrite Forall_forall in H1. auto.
Qed.
Lemma bcast_1 k : bcast 1 k = k. Proof. apply app_nil_r. Qed.
Lemma bcast_2 k : bcast 2 k = k ++ k. Proof. unfold bcast. cbn. now rewrite app_nil_r. Qed.
Lemma bcast_4 k : bcast 4 k = k ++ k ++ k ++ k. Proof. unfold bcast. cbn. now rewrite app_nil_r. Qed.
Lemma map_bcast_1 l : map (bcast 1) l = l.
Proof. rewrite <- (map_id l) at 2. apply map_ext. apply bcast_1. Qed.
Lemma lanes_1 x : length x = 16%nat -> lanes 1 x = [x].
Proof. intros L. unfold lanes. cbn [chunks]. now rewrite firstn_all2 by lia. Qed.

Definition b_encrypt (k : key_size) := b_run (s_pre1 s false) (s_enc s) (s_enc_last s) (nr_of k).
Definition b_decrypt (k : key_size) := b_run (s_pre1 s true) (s_dec s) (s_dec_last s) (nr_of k).

Lemma x2_keys rks : Forall (is_bytes 16) rks -> map (x2_of_block i) (map f1 rks) = map f2 (map (bcast 2) rks).
Proof. intros H. induction H; [reflexivity|]. cbn [map]. rewrite (R_x2_of_block _ _ _ _ _ R), bcast_2 by assumption. now f_equal. Qed.
Lemma x4_keys rks : Forall (is_bytes 16) rks -> map (x4_of_block i) (map f1 rks) = map f4 (map (bcast 4) rks).
Proof. intros H. induction H; [reflexivity|]. cbn [map]. rewrite (R_x4_of_block _ _ _ _ _ R), bcast_4 by assumption. now f_equal. Qed.

Lemma encrypt_block_ok k rks x : good_keys k rks -> is_bytes 16 x ->
  encrypt_block i k (EncObj (map f1 rks)) (f1 x) = Ret (f1 (b_encrypt k rks x)).
Proof.
  intros Hk Hx. unfold encrypt_block. cbn [enc_keys]. rewrite <- (map_bcast_1 rks) at 1.
  rewrite (run_ok (i_ops1 i) 1 f1 _ (s_pre1 s false) (s_enc s) (s_enc_last s)); try apply S0; try apply R; try assumption; try lia; [|apply s_pre1_ok|apply chain_enc1_ok].
  rewrite lanes_1 by apply Hx. cbn [map concat]. now rewrite app_nil_r.
Qed.
Lemma decrypt_block_ok k rks x : good_keys k rks -> is_bytes 16 x ->
  decrypt_block i k (DecObj (map f1 rks)) (f1 x) = Ret (f1 (b_decrypt k rks x)).
Proof.
  intros Hk Hx. unfold decrypt_block. cbn [dec_keys]. rewrite <- (map_bcast_1 rks) at 1.
  rewrite (run_ok (i_ops1 i) 1 f1 _ (s_pre1 s true) (s_dec s) (s_dec_last s)); try apply S0; try apply R; try assumption; try lia; [|apply s_pre1_ok|apply chain_dec1_ok].
  rewrite lanes_1 by apply Hx. cbn [map concat]. now rewrite app_nil_r.
Qed.
Lemma encrypt_2_ok k rks x : good_keys k rks -> is_bytes 32 x ->
  encrypt_2_blocks i k (EncObj (map f1 rks)) (f2 x) = Ret (f2 (concat (map (b_encrypt k rks) (lanes 2 x)))).
Proof.
  intros Hk Hx. unfold encrypt_2_blocks. cbn [enc_keys]. rewrite x2_keys by apply Hk.
  apply (run_ok (i_ops2 i) 2 f2 _ (s_pre1 s false) (s_enc s) (s_enc_last s)); try apply S0; try apply R; try assumption; try lia; [apply s_pre1_ok|apply chain_enc2_ok].
Qed.
Lemma decrypt_2_ok k rks x : good_keys k rks -> is_bytes 32 x ->
  decrypt_2_blocks i k (DecObj (map f1 rks)) (f2 x) = Ret (f2 (concat (map (b_decrypt k rks) (lanes 2 x)))).
Proof.
  intros Hk Hx. unfold decrypt_2_blocks. cbn [dec_keys]. rewrite x2_keys by apply Hk.
  apply (run_ok (i_ops2 i) 2 f2 _ (s_pre1 s true) (s_dec s) (s_dec_last s)); try apply S0; try apply R; try assumption; try lia; [apply s_pre1_ok|apply chain_dec2_ok].
Qed.
Lemma encrypt_4_ok k rks x : good_keys k rks -> is_bytes 64 x ->
  encrypt_4_blocks i k (EncObj (map f1 rks)) (f4 x) = Ret (f4 (concat (map (b_encrypt k rks) (lanes 4 x)))).
Proof.
  intros Hk Hx. unfold encrypt_4_blocks. cbn [enc_keys]. rewrite x4_keys by apply Hk.
  apply (run_ok (i_ops4 i) 4 f4 _ (s_pre1 s false) (s_enc s) (s_enc_last s)); try apply S0; try apply R; try assumption; try lia; [apply s_pre1_ok|apply chain_enc4_ok].
Qed.
Lemma decrypt_4_ok k rks x : good_keys k rks -> is_bytes 64 x ->
  decrypt_4_blocks i k (DecObj (map f1 rks)) (f4 x) = Ret (f4 (concat (map (b_decrypt k rks) (lanes 4 x)))).
Proof.
  intros Hk Hx. unfold decrypt_4_blocks. cbn [dec_keys]. rewrite x4_keys by apply Hk.
  apply (run_ok (i_ops4 i) 4 f4 _ (s_pre1 s true) (s_dec s) (s_dec_last s)); try apply S0; try apply R; try assumption; try lia; [apply s_pre1_ok|apply chain_dec4_ok].
Qed.

(** ** key objects *)
Lemma swap_ok (h : T1 i -> T1 i) g k rks : (forall a, is_bytes 16 a -> h (f1 a) = f1 (g a)) -> good_keys k rks ->
  swap_round_keys i h (lib_nr k + 1) (map f1 rks) = Ret (map f1 (b_swap g rks)).
Proof.
  intros H [L F]. destruct k; cbn [nr_of Nat.add] in L; explode L; inv_forall;
    unfold swap_round_keys, b_swap;
    cbv [lib_nr Nat.add Nat.sub repeat get set seq ofold bind map nth_error length Nat.ltb Nat.leb firstn skipn app Nat.eqb orb nth];
    rewrite !H by assumption; reflexivity.
Qed.
Lemma enc_new_ok k key : is_bytes (key_len k) key -> enc_new i k key = Ret (EncObj (map f1 (s_keys s k key))).
Proof. intros H. unfold enc_new. now rewrite (R_keys _ _ _ _ _ R) by assumption. Qed.
Lemma decrypter_ok k rks : good_keys k rks -> decrypter i k (EncObj (map f1 rks)) = Ret (DecObj (map f1 (b_swap (s_imc s) rks))).
Proof. intros H. unfold decrypter, dec_round_keys. cbn [enc_keys]. rewrite (swap_ok _ (s_imc s)); [reflexivity|apply R|assumption]. Qed.
Lemma encrypter_ok k rks : good_keys k rks -> encrypter i k (DecObj (map f1 rks)) = Ret (EncObj (map f1 (b_swap (s_mc s) rks))).
Proof. intros H. unfold encrypter, enc_round_keys. cbn [dec_keys]. rewrite (swap_ok _ (s_mc s)); [reflexivity|apply R|assumption]. Qed.
Lemma keys_good k key : is_bytes (key_len k) key -> good_keys k (s_keys s k key).
Proof. intros H. destruct (so_keys _ S0 k key H). split; assumption. Qed.
Lemma dec_new_ok k key : is_bytes (key_len k) key -> dec_new i k key = Ret (DecObj (map f1 (b_swap (s_imc s) (s_keys s k key)))).
Proof. intros H. unfold dec_new. rewrite enc_new_ok by assumption. cbn [bind]. apply decrypter_ok. now apply keys_good. Qed.
End Lib.
