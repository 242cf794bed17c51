(** A backend written as an [engine] (Model_Leak.v) whose expressions compute a byte-level semantics
    ([sem], Proof_Sem.v) gives programs that compute what lib.rs over that semantics computes. *)
From Coq Require Import Lia Arith String.
From Coq Require Import List.
From Verif Require Import Word Interface Fips197 Spec_Api Spec_User Spec_Leak Model_Lib Model_Cfg Model_Bitslice Model_Leak.
From Verif Require Import Proof_Shape Proof_Word Proof_Fips Proof_Ok Proof_Sem Proof_Lib Proof_Wide Proof_Lanes Proof_X86 Proof_Inst Proof_Bitslice Proof_Leak Proof_LeakRun.
Open Scope string_scope.
Open Scope list_scope.
Open Scope N_scope.

Definition computes1 (e : exp -> exp) (f : N -> N) : Prop := forall st a, value st (e a) = f (value st a).
Lemma of_ne_bytes' be n b : is_bytes n b -> to_ne be n (of_ne be b) = b.
Proof. intros [L B]. rewrite <- L. now apply to_ne_of_ne. Qed.
Section Engine.
Context (g : engine) (s : sem).
Notation F := (of_ne (g_be g)).
Definition vop (e : exp -> exp -> exp) (n : nat) (G : bop) : Prop :=
  exists r, computes2 e r /\ forall a k, is_bytes (16 * n) a -> is_bytes (16 * n) k -> r (F a) (F k) = F (on_lanes n G a k).
Definition uop (e : exp -> exp) (G : list N -> list N) : Prop :=
  exists r, computes1 e r /\ forall a, is_bytes 16 a -> r (F a) = F (G a).
Record vec_ok (n : nat) : Prop := {
  v_enc : vop (g_enc g n) n (s_enc s); v_enc_last : vop (g_enc_last g n) n (s_enc_last s);
  v_dec : vop (g_dec g n) n (s_dec s); v_dec_last : vop (g_dec_last g n) n (s_dec_last s);
  v_wide : uop (g_wide g n) (bcast n);
  v_pre : match g_pre g, s_pre s with
          | None, None => True
          | Some (p, q), Some (sp, sq) => vop p n sp /\ vop q n sq
          | _, _ => False
          end }.
Definition keyed_ok : Prop := forall k key msg, is_bytes (key_len k) key ->
  let st := final (g_keygen g k) (start key msg) in arrs st "keys" = map F (s_keys s k key) /\ arrs st "in" = msg.
Context (S0 : sem_ok s) (Hmc : uop (g_mc g) (s_mc s)) (Himc : uop (g_imc g) (s_imc s)) (HK : keyed_ok).

(** ** One vector *)
Definition lop (R : N -> N -> N) (n : nat) (G : bop) : Prop :=
  forall ls k, Forall (is_bytes 16) ls -> length ls = n -> is_bytes 16 k -> R (F (concat ls)) (F k) = F (concat (map (fun y => G y k) ls)).
Lemma concat_bytes' ls n : Forall (is_bytes 16) ls -> length ls = n -> is_bytes (16 * n) (concat ls).
Proof. intros H <-. now apply concat_bytes. Qed.
Lemma vop_lop wide e n G : uop wide (bcast n) -> vop e n G -> bop_ok G -> exists R, computes2 (widened wide e) R /\ lop R n G.
Proof.
  intros (h & Ch & Hh) (r & Cr & Hr) HG. exists (fun a b => r a (h b)). split.
  - intros st a b. unfold widened. now rewrite Cr, Ch.
  - intros ls k Hl Hn Hk. rewrite Hh by assumption. rewrite Hr.
    + f_equal. now apply on_lanes_bcast.
    + now apply concat_bytes'.
    + now apply bcast_bytes.
Qed.
Lemma xor_lop wide n : uop wide (bcast n) -> exists R, computes2 (widened wide (Bin Xor)) R /\ lop R n (map2 N.lxor).
Proof.
  intros (h & Ch & Hh). exists (fun a b => N.lxor a (h b)). split.
  - intros st a b. unfold widened. rewrite value_xor. now rewrite Ch.
  - intros ls k Hl Hn Hk. rewrite Hh by assumption. rewrite (of_ne_xor (g_be g) (16 * n)).
    + f_equal. now apply xor_bcast.
    + now apply concat_bytes'.
    + now apply bcast_bytes.
Qed.
Lemma fold_lop R n G ks ls : bop_ok G -> lop R n G -> Forall (is_bytes 16) ks -> Forall (is_bytes 16) ls -> length ls = n ->
  fold_left R (map F ks) (F (concat ls)) = F (concat (map (fold_left G ks) ls)).
Proof.
  intros HG HR Hk. revert ls. induction Hk as [|k ks Hk _ IH]; intros ls Hl Hn.
  - cbn [map fold_left]. now rewrite map_id.
  - cbn [map fold_left]. rewrite HR by assumption. rewrite IH.
    + now rewrite map_map.
    + now apply Forall_map_bytes.
    + now rewrite map_length.
Qed.
Definition lop_opt (P : option (N -> N -> N)) (n : nat) (G : option bop) : Prop :=
  match P, G with None, None => True | Some p, Some q => lop p n q | _, _ => False end.
Lemma nth_map_F l i : (i < length l)%nat -> nth i (map F l) 0 = F (nth i l []).
Proof. intros H. rewrite (nth_indep _ 0 (F [])) by now rewrite map_length. apply map_nth. Qed.
Lemma n_run_bytes P R L X (pre : option bop) (G GL : bop) n k rks ls : bop_ok G -> bop_ok GL -> pre_opt_ok pre ->
  lop_opt P n pre -> lop R n G -> lop L n GL -> lop X n (map2 N.lxor) ->
  good_keys k rks -> Forall (is_bytes 16) ls -> length ls = n ->
  n_run P R L X (nr_of k) (map F rks) (F (concat ls)) = F (concat (map (b_run pre G GL (nr_of k) rks) ls)).
Proof.
  intros HG HGL Hp HP HR HL HX GK Hls Hn. destruct (good_first k rks GK) as (F1 & Ne & F2). destruct GK as [Lk Fk].
  assert (En : nr_of k = S (nr_of k - 1)) by (destruct k; reflexivity).
  assert (E1 : match P with None => fold_left R (firstn (nr_of k - 1) (skipn 1 (map F rks))) (X (F (concat ls)) (nth 0 (map F rks) 0))
                | Some p => X (fold_left p (firstn (nr_of k - 1) (map F rks)) (F (concat ls))) (nth (nr_of k - 1) (map F rks) 0) end
     = F (concat (map (fun y => b_chain pre G y (firstn (nr_of k) rks)) ls))).
  { destruct P as [p|], pre as [q|]; try contradiction; unfold b_chain.
    - rewrite nth_map_F by lia. rewrite firstn_map, (fold_lop p n q), HX; auto using Forall_firstn'.
      + rewrite map_map. do 2 f_equal. apply map_ext. intros y. rewrite removelast_firstn_pred, firstn_length, firstn_firstn, Lk.
        replace (Nat.min (Nat.min (nr_of k) (nr_of k + 1) - 1) (nr_of k)) with (nr_of k - 1)%nat by lia. f_equal.
        rewrite <- (firstn_skipn (nr_of k - 1) (firstn (nr_of k) rks)).
        assert (El : skipn (nr_of k - 1) (firstn (nr_of k) rks) = [nth (nr_of k - 1) rks []]).
        { rewrite skipn_firstn_comm. replace (nr_of k - (nr_of k - 1))%nat with 1%nat by lia.
          clear - Lk En. assert (H : (nr_of k - 1 < length rks)%nat) by lia. revert H. generalize (nr_of k - 1)%nat as i. clear. intros i. revert i.
          induction rks as [|y l IH]; intros [|i] H; cbn in H; try lia; [reflexivity|]. cbn [skipn nth]. apply IH. lia. }
        rewrite El. now rewrite last_last.
      + apply Forall_forall. intros y Hy. apply in_map_iff in Hy as (z & <- & Hz). apply foldg_bytes; auto using Forall_firstn'.
        rewrite Forall_forall in Hls. auto.
      + now rewrite map_length.
      + apply (Forall_nth' (is_bytes 16)); [assumption|lia].
    - destruct rks as [|k0 r]; [cbn in Lk; lia|]. inversion Fk as [|? ? Hk0 Fr]; subst.
      change (nth 0 (map F (k0 :: r)) 0) with (F k0). change (skipn 1 (map F (k0 :: r))) with (map F r).
      replace (firstn (nr_of k) (k0 :: r)) with (k0 :: firstn (nr_of k - 1) r) by (rewrite En at 2; reflexivity).
      rewrite HX by auto. rewrite firstn_map, (fold_lop R (length ls) G); auto using Forall_firstn'.
      + now rewrite map_map.
      + apply Forall_map_bytes; auto using xor_bop.
      + now rewrite map_length. }
  unfold n_run. rewrite E1, nth_map_F by lia. rewrite HL.
  - rewrite map_map. reflexivity.
  - apply Forall_forall. intros y Hy. apply in_map_iff in Hy as (z & <- & Hz). apply b_chain_bytes; auto. rewrite Forall_forall in Hls. auto.
  - now rewrite map_length.
  - exact F2.
Qed.

(** ** From round keys to the output *)
Lemma seq_lanes w m (msg : list N) : map (fun j => firstn w (skipn (w * j) msg)) (seq 0 m) = chunks w m msg.
Proof.
  revert msg. induction m as [|m IH]; intros msg; [reflexivity|]. rewrite <- cons_seq, map_cons. cbn [chunks]. f_equal.
  - now rewrite Nat.mul_0_r.
  - rewrite <- IH, <- seq_shift, map_map. apply map_ext. intros j. rewrite skipn_skipn'. do 2 f_equal. lia.
Qed.
Lemma lanes_plus j m b : (16 * j <= length b)%nat -> lanes (j + m) b = lanes j (firstn (16 * j) b) ++ lanes m (skipn (16 * j) b).
Proof.
  unfold lanes. revert b. induction j as [|j IH]; intros b H; [reflexivity|].
  replace (16 * S j)%nat with (16 + 16 * j)%nat in * by lia. change (S j + m)%nat with (S (j + m)). cbn [chunks app].
  rewrite IH by (rewrite skipn_length; lia). f_equal.
  - rewrite firstn_firstn. now replace (Nat.min 16 (16 + 16 * j)) with 16%nat by lia.
  - f_equal.
    + rewrite firstn_skipn_comm. reflexivity.
    + rewrite skipn_skipn'. reflexivity.
Qed.
Lemma lanes_chunks n m msg : length msg = (16 * n * m)%nat -> lanes (n * m) msg = concat (map (lanes n) (chunks (16 * n) m msg)).
Proof.
  revert msg. induction m as [|m IH]; intros msg Lm.
  - rewrite Nat.mul_0_r. reflexivity.
  - cbn [chunks map concat]. rewrite <- IH by (rewrite skipn_length; lia). replace (n * S m)%nat with (n + n * m)%nat by lia.
    rewrite lanes_plus by lia. reflexivity.
Qed.
Lemma crypt_run dec keys k n m rks msg st : (m <= 4)%nat -> vec_ok n -> good_keys k rks -> is_bytes (16 * n * m) msg ->
  arrs st "in" = msg -> arrs st keys = map F rks ->
  arrs (final (s_crypt g k n m dec keys) st) "out" =
  concat (map (if dec then b_decrypt s k rks else b_encrypt s k rks) (lanes (n * m) msg)).
Proof.
  intros Hm HV G Hmsg Hin Hk. unfold s_crypt. rewrite !final_block_cons.
  destruct (input_run (g_be g) (16 * n) m msg st Hm Hin) as [A1 V1]; [apply Hmsg|]. set (st1 := final (s_input _ _ m) st) in *. clearbody st1.
  set (e := if dec then g_dec g n else g_enc g n). set (el := if dec then g_dec_last g n else g_enc_last g n).
  set (pe := option_map _ (g_pre g)).
  set (G1 := if dec then s_dec s else s_enc s). set (GL := if dec then s_dec_last s else s_enc_last s).
  assert (O1 : bop_ok G1) by (destruct dec; apply S0). assert (O2 : bop_ok GL) by (destruct dec; apply S0).
  assert (V2 : vop e n G1) by (destruct dec; apply HV). assert (V3 : vop el n GL) by (destruct dec; apply HV).
  destruct (vop_lop (g_wide g n) e n G1 (v_wide n HV) V2 O1) as (R & CR & LR). destruct (vop_lop (g_wide g n) el n GL (v_wide n HV) V3 O2) as (L & CL & LL).
  destruct (xor_lop (g_wide g n) n (v_wide n HV)) as (X & CX & LX).
  assert (HP : exists P, computes_opt (option_map (widened (g_wide g n)) pe) P /\ lop_opt P n (s_pre1 s dec)).
  { subst pe. pose proof (v_pre n HV) as Vp. pose proof (so_pre s S0) as Sp. unfold s_pre1. destruct (g_pre g) as [[p q]|], (s_pre s) as [[sp sq]|]; try contradiction.
    - destruct Vp as [Vp Vq], Sp as [Sp Sq].
      destruct (vop_lop (g_wide g n) p n sp (v_wide n HV) Vp Sp) as (P & CP & LP). destruct (vop_lop (g_wide g n) q n sq (v_wide n HV) Vq Sq) as (Q & CQ & LQ).
      destruct dec; [exists (Some Q)|exists (Some P)]; split; assumption.
    - exists None. split; exact I. }
  destruct HP as (P & CP & LP).
  destruct (run_run pe e el (g_wide g n) P R L X keys (nr_of k) m st1 (map F rks) CP CR CL CX) as [A2 W2].
  { now rewrite A1. } { destruct k; cbn; lia. } { rewrite map_length. apply G. }
  set (st2 := final (s_run _ _ _ _ _ _ _) st1) in *. clearbody st2.
  change (final (block []) ?x) with x. rewrite output_run by assumption.
  rewrite lanes_chunks by apply Hmsg. rewrite concat_map, map_map, <- seq_lanes, map_map.
  rewrite <- (lane_list_snd m) by assumption.
  assert (Hfst : map fst (lane_list m) = seq 0 m) by (do 5 (destruct m as [|m]; [reflexivity|]); lia).
  rewrite <- Hfst, !map_map.
  assert (EL : forall j x, In (j, x) (lane_list m) -> to_ne (g_be g) (16 * n) (vars st2 x) =
     concat (map (if dec then b_decrypt s k rks else b_encrypt s k rks) (lanes n (firstn (16 * n) (skipn (16 * n * j) msg))))).
  { intros j x Hj. destruct (lane_list_in m j x Hj) as [Hjm Hx]. rewrite W2, (V1 j x Hj) by assumption.
    set (v := firstn (16 * n) (skipn (16 * n * j) msg)).
    assert (Hb : is_bytes (16 * n) v).
    { destruct Hmsg as [Lm Fm]. assert (Hw : (16 * n * (j + 1) <= 16 * n * m)%nat) by (apply Nat.mul_le_mono_l; lia).
      split; [unfold v; rewrite firstn_length, skipn_length; lia|]. apply Forall_firstn'. now apply bytes_ok_skipn. }
    pose proof (lanes_bytes n v Hb) as Hl. rewrite <- (concat_lanes n v) at 1 by apply Hb.
    rewrite (n_run_bytes P R L X (s_pre1 s dec) G1 GL n k rks (lanes n v)); auto using lanes_length, s_pre1_ok.
    replace (if dec then b_decrypt s k rks else b_encrypt s k rks) with (b_run (s_pre1 s dec) G1 GL (nr_of k) rks) by (unfold G1, GL; destruct dec; reflexivity).
    apply of_ne_bytes'. assert (HB : Forall (is_bytes 16) (map (b_run (s_pre1 s dec) G1 GL (nr_of k) rks) (lanes n v))).
    { apply Forall_forall. intros y Hy. apply in_map_iff in Hy as (z & <- & Hz). apply b_run_bytes; auto using s_pre1_ok. rewrite Forall_forall in Hl. auto. }
    apply concat_bytes' with (n := n) in HB; [exact HB|]. rewrite map_length. apply lanes_length. }
  clear - EL. induction (lane_list m) as [|[j x] l IH]; [reflexivity|]. cbn [map concat fst snd]. rewrite concat_app. f_equal.
  - now rewrite (EL j x) by now left.
  - apply IH. intros j' x' H. apply EL. now right.
Qed.

(** ** Whole programs *)
Lemma swap_keys_run e G src dst k rks st : uop e G -> src <> dst -> good_keys k rks -> arrs st src = map F rks ->
  holds (arrs st) dst (map F (b_swap G rks)) (final (s_swap_keys e src dst (nr_of k + 1)) st).
Proof.
  intros (h & Ch & Hh) Hne HG Hs. apply (swap_run _ src dst Hne e h Ch) with (ks := map F rks).
  - destruct k; cbn; lia.
  - destruct k; reflexivity.
  - exact Hs.
  - reflexivity.
  - rewrite <- lib_nr_ok. apply (swap_ok (default_of true (bitslice_ops (g_be g)) (bitslice_ext (g_be g)) None) F h G); assumption.
Qed.
Lemma start_keyed k key msg : is_bytes (key_len k) key ->
  let st := final (g_keygen g k) (start key msg) in arrs st "keys" = map F (s_keys s k key) /\ arrs st "in" = msg.
Proof. exact (HK k key msg). Qed.
Lemma encrypt_run k n m key msg : (m <= 4)%nat -> vec_ok n -> is_bytes (key_len k) key -> is_bytes (16 * n * m) msg ->
  arrs (final (encrypt_program g k n m) (start key msg)) "out" = concat (map (b_encrypt s k (s_keys s k key)) (lanes (n * m) msg)).
Proof.
  intros Hm HV Hk Hmsg. destruct (HK k key msg Hk) as [H1 H2]. unfold encrypt_program. rewrite !final_block_cons. change (final (block []) ?x) with x.
  apply (crypt_run false "keys"); auto. now apply (so_keys s S0).
Qed.
Lemma decrypt_run k n m key msg : (m <= 4)%nat -> vec_ok n -> is_bytes (key_len k) key -> is_bytes (16 * n * m) msg ->
  arrs (final (decrypt_program g k n m) (start key msg)) "out" = concat (map (b_decrypt s k (b_swap (s_imc s) (s_keys s k key))) (lanes (n * m) msg)).
Proof.
  intros Hm HV Hk Hmsg. destruct (HK k key msg Hk) as [H1 H2]. unfold decrypt_program. rewrite !final_block_cons. change (final (block []) ?x) with x.
  assert (GK : good_keys k (s_keys s k key)) by now apply (so_keys s S0).
  pose proof (swap_keys_run (g_imc g) (s_imc s) "keys" "drk" k _ _ Himc ltac:(discriminate) GK H1) as H.
  apply (crypt_run true "drk"); auto.
  - apply b_swap_good; [apply S0|assumption].
  - rewrite H. exact H2.
  - apply (holds_arr _ _ _ _ H).
Qed.
Lemma convert_run k n m key msg : (m <= 4)%nat -> vec_ok n -> is_bytes (key_len k) key -> is_bytes (16 * n * m) msg ->
  arrs (final (convert_program g k n m) (start key msg)) "out" =
  concat (map (b_encrypt s k (b_swap (s_mc s) (b_swap (s_imc s) (s_keys s k key)))) (lanes (n * m) msg)).
Proof.
  intros Hm HV Hk Hmsg. destruct (HK k key msg Hk) as [H1 H2]. unfold convert_program. rewrite !final_block_cons. change (final (block []) ?x) with x.
  assert (GK : good_keys k (s_keys s k key)) by now apply (so_keys s S0).
  pose proof (swap_keys_run (g_imc g) (s_imc s) "keys" "drk" k _ _ Himc ltac:(discriminate) GK H1) as H.
  set (st := final (s_swap_keys (g_imc g) _ _ _) _) in *. clearbody st.
  assert (GD : good_keys k (b_swap (s_imc s) (s_keys s k key))) by (apply b_swap_good; [apply S0|assumption]).
  pose proof (swap_keys_run (g_mc g) (s_mc s) "drk" "erk" k _ st Hmc ltac:(discriminate) GD (holds_arr _ _ _ _ H)) as H'.
  apply (crypt_run false "erk"); auto.
  - apply b_swap_good; [apply S0|assumption].
  - rewrite H'. change (arrs st "in" = msg). rewrite H. exact H2.
  - apply (holds_arr _ _ _ _ H').
Qed.
End Engine.

Lemma start_holds key msg : holds (arrs (start key msg)) "columns" [] (start key msg).
Proof. intros x. cbn. unfold upd. destruct (String.eqb_spec "columns" x); [subst|]; reflexivity. Qed.
