(** C48: counter mode and cipher block chaining of SP 800-38A on top of the batch functions. *)
From Coq Require Import Lia Arith ZifyN ZifyNat.
From Verif Require Import Word Interface Fips197 Spec_Api Spec_Reach Spec_Cfg Spec_User Spec_Modes Model_Lib Model_Cfg.
From Verif Require Import Proof_Shape Proof_Word Proof_Fips Proof_Ok Proof_Sem Proof_Lib Proof_Reach Proof_Inst Proof_Cipher Proof_Main.
From Verif Require Import Samples Props_Batch Props_Cipher.
Open Scope N_scope.

(** ** Key streams *)
Definition stream (f : list N -> list N) (t : N) (n : nat) : list N := concat (map (fun j => f (counter_block t j)) (seq 0 n)).
Lemma to_be_bytes v : is_bytes 16 (to_be 16 v).
Proof. unfold to_be. split; [rewrite rev_length; apply to_le_length|]. apply Forall_rev, to_le_ok. Qed.
Lemma counter_bytes t j : is_bytes 16 (counter_block t j).
Proof. apply to_be_bytes. Qed.
Lemma counter_shift t q j : counter_block (wrapping_add t (N.of_nat q)) j = counter_block t (q + j).
Proof.
  unfold counter_block, wrapping_add. f_equal. rewrite N.add_mod_idemp_l by discriminate. f_equal. lia.
Qed.
Lemma stream_length f t n : (forall x, is_bytes 16 x -> is_bytes 16 (f x)) -> length (stream f t n) = (16 * n)%nat.
Proof.
  intros Hf. unfold stream. rewrite <- (seq_length n 0) at 2. generalize (seq 0 n). induction l as [|j l IH]; [reflexivity|]. cbn [map concat length].
  rewrite app_length, IH. rewrite (is_bytes_len _ _ (Hf _ (counter_bytes t j))). lia.
Qed.
Lemma stream_bytes f t n : (forall x, is_bytes 16 x -> is_bytes 16 (f x)) -> bytes_ok (stream f t n).
Proof.
  intros Hf. unfold stream. generalize (seq 0 n). induction l as [|j l IH]; [constructor|]. cbn [map concat]. apply bytes_ok_app; [apply Hf, counter_bytes|exact IH].
Qed.
Lemma stream_app f t q n : stream f t (q + n) = stream f t q ++ stream f (wrapping_add t (N.of_nat q)) n.
Proof.
  unfold stream. rewrite seq_app, map_app, concat_app. f_equal. f_equal. rewrite <- (map_id (seq 0 n)), map_map. cbn [Nat.add].
  rewrite <- (Nat.add_0_r q) at 1. generalize 0%nat as s. induction n as [|n IH]; intros s; [reflexivity|]. cbn [seq map]. f_equal.
  - now rewrite counter_shift.
  - rewrite <- IH. now rewrite Nat.add_succ_r.
Qed.
Lemma nth_stream f t n j : (forall x, is_bytes 16 x -> is_bytes 16 (f x)) -> (j < 16 * n)%nat ->
  nth j (stream f t n) 0 = nth (Nat.modulo j 16) (f (counter_block t (Nat.div j 16))) 0.
Proof.
  intros Hf. revert t j. induction n as [|n IH]; intros t j H; [lia|]. change (S n) with (1 + n)%nat. rewrite stream_app.
  assert (L : length (stream f t 1) = 16%nat) by (now rewrite stream_length).
  destruct (Nat.ltb_spec j 16) as [C|C].
  - rewrite app_nth1 by (rewrite L; exact C). rewrite Nat.mod_small, Nat.div_small by exact C. unfold stream. cbn [seq map concat]. now rewrite app_nil_r.
  - rewrite app_nth2 by (rewrite L; exact C). rewrite L, IH by lia. rewrite counter_shift.
    replace j with (j - 16 + 1 * 16)%nat at 3 4 by lia. rewrite Nat.mod_add, Nat.div_add by discriminate. now rewrite Nat.add_comm.
Qed.
Lemma ctr_stream f t n text : (forall x, is_bytes 16 x -> is_bytes 16 (f x)) -> (length text <= 16 * n)%nat -> map2 N.lxor text (stream f t n) = ctr f t text.
Proof.
  intros Hf H. assert (L : length (map2 N.lxor text (stream f t n)) = length text) by (rewrite map2_length, stream_length by assumption; lia).
  apply (nth_ext _ _ 0 0).
  - unfold ctr. now rewrite map_length, seq_length.
  - intros j Hj. rewrite L in Hj. unfold ctr.
    set (g := fun j : nat => N.lxor (nth j text 0) (nth (j mod 16) (f (counter_block t (j / 16))) 0)).
    rewrite (nth_indep (map g _) 0 (g 0%nat)) by (now rewrite map_length, seq_length). rewrite map_nth, seq_nth by exact Hj. cbn [Nat.add]. unfold g.
    rewrite (map2_nth _ _ _ _ 0 0) by (rewrite ?stream_length by assumption; lia). now rewrite nth_stream by (assumption || lia).
Qed.
Lemma map2_split {A B C} (g : A -> B -> C) (l : list A) (a b : list B) : map2 g (firstn (length a) l) a ++ map2 g (skipn (length a) l) b = map2 g l (a ++ b).
Proof.
  revert l. induction a as [|x a IH]; intros l; [reflexivity|]. cbn [length app]. destruct l as [|y l]; [reflexivity|]. cbn [firstn skipn map2 app]. now rewrite IH.
Qed.
Lemma over_ok f (step : N -> list N -> outcome (list N)) q n : (forall x, is_bytes 16 x -> is_bytes 16 (f x)) ->
  forall t text, t < 2 ^ 128 -> (forall t c, t < 2 ^ 128 -> In c (chunks (16 * q) n text) -> step t c = Ret (map2 N.lxor c (stream f t q))) ->
  over step (N.of_nat q) t (chunks (16 * q) n text) = Ret (map2 N.lxor text (stream f t (n * q))).
Proof.
  intros Hf. induction n as [|n IH]; intros t text Ht H.
  - cbn [chunks over Nat.mul]. unfold stream. cbn [seq map concat]. f_equal. now destruct text.
  - cbn [chunks over]. rewrite H by (assumption || now left). cbn [bind]. rewrite IH; [|apply N.mod_lt; discriminate|intros; apply H; [assumption|now right]]. cbn [bind]. f_equal.
    change (S n * q)%nat with (q + n * q)%nat. rewrite stream_app.
    pose proof (stream_length f t q Hf) as L. rewrite <- L. apply map2_split.
Qed.
Lemma in_chunks {A} m n (l : list A) c : In c (chunks m n l) -> (length c <= m)%nat /\ ((n * m <= length l)%nat -> length c = m) /\ forall P, Forall P l -> Forall P c.
Proof.
  revert l. induction n as [|n IH]; intros l H; [destruct H|]. cbn [chunks] in H. destruct H as [<-|H].
  - rewrite firstn_length. split; [lia|]. split; [lia|]. intros P F. now apply Forall_firstn'.
  - destruct (IH _ H) as (U & B & D). rewrite skipn_length in B. split; [exact U|]. split; [intros; apply B; lia|]. intros P F. apply D. rewrite <- (firstn_skipn m l) in F. now apply Forall_app in F.
Qed.

(** ** Counter mode over any build *)
Lemma of_u128_ok {T} (o : ops T) f v : data_ok o 16 f -> of_u128 o v = Ret (f (to_be 16 v)).
Proof. intros D. unfold of_u128. apply (dk_from _ _ _ D), to_be_bytes. Qed.
Lemma try_from_ok {T} (o : ops T) n f dbg b : data_ok o n f -> is_bytes n b -> try_from o dbg b = Ret (Ok (f b)).
Proof.
  intros D B. pose proof (proj1 B) as L. unfold try_from, try_from_slice. rewrite (dk_size _ _ _ D). rewrite (proj2 (Nat.leb_le n (length b))) by lia.
  unfold array_from_slice, raw_read. cbn [Nat.add skipn]. rewrite (proj2 (Nat.leb_le n (length b))) by lia. cbn [negb andb]. rewrite andb_false_r. cbn [bind].
  rewrite firstn_all2 by lia. now rewrite (dk_from _ _ _ D) by assumption.
Qed.
Lemma stream_one f t : t < 2 ^ 128 -> stream f t 1 = f (to_be 16 t).
Proof. intros H. unfold stream, counter_block. cbn [seq map concat N.of_nat]. now rewrite app_nil_r, N.add_0_r, N.mod_small by exact H. Qed.
Lemma stream_four f t : t < 2 ^ 128 -> stream f t 4 = f (to_be 16 t) ++ f (to_be 16 (wrapping_add t 1)) ++ f (to_be 16 (wrapping_add t 2)) ++ f (to_be 16 (wrapping_add t 3)).
Proof.
  intros H. rewrite <- (stream_one f t H). change 4%nat with (1 + 3)%nat at 1. rewrite stream_app. f_equal.
  unfold stream. cbn [seq map concat]. rewrite app_nil_r. rewrite !counter_shift. reflexivity.
Qed.
Lemma ctr_crypt_ok i f1 f2 f4 s k dbg key t text : refines i f1 f2 f4 s -> sem_ok s -> is_bytes (key_len k) key -> t < 2 ^ 128 -> bytes_ok text ->
  ctr_crypt i k dbg key t text = Ret (ctr (b_encrypt s k (s_keys s k key)) t text).
Proof.
  intros R S1 Hk Ht F. pose proof (keys_good s S1 k key Hk) as G. unfold ctr_crypt. rewrite (enc_new_ok _ _ _ _ _ R) by assumption. cbn [bind]. cbv zeta.
  set (rks := s_keys s k key) in *. set (f := b_encrypt s k rks).
  assert (Hf : forall x, is_bytes 16 x -> is_bytes 16 (f x)).
  { intros x Hx. apply b_run_bytes; [apply S1|apply S1|apply (s_pre1_ok s S1 false)|assumption|assumption]. }
  set (q := (length text / 64)%nat).
  assert (Q : (q * 64 <= length text)%nat) by (unfold q; pose proof (Nat.mul_div_le (length text) 64); lia).
  pose proof (R_d1 _ _ _ _ _ R) as D1. pose proof (R_d4 _ _ _ _ _ R) as D4.
  assert (S4 : forall u c, u < 2 ^ 128 -> In c (chunks (16 * 4) q text) -> ctr_four i k dbg (EncObj (map f1 rks)) u c = Ret (map2 N.lxor c (stream f u 4))).
  { intros u c Hu Hc. destruct (in_chunks _ _ _ _ Hc) as (_ & L & FC). assert (B : is_bytes 64 c) by (split; [apply L; lia|now apply FC]).
    unfold ctr_four. rewrite !(of_u128_ok _ f1) by exact D1. cbn [bind]. pose proof to_be_bytes as TB.
    rewrite (R_x4_of_quad _ _ _ _ _ R) by apply TB.
    assert (B4 : is_bytes 64 (to_be 16 u ++ to_be 16 (wrapping_add u 1) ++ to_be 16 (wrapping_add u 2) ++ to_be 16 (wrapping_add u 3))) by (apply (is_bytes_app 16 48); [|apply (is_bytes_app 16 32); [|apply (is_bytes_app 16 16)]]; apply TB).
    rewrite (encrypt_4_ok _ _ _ _ _ R S1) by assumption. cbn [bind]. rewrite lanes4_app by apply TB. cbn [map concat]. rewrite app_nil_r.
    fold f. rewrite <- stream_four by exact Hu. rewrite (try_from_ok _ 64 f4) by assumption. cbn [bind unwrap].
    assert (SB : is_bytes 64 (stream f u 4)) by (split; [now apply (stream_length f u 4)|now apply stream_bytes]).
    rewrite (dk_xor _ _ _ D4) by assumption. apply (to_bytes_ok _ 64); [exact D4|now apply xor_bytes]. }
  set (rest := skipn (64 * q) text). set (n := ((length rest + 15) / 16)%nat).
  assert (S1' : forall u c, u < 2 ^ 128 -> In c (chunks (16 * 1) n rest) -> ctr_one i k (EncObj (map f1 rks)) u c = Ret (map2 N.lxor c (stream f u 1))).
  { intros u c Hu Hc. unfold ctr_one. rewrite (of_u128_ok _ f1) by exact D1. cbn [bind]. pose proof (to_be_bytes u) as TB.
    rewrite (encrypt_block_ok _ _ _ _ _ R S1) by assumption. cbn [bind]. fold f. rewrite (to_bytes_ok _ 16) by (try exact D1; now apply Hf). cbn [bind]. now rewrite stream_one by exact Hu. }
  change 4 with (N.of_nat 4) at 1. change 64%nat with (16 * 4)%nat at 1. rewrite (over_ok f) by assumption. cbn [bind].
  change 1 with (N.of_nat 1) at 1. change (chunks 16 n rest) with (chunks (16 * 1) n rest). rewrite (over_ok f) by (try assumption; apply N.mod_lt; discriminate). cbn [bind]. f_equal.
  rewrite Nat.mul_1_r. replace (4 * N.of_nat q) with (N.of_nat (q * 4)) by lia.
  assert (Lq : length (stream f t (q * 4)) = (64 * q)%nat) by (rewrite stream_length by assumption; lia).
  rewrite <- (ctr_stream f t (q * 4 + n)).
  - rewrite stream_app. rewrite <- map2_split. rewrite Lq. f_equal. rewrite <- (firstn_skipn (64 * q) text) at 1.
    rewrite <- (app_nil_r (stream f t (q * 4))) at 1. rewrite <- map2_split, Lq. rewrite firstn_app, skipn_app, firstn_firstn, firstn_length. 
    rewrite Nat.min_id, Nat.min_l by lia. rewrite Nat.sub_diag. cbn [firstn]. rewrite app_nil_r.
    assert (Z : forall l : list N, map2 N.lxor l [] = []) by (intros [|]; reflexivity). now rewrite Z, app_nil_r.
  - exact Hf.
  - assert (Lr : (length text = 64 * q + length rest)%nat) by (unfold rest; rewrite skipn_length; lia).
    assert (Nr : (length rest <= 16 * n)%nat) by (unfold n; pose proof (Nat.div_mod (length rest + 15) 16); pose proof (Nat.mod_upper_bound (length rest + 15) 16); lia).
    lia.
Qed.

(** Conforming builds, all message lengths and all initial counters, wrap-around included. *)
Theorem C48_counter_mode : forall c i k dbg key t text,
  impl_of c = Some i -> conforming c = true -> is_bytes (key_len k) key -> t < 2 ^ 128 -> bytes_ok text ->
  ctr_crypt i k dbg key t text = Ret (ctr (aes_encrypt k key) t text).
Proof.
  intros c i k dbg key t text E C Hk Ht F. destruct (inst c i E (conforming_rv c C)) as (pre & keys & f1 & f2 & f4 & Hpre & K & S1 & R).
  rewrite (K C) in *. rewrite (ctr_crypt_ok i f1 f2 f4 _ k dbg key t text R S1) by assumption. f_equal. unfold ctr. apply map_ext. intros j. f_equal. f_equal.
  apply b_encrypt_fips; [assumption|assumption|apply counter_bytes].
Qed.
Print Assumptions C48_counter_mode.

(** Every build, RV32 and big-endian included: running the program again gives the text back. *)
Lemma ctr_length f t text : length (ctr f t text) = length text.
Proof. unfold ctr. now rewrite map_length, seq_length. Qed.
Lemma ctr_bytes f t text : (forall x, is_bytes 16 x -> is_bytes 16 (f x)) -> bytes_ok text -> bytes_ok (ctr f t text).
Proof.
  intros Hf F. rewrite <- (ctr_stream f t (length text)) by (assumption || lia). apply map2_lxor_ok; [assumption|now apply stream_bytes].
Qed.
Lemma ctr_ctr f t text : ctr f t (ctr f t text) = text.
Proof.
  apply (nth_ext _ _ 0 0); [now rewrite !ctr_length|]. intros j Hj. rewrite !ctr_length in Hj.
  assert (N1 : forall l, (j < length l)%nat -> nth j (ctr f t l) 0 = N.lxor (nth j l 0) (nth (j mod 16) (f (counter_block t (j / 16))) 0)).
  { intros l Hl. unfold ctr. set (g := fun j : nat => N.lxor (nth j l 0) (nth (j mod 16) (f (counter_block t (j / 16))) 0)).
    rewrite (nth_indep (map g _) 0 (g 0%nat)) by (now rewrite map_length, seq_length). rewrite map_nth, seq_nth by exact Hl. reflexivity. }
  rewrite N1 by (now rewrite ctr_length). rewrite N1 by exact Hj. now rewrite N.lxor_assoc, N.lxor_nilpotent, N.lxor_0_r.
Qed.
Theorem C48_counter_mode_undoes_itself : forall c i k dbg dbg' key t text,
  impl_of c = Some i -> is_bytes (key_len k) key -> t < 2 ^ 128 -> bytes_ok text ->
  exists out, ctr_crypt i k dbg key t text = Ret out /\ length out = length text /\ ctr_crypt i k dbg' key t out = Ret text.
Proof.
  intros c i k dbg dbg' key t text E Hk Ht F. destruct (inst_any c i E) as (s & f1 & f2 & f4 & _ & _ & S1 & R).
  assert (Hf : forall x, is_bytes 16 x -> is_bytes 16 (b_encrypt s k (s_keys s k key) x)).
  { intros x Hx. apply b_run_bytes; [apply S1|apply S1|apply (s_pre1_ok s S1 false)|now apply keys_good|assumption]. }
  eexists. split; [now apply (ctr_crypt_ok i f1 f2 f4 s)|]. split; [apply ctr_length|].
  rewrite (ctr_crypt_ok i f1 f2 f4 s) by (assumption || now apply ctr_bytes). now rewrite ctr_ctr.
Qed.
Print Assumptions C48_counter_mode_undoes_itself.

(** ** Cipher block chaining *)
Lemma chunks16_bytes m text : is_bytes (16 * m) text -> Forall (is_bytes 16) (chunks 16 m text).
Proof. apply (lanes_bytes m text). Qed.
Lemma cbc_blocks_ok i f1 f2 f4 s k rks : refines i f1 f2 f4 s -> sem_ok s -> good_keys k rks -> forall ps, Forall (is_bytes 16) ps -> forall v, is_bytes 16 v ->
  cbc_blocks i k (EncObj (map f1 rks)) (f1 v) ps = Ret (concat (cbc_encrypt (b_encrypt s k rks) v ps)).
Proof.
  intros R S1 G. pose proof (R_d1 _ _ _ _ _ R) as D1. induction 1 as [|p ps Hp _ IH]; intros v Hv; [reflexivity|].
  cbn [cbc_blocks cbc_encrypt]. cbv zeta. rewrite (dk_from _ _ _ D1) by assumption. cbn [bind]. rewrite (dk_xor _ _ _ D1) by assumption.
  assert (Hx : is_bytes 16 (map2 N.lxor p v)) by now apply xor_bytes.
  rewrite (encrypt_block_ok _ _ _ _ _ R S1) by assumption. cbn [bind]. 
  assert (Hc : is_bytes 16 (b_encrypt s k rks (map2 N.lxor p v))) by (apply b_run_bytes; [apply S1|apply S1|apply (s_pre1_ok s S1 false)|assumption|assumption]).
  rewrite (to_bytes_ok _ 16) by assumption. cbn [bind]. rewrite IH by assumption. reflexivity.
Qed.
Lemma last_cons {A} (a : list A) x v : last (x :: a) v = last a x.
Proof. revert x v. induction a as [|y a IH]; intros x v; [reflexivity|]. change (last (x :: y :: a) v) with (last (y :: a) v). now rewrite !IH. Qed.
Lemma cbc_decrypt_app g v a b : cbc_decrypt g v (a ++ b) = cbc_decrypt g v a ++ cbc_decrypt g (last a v) b.
Proof. revert v. induction a as [|x a IH]; intros v; [reflexivity|]. cbn [app cbc_decrypt]. now rewrite IH, last_cons. Qed.
Lemma chunks16_app m j a (b : list N) : length a = (16 * m)%nat -> chunks 16 (m + j) (a ++ b) = chunks 16 m a ++ chunks 16 j b.
Proof.
  revert a. induction m as [|m IH]; intros a L; [destruct a; [reflexivity|discriminate L]|]. cbn [Nat.add chunks app].
  rewrite firstn_app, skipn_app. replace (16 - length a)%nat with 0%nat by lia. rewrite firstn_O, skipn_O, app_nil_r. f_equal.
  apply IH. rewrite skipn_length. lia.
Qed.
Section Decrypt.
  Context (i : impl) (f1 : list N -> T1 i) (f2 : list N -> T2 i) (f4 : list N -> T4 i) (s : sem) (R : refines i f1 f2 f4 s) (S1 : sem_ok s).
  Context (k : key_size) (rks : list (list N)) (G : good_keys k rks).
  Let g := b_decrypt s k rks.
  Lemma g_bytes x : is_bytes 16 x -> is_bytes 16 (g x).
  Proof. intros Hx. apply b_run_bytes; [apply S1|apply S1|apply (s_pre1_ok s S1 true)|assumption|assumption]. Qed.
  Lemma cbc_ones_ok cs : Forall (is_bytes 16) cs -> forall v, is_bytes 16 v ->
    cbc_ones i k (DecObj (map f1 rks)) (f1 v) cs = Ret (concat (cbc_decrypt g v cs)).
  Proof.
    pose proof (R_d1 _ _ _ _ _ R) as D1. induction 1 as [|c cs Hc _ IH]; intros v Hv; [reflexivity|]. cbn [cbc_ones cbc_decrypt].
    rewrite (dk_from _ _ _ D1) by assumption. cbn [bind]. rewrite (decrypt_block_ok _ _ _ _ _ R S1) by assumption. cbn [bind]. fold g.
    pose proof (g_bytes c Hc). rewrite (dk_xor _ _ _ D1) by assumption. rewrite (to_bytes_ok _ 16) by (assumption || now apply xor_bytes). cbn [bind].
    rewrite IH by assumption. reflexivity.
  Qed.
  Lemma cbc_fours_ok n : forall text v, is_bytes (64 * n) text -> is_bytes 16 v ->
    cbc_fours i k (DecObj (map f1 rks)) (f1 v) (chunks 64 n text) =
      Ret (concat (cbc_decrypt g v (chunks 16 (4 * n) text)), f1 (last (chunks 16 (4 * n) text) v)) /\ is_bytes 16 (last (chunks 16 (4 * n) text) v).
  Proof.
    pose proof (R_d1 _ _ _ _ _ R) as D1. pose proof (R_d4 _ _ _ _ _ R) as D4.
    induction n as [|n IH]; intros text v H Hv; [split; [reflexivity|assumption]|].
    set (c := firstn 64 text). set (r := skipn 64 text).
    assert (Bc : is_bytes 64 c) by (split; [unfold c; rewrite firstn_length; destruct H; lia|apply Forall_firstn', H]).
    assert (Br : is_bytes (64 * n) r) by (split; [unfold r; rewrite skipn_length; destruct H; lia|apply bytes_ok_skipn, H]).
    assert (Sp : chunks 16 (4 * S n) text = lanes 4 c ++ chunks 16 (4 * n) r).
    { replace (4 * S n)%nat with (4 + 4 * n)%nat by lia. rewrite <- (firstn_skipn 64 text). fold c r.
      apply chunks16_app. apply Bc. }
    pose proof (lanes_bytes 4 c Bc) as L4. pose proof (concat_lanes 4 c (proj1 Bc)) as Cc. pose proof (lanes_length 4 c) as Ll.
    rewrite Sp. destruct (lanes 4 c) as [|a [|b [|d [|e [|]]]]]; try discriminate Ll. clear Ll.
    apply Forall_cons_iff in L4 as [Ha L4]. apply Forall_cons_iff in L4 as [Hb L4]. apply Forall_cons_iff in L4 as [Hd L4]. apply Forall_cons_iff in L4 as [He _].
    cbn [concat] in Cc. rewrite app_nil_r in Cc.
    cbn [chunks cbc_fours]. fold c r. rewrite (dk_from _ _ _ D4) by assumption. cbn [bind]. rewrite (decrypt_4_ok _ _ _ _ _ R S1) by assumption. cbn [bind].
    rewrite <- Cc. rewrite lanes4_app by assumption. rewrite (R_x4_to_quad _ _ _ _ _ R) by assumption. rewrite (R_x4_of_quad _ _ _ _ _ R) by assumption.
    cbn [map concat]. rewrite app_nil_r. fold g. pose proof (g_bytes a Ha). pose proof (g_bytes b Hb). pose proof (g_bytes d Hd). pose proof (g_bytes e He).
    assert (B4 : forall p q u w, is_bytes 16 p -> is_bytes 16 q -> is_bytes 16 u -> is_bytes 16 w -> is_bytes 64 (p ++ q ++ u ++ w)).
    { intros. apply (is_bytes_app 16 48); [assumption|]. apply (is_bytes_app 16 32); [assumption|]. now apply (is_bytes_app 16 16). }
    rewrite (dk_xor _ _ _ D4) by (now apply B4). rewrite (to_bytes_ok _ 64) by (try assumption; apply xor_bytes; now apply B4). cbn [bind].
    destruct (IH r e Br He) as [-> B]. cbn [bind fst snd].
    assert (La : forall (X : Type) (w x y z u : X) l, last ([w; x; y; z] ++ l) u = last l z).
    { clear. intros X w x y z u l. cbn [app]. now rewrite !last_cons. }
    rewrite (La _ a b d e v). split; [|exact B]. f_equal. f_equal.
    rewrite cbc_decrypt_app. cbn [cbc_decrypt last]. rewrite concat_app. cbn [concat]. rewrite app_nil_r. f_equal.
    rewrite !map2_app by (rewrite ?app_length; repeat match goal with H : is_bytes _ _ |- _ => apply is_bytes_len in H; rewrite ?H end; reflexivity). reflexivity.
  Qed.
End Decrypt.
Lemma cbc_encrypt_message_ok i f1 f2 f4 s k key iv n text : refines i f1 f2 f4 s -> sem_ok s -> is_bytes (key_len k) key -> is_bytes 16 iv -> is_bytes (16 * n) text ->
  cbc_encrypt_message i k key iv text = Ret (concat (cbc_encrypt (b_encrypt s k (s_keys s k key)) iv (chunks 16 n text))).
Proof.
  intros R S1 Hk Hv Ht. unfold cbc_encrypt_message. rewrite (enc_new_ok _ _ _ _ _ R) by assumption. cbn [bind]. rewrite (dk_from _ _ _ (R_d1 _ _ _ _ _ R)) by assumption. cbn [bind].
  assert (Q : (length text / 16)%nat = n) by (rewrite (proj1 Ht), Nat.mul_comm; apply Nat.div_mul; discriminate). rewrite Q.
  apply (cbc_blocks_ok i f1 f2 f4 s); [assumption|assumption|now apply keys_good|now apply chunks16_bytes|assumption].
Qed.
Lemma cbc_decrypt_message_ok i f1 f2 f4 s k key iv n text : refines i f1 f2 f4 s -> sem_ok s -> is_bytes (key_len k) key -> is_bytes 16 iv -> is_bytes (16 * n) text ->
  cbc_decrypt_message i k key iv text = Ret (concat (cbc_decrypt (b_decrypt s k (b_swap (s_imc s) (s_keys s k key))) iv (chunks 16 n text))).
Proof.
  intros R S1 Hk Hv Ht. unfold cbc_decrypt_message. rewrite (dec_new_ok _ _ _ _ _ R S1) by assumption. cbn [bind]. rewrite (dk_from _ _ _ (R_d1 _ _ _ _ _ R)) by assumption. cbn [bind]. cbv zeta.
  set (q := (length text / 64)%nat). assert (G : good_keys k (b_swap (s_imc s) (s_keys s k key))) by (apply b_swap_good; [apply S1|now apply keys_good]).
  assert (Q : (64 * q <= length text)%nat) by apply Nat.mul_div_le, Nat.neq_succ_0.
  destruct Ht as [Lt Ft].
  assert (Bf : is_bytes (64 * q) (firstn (64 * q) text)) by (split; [rewrite firstn_length; lia|now apply Forall_firstn']).
  assert (Cf : forall m j (l : list N), (m * j <= length l)%nat -> chunks m j l = chunks m j (firstn (m * j) l)).
  { clear. intros m j. induction j as [|j IH]; intros l H; [reflexivity|]. cbn [chunks]. f_equal.
    - rewrite firstn_firstn. f_equal. lia.
    - rewrite IH by (rewrite skipn_length; lia). f_equal. rewrite firstn_skipn_comm. f_equal. f_equal. lia. }
  rewrite (Cf 64%nat q text) by lia.
  destruct (cbc_fours_ok i f1 f2 f4 s R S1 k _ G q _ iv Bf Hv) as [-> Bl]. cbn [bind fst snd].
  set (rest := skipn (64 * q) text).
  assert (Lr : (length rest = 16 * (n - 4 * q))%nat) by (unfold rest; rewrite skipn_length; lia).
  assert (Br : is_bytes (16 * (n - 4 * q)) rest) by (split; [exact Lr|now apply bytes_ok_skipn]).
  assert (Qr : (length rest / 16)%nat = (n - 4 * q)%nat) by (rewrite Lr, Nat.mul_comm; apply Nat.div_mul; discriminate). rewrite Qr.
  rewrite (cbc_ones_ok i f1 f2 f4 s R S1 k _ G) by (try assumption; now apply chunks16_bytes). cbn [bind]. f_equal.
  rewrite <- concat_app, <- cbc_decrypt_app. f_equal. f_equal.
  rewrite <- chunks16_app by (rewrite (proj1 Bf); lia). unfold rest. rewrite firstn_skipn. f_equal. lia.
Qed.
Lemma cbc_encrypt_ext f g v ps : (forall x, is_bytes 16 x -> f x = g x /\ is_bytes 16 (g x)) -> Forall (is_bytes 16) ps -> is_bytes 16 v -> cbc_encrypt f v ps = cbc_encrypt g v ps.
Proof.
  intros H F. revert v. induction F as [|p ps Hp _ IH]; intros v Hv; [reflexivity|]. cbn [cbc_encrypt]. cbv zeta.
  destruct (H (map2 N.lxor p v)) as [-> B]; [now apply xor_bytes|]. now rewrite IH.
Qed.
Lemma cbc_decrypt_ext f g v cs : (forall x, is_bytes 16 x -> f x = g x) -> Forall (is_bytes 16) cs -> cbc_decrypt f v cs = cbc_decrypt g v cs.
Proof. intros H F. revert v. induction F as [|c cs Hc _ IH]; intros v; [reflexivity|]. cbn [cbc_decrypt]. now rewrite H, IH. Qed.

(** Conforming builds, any number of blocks. *)
Theorem C48_cipher_block_chaining : forall c i k key iv n text,
  impl_of c = Some i -> conforming c = true -> is_bytes (key_len k) key -> is_bytes 16 iv -> is_bytes (16 * n) text ->
  cbc_encrypt_message i k key iv text = Ret (concat (cbc_encrypt (aes_encrypt k key) iv (chunks 16 n text))) /\
  cbc_decrypt_message i k key iv text = Ret (concat (cbc_decrypt (aes_decrypt k key) iv (chunks 16 n text))).
Proof.
  intros c i k key iv n text E C Hk Hv Ht. destruct (inst c i E (conforming_rv c C)) as (pre & keys & f1 & f2 & f4 & Hpre & K & S1 & R).
  rewrite (K C) in *. split.
  - rewrite (cbc_encrypt_message_ok i f1 f2 f4 _ k key iv n text R S1) by assumption. f_equal. f_equal. apply cbc_encrypt_ext; [|now apply chunks16_bytes|assumption].
    intros x Hx. split; [now apply b_encrypt_fips|now apply aes_encrypt_bytes].
  - rewrite (cbc_decrypt_message_ok i f1 f2 f4 _ k key iv n text R S1) by assumption. f_equal. f_equal. apply cbc_decrypt_ext; [|now apply chunks16_bytes].
    intros x Hx. now apply b_decrypt_fips.
Qed.
Print Assumptions C48_cipher_block_chaining.

(** Every build but RV32: decryption by fours undoes encryption by ones. *)
Lemma cbc_round_trip f g v ps : (forall x, is_bytes 16 x -> is_bytes 16 (f x) /\ g (f x) = x) -> Forall (is_bytes 16) ps -> is_bytes 16 v ->
  cbc_decrypt g v (cbc_encrypt f v ps) = ps /\ Forall (is_bytes 16) (cbc_encrypt f v ps) /\ length (cbc_encrypt f v ps) = length ps.
Proof.
  intros H F. revert v. induction F as [|p ps Hp _ IH]; intros v Hv; [split; [reflexivity|split; [constructor|reflexivity]]|]. cbn [cbc_encrypt]. cbv zeta. cbn [cbc_decrypt length].
  assert (Hx : is_bytes 16 (map2 N.lxor p v)) by now apply xor_bytes. destruct (H _ Hx) as [B ->]. destruct (IH _ B) as (-> & FB & ->).
  split; [|split; [now constructor|reflexivity]]. f_equal. apply (nth_ext _ _ 0 0).
  - rewrite !map2_length. rewrite (proj1 Hp), (proj1 Hv). reflexivity.
  - intros j Hj. rewrite !map2_length, (proj1 Hp), (proj1 Hv) in Hj. cbn in Hj.
    rewrite !(map2_nth _ _ _ _ 0 0) by (rewrite ?map2_length, ?(proj1 Hp), ?(proj1 Hv); exact Hj). now rewrite N.lxor_assoc, N.lxor_nilpotent, N.lxor_0_r.
Qed.
Theorem C48_chaining_round_trip : forall c i k key iv n text,
  impl_of c = Some i -> rv32_zk c = false -> is_bytes (key_len k) key -> is_bytes 16 iv -> is_bytes (16 * n) text ->
  exists out, cbc_encrypt_message i k key iv text = Ret out /\ is_bytes (16 * n) out /\ cbc_decrypt_message i k key iv out = Ret text.
Proof.
  intros c i k key iv n text E C Hk Hv Ht. destruct (inst c i E C) as (pre & keys & f1 & f2 & f4 & Hpre & K & S1 & R).
  pose proof (keys_good _ S1 k key Hk) as G. pose proof (chunks16_bytes n text Ht) as F.
  destruct (cbc_round_trip (b_encrypt (fips_sem pre keys) k (keys k key)) (b_decrypt (fips_sem pre keys) k (b_swap inv_mix_columns (keys k key))) iv (chunks 16 n text)) as (A & B & L); [|assumption|assumption|].
  { intros x Hx. destruct (rt_enc pre keys Hpre S1 k (keys k key) x G Hx) as [B1 B2]. split; assumption. }
  set (cs := cbc_encrypt _ iv _) in *. assert (L' : length cs = n) by (rewrite L; apply (lanes_length n)).
  assert (Bo : is_bytes (16 * n) (concat cs)) by (rewrite <- L'; now apply concat_bytes).
  exists (concat cs). split; [now apply (cbc_encrypt_message_ok i f1 f2 f4 (fips_sem pre keys))|]. split; [exact Bo|].
  rewrite (cbc_decrypt_message_ok i f1 f2 f4 (fips_sem pre keys) k key iv n) by assumption. f_equal.
  assert (Lc : chunks 16 n (concat cs) = cs) by (rewrite <- L'; now apply (lanes_concat cs)). rewrite Lc. cbn [fips_sem s_imc s_keys]. rewrite A.
  apply (concat_lanes n), Ht.
Qed.
Print Assumptions C48_chaining_round_trip.

(** ** Cases: SP 800-38A, appendices F.2.1/F.2.2 (CBC-AES128) and F.5.1/F.5.2 (CTR-AES128), on every conforming sample build. *)
Definition nist_key : list N := [0x2b; 0x7e; 0x15; 0x16; 0x28; 0xae; 0xd2; 0xa6; 0xab; 0xf7; 0x15; 0x88; 0x09; 0xcf; 0x4f; 0x3c].
Definition nist_text : list N :=
  [0x6b; 0xc1; 0xbe; 0xe2; 0x2e; 0x40; 0x9f; 0x96; 0xe9; 0x3d; 0x7e; 0x11; 0x73; 0x93; 0x17; 0x2a;
   0xae; 0x2d; 0x8a; 0x57; 0x1e; 0x03; 0xac; 0x9c; 0x9e; 0xb7; 0x6f; 0xac; 0x45; 0xaf; 0x8e; 0x51;
   0x30; 0xc8; 0x1c; 0x46; 0xa3; 0x5c; 0xe4; 0x11; 0xe5; 0xfb; 0xc1; 0x19; 0x1a; 0x0a; 0x52; 0xef;
   0xf6; 0x9f; 0x24; 0x45; 0xdf; 0x4f; 0x9b; 0x17; 0xad; 0x2b; 0x41; 0x7b; 0xe6; 0x6c; 0x37; 0x10].
Definition nist_iv : list N := [0; 1; 2; 3; 4; 5; 6; 7; 8; 9; 10; 11; 12; 13; 14; 15].
Definition nist_counter : N := 0xf0f1f2f3f4f5f6f7f8f9fafbfcfdfeff.
Definition nist_ctr : list N :=
  [0x87; 0x4d; 0x61; 0x91; 0xb6; 0x20; 0xe3; 0x26; 0x1b; 0xef; 0x68; 0x64; 0x99; 0x0d; 0xb6; 0xce;
   0x98; 0x06; 0xf6; 0x6b; 0x79; 0x70; 0xfd; 0xff; 0x86; 0x17; 0x18; 0x7b; 0xb9; 0xff; 0xfd; 0xff;
   0x5a; 0xe4; 0xdf; 0x3e; 0xdb; 0xd5; 0xd3; 0x5e; 0x5b; 0x4f; 0x09; 0x02; 0x0d; 0xb0; 0x3e; 0xab;
   0x1e; 0x03; 0x1d; 0xda; 0x2f; 0xbe; 0x03; 0xd1; 0x79; 0x21; 0x70; 0xa0; 0xf3; 0x00; 0x9c; 0xee].
Definition nist_cbc : list N :=
  [0x76; 0x49; 0xab; 0xac; 0x81; 0x19; 0xb2; 0x46; 0xce; 0xe9; 0x8e; 0x9b; 0x12; 0xe9; 0x19; 0x7d;
   0x50; 0x86; 0xcb; 0x9b; 0x50; 0x72; 0x19; 0xee; 0x95; 0xdb; 0x11; 0x3a; 0x91; 0x76; 0x78; 0xb2;
   0x73; 0xbe; 0xd6; 0xb8; 0xe3; 0xc1; 0x74; 0x3b; 0x71; 0x16; 0xe6; 0x9e; 0x22; 0x22; 0x95; 0x16;
   0x3f; 0xf1; 0xca; 0xa1; 0x68; 0x1f; 0xac; 0x09; 0x12; 0x0e; 0xca; 0x30; 0x75; 0x86; 0xe1; 0xa7].
Lemma nist_key_ok : is_bytes (key_len K128) nist_key. Proof. apply is_bytesb_correct. vm_compute. reflexivity. Qed.
Lemma nist_text_ok : is_bytes 64 nist_text. Proof. apply is_bytesb_correct. vm_compute. reflexivity. Qed.
Lemma nist_cbc_ok : is_bytes 64 nist_cbc. Proof. apply is_bytesb_correct. vm_compute. reflexivity. Qed.
Lemma nist_iv_ok : is_bytes 16 nist_iv. Proof. apply is_bytesb_correct. vm_compute. reflexivity. Qed.
(** a text of 64 bytes, and its first 37 bytes *)
Example C48_counter_mode_case : forall c, In c conforming_samples -> exists i, impl_of c = Some i /\
  ctr_crypt i K128 true nist_key nist_counter nist_text = Ret nist_ctr /\
  ctr_crypt i K128 false nist_key nist_counter (firstn 37 nist_text) = Ret (firstn 37 nist_ctr).
Proof.
  intros c H. destruct (sample_impl c) as [i E]; [apply in_app_iff; now left|]. exists i. split; [exact E|]. split.
  - rewrite (C48_counter_mode c i K128 true nist_key nist_counter nist_text E (sample_conforming c H) nist_key_ok eq_refl (proj2 nist_text_ok)).
    rewrite <- (ctr_stream _ nist_counter 4 nist_text); [vm_compute; reflexivity|intros x Hx; apply aes_encrypt_bytes; [apply nist_key_ok|exact Hx]|apply Nat.leb_le; reflexivity].
  - rewrite (C48_counter_mode c i K128 false nist_key nist_counter (firstn 37 nist_text) E (sample_conforming c H) nist_key_ok eq_refl).
    + rewrite <- (ctr_stream _ nist_counter 3 (firstn 37 nist_text)); [vm_compute; reflexivity|intros x Hx; apply aes_encrypt_bytes; [apply nist_key_ok|exact Hx]|apply Nat.leb_le; reflexivity].
    + apply Forall_firstn', nist_text_ok.
Qed.
(** the counter wraps around: the last counter value, then zero *)
Example C48_counter_wraps : counter_block (2 ^ 128 - 1) 0 = repeat 255 16 /\ counter_block (2 ^ 128 - 1) 1 = repeat 0 16 /\ counter_block (2 ^ 128 - 1) 3 = repeat 0 15 ++ [2].
Proof. split; [|split]; vm_compute; reflexivity. Qed.
Example C48_counter_mode_undoes_itself_case : forall c k, In c samples -> exists i, impl_of c = Some i /\
  exists out, ctr_crypt i k true (fips_key k) (2 ^ 128 - 3) (nist_text ++ firstn 21 nist_text) = Ret out /\ ctr_crypt i k false (fips_key k) (2 ^ 128 - 3) out = Ret (nist_text ++ firstn 21 nist_text).
Proof.
  intros c k H. destruct (sample_impl c H) as [i E]. exists i. split; [exact E|].
  destruct (C48_counter_mode_undoes_itself c i k true false (fips_key k) (2 ^ 128 - 3) (nist_text ++ firstn 21 nist_text) E (fips_key_ok k) eq_refl) as (out & A & _ & B).
  - apply bytes_ok_app; [apply nist_text_ok|apply Forall_firstn', nist_text_ok].
  - now exists out.
Qed.
Example C48_chaining_case : forall c, In c conforming_samples -> exists i, impl_of c = Some i /\
  cbc_encrypt_message i K128 nist_key nist_iv nist_text = Ret nist_cbc /\ cbc_decrypt_message i K128 nist_key nist_iv nist_cbc = Ret nist_text.
Proof.
  intros c H. destruct (sample_impl c) as [i E]; [apply in_app_iff; now left|]. exists i. split; [exact E|]. split.
  - rewrite (proj1 (C48_cipher_block_chaining c i K128 nist_key nist_iv 4 nist_text E (sample_conforming c H) nist_key_ok nist_iv_ok nist_text_ok)). vm_compute. reflexivity.
  - rewrite (proj2 (C48_cipher_block_chaining c i K128 nist_key nist_iv 4 nist_cbc E (sample_conforming c H) nist_key_ok nist_iv_ok nist_cbc_ok)). vm_compute. reflexivity.
Qed.
(** seven blocks: four, then three singly, also on the big-endian constant-time build *)
Example C48_chaining_round_trip_case : forall c k, In c fips_samples -> exists i, impl_of c = Some i /\
  exists out, cbc_encrypt_message i k (fips_key k) nist_iv (nist_text ++ firstn 48 nist_text) = Ret out /\ cbc_decrypt_message i k (fips_key k) nist_iv out = Ret (nist_text ++ firstn 48 nist_text).
Proof.
  intros c k H. destruct (sample_rv32 c H) as [V H']. destruct (sample_impl c H') as [i E]. exists i. split; [exact E|].
  destruct (C48_chaining_round_trip c i k (fips_key k) nist_iv 7 (nist_text ++ firstn 48 nist_text) E V (fips_key_ok k) nist_iv_ok) as (out & A & _ & B).
  - apply is_bytesb_correct. vm_compute. reflexivity.
  - now exists out.
Qed.
