(** The array-style key schedules never panic and fill every column, whatever the column formulas. *)
From Coq Require Import Lia Arith.
From Verif Require Import Word Interface Fips197 Spec_Api Model_Columns Model_Bitslice Isa_arm Model_Arm Isa_riscv Model_Rv32
  Proof_Word Proof_Fips Proof_Ok Proof_Shift Proof_Wide Proof_KeySpec Proof_Columns.
Open Scope N_scope.

Definition w32 (x : N) : Prop := x < 2 ^ 32.
Definition good_cols (n : nat) (cols : list N) : Prop := length cols = n /\ Forall w32 cols.
Definition yields {A} (P : A -> Prop) (m : outcome A) : Prop := exists a, m = Ret a /\ P a.

Lemma yields_bind {A B} (P : A -> Prop) (Q : B -> Prop) m k : yields P m -> (forall a, P a -> yields Q (k a)) -> yields Q (bind m k).
Proof. intros (a & -> & Ha) H. exact (H a Ha). Qed.
Lemma good_get n cols i : good_cols n cols -> (i < n)%nat -> yields w32 (get cols i).
Proof.
  intros [L F] H. unfold get. destruct (nth_error cols i) as [x|] eqn:E.
  - exists x. split; [reflexivity|]. apply nth_error_In in E. exact (proj1 (Forall_forall _ _) F x E).
  - apply nth_error_None in E. lia.
Qed.
Lemma good_set n cols i v : good_cols n cols -> (i < n)%nat -> w32 v -> yields (good_cols n) (set cols i v).
Proof.
  intros [L F] H Hv. unfold set. destruct (Nat.ltb_spec i (length cols)); [|lia]. eexists. split; [reflexivity|]. split.
  - rewrite app_length. cbn [length]. rewrite firstn_length, skipn_length. lia.
  - rewrite <- (firstn_skipn i cols) in F. apply Forall_app in F. destruct F as [F1 F2]. apply Forall_app. split; [assumption|].
    constructor; [assumption|]. replace (S i) with (i + 1)%nat by lia. rewrite <- skipn_skipn'.
    rewrite <- (firstn_skipn 1 (skipn i cols)) in F2. apply Forall_app in F2. tauto.
Qed.
Lemma good_xor n cols k a b : good_cols n cols -> (k < n)%nat -> (a < n)%nat -> (b < n)%nat -> yields (good_cols n) (col_xor cols k a b).
Proof.
  intros G Hk Ha Hb. unfold col_xor. apply (yields_bind w32); [now apply (good_get n)|]. intros x Hx.
  apply (yields_bind w32); [now apply (good_get n)|]. intros y Hy. apply good_set; try assumption. now apply lxor_lt.
Qed.
Definition good3 (f : N -> N -> N -> N) := forall a b c, w32 a -> w32 b -> c < 256 -> w32 (f a b c).
Definition good2 (g : N -> N -> N) := forall a b, w32 a -> w32 b -> w32 (g a b).
Lemma good_first f n cols k a b r : good3 f -> good_cols n cols -> (k < n)%nat -> (a < n)%nat -> (b < n)%nat -> (r < 10)%nat ->
  yields (good_cols n) (col_first f cols k a b r).
Proof.
  intros Gf G Hk Ha Hb Hr. unfold col_first. apply (yields_bind w32); [now apply (good_get n)|]. intros x Hx.
  apply (yields_bind w32); [now apply (good_get n)|]. intros y Hy.
  assert (R : get RCON r = Ret (rcb (S r))) by (do 10 (destruct r as [|r]; [reflexivity|]); lia).
  rewrite R. cbn [bind]. apply good_set; try assumption. apply Gf; try assumption. apply rcb_lt.
Qed.
Lemma good_mid g n cols k a b : good2 g -> good_cols n cols -> (k < n)%nat -> (a < n)%nat -> (b < n)%nat -> yields (good_cols n) (col_mid g cols k a b).
Proof.
  intros Gg G Hk Ha Hb. unfold col_mid. apply (yields_bind w32); [now apply (good_get n)|]. intros x Hx.
  apply (yields_bind w32); [now apply (good_get n)|]. intros y Hy. apply good_set; try assumption. now apply Gg.
Qed.
Lemma good_fold {A S} (P : S -> Prop) (body : S -> A -> outcome S) l :
  (forall s a, In a l -> P s -> yields P (body s a)) -> forall s, P s -> yields P (ofold body l s).
Proof.
  induction l as [|a l IH]; intros H s Hs; cbn [ofold]; [now exists s|].
  apply (yields_bind P); [apply H; [now left|assumption]|]. intros s' Hs'. apply IH; [|assumption]. intros. apply H; [now right|assumption].
Qed.
Lemma good_load be n nk key : is_bytes (4 * nk) key -> (nk <= n)%nat -> yields (good_cols n) (col_load be n key).
Proof.
  intros H Hn. unfold col_load. rewrite (proj1 H), (Nat.mul_comm 4), Nat.div_mul by lia.
  apply good_fold.
  - intros cols [i w] Hin G. cbn [fst snd]. apply good_set; [assumption| |].
    + apply in_combine_l in Hin. apply in_seq in Hin. lia.
    + apply in_combine_r in Hin. pose proof (proj1 (Forall_forall _ _) (key_words nk key H) w Hin) as [L F].
      unfold w32. pose proof (of_ne_lt be w F) as P. rewrite L in P. exact P.
  - split; [apply repeat_length|]. apply Forall_forall. intros x Hx. apply repeat_spec in Hx. now subst.
Qed.

Ltac good_step := first
  [ eapply yields_bind; [good_step|intros ? ?; good_step]
  | apply good_xor; [eassumption|lia..]
  | apply good_first; [eassumption|eassumption|try lia..]
  | apply good_mid; [eassumption|eassumption|lia..] ].

Lemma shape_128 be f key : good3 f -> is_bytes 16 key -> yields (good_cols 44) (col_keygen_128 be f key).
Proof.
  intros Gf H. unfold col_keygen_128. apply (yields_bind (good_cols 44)); [apply (good_load be 44 4); [exact H|lia]|].
  intros cols G. apply good_fold; [|assumption]. clear cols G. intros cols i Hi G. unfold step_by in Hi.
  change (Nat.div (40 + 4 - 1) 4) with 10%nat in Hi. apply in_map_iff in Hi. destruct Hi as (k & <- & Hk). apply in_seq in Hk.
  rewrite Nat.div_mul by lia. good_step.
Qed.
Lemma shape_192 be f key : good3 f -> is_bytes 24 key -> yields (good_cols 52) (col_keygen_192 be f key).
Proof.
  intros Gf H. unfold col_keygen_192. apply (yields_bind (good_cols 52)); [apply (good_load be 52 6); [exact H|lia]|].
  intros cols G. apply (yields_bind (good_cols 52)).
  - apply good_fold; [|assumption]. clear cols G. intros cols i Hi G. unfold step_by in Hi.
    change (Nat.div (42 + 6 - 1) 6) with 7%nat in Hi. apply in_map_iff in Hi. destruct Hi as (k & <- & Hk). apply in_seq in Hk.
    rewrite Nat.div_mul by lia. good_step.
  - clear cols G. intros cols G. good_step.
Qed.
Lemma shape_256 be f f' g key : good3 f -> good3 f' -> good2 g -> is_bytes 32 key -> yields (good_cols 60) (col_keygen_256 be f f' g key).
Proof.
  intros Gf Gf' Gg H. unfold col_keygen_256. apply (yields_bind (good_cols 60)); [apply (good_load be 60 8); [exact H|lia]|].
  intros cols G. apply (yields_bind (good_cols 60)).
  - apply good_fold; [|assumption]. clear cols G. intros cols i Hi G. unfold step_by in Hi.
    change (Nat.div (48 + 8 - 1) 8) with 6%nat in Hi. apply in_map_iff in Hi. destruct Hi as (k & <- & Hk). apply in_seq in Hk.
    rewrite Nat.div_mul by lia. good_step.
  - clear cols G. intros cols G. good_step.
Qed.

Lemma blocks_shape be n cols : good_cols (4 * n) cols ->
  length (col_blocks be n cols) = n /\ Forall (is_bytes 16) (col_blocks be n cols).
Proof.
  intros [L F]. unfold col_blocks.
  assert (Fw : Forall (is_bytes 4) (map (to_ne be 4) cols)).
  { apply Forall_forall. intros w Hw. apply in_map_iff in Hw. destruct Hw as (x & <- & _). split; [apply to_ne_length|apply to_ne_ok]. }
  split; [apply key_chunks_length|]. rewrite chunks_words; [|now rewrite map_length|assumption].
  apply Forall_forall. intros b Hb. apply in_map_iff in Hb. destruct Hb as (r & <- & Hr). apply in_seq in Hr.
  set (ws := map (to_ne be 4) cols) in *. assert (Lw : length ws = (4 * n)%nat) by (unfold ws; now rewrite map_length).
  assert (F4 : Forall (is_bytes 4) (firstn 4 (skipn (4 * r) ws))).
  { rewrite <- (firstn_skipn (4 * r) ws) in Fw. apply Forall_app in Fw. destruct Fw as [_ Fw].
    rewrite <- (firstn_skipn 4 (skipn (4 * r) ws)) in Fw. apply Forall_app in Fw. tauto. }
  pose proof (words_concat4 _ F4) as C. rewrite firstn_length, skipn_length in C.
  replace (4 * Nat.min 4 (length ws - 4 * r))%nat with 16%nat in C by lia. exact C.
Qed.

Lemma key_shape_of_ok {T} (e : block_ext T) f : key_ok e f -> key_shape e f.
Proof.
  intros K k key H. exists (round_keys k key). split; [now apply round_keys_bytes|]. split.
  - unfold round_keys. now rewrite map_length, seq_length.
  - destruct k; [apply (kk_128 _ _ K)|apply (kk_192 _ _ K)|apply (kk_256 _ _ K)]; exact H.
Qed.

Lemma rot_first_good sub : (forall x, w32 x -> w32 (sub x)) -> good3 (rot_first sub).
Proof.
  intros H a b c Ha Hb Hc. unfold rot_first, w32 in *. apply lxor_lt; [apply lxor_lt; [assumption|]|].
  - unfold rotr. apply lor_lt; [apply shr_lt, H, Hb|apply shl_lt].
  - apply N.lt_trans with 256; [assumption|reflexivity].
Qed.
Lemma bitslice_key_shape be : key_shape (bitslice_ext be) (of_ne be).
Proof.
  assert (S : forall x, w32 x -> w32 (bs_sub_word x)) by (intros; apply trunc_lt).
  assert (G3 : good3 (rot_first bs_sub_word)) by (now apply rot_first_good).
  assert (G2 : good2 (sub_mid bs_sub_word)) by (intros a b Ha Hb; apply lxor_lt; [exact Ha|apply S, Hb]).
  intros k key H. destruct k; cbn [e_keygen_128 e_keygen_192 e_keygen_256 bitslice_ext]; unfold bs_keygen_128, bs_keygen_192, bs_keygen_256, bs_keygen.
  - destruct (shape_128 be _ key G3 H) as (cols & -> & G). exists (col_blocks be 11 cols). destruct (blocks_shape be 11 cols G). repeat split; assumption.
  - destruct (shape_192 be _ key G3 H) as (cols & -> & G). exists (col_blocks be 13 cols). destruct (blocks_shape be 13 cols G). repeat split; assumption.
  - destruct (shape_256 be _ _ _ key G3 G3 G2 H) as (cols & -> & G). exists (col_blocks be 15 cols). destruct (blocks_shape be 15 cols G). repeat split; assumption.
Qed.
Lemma esi_w32 a b bs : w32 a -> w32 (aes32esi a b bs).
Proof.
  intros H. unfold aes32esi. apply lxor_lt; [exact H|]. unfold rol32. apply lor_lt; [apply shl_lt|]. apply shr_lt.
  apply N.lt_trans with 256; [|reflexivity]. apply sbox_lt. unfold getbyte. apply (trunc_lt 8).
Qed.
Lemma rv32_key_shape : key_shape rv32_ext r32_of_bytes.
Proof.
  assert (Sw : forall x w, w32 x -> w32 (r32_sub_word x w)) by (intros; unfold r32_sub_word; cbv zeta; repeat apply esi_w32; assumption).
  assert (X : forall a c, w32 a -> c < 256 -> w32 (N.lxor a c)).
  { intros a c Ha Hc. apply lxor_lt; [exact Ha|]. apply N.lt_trans with 256; [assumption|reflexivity]. }
  assert (G3 : good3 r32_first) by (intros a b c Ha Hb Hc; apply Sw, X; assumption).
  assert (G3' : good3 r32_first_rot) by (intros a b c Ha Hb Hc; apply Sw, X; assumption).
  assert (G2 : good2 r32_mid) by (intros a b Ha Hb; apply Sw; assumption).
  intros k key H. destruct k; cbn [e_keygen_128 e_keygen_192 e_keygen_256 rv32_ext]; unfold r32_keygen_128, r32_keygen_192, r32_keygen_256, r32_keygen.
  - destruct (shape_128 false _ key G3 H) as (cols & -> & G). exists (col_blocks false 11 cols). destruct (blocks_shape false 11 cols G). repeat split; assumption.
  - destruct (shape_192 false _ key G3 H) as (cols & -> & G). exists (col_blocks false 13 cols). destruct (blocks_shape false 13 cols G). repeat split; assumption.
  - destruct (shape_256 false _ _ _ key G3' G3 G2 H) as (cols & -> & G). exists (col_blocks false 15 cols). destruct (blocks_shape false 15 cols G). repeat split; assumption.
Qed.
