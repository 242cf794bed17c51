(** Every configuration that compiles refines a byte-level semantics; all but RV32 refine the FIPS-197
    rounds, all but RV32 and big-endian bit-slicing also the FIPS-197 key schedule. *)
From Coq Require Import Lia Arith.
From Verif Require Import Word Interface Fips197 Spec_Api Model_Table Model_Bitslice Model_X86 Model_Vaes Model_Arm Model_Rv64 Model_Rv32
  Model_Wide Model_Lib Model_Cfg Spec_Cfg Isa_x86 Isa_arm Isa_riscv.
From Verif Require Import Proof_Word Proof_Fips Proof_Ok Proof_Table Proof_X86 Proof_Arm Proof_Rv64 Proof_Bitslice Proof_Rv32 Proof_Wide
  Proof_KeySpec Proof_KeyTable Proof_KeyX86 Proof_KeyRv64 Proof_Columns Proof_Shape Proof_Sem Proof_Lib.
Open Scope N_scope.

Definition fips_sem (pre : option (bop * bop)) (keys : key_size -> list N -> list (list N)) : sem :=
  Sem spec_enc spec_enc_last spec_dec spec_dec_last mix_columns inv_mix_columns pre keys.
Definition neon_pre : bop * bop :=
  ((fun a k => mix_columns (sub_bytes (shift_rows (map2 N.lxor a k)))),
   (fun a k => inv_mix_columns (inv_sub_bytes (inv_shift_rows (map2 N.lxor a k))))).

Lemma spec_enc_bop : bop_ok spec_enc.
Proof. intros a k Ha Hk. apply xor_bytes; [|assumption]. now apply mix_columns_bytes, sub_bytes_bytes, shift_rows_bytes. Qed.
Lemma spec_enc_last_bop : bop_ok spec_enc_last.
Proof. intros a k Ha Hk. apply xor_bytes; [|assumption]. now apply sub_bytes_bytes, shift_rows_bytes. Qed.
Lemma spec_dec_bop : bop_ok spec_dec.
Proof. intros a k Ha Hk. apply xor_bytes; [|assumption]. now apply inv_mix_columns_bytes, inv_sub_bytes_bytes, inv_shift_rows_bytes. Qed.
Lemma spec_dec_last_bop : bop_ok spec_dec_last.
Proof. intros a k Ha Hk. apply xor_bytes; [|assumption]. now apply inv_sub_bytes_bytes, inv_shift_rows_bytes. Qed.

Definition keys_ok (keys : key_size -> list N -> list (list N)) : Prop :=
  forall k key, is_bytes (key_len k) key -> length (keys k key) = (nr_of k + 1)%nat /\ Forall (is_bytes 16) (keys k key).
Definition pre_fips (pre : option (bop * bop)) : Prop := pre = None \/ pre = Some neon_pre.
Lemma fips_sem_ok pre keys : pre_fips pre -> keys_ok keys -> sem_ok (fips_sem pre keys).
Proof.
  intros Hp Hk. split; cbn [fips_sem s_enc s_enc_last s_dec s_dec_last s_mc s_imc s_pre s_keys].
  - apply spec_enc_bop.
  - apply spec_enc_last_bop.
  - apply spec_dec_bop.
  - apply spec_dec_last_bop.
  - apply mix_columns_bytes.
  - apply inv_mix_columns_bytes.
  - destruct Hp as [->| ->]; [exact I|]. change (bop_ok (fst neon_pre) /\ bop_ok (snd neon_pre)). split; intros a k Ha Hb; unfold neon_pre, fst, snd.
    + now apply mix_columns_bytes, sub_bytes_bytes, shift_rows_bytes, xor_bytes.
    + now apply inv_mix_columns_bytes, inv_sub_bytes_bytes, inv_shift_rows_bytes, xor_bytes.
  - assumption.
Qed.
Lemma round_keys_ok : keys_ok round_keys.
Proof. intros k key H. split; [unfold round_keys; now rewrite map_length, seq_length|now apply round_keys_bytes]. Qed.

(** ** Default wide types *)
Section Default.
Context {T : Type} (dbg : bool) (o : ops T) (e : block_ext T) (p : option ((T -> T -> T) * (T -> T -> T))).
Context (f : list N -> T) (s : sem).
Let f2 := pair_of 16 f.
Let f4 := pair_of 32 f2.
Lemma default_refines :
  sem_ok s -> data_ok o 16 f -> rounds_ok o 1 f s ->
  (forall a, is_bytes 16 a -> e_mc e (f a) = f (s_mc s a)) ->
  (forall a, is_bytes 16 a -> e_imc e (f a) = f (s_imc s a)) ->
  match p, s_pre s with
  | None, None => True
  | Some (p, q), Some (sp, sq) => lane_ok p 1 f sp /\ lane_ok q 1 f sq
  | _, _ => False
  end ->
  (forall k key, is_bytes (key_len k) key ->
     match k with K128 => e_keygen_128 e key | K192 => e_keygen_192 e key | K256 => e_keygen_256 e key end = Ret (map f (s_keys s k key))) ->
  refines (default_of dbg o e p) f f2 f4 s.
Proof.
  intros S0 D Rr Hmc Himc Hp Hk.
  assert (D2 : data_ok (pair_ops dbg 16 o) 32 f2) by apply (pair_data_ok dbg 16 o f D).
  assert (D4 : data_ok (pair_ops dbg 32 (pair_ops dbg 16 o)) 64 f4) by apply (pair_data_ok dbg 32 _ f2 D2).
  assert (HR : forall U (ou : ops U) m fu, rounds_ok ou m fu s -> rounds_ok (pair_ops dbg (16 * m) ou) (m + m) (pair_of (16 * m) fu) s).
  { intros U ou m fu [? ? ? ?]. split; cbn [pair_ops o_enc o_dec o_enc_last o_dec_last]; apply pair_lane_ok; try assumption; apply S0. }
  assert (Rr2 : rounds_ok (pair_ops dbg 16 o) 2 f2 s) by apply (HR T o 1%nat f Rr).
  assert (Rr4 : rounds_ok (pair_ops dbg 32 (pair_ops dbg 16 o)) 4 f4 s) by apply (HR _ _ 2%nat f2 Rr2).
  assert (P2 : forall a b, is_bytes 16 a -> f2 (a ++ b) = (f a, f b)).
  { intros a b Ha. unfold f2, pair_of. now rewrite firstn_exact, skipn_exact by apply Ha. }
  assert (P4 : forall a b, is_bytes 32 a -> f4 (a ++ b) = (f2 a, f2 b)).
  { intros a b Ha. unfold f4, pair_of. now rewrite firstn_exact, skipn_exact by apply Ha. }
  assert (PQ : forall a b c d, is_bytes 16 a -> is_bytes 16 b -> is_bytes 16 c -> f4 (a ++ b ++ c ++ d) = ((f a, f b), (f c, f d))).
  { intros a b c d Ha Hb Hc. rewrite app_assoc, P4, !P2 by (assumption || now apply (is_bytes_app 16 16)). reflexivity. }
  split; cbn [default_of i_ops1 i_ops2 i_ops4 i_ext i_pre_chain x2_of_pair x2_of_block x2_to_pair x4_of_quad x4_of_pair x4_of_block x4_of_x2 x4_to_quad x4_to_pair];
    try assumption.
  - intros k key Hkey. unfold keygen. cbn [default_of i_ext]. specialize (Hk k key Hkey). destruct k; exact Hk.
  - intros a b Ha Hb. now rewrite P2.
  - intros a Ha. now rewrite P2.
  - intros a b Ha Hb. now rewrite P2.
  - intros a b c d Ha Hb Hc Hd. now rewrite PQ.
  - intros a b Ha Hb. now rewrite P4.
  - intros a Ha. now rewrite PQ.
  - intros a Ha. now rewrite P4.
  - intros a b c d Ha Hb Hc Hd. now rewrite PQ.
  - intros a b Ha Hb. now rewrite P4.
Qed.
End Default.

Lemma rounds_of_ok {T} (o : ops T) m f pre keys : enc_ok o m f -> dec_ok o m f -> rounds_ok o m f (fips_sem pre keys).
Proof. intros [E1 E2] [D1 D2]. split; assumption. Qed.
Lemma keys_of_ok {T} (e : block_ext T) f : key_ok e f -> forall k key, is_bytes (key_len k) key ->
  match k with K128 => e_keygen_128 e key | K192 => e_keygen_192 e key | K256 => e_keygen_256 e key end = Ret (map f (round_keys k key)).
Proof. intros [H1 H2 H3] [] key Hk; auto. Qed.

Lemma default_fips {T} dbg (o : ops T) (e : block_ext T) f :
  data_ok o 16 f -> enc_ok o 1 f -> dec_ok o 1 f -> mix_ok e f -> key_ok e f ->
  refines (default_of dbg o e None) f (pair_of 16 f) (pair_of 32 (pair_of 16 f)) (fips_sem None round_keys).
Proof.
  intros D E1 D1 [M1 M2] K. apply default_refines; try assumption.
  - apply fips_sem_ok; [now left|apply round_keys_ok].
  - now apply rounds_of_ok.
  - exact I.
  - now apply keys_of_ok.
Qed.
Lemma arm_refines dbg arm32 :
  refines (default_of dbg (arm_ops arm32) arm_ext (Some (arm_pre_enc, arm_pre_dec))) xb (pair_of 16 xb) (pair_of 32 (pair_of 16 xb)) (fips_sem (Some neon_pre) round_keys).
Proof.
  apply default_refines.
  - apply fips_sem_ok; [now right|apply round_keys_ok].
  - apply arm_data_ok.
  - apply rounds_of_ok; [apply arm_enc_ok|apply arm_dec_ok].
  - apply arm_mix_ok.
  - apply arm_mix_ok.
  - cbn. split; intros a k Ha Hk; rewrite on_lanes_1 by (apply Ha || apply Hk); reflexivity.
  - apply keys_of_ok, arm_key_ok.
Qed.

(** ** VAES *)
Lemma firstn16_app (a b : list N) : is_bytes 16 a -> firstn 16 (a ++ b) = a. Proof. intros H. apply firstn_exact, H. Qed.
Lemma skipn16_app (a b : list N) : is_bytes 16 a -> skipn 16 (a ++ b) = b. Proof. intros H. apply skipn_exact, H. Qed.
Lemma firstn16_all (a : list N) : is_bytes 16 a -> firstn 16 a = a. Proof. intros H. apply firstn_all2. rewrite (is_bytes_len _ _ H). lia. Qed.
Lemma v2_to_pair_ok (a b : list N) : is_bytes 16 a -> is_bytes 16 b -> v2_to_pair (a ++ b) = (a, b).
Proof.
  intros Ha Hb. unfold v2_to_pair, mm256_extracti128. cbn [Nat.mul Nat.add]. change (skipn 0 (a ++ b)) with (a ++ b).
  now rewrite firstn16_app, skipn16_app, firstn16_all.
Qed.
Lemma v4_to_quad_ok (a b c d : list N) : is_bytes 16 a -> is_bytes 16 b -> is_bytes 16 c -> is_bytes 16 d -> v4_to_quad (a ++ b ++ c ++ d) = (a, b, c, d).
Proof.
  intros Ha Hb Hc Hd. unfold v4_to_quad, mm512_extracti32x4.
  change (16 * 3)%nat with (16 + (16 + 16))%nat. change (16 * 2)%nat with (16 + 16)%nat. change (16 * 1)%nat with 16%nat. change (16 * 0)%nat with 0%nat.
  change (skipn 0 (a ++ b ++ c ++ d)) with (a ++ b ++ c ++ d). rewrite <- !skipn_skipn'.
  repeat first [rewrite skipn16_app by assumption | rewrite firstn16_app by assumption]. now rewrite firstn16_all.
Qed.
Lemma v4_to_pair_ok (a b : list N) : is_bytes 32 a -> is_bytes 32 b -> v4_to_pair (a ++ b) = (a, b).
Proof.
  intros Ha Hb. unfold v4_to_pair, mm512_extracti64x4. change (32 * 1)%nat with 32%nat. change (skipn (32 * 0) (a ++ b)) with (a ++ b).
  rewrite firstn_exact, skipn_exact by apply Ha. now rewrite firstn_all2 by (rewrite (is_bytes_len _ _ Hb); lia).
Qed.

Lemma vaes2_refines dbg : refines (vaes2_impl dbg) xb xb (pair_of 32 xb) (fips_sem None round_keys).
Proof.
  assert (P4 : forall (a b : list N), is_bytes 32 a -> pair_of 32 xb (a ++ b) = (a, b)).
  { intros a b Ha. unfold pair_of, xb. now rewrite firstn_exact, skipn_exact by apply Ha. }
  assert (P22 : forall a b : list N, is_bytes 16 a -> is_bytes 16 b -> is_bytes 32 (a ++ b)) by (intros; now apply (is_bytes_app 16 16)).
  split; cbn [vaes2_impl i_ops1 i_ops2 i_ops4 i_ext i_pre_chain x2_of_pair x2_of_block x2_to_pair x4_of_quad x4_of_pair x4_of_block x4_of_x2 x4_to_quad x4_to_pair].
  - apply x86_data_ok.
  - apply vaes2_data_ok.
  - apply (pair_data_ok dbg 32 vaes2_ops xb vaes2_data_ok).
  - apply rounds_of_ok; [apply x86_enc_ok|apply x86_dec_ok].
  - apply rounds_of_ok; [apply vaes2_enc_ok|apply vaes2_dec_ok].
  - apply rounds_of_ok; [apply (pair_enc_ok dbg 2 vaes2_ops xb vaes2_enc_ok)|apply (pair_dec_ok dbg 2 vaes2_ops xb vaes2_dec_ok)].
  - apply x86_mix_ok.
  - apply x86_mix_ok.
  - exact I.
  - intros k key Hk. unfold keygen. cbn [vaes2_impl i_ext]. pose proof (keys_of_ok _ _ (x86_key_ok dbg) k key Hk) as G. destruct k; exact G.
  - reflexivity.
  - reflexivity.
  - exact v2_to_pair_ok.
  - intros a b c d Ha Hb Hc Hd. rewrite app_assoc, P4 by auto. reflexivity.
  - intros a b Ha Hb. now rewrite P4.
  - intros a Ha. rewrite app_assoc, P4 by auto. reflexivity.
  - intros a Ha. now rewrite P4.
  - intros a b c d Ha Hb Hc Hd. rewrite app_assoc, P4 by auto. unfold d4_to_quad. cbn [fst snd]. rewrite !v2_to_pair_ok by assumption. reflexivity.
  - intros a b Ha Hb. rewrite P4 by auto. reflexivity.
Qed.
Lemma vaes4_refines dbg : refines (vaes4_impl dbg) xb xb xb (fips_sem None round_keys).
Proof.
  split; cbn [vaes4_impl i_ops1 i_ops2 i_ops4 i_ext i_pre_chain x2_of_pair x2_of_block x2_to_pair x4_of_quad x4_of_pair x4_of_block x4_of_x2 x4_to_quad x4_to_pair].
  - apply x86_data_ok.
  - apply vaes2_data_ok.
  - apply vaes4_data_ok.
  - apply rounds_of_ok; [apply x86_enc_ok|apply x86_dec_ok].
  - apply rounds_of_ok; [apply vaes2_enc_ok|apply vaes2_dec_ok].
  - apply rounds_of_ok; [apply vaes4_enc_ok|apply vaes4_dec_ok].
  - apply x86_mix_ok.
  - apply x86_mix_ok.
  - exact I.
  - intros k key Hk. unfold keygen. cbn [vaes4_impl i_ext]. pose proof (keys_of_ok _ _ (x86_key_ok dbg) k key Hk) as G. destruct k; exact G.
  - reflexivity.
  - reflexivity.
  - exact v2_to_pair_ok.
  - intros a b c d Ha Hb Hc Hd. apply v4_of_quad_g_ok; [apply Ha|apply Hb|apply Hc|apply Hd].
  - intros a b Ha Hb. apply v4_of_pair_g_ok; [apply Ha|apply Hb].
  - reflexivity.
  - reflexivity.
  - exact v4_to_quad_ok.
  - exact v4_to_pair_ok.
Qed.

(** ** Big-endian bit-slicing: FIPS rounds, its own key schedule *)
Definition keys_from {T} (e : block_ext T) (g : T -> list N) (k : key_size) (key : list N) : list (list N) :=
  match match k with K128 => e_keygen_128 e key | K192 => e_keygen_192 e key | K256 => e_keygen_256 e key end with
  | Ret l => map g l | _ => [] end.
Lemma keys_from_ok {T} (e : block_ext T) f g : (forall b, is_bytes 16 b -> g (f b) = b) -> key_shape e f ->
  keys_ok (keys_from e g) /\ forall k key, is_bytes (key_len k) key ->
  match k with K128 => e_keygen_128 e key | K192 => e_keygen_192 e key | K256 => e_keygen_256 e key end = Ret (map f (keys_from e g k key)).
Proof.
  intros Hg H.
  assert (G : forall k key, is_bytes (key_len k) key -> exists rks, Forall (is_bytes 16) rks /\ length rks = (nr_of k + 1)%nat /\ keys_from e g k key = rks /\
     match k with K128 => e_keygen_128 e key | K192 => e_keygen_192 e key | K256 => e_keygen_256 e key end = Ret (map f rks)).
  { intros k key Hk. destruct (H k key Hk) as (rks & F & L & E). exists rks. split; [assumption|split; [assumption|split; [|assumption]]].
    unfold keys_from. rewrite E, map_map. clear - F Hg. induction F; [reflexivity|]. cbn. rewrite Hg by assumption. now f_equal. }
  split; intros k key Hk; destruct (G k key Hk) as (rks & F & L & E & E'); rewrite E; auto.
Qed.
Lemma of_ne_bytes be b : is_bytes 16 b -> to_ne be 16 (of_ne be b) = b.
Proof. intros [L F]. rewrite <- L. now apply to_ne_of_ne. Qed.
Definition bitslice_keys (be : bool) := keys_from (bitslice_ext be) (to_ne be 16).
Lemma bitslice_refines dbg be :
  refines (default_of dbg (bitslice_ops be) (bitslice_ext be) None) (of_ne be) (pair_of 16 (of_ne be)) (pair_of 32 (pair_of 16 (of_ne be)))
    (fips_sem None (bitslice_keys be)) /\ sem_ok (fips_sem None (bitslice_keys be)).
Proof.
  destruct (keys_from_ok (bitslice_ext be) (of_ne be) (to_ne be 16) (of_ne_bytes be) (bitslice_key_shape be)) as [K1 K2].
  assert (S0 : sem_ok (fips_sem None (bitslice_keys be))) by (apply fips_sem_ok; [now left|assumption]).
  split; [|assumption]. apply default_refines; try assumption.
  - apply bitslice_data_ok.
  - apply rounds_of_ok; [apply bitslice_enc_ok|apply bitslice_dec_ok].
  - apply bitslice_mix_ok.
  - apply bitslice_mix_ok.
  - exact I.
Qed.

(** ** RV32: its own semantics, only [enc] and [enc_last] being those of FIPS-197 *)
Definition rv32_bop (op : w4 -> w4 -> w4) : bop := fun a k => r32_bytes (op (r32_of_bytes a) (r32_of_bytes k)).
Definition rv32_sem : sem :=
  Sem spec_enc spec_enc_last (rv32_bop r32_dec) (rv32_bop r32_dec_last)
      (fun a => r32_bytes (r32_mc (r32_of_bytes a))) (fun a => r32_bytes (r32_imc (r32_of_bytes a)))
      (Some (rv32_bop r32_pre_enc, rv32_bop r32_pre_dec)) (keys_from rv32_ext r32_bytes).

Definition w4_ok (w : w4) : Prop := w32 (w_0 w) /\ w32 (w_1 w) /\ w32 (w_2 w) /\ w32 (w_3 w).
Lemma w32_bytes x : w32 x -> of_le (to_le 4 x) = x.
Proof. intros H. apply of_le_to_le. exact H. Qed.
Lemma r32_bytes_bytes w : is_bytes 16 (r32_bytes w).
Proof. unfold r32_bytes. repeat apply (is_bytes_app 4); try (split; [apply to_le_length|apply to_le_ok]). Qed.
Lemma r32_of_bytes_bytes w : w4_ok w -> r32_of_bytes (r32_bytes w) = w.
Proof.
  intros (H0 & H1 & H2 & H3). destruct w as [a b c d]. cbn [w_0 w_1 w_2 w_3] in *. unfold r32_bytes. cbn [w_0 w_1 w_2 w_3].
  unfold r32_of_bytes. 
  assert (E : chunks 4 4 (to_le 4 a ++ to_le 4 b ++ to_le 4 c ++ to_le 4 d) = [to_le 4 a; to_le 4 b; to_le 4 c; to_le 4 d]) by reflexivity.
  rewrite E. cbn [map]. now rewrite !w32_bytes.
Qed.
Lemma r32_of_bytes_w4 b : is_bytes 16 b -> w4_ok (r32_of_bytes b).
Proof.
  intros H. bytes_tac H. unfold r32_of_bytes. cbn [chunks map firstn skipn]. unfold w4_ok, w32. cbn [w_0 w_1 w_2 w_3].
  repeat split; apply (of_le_lt [_; _; _; _]); repeat constructor; assumption.
Qed.
Lemma rol_w32 x k : w32 x -> w32 (rol32 x k).
Proof. intros H. unfold w32, rol32 in *. apply lor_lt; [apply shl_lt|apply shr_lt, H]. Qed.
Lemma xor_w32 x y : w32 x -> w32 y -> w32 (N.lxor x y).
Proof. apply lxor_lt. Qed.
Lemma getbyte_lt x i : getbyte x i < 256.
Proof. unfold getbyte. apply (land_lt _ 255 8). reflexivity. Qed.
Lemma byte_w32 x : x < 256 -> w32 x.
Proof. unfold w32. intros H. change (2 ^ 32) with 4294967296. lia. Qed.
Lemma of_le4_w32 a b c d : a < 256 -> b < 256 -> c < 256 -> d < 256 -> w32 (of_le [a; b; c; d]).
Proof. intros. apply (of_le_lt [a; b; c; d]). repeat constructor; assumption. Qed.
Lemma dsi_w32 a b bs : w32 a -> w32 (aes32dsi a b bs).
Proof. intros H. apply xor_w32; [assumption|]. apply rol_w32, byte_w32, inv_sbox_lt, getbyte_lt. Qed.
Lemma dsmi_w32 a b bs : w32 a -> w32 (aes32dsmi a b bs).
Proof.
  intros H. apply xor_w32; [assumption|]. apply rol_w32. unfold mixcolumn_byte_inv.
  pose proof (inv_sbox_lt _ (getbyte_lt b bs)). apply of_le4_w32; apply gmul_lt; assumption.
Qed.
Lemma esmi_w32 a b bs : w32 a -> w32 (aes32esmi a b bs).
Proof.
  intros H. apply xor_w32; [assumption|]. apply rol_w32. unfold mixcolumn_byte_fwd.
  pose proof (sbox_lt _ (getbyte_lt b bs)). apply of_le4_w32; try apply gmul_lt; assumption.
Qed.
Lemma outer_w4 f m k : (forall a b bs, w32 a -> w32 (f a b bs)) -> w4_ok k -> w4_ok (r32_outer f m k).
Proof. intros Hf (H0 & H1 & H2 & H3). unfold w4_ok, r32_outer, r32_inner. cbn [w_0 w_1 w_2 w_3]. repeat split; repeat apply Hf; assumption. Qed.
Lemma xor_w4 a b : w4_ok a -> w4_ok b -> w4_ok (w4_xor a b).
Proof. intros (?&?&?&?) (?&?&?&?). unfold w4_xor, w4_map2, w4_ok. cbn [w_0 w_1 w_2 w_3]. repeat split; now apply xor_w32. Qed.
Lemma zero_w4 : w4_ok w4_zero.
Proof. repeat split. Qed.
Lemma dec_w4 m k : w4_ok k -> w4_ok (r32_dec m k).
Proof. intros H. apply xor_w4; [|assumption]. apply outer_w4; [exact dsmi_w32|exact zero_w4]. Qed.
Lemma dec_last_w4 m k : w4_ok k -> w4_ok (r32_dec_last m k).
Proof. intros H. apply xor_w4; [|assumption]. apply outer_w4; [exact dsi_w32|exact zero_w4]. Qed.
Lemma enc_w4 m k : w4_ok k -> w4_ok (r32_enc m k).
Proof. intros H. apply xor_w4; [|assumption]. apply outer_w4; [exact esmi_w32|exact zero_w4]. Qed.

Lemma rv32_bop_ok op : bop_ok (rv32_bop op).
Proof. intros a k _ _. apply r32_bytes_bytes. Qed.
Lemma rv32_lane_ok op : (forall m k, w4_ok k -> w4_ok (op m k)) -> lane_ok op 1 r32_of_bytes (rv32_bop op).
Proof.
  intros H a k Ha Hk. change (is_bytes 16 a) in Ha. change (is_bytes 16 k) in Hk. rewrite on_lanes_1 by (apply Ha || apply Hk). unfold rv32_bop.
  rewrite r32_of_bytes_bytes; [reflexivity|]. apply H. now apply r32_of_bytes_w4.
Qed.
Lemma rv32_refines dbg :
  refines (default_of dbg rv32_ops rv32_ext (Some (r32_pre_enc, r32_pre_dec))) r32_of_bytes (pair_of 16 r32_of_bytes) (pair_of 32 (pair_of 16 r32_of_bytes)) rv32_sem
  /\ sem_ok rv32_sem.
Proof.
  destruct (keys_from_ok rv32_ext r32_of_bytes r32_bytes r32_bytes_of rv32_key_shape) as [K1 K2].
  assert (S0 : sem_ok rv32_sem).
  { split; cbn [rv32_sem s_enc s_enc_last s_dec s_dec_last s_mc s_imc s_pre s_keys].
    - apply spec_enc_bop.
    - apply spec_enc_last_bop.
    - apply rv32_bop_ok.
    - apply rv32_bop_ok.
    - intros. apply r32_bytes_bytes.
    - intros. apply r32_bytes_bytes.
    - split; apply rv32_bop_ok.
    - assumption. }
  split; [|assumption]. apply default_refines; try assumption.
  - apply rv32_data_ok.
  - destruct rv32_enc_ok as [E1 E2]. split; [exact E1| |exact E2|]; apply rv32_lane_ok; [apply dec_w4|apply dec_last_w4].
  - intros a Ha. cbn [rv32_ext e_mc rv32_sem s_mc]. rewrite r32_of_bytes_bytes; [reflexivity|]. apply enc_w4, zero_w4.
  - intros a Ha. cbn [rv32_ext e_imc rv32_sem s_imc]. rewrite r32_of_bytes_bytes; [reflexivity|]. apply dec_w4, zero_w4.
  - cbn [rv32_sem s_pre]. split; apply rv32_lane_ok; intros m k; apply outer_w4; [exact esmi_w32|exact dsmi_w32].
Qed.

(** ** All configurations *)
Definition some_refines (i : impl) (s : sem) : Prop := sem_ok s /\ exists f1 f2 f4, refines i f1 f2 f4 s.

Lemma fips_rk_ok : forall pre, pre_fips pre -> sem_ok (fips_sem pre round_keys).
Proof. intros. apply fips_sem_ok; [assumption|apply round_keys_ok]. Qed.

Lemma rv32_select c : rv32_zk c = match select_block c with BRv32 => true | _ => false end.
Proof. destruct c as [a be ni ct sse aes va av v8 ze zd dbg]; unfold rv32_zk, select_block, is_x86, is_neon_arch, is_arch; cbn [c_arch c_be c_nightly c_ct c_sse41 c_aes c_vaes c_avx512f c_v8 c_zkne c_zknd].
  destruct a, ni, sse, aes, v8, ze, zd, be, ct; reflexivity. Qed.

Lemma impl_refines c i : impl_of c = Some i ->
  (exists pre keys, rv32_zk c = false /\ pre_fips pre /\ (conforming c = true -> keys = round_keys) /\ some_refines i (fips_sem pre keys))
  \/ (rv32_zk c = true /\ some_refines i rv32_sem).
Proof.
  intros E. unfold impl_of in E. rewrite !rv32_select. unfold conforming, be_constant_time. rewrite !rv32_select.
  assert (HD : forall T (o : ops T) e f pre, e_pre e = None -> data_ok o 16 f -> enc_ok o 1 f -> dec_ok o 1 f -> mix_ok e f -> key_ok e f ->
     default_impl (c_dbg c) o e pre = Some i -> some_refines i (fips_sem None round_keys)).
  { intros T o e f pre He D E1 D1 M K H. unfold default_impl in H. rewrite He in H. destruct pre; [discriminate|]. injection H as <-.
    split; [apply fips_rk_ok; now left|]. do 3 eexists. apply (default_fips _ o e f); assumption. }
  destruct (select_x2 c), (select_x4 c), (select_block c) eqn:EB; try discriminate.
  - left. destruct (select_pre_chain c); [discriminate|]. injection E as <-. exists None, round_keys. split; [reflexivity|split; [now left|split; [reflexivity|]]].
    split; [apply fips_rk_ok; now left|]. do 3 eexists. apply vaes4_refines.
  - left. destruct (select_pre_chain c); [discriminate|]. injection E as <-. exists None, round_keys. split; [reflexivity|split; [now left|split; [reflexivity|]]].
    split; [apply fips_rk_ok; now left|]. do 3 eexists. apply vaes2_refines.
  - left. exists None, round_keys. split; [reflexivity|split; [now left|split; [reflexivity|]]].
    eapply (HD _ x86_ops (x86_ext (c_dbg c)) xb); [reflexivity|apply x86_data_ok|apply x86_enc_ok|apply x86_dec_ok|apply x86_mix_ok|apply x86_key_ok|eassumption].
  - left. assert (P : select_pre_chain c = true).
    { revert EB. unfold select_block, select_pre_chain. destruct (is_x86 c && c_sse41 c && c_aes c); [discriminate|].
      destruct (is_neon_arch c && c_aes c) eqn:G; [reflexivity|]. cbn [andb].
      destruct (c_nightly c && is_arch Riscv64 c && c_zkne c && c_zknd c); [discriminate|].
      destruct (c_nightly c && is_arch Riscv32 c && c_zkne c && c_zknd c); [discriminate|]. destruct (c_ct c); discriminate. }
    rewrite P in E. cbn in E. injection E as <-. exists (Some neon_pre), round_keys. split; [reflexivity|split; [now right|split; [reflexivity|]]].
    split; [apply fips_rk_ok; now right|]. do 3 eexists. apply arm_refines.
  - left. exists None, round_keys. split; [reflexivity|split; [now left|split; [reflexivity|]]].
    eapply (HD _ rv64_ops (rv64_ext (c_dbg c)) r64_of); [reflexivity|apply rv64_data_ok|apply rv64_enc_ok|apply rv64_dec_ok|apply rv64_mix_ok|apply rv64_key_ok|eassumption].
  - right. split; [reflexivity|]. assert (P : select_pre_chain c = true).
    { revert EB. unfold select_block, select_pre_chain. destruct (is_x86 c && c_sse41 c && c_aes c); [discriminate|].
      destruct (is_neon_arch c && c_aes c && negb (c_be c)) eqn:G; [discriminate|].
      destruct (c_nightly c && is_arch Riscv64 c && c_zkne c && c_zknd c); [discriminate|].
      destruct (c_nightly c && is_arch Riscv32 c && c_zkne c && c_zknd c); [now rewrite orb_true_r|]. destruct (c_ct c); discriminate. }
    rewrite P in E. cbn in E. injection E as <-. split; [apply (rv32_refines true)|]. do 3 eexists. apply rv32_refines.
  - left. unfold default_impl in E. destruct (select_pre_chain c); [discriminate|]. injection E as <-.
    assert (CT : c_ct c = true).
    { revert EB. unfold select_block. destruct (is_x86 c && c_sse41 c && c_aes c); [discriminate|].
      destruct (is_neon_arch c && c_aes c && negb (c_be c)); [discriminate|].
      destruct (c_nightly c && is_arch Riscv64 c && c_zkne c && c_zknd c); [discriminate|].
      destruct (c_nightly c && is_arch Riscv32 c && c_zkne c && c_zknd c); [discriminate|]. destruct (c_ct c); [reflexivity|discriminate]. }
    rewrite CT. destruct (c_be c).
    + exists None, (bitslice_keys true). split; [reflexivity|split; [now left|split; [discriminate|]]]. split; [apply (bitslice_refines true)|]. do 3 eexists. apply bitslice_refines.
    + exists None, round_keys. split; [reflexivity|split; [now left|split; [reflexivity|]]]. split; [apply fips_rk_ok; now left|]. do 3 eexists.
      apply default_fips; [apply bitslice_data_ok|apply bitslice_enc_ok|apply bitslice_dec_ok|apply bitslice_mix_ok|apply bitslice_key_ok].
  - left. exists None, round_keys. split; [reflexivity|split; [now left|split; [reflexivity|]]].
    eapply (HD _ table_ops (table_ext (c_dbg c)) tb_of); [reflexivity|apply table_data_ok|apply table_enc_ok|apply table_dec_ok|apply table_mix_ok|apply table_key_ok|eassumption].
Qed.
