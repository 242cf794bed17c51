(** Lemmas for C39. *)
From Coq Require Import Lia Arith.
From Verif Require Import Word Fips197 Spec_Api Spec_Actual Spec_Algebra.
From Verif Require Import Proof_Shape Proof_Word Proof_Fips Proof_Sem Proof_Ok Proof_Lib Proof_Inst Proof_Actual.
Open Scope N_scope.

(** ** The round key is added last *)
Definition adds_key (g : bop) : Prop := exists h, (forall a, is_bytes 16 a -> is_bytes 16 (h a)) /\ forall a k, g a k = map2 N.lxor (h a) k.
Lemma adds_enc : adds_key spec_enc.
Proof. exists (fun a => mix_columns (sub_bytes (shift_rows a))). split; [|reflexivity]. intros a H. now apply mix_columns_bytes, sub_bytes_bytes, shift_rows_bytes. Qed.
Lemma adds_enc_last : adds_key spec_enc_last.
Proof. exists (fun a => sub_bytes (shift_rows a)). split; [|reflexivity]. intros a H. now apply sub_bytes_bytes, shift_rows_bytes. Qed.
Lemma adds_dec : adds_key spec_dec.
Proof. exists (fun a => inv_mix_columns (inv_sub_bytes (inv_shift_rows a))). split; [|reflexivity]. intros a H. now apply inv_mix_columns_bytes, inv_sub_bytes_bytes, inv_shift_rows_bytes. Qed.
Lemma adds_dec_last : adds_key spec_dec_last.
Proof. exists (fun a => inv_sub_bytes (inv_shift_rows a)). split; [|reflexivity]. intros a H. now apply inv_sub_bytes_bytes, inv_shift_rows_bytes. Qed.
Lemma adds_rv32_dec : adds_key rv32_dec.
Proof. exists (fun a => inv_mix_columns (inv_sub_bytes (shift_rows a))). split; [|reflexivity]. intros a H. now apply inv_mix_columns_bytes, inv_sub_bytes_bytes, shift_rows_bytes. Qed.
Lemma adds_rv32_dec_last : adds_key rv32_dec_last.
Proof. exists (fun a => inv_sub_bytes (shift_rows a)). split; [|reflexivity]. intros a H. now apply inv_sub_bytes_bytes, shift_rows_bytes. Qed.
Lemma adds_bop g : adds_key g -> bop_ok g.
Proof. intros (h & H & E) a k Ha Hk. rewrite E. apply xor_bytes; auto. Qed.
Lemma adds_lanes m g : adds_key g -> forall x a b, is_bytes (16 * m) x -> is_bytes (16 * m) a -> is_bytes (16 * m) b ->
  on_lanes m g x (map2 N.lxor a b) = map2 N.lxor (on_lanes m g x a) b.
Proof.
  intros A x a b Hx Ha Hb. pose proof (adds_bop g A) as G. pose proof (on_lanes_bytes m g x a G Hx Ha) as Hy.
  assert (X : bop_ok (map2 N.lxor)) by (intros p q; apply xor_bytes).
  rewrite (xor_as_lanes m (on_lanes m g x a) b) by (apply Hy || apply Hb). unfold on_lanes at 1 2. f_equal.
  rewrite (xor_as_lanes m a b) by (apply Ha || apply Hb). rewrite !lanes_on_lanes by assumption.
  pose proof (lanes_bytes m x Hx) as Lx. pose proof (lanes_bytes m a Ha) as La. pose proof (lanes_bytes m b Hb) as Lb.
  destruct A as (h & H & E). revert Lx La Lb. generalize (lanes m x) (lanes m a) (lanes m b). clear - E.
  intros l la lb Lx. revert la lb. induction Lx as [|p l Hp _ IH]; intros [|q la] [|r lb] La Lb; try reflexivity.
  cbn [map2]. inversion La; inversion Lb; subst. rewrite IH by assumption. f_equal. rewrite !E. symmetry. apply xor_assoc.
Qed.

(** ** MixColumns is linear *)
Definition linear16 (g : list N -> list N) : Prop := forall a b, is_bytes 16 a -> is_bytes 16 b -> g (map2 N.lxor a b) = map2 N.lxor (g a) (g b).
Lemma linear_mix : linear16 mix_columns.
Proof. intros a b [La _] [Lb _]. now apply mix_with_xor. Qed.
Lemma linear_inv_mix : linear16 inv_mix_columns.
Proof. intros a b [La _] [Lb _]. now apply mix_with_xor. Qed.
Lemma shift_xor a b : length a = 16%nat -> length b = 16%nat -> shift_rows (map2 N.lxor a b) = map2 N.lxor (shift_rows a) (shift_rows b).
Proof. intros La Lb. explode La. explode Lb. cbn [map2]. rewrite !shift_rows_16. reflexivity. Qed.
Lemma linear_rv32_mc : linear16 rv32_mc /\ linear16 rv32_imc.
Proof.
  split; intros a b Ha Hb; unfold rv32_mc, rv32_imc; rewrite !shift_xor by (apply shift_rows_bytes || idtac; try apply Ha; try apply Hb; assumption);
  [apply linear_mix|apply linear_inv_mix]; now apply shift_rows_bytes, shift_rows_bytes.
Qed.

(** ** Diffusion *)
Lemma gmul_nonzero m e : In m [1; 2; 3; 9; 0xb; 0xd; 0xe] -> 0 < e < 256 -> gmul m e <> 0.
Proof.
  intros H E. assert (C : forallb (fun e => forallb (fun m => (e =? 0) || negb (gmul m e =? 0)) [1; 2; 3; 9; 0xb; 0xd; 0xe]) (map N.of_nat (seq 0 256)) = true) by (vm_compute; reflexivity).
  rewrite forallb_forall in C. assert (Q : In e (map N.of_nat (seq 0 256))).
  { apply in_map_iff. exists (N.to_nat e). split; [apply N2Nat.id|]. apply in_seq. lia. }
  specialize (C e Q). rewrite forallb_forall in C. specialize (C m H). apply orb_true_iff in C as [C|C]; [apply N.eqb_eq in C; lia|].
  apply negb_true_iff, N.eqb_neq in C. exact C.
Qed.
Lemma gmul_inj m x y : In m [1; 2; 3; 9; 0xb; 0xd; 0xe] -> x < 256 -> y < 256 -> x <> y -> gmul m x <> gmul m y.
Proof.
  intros H Hx Hy N E. apply (gmul_nonzero m (N.lxor x y) H).
  - split; [|now apply lxor_byte]. assert (N.lxor x y <> 0) by (intros Q; apply N.lxor_eq in Q; contradiction). lia.
  - rewrite gmul_lxor, E. apply N.lxor_nilpotent.
Qed.
Lemma lxor_cancel_r a b c : a <> b -> N.lxor a c <> N.lxor b c.
Proof. intros H E. apply H. rewrite <- (N.lxor_0_r a), <- (N.lxor_0_r b), <- (N.lxor_nilpotent c), <- !N.lxor_assoc. now rewrite E. Qed.
Lemma lxor_cancel_l a b c : a <> b -> N.lxor c a <> N.lxor c b.
Proof. rewrite !(N.lxor_comm c). apply lxor_cancel_r. Qed.
Lemma sbox_neq x y : x < 256 -> y < 256 -> x <> y -> sbox x <> sbox y.
Proof. intros Hx Hy N E. apply N. rewrite <- (inv_sbox_sbox x), <- (inv_sbox_sbox y) by assumption. now rewrite E. Qed.
Lemma inv_sbox_neq x y : x < 256 -> y < 256 -> x <> y -> inv_sbox x <> inv_sbox y.
Proof. intros Hx Hy N E. apply N. rewrite <- (sbox_inv_sbox x), <- (sbox_inv_sbox y) by assumption. now rewrite E. Qed.

(** Where two states differ: [p j] says they do at position j. *)
Definition pattern : Type := list bool.
Fixpoint differs (p : pattern) (a b : list N) : Prop :=
  match p, a, b with
  | [], [], [] => True
  | d :: p, x :: a, y :: b => (if d then x <> y else x = y) /\ differs p a b
  | _, _, _ => False
  end.
Definition one_at (j : nat) : pattern := map (Nat.eqb j) (seq 0 16).
Definition col_at (c : nat) : pattern := map (fun j => Nat.eqb (Nat.div j 4) c) (seq 0 16).
Definition everywhere : pattern := repeat true 16.
Lemma differs_differing p : forall a b, length a = length p -> length b = length p ->
  differs p a b <-> map (fun j => negb (N.eqb (nth j a 0) (nth j b 0))) (seq 0 (length p)) = p.
Proof.
  induction p as [|d p IH]; intros [|x a] [|y b] La Lb; try discriminate; cbn [differs length seq map]; [tauto|].
  rewrite <- seq_shift, map_map. cbn [nth]. rewrite IH by (cbn in *; lia).
  destruct d, (N.eqb_spec x y); cbn [negb]; split; intros Q; try (destruct Q; congruence); try discriminate; (split; [assumption|]) || f_equal; try tauto; try (injection Q as Q; assumption).
Qed.
Lemma col_mix_0 m0 m1 m2 m3 x y b c d : In m0 [1; 2; 3; 9; 0xb; 0xd; 0xe] -> x < 256 -> y < 256 -> x <> y -> col_mix m0 m1 m2 m3 x b c d <> col_mix m0 m1 m2 m3 y b c d.
Proof. intros. unfold col_mix. now apply lxor_cancel_r, lxor_cancel_r, gmul_inj. Qed.
Lemma col_mix_1 m0 m1 m2 m3 x y b c d : In m1 [1; 2; 3; 9; 0xb; 0xd; 0xe] -> x < 256 -> y < 256 -> x <> y -> col_mix m0 m1 m2 m3 b x c d <> col_mix m0 m1 m2 m3 b y c d.
Proof. intros. unfold col_mix. now apply lxor_cancel_r, lxor_cancel_l, gmul_inj. Qed.
Lemma col_mix_2 m0 m1 m2 m3 x y b c d : In m2 [1; 2; 3; 9; 0xb; 0xd; 0xe] -> x < 256 -> y < 256 -> x <> y -> col_mix m0 m1 m2 m3 b c x d <> col_mix m0 m1 m2 m3 b c y d.
Proof. intros. unfold col_mix. now apply lxor_cancel_l, lxor_cancel_r, gmul_inj. Qed.
Lemma col_mix_3 m0 m1 m2 m3 x y b c d : In m3 [1; 2; 3; 9; 0xb; 0xd; 0xe] -> x < 256 -> y < 256 -> x <> y -> col_mix m0 m1 m2 m3 b c d x <> col_mix m0 m1 m2 m3 b c d y.
Proof. intros. unfold col_mix. now apply lxor_cancel_l, lxor_cancel_l, gmul_inj. Qed.

Ltac coef := cbn [In]; tauto.
Ltac one_byte :=
  apply lxor_cancel_r; first [apply col_mix_0|apply col_mix_1|apply col_mix_2|apply col_mix_3];
  [coef|first [apply sbox_lt|apply inv_sbox_lt]; assumption|first [apply sbox_lt|apply inv_sbox_lt]; assumption|first [apply sbox_neq|apply inv_sbox_neq]; assumption].
Ltac pattern_round :=
  repeat (split; [first [reflexivity|one_byte]|]); exact I.
Ltac open_states Ha Hb Hk H :=
  destruct Ha as [La Fa], Hb as [Lb Fb], Hk as [Lk _]; explode La; explode Lb; explode Lk; inv_forall; cbn [differs one_at col_at everywhere map seq repeat Nat.eqb Nat.div Nat.divmod fst] in H;
  decompose [and] H; clear H; subst.
Lemma enc_one_byte j a b k : (j < 16)%nat -> is_bytes 16 a -> is_bytes 16 b -> is_bytes 16 k -> differs (one_at j) a b ->
  differs (col_at (Nat.modulo (j / 4 + 4 - j mod 4) 4)) (spec_enc a k) (spec_enc b k).
Proof.
  intros Hj Ha Hb Hk H. unfold spec_enc, add_round_key, mix_columns, sub_bytes.
  do 16 (destruct j as [|j]; [open_states Ha Hb Hk H; rewrite !shift_rows_16; cbn [map]; rewrite !mix_with_16; cbn [map2]; cbn -[N.lxor col_mix sbox]; pattern_round|]). lia.
Qed.
Lemma enc_column c a b k : (c < 4)%nat -> is_bytes 16 a -> is_bytes 16 b -> is_bytes 16 k -> differs (col_at c) a b ->
  differs everywhere (spec_enc a k) (spec_enc b k).
Proof.
  intros Hc Ha Hb Hk H. unfold spec_enc, add_round_key, mix_columns, sub_bytes.
  do 4 (destruct c as [|c]; [open_states Ha Hb Hk H; rewrite !shift_rows_16; cbn [map]; rewrite !mix_with_16; cbn [map2]; cbn -[N.lxor col_mix sbox]; pattern_round|]). lia.
Qed.
Lemma dec_one_byte j a b k : (j < 16)%nat -> is_bytes 16 a -> is_bytes 16 b -> is_bytes 16 k -> differs (one_at j) a b ->
  differs (col_at (Nat.modulo (j / 4 + j mod 4) 4)) (spec_dec a k) (spec_dec b k).
Proof.
  intros Hj Ha Hb Hk H. unfold spec_dec, add_round_key, inv_mix_columns, inv_sub_bytes.
  do 16 (destruct j as [|j]; [open_states Ha Hb Hk H; rewrite !inv_shift_rows_16; cbn [map]; rewrite !mix_with_16; cbn [map2]; cbn -[N.lxor col_mix inv_sbox]; pattern_round|]). lia.
Qed.
Lemma dec_column c a b k : (c < 4)%nat -> is_bytes 16 a -> is_bytes 16 b -> is_bytes 16 k -> differs (col_at c) a b ->
  differs everywhere (spec_dec a k) (spec_dec b k).
Proof.
  intros Hc Ha Hb Hk H. unfold spec_dec, add_round_key, inv_mix_columns, inv_sub_bytes.
  do 4 (destruct c as [|c]; [open_states Ha Hb Hk H; rewrite !inv_shift_rows_16; cbn [map]; rewrite !mix_with_16; cbn [map2]; cbn -[N.lxor col_mix inv_sbox]; pattern_round|]). lia.
Qed.

(** Positions and patterns. *)
Lemma filter_pattern (f : nat -> bool) n : forall s, filter f (seq s n) = map fst (filter snd (combine (seq s n) (map f (seq s n)))).
Proof. induction n as [|n IH]; intros s; [reflexivity|]. cbn [seq filter map combine]. cbn [snd]. destruct (f s); cbn [map fst]; rewrite IH; reflexivity. Qed.
Definition positions (p : pattern) : list nat := map fst (filter snd (combine (seq 0 (length p)) p)).
Lemma differs_positions p a b : length p = 16%nat -> is_bytes 16 a -> is_bytes 16 b -> differs p a b -> differing 16 a b = positions p.
Proof.
  intros Lp [La _] [Lb _] H. apply differs_differing in H; [|congruence|congruence]. unfold differing, positions. rewrite filter_pattern. rewrite Lp in *. now rewrite H.
Qed.
Lemma map_filter_inj (f g : nat -> bool) n : forall s, filter f (seq s n) = filter g (seq s n) -> map f (seq s n) = map g (seq s n).
Proof.
  intros s H. apply map_ext_in. intros x Hx. assert (Q : In x (filter f (seq s n)) <-> In x (filter g (seq s n))) by now rewrite H. rewrite !filter_In in Q. destruct (f x), (g x); intuition congruence.
Qed.
Lemma differing_one a b j : is_bytes 16 a -> is_bytes 16 b -> differing 16 a b = [j] -> (j < 16)%nat /\ differs (one_at j) a b.
Proof.
  intros [La _] [Lb _] H. assert (Hj : (j < 16)%nat).
  { assert (Q : In j (differing 16 a b)) by (rewrite H; now left). apply filter_In in Q as [Q _]. apply in_seq in Q. lia. }
  split; [exact Hj|]. apply differs_differing; [now rewrite La|now rewrite Lb|]. unfold differing in H. change (length (one_at j)) with 16%nat. unfold one_at.
  apply map_filter_inj. rewrite H. do 16 (destruct j as [|j]; [reflexivity|]). lia.
Qed.
Lemma one_byte_rounds (g : bop) (col : nat -> nat) : bop_ok g -> (forall j, (j < 16)%nat -> (col j < 4)%nat) ->
  (forall j a b k, (j < 16)%nat -> is_bytes 16 a -> is_bytes 16 b -> is_bytes 16 k -> differs (one_at j) a b -> differs (col_at (col j)) (g a k) (g b k)) ->
  (forall c a b k, (c < 4)%nat -> is_bytes 16 a -> is_bytes 16 b -> is_bytes 16 k -> differs (col_at c) a b -> differs everywhere (g a k) (g b k)) ->
  forall j a b k k2, is_bytes 16 a -> is_bytes 16 b -> is_bytes 16 k -> is_bytes 16 k2 -> differing 16 a b = [j] ->
  differing 16 (g a k) (g b k) = column (col j) /\ differing 16 (g (g a k) k2) (g (g b k) k2) = seq 0 16.
Proof.
  intros Hg Hc H1 H2 j a b k k2 Ha Hb Hk Hk2 Hd. destruct (differing_one a b j Ha Hb Hd) as [Hj D]. specialize (H1 j a b k Hj Ha Hb Hk D). specialize (Hc j Hj). split.
  - rewrite (differs_positions (col_at (col j)) _ _ eq_refl (Hg a k Ha Hk) (Hg b k Hb Hk) H1). destruct (col j) as [|[|[|[|c]]]]; try reflexivity; lia.
  - assert (E := H2 (col j) (g a k) (g b k) k2 Hc (Hg a k Ha Hk) (Hg b k Hb Hk) Hk2 H1). rewrite (differs_positions everywhere _ _ eq_refl (Hg _ _ (Hg a k Ha Hk) Hk2) (Hg _ _ (Hg b k Hb Hk) Hk2) E). reflexivity.
Qed.

(** ** Chains are permutations *)
Definition perm (n : nat) (F : list N -> list N) : Prop :=
  (forall a, is_bytes n a -> is_bytes n (F a)) /\ exists G, forall a, is_bytes n a -> is_bytes n (G a) /\ G (F a) = a /\ F (G a) = a.
Lemma perm_id n : perm n (fun x => x).
Proof. split; [auto|]. exists (fun x => x). auto. Qed.
Lemma perm_comp n F F' : perm n F -> perm n F' -> perm n (fun x => F' (F x)).
Proof.
  intros [H [G HG]] [H' [G' HG']]. split; [auto|]. exists (fun x => G (G' x)). intros a Ha. destruct (HG' a Ha) as (A1 & A2 & A3). destruct (HG (G' a) A1) as (B1 & B2 & B3).
  split; [exact B1|]. split; [|now rewrite B3]. destruct (HG' (F a) (H a Ha)) as (C1 & C2 & C3). rewrite C2. now apply HG.
Qed.
Lemma perm_xor n k : is_bytes n k -> perm n (fun x => map2 N.lxor x k).
Proof.
  intros Hk. split; [intros a Ha; now apply xor_bytes|]. exists (fun x => map2 N.lxor x k). intros a Ha. split; [now apply xor_bytes|].
  split; apply (xor_xor n); (apply Ha || apply Hk).
Qed.
Definition bop_perm (g : bop) : Prop := forall k, is_bytes 16 k -> perm 16 (fun a => g a k).
Lemma bop_perm_ok g : bop_perm g -> bop_ok g.
Proof. intros H a k Ha Hk. now apply (H k Hk). Qed.
Lemma perm_lanes m g k : bop_perm g -> is_bytes (16 * m) k -> perm (16 * m) (fun a => on_lanes m g a k).
Proof.
  intros Hg Hk. split; [intros a Ha; apply on_lanes_bytes; [now apply bop_perm_ok|assumption|assumption]|].
  pose proof (lanes_bytes m k Hk) as Lk. assert (Ek : length (lanes m k) = m) by apply lanes_length.
  assert (X : exists G, forall l, Forall (is_bytes 16) l -> length l = m -> Forall (is_bytes 16) (G l) /\ length (G l) = m /\ G (map2 g l (lanes m k)) = l /\ map2 g (G l) (lanes m k) = l).
  { clear Hk. revert Ek Lk. generalize (lanes m k) as ks. clear k. intros ks Ek Lk. revert m Ek. induction Lk as [|k ks Hk _ IH]; intros m Ek.
    - cbn in Ek. subst m. exists (fun l => l). intros [|]; [auto|discriminate].
    - cbn in Ek. destruct m as [|m]; [discriminate|]. injection Ek as Ek. destruct (IH m Ek) as [G HG]. destruct (Hg k Hk) as [Hp [P HP]].
      exists (fun l => match l with [] => [] | x :: r => P x :: G r end). intros [|x l] Fl Ll; [discriminate|]. inversion Fl; subst. injection Ll as Ll.
      destruct (HG l) as (A1 & A2 & A3 & A4); [assumption|assumption|]. destruct (HP x) as (B1 & B2 & B3); [assumption|]. cbn [map2].
      split; [now constructor|]. split; [cbn; congruence|]. split; f_equal; assumption. }
  destruct X as [G HG]. exists (fun a => concat (G (lanes m a))). intros a Ha.
  destruct (HG (lanes m a)) as (A1 & A2 & A3 & A4); [now apply lanes_bytes|apply lanes_length|].
  pose proof (concat_bytes _ A1) as B. rewrite A2 in B. split; [exact B|]. split.
  - rewrite lanes_on_lanes by (assumption || now apply bop_perm_ok). rewrite A3. apply concat_lanes, Ha.
  - unfold on_lanes. pose proof (lanes_concat _ A1) as C. rewrite A2 in C. rewrite C, A4. apply concat_lanes, Ha.
Qed.
Lemma perm_fold m g ks : bop_perm g -> Forall (is_bytes (16 * m)) ks -> perm (16 * m) (fun x => fold_left (on_lanes m g) ks x).
Proof.
  intros Hg H. induction H as [|k ks Hk _ IH]; [apply perm_id|]. cbn [fold_left]. exact (perm_comp _ (fun x => on_lanes m g x k) _ (perm_lanes m g k Hg Hk) IH).
Qed.
Definition pre_perm (p : option bop) : Prop := match p with None => True | Some p => bop_perm p end.
Lemma perm_chain m pre g ks : pre_perm pre -> bop_perm g -> Forall (is_bytes (16 * m)) ks -> ks <> [] ->
  exists F, perm (16 * m) F /\ forall x, s_chain m pre g x ks = Ret (F x).
Proof.
  intros Hp Hg Hk Hne. unfold s_chain, s_chain_pre, s_chain_post. destruct ks as [|k0 r]; [congruence|]. inversion Hk; subst. destruct pre as [p|].
  - assert (Hrl : Forall (is_bytes (16 * m)) (removelast (k0 :: r))) by (rewrite removelast_firstn_pred; now apply Proof_Sem.Forall_firstn').
    assert (Hl : is_bytes (16 * m) (last (k0 :: r) [])).
    { rewrite Forall_forall in Hk. apply Hk. rewrite (app_removelast_last [] (l := k0 :: r)) at 2 by discriminate. apply in_app_iff. right. now left. }
    eexists. split; [|reflexivity]. exact (perm_comp _ (fun x => fold_left (on_lanes m p) (removelast (k0 :: r)) x) _ (perm_fold m p _ Hp Hrl) (perm_xor _ _ Hl)).
  - eexists. split; [|reflexivity]. exact (perm_comp _ (fun x => map2 N.lxor x k0) _ (perm_xor _ _ H1) (perm_fold m g r Hg H2)).
Qed.
