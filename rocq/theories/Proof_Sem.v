(** A byte-level semantics [sem] of the selected backend and what it means for an implementation to
    refine it; the code of lib.rs is then followed at the level of bytes, once and for all. *)
From Coq Require Import Lia Arith.
From Verif Require Import Word Interface Fips197 Spec_Api Model_Wide Model_Lib Proof_Word Proof_Fips Proof_Ok Proof_X86 Proof_Wide.
Open Scope N_scope.

Definition bop := list N -> list N -> list N.
Record sem : Type := Sem {
  s_enc : bop; s_enc_last : bop; s_dec : bop; s_dec_last : bop;
  s_mc : list N -> list N; s_imc : list N -> list N;
  s_pre : option (bop * bop);
  s_keys : key_size -> list N -> list (list N)
}.
Definition bop_ok (g : bop) : Prop := forall a k, is_bytes 16 a -> is_bytes 16 k -> is_bytes 16 (g a k).
Record sem_ok (s : sem) : Prop := {
  so_enc : bop_ok (s_enc s); so_enc_last : bop_ok (s_enc_last s);
  so_dec : bop_ok (s_dec s); so_dec_last : bop_ok (s_dec_last s);
  so_mc : forall a, is_bytes 16 a -> is_bytes 16 (s_mc s a);
  so_imc : forall a, is_bytes 16 a -> is_bytes 16 (s_imc s a);
  so_pre : match s_pre s with None => True | Some (p, q) => bop_ok p /\ bop_ok q end;
  so_keys : forall k key, is_bytes (key_len k) key ->
     length (s_keys s k key) = (nr_of k + 1)%nat /\ Forall (is_bytes 16) (s_keys s k key)
}.

Definition lane_ok {T} (op : T -> T -> T) (m : nat) (f : list N -> T) (g : bop) : Prop :=
  forall a k, is_bytes (16 * m) a -> is_bytes (16 * m) k -> op (f a) (f k) = f (on_lanes m g a k).

Record rounds_ok {T} (o : ops T) (m : nat) (f : list N -> T) (s : sem) : Prop := {
  ro_enc : lane_ok (o_enc o) m f (s_enc s);
  ro_dec : lane_ok (o_dec o) m f (s_dec s);
  ro_enc_last : lane_ok (o_enc_last o) m f (s_enc_last s);
  ro_dec_last : lane_ok (o_dec_last o) m f (s_dec_last s)
}.

Record refines (i : impl) (f1 : list N -> T1 i) (f2 : list N -> T2 i) (f4 : list N -> T4 i) (s : sem) : Prop := {
  R_d1 : data_ok (i_ops1 i) 16 f1; R_d2 : data_ok (i_ops2 i) 32 f2; R_d4 : data_ok (i_ops4 i) 64 f4;
  R_r1 : rounds_ok (i_ops1 i) 1 f1 s; R_r2 : rounds_ok (i_ops2 i) 2 f2 s; R_r4 : rounds_ok (i_ops4 i) 4 f4 s;
  R_mc : forall a, is_bytes 16 a -> e_mc (i_ext i) (f1 a) = f1 (s_mc s a);
  R_imc : forall a, is_bytes 16 a -> e_imc (i_ext i) (f1 a) = f1 (s_imc s a);
  R_pre : match i_pre_chain i, s_pre s with
          | None, None => True
          | Some (p, q), Some (sp, sq) => lane_ok p 1 f1 sp /\ lane_ok q 1 f1 sq
          | _, _ => False
          end;
  R_keys : forall k key, is_bytes (key_len k) key -> keygen i k key = Ret (map f1 (s_keys s k key));
  R_x2_of_pair : forall a b, is_bytes 16 a -> is_bytes 16 b -> x2_of_pair i (f1 a, f1 b) = f2 (a ++ b);
  R_x2_of_block : forall a, is_bytes 16 a -> x2_of_block i (f1 a) = f2 (a ++ a);
  R_x2_to_pair : forall a b, is_bytes 16 a -> is_bytes 16 b -> x2_to_pair i (f2 (a ++ b)) = (f1 a, f1 b);
  R_x4_of_quad : forall a b c d, is_bytes 16 a -> is_bytes 16 b -> is_bytes 16 c -> is_bytes 16 d ->
     x4_of_quad i (f1 a, f1 b, f1 c, f1 d) = f4 (a ++ b ++ c ++ d);
  R_x4_of_pair : forall a b, is_bytes 32 a -> is_bytes 32 b -> x4_of_pair i (f2 a, f2 b) = f4 (a ++ b);
  R_x4_of_block : forall a, is_bytes 16 a -> x4_of_block i (f1 a) = f4 (a ++ a ++ a ++ a);
  R_x4_of_x2 : forall a, is_bytes 32 a -> x4_of_x2 i (f2 a) = f4 (a ++ a);
  R_x4_to_quad : forall a b c d, is_bytes 16 a -> is_bytes 16 b -> is_bytes 16 c -> is_bytes 16 d ->
     x4_to_quad i (f4 (a ++ b ++ c ++ d)) = (f1 a, f1 b, f1 c, f1 d);
  R_x4_to_pair : forall a b, is_bytes 32 a -> is_bytes 32 b -> x4_to_pair i (f4 (a ++ b)) = (f2 a, f2 b)
}.

(** ** Lanes *)
Lemma is_bytes_app n m a b : is_bytes n a -> is_bytes m b -> is_bytes (n + m) (a ++ b).
Proof. intros [L F] [L' F']. split; [rewrite app_length; lia|now apply bytes_ok_app]. Qed.
Lemma lanes_bytes m x : is_bytes (16 * m) x -> Forall (is_bytes 16) (lanes m x).
Proof.
  intros [L F]. unfold lanes. revert x L F. induction m as [|m IH]; intros x L F; [constructor|]. cbn [chunks]. constructor.
  - split; [rewrite firstn_length; lia|now apply bytes_ok_firstn].
  - apply IH; [rewrite skipn_length; lia|now apply bytes_ok_skipn].
Qed.
Lemma lanes_concat ls : Forall (is_bytes 16) ls -> lanes (length ls) (concat ls) = ls.
Proof.
  unfold lanes. induction 1 as [|l ls Hl _ IH]; [reflexivity|]. cbn [length chunks concat].
  rewrite firstn_exact, skipn_exact by apply Hl. now rewrite IH.
Qed.
Lemma concat_lanes m x : length x = (16 * m)%nat -> concat (lanes m x) = x.
Proof. apply chunks_concat. Qed.
Lemma lanes_length m x : length (lanes m x) = m.
Proof. apply chunks_length. Qed.
Lemma concat_bytes ls : Forall (is_bytes 16) ls -> is_bytes (16 * length ls) (concat ls).
Proof.
  induction 1 as [|l ls Hl _ IH]; [split; [reflexivity|constructor]|]. cbn [length concat].
  replace (16 * S (length ls))%nat with (16 + 16 * length ls)%nat by lia. now apply is_bytes_app.
Qed.
Lemma Forall_map2 {A B C} (P : A -> Prop) (Q : B -> Prop) (R : C -> Prop) (g : A -> B -> C) l m :
  (forall a b, P a -> Q b -> R (g a b)) -> Forall P l -> Forall Q m -> Forall R (map2 g l m).
Proof. intros H Hl. revert m. induction Hl; intros m [|? ? ? ?]; cbn; constructor; auto. Qed.
Lemma on_lanes_bytes m g a k : bop_ok g -> is_bytes (16 * m) a -> is_bytes (16 * m) k -> is_bytes (16 * m) (on_lanes m g a k).
Proof.
  intros Hg Ha Hk. unfold on_lanes.
  assert (F : Forall (is_bytes 16) (map2 g (lanes m a) (lanes m k))).
  { eapply Forall_map2; [|apply lanes_bytes; eassumption|apply lanes_bytes; eassumption]. exact Hg. }
  pose proof (concat_bytes _ F) as H. rewrite map2_length, !lanes_length, Nat.min_id in H. exact H.
Qed.
Lemma lanes_on_lanes m g a k : bop_ok g -> is_bytes (16 * m) a -> is_bytes (16 * m) k ->
  lanes m (on_lanes m g a k) = map2 g (lanes m a) (lanes m k).
Proof.
  intros Hg Ha Hk. unfold on_lanes.
  assert (F : Forall (is_bytes 16) (map2 g (lanes m a) (lanes m k))).
  { eapply Forall_map2; [|apply lanes_bytes; eassumption|apply lanes_bytes; eassumption]. exact Hg. }
  pose proof (lanes_concat _ F) as H. rewrite map2_length, !lanes_length, Nat.min_id in H. exact H.
Qed.
Lemma bop_ok_len g x y : bop_ok g -> is_bytes 16 x -> is_bytes 16 y -> length (g x y) = 16%nat.
Proof. intros H Hx Hy. apply (H x y Hx Hy). Qed.
Lemma xor_as_lanes m a k : length a = (16 * m)%nat -> length k = (16 * m)%nat -> map2 N.lxor a k = on_lanes m (map2 N.lxor) a k.
Proof.
  unfold on_lanes, lanes. revert a k. induction m as [|m IH]; intros a k La Lk.
  - destruct a; [reflexivity|cbn in La; lia].
  - cbn [chunks map2 concat]. rewrite <- IH by (rewrite skipn_length; lia).
    rewrite <- (firstn_skipn 16 a) at 1. rewrite <- (firstn_skipn 16 k) at 1.
    apply map2_app. rewrite !firstn_length. lia.
Qed.
Lemma xor_bop : bop_ok (map2 N.lxor).
Proof. intros a k. apply xor_bytes. Qed.

(** the two halves *)
Lemma on_lanes_halves g m a b k l : bop_ok g -> is_bytes (16 * m) a -> is_bytes (16 * m) b -> is_bytes (16 * m) k -> is_bytes (16 * m) l ->
  on_lanes (m + m) g (a ++ b) (k ++ l) = on_lanes m g a k ++ on_lanes m g b l.
Proof.
  intros Hg Ha Hb Hk Hl. unfold on_lanes.
  rewrite !lanes_split by (rewrite app_length, ?(is_bytes_len _ _ Ha), ?(is_bytes_len _ _ Hb), ?(is_bytes_len _ _ Hk), ?(is_bytes_len _ _ Hl); lia).
  rewrite !firstn_exact, !skipn_exact by (apply Ha || apply Hk). rewrite map2_app, concat_app; [reflexivity|]. now rewrite !lanes_length.
Qed.
Lemma pair_lane_ok {T} (op : T -> T -> T) m f g : bop_ok g -> lane_ok op m f g -> lane_ok (p_map2 op) (m + m) (pair_of (16 * m) f) g.
Proof.
  intros Hg H a k Ha Hk. destruct (split_bytes m a Ha) as [A1 A2], (split_bytes m k Hk) as [K1 K2].
  unfold p_map2. change (fst (pair_of (16 * m) f a)) with (f (firstn (16 * m) a)). change (snd (pair_of (16 * m) f a)) with (f (skipn (16 * m) a)).
  change (fst (pair_of (16 * m) f k)) with (f (firstn (16 * m) k)). change (snd (pair_of (16 * m) f k)) with (f (skipn (16 * m) k)).
  rewrite !H by assumption.
  assert (E : on_lanes (m + m) g a k = on_lanes m g (firstn (16 * m) a) (firstn (16 * m) k) ++ on_lanes m g (skipn (16 * m) a) (skipn (16 * m) k)).
  { rewrite <- on_lanes_halves by assumption. now rewrite !firstn_skipn. }
  rewrite E. unfold pair_of.
  pose proof (on_lanes_bytes m g _ _ Hg A1 K1) as [L _]. rewrite firstn_exact, skipn_exact by assumption. reflexivity.
Qed.

(** ** lib.rs at byte level *)
(** Broadcast of a round key to [m] lanes. *)
Definition bcast (m : nat) (k : list N) : list N := concat (repeat k m).
Lemma bcast_bytes m k : is_bytes 16 k -> is_bytes (16 * m) (bcast m k).
Proof.
  intros H. unfold bcast. rewrite <- (repeat_length k m) at 1. apply concat_bytes. apply Forall_forall. intros x Hx. apply repeat_spec in Hx. now subst.
Qed.
Lemma lanes_bcast m k : is_bytes 16 k -> lanes m (bcast m k) = repeat k m.
Proof.
  intros H. unfold bcast. rewrite <- (repeat_length k m) at 1. apply lanes_concat. apply Forall_forall. intros x Hx. apply repeat_spec in Hx. now subst.
Qed.

Definition s_chain_post (m : nat) (g : bop) (x : list N) (keys : list (list N)) : outcome (list N) :=
  match keys with [] => Panic | k0 :: r => Ret (fold_left (on_lanes m g) r (map2 N.lxor x k0)) end.
Definition s_chain_pre (m : nat) (g : bop) (x : list N) (keys : list (list N)) : outcome (list N) :=
  match keys with [] => Panic | k0 :: r => Ret (map2 N.lxor (fold_left (on_lanes m g) (removelast keys) x) (last keys [])) end.
Definition s_chain (m : nat) (pre : option bop) (g : bop) (x : list N) (keys : list (list N)) : outcome (list N) :=
  match pre with None => s_chain_post m g x keys | Some p => s_chain_pre m p x keys end.
Definition s_pre1 (s : sem) (dec : bool) : option bop :=
  match s_pre s with None => None | Some (p, q) => Some (if dec then q else p) end.

Lemma fold_bytes m g l x : bop_ok g -> is_bytes (16 * m) x -> Forall (is_bytes (16 * m)) l -> is_bytes (16 * m) (fold_left (on_lanes m g) l x).
Proof. intros Hg Hx Hl. revert x Hx. induction Hl; intros y Hy; [exact Hy|]. cbn [fold_left]. apply IHHl. now apply on_lanes_bytes. Qed.
Lemma fold_lane_ok {T} (op : T -> T -> T) m f g l x : bop_ok g -> lane_ok op m f g -> is_bytes (16 * m) x -> Forall (is_bytes (16 * m)) l ->
  fold_left op (map f l) (f x) = f (fold_left (on_lanes m g) l x).
Proof.
  intros Hg H Hx Hl. revert x Hx. induction Hl; intros y Hy; [reflexivity|]. cbn [map fold_left].
  rewrite H by assumption. apply IHHl. now apply on_lanes_bytes.
Qed.
Lemma removelast_firstn_pred {A} (l : list A) : removelast l = firstn (length l - 1) l.
Proof. rewrite removelast_firstn_len. f_equal. lia. Qed.
Lemma Forall_firstn' {A} (P : A -> Prop) n l : Forall P l -> Forall P (firstn n l).
Proof. intros H. revert n. induction H; intros [|n]; cbn; constructor; auto. Qed.
Lemma Forall_last {A} (P : A -> Prop) l d : Forall P l -> l <> [] -> P (last l d).
Proof. intros H. induction H as [|x l Hx Hl IH]; [congruence|]. intros _. destruct l; [exact Hx|]. apply IH. discriminate. Qed.
Lemma get_last {A} (l : list A) d : l <> [] -> get l (length l - 1) = Ret (last l d).
Proof.
  induction l as [|x l IH]; [congruence|]. intros _. destruct l as [|y l]; [reflexivity|].
  change (last (x :: y :: l) d) with (last (y :: l) d). rewrite <- IH by discriminate. unfold get. cbn [length].
  replace (S (S (length l)) - 1)%nat with (S (S (length l) - 1)) by lia. reflexivity.
Qed.
Lemma last_map {A B} (f : A -> B) l d : last (map f l) (f d) = f (last l d).
Proof. induction l as [|x l IH]; [reflexivity|]. destruct l; [reflexivity|]. exact IH. Qed.

Lemma chain_ok {T} (o : ops T) m f pre spre round g x keys :
  data_ok o (16 * m) f -> bop_ok g -> lane_ok round m f g ->
  match pre, spre with None, None => True | Some p, Some sp => bop_ok sp /\ lane_ok p m f sp | _, _ => False end ->
  is_bytes (16 * m) x -> Forall (is_bytes (16 * m)) keys ->
  chain o pre round (f x) (map f keys) = omap f (s_chain m spre g x keys).
Proof.
  intros D Hg Hr Hp Hx Hk. unfold chain, s_chain. destruct pre as [p|], spre as [sp|]; try contradiction.
  - destruct Hp as [Hsp Hp]. unfold chain_pre, s_chain_pre. destruct keys as [|k0 r]; [reflexivity|].
    rewrite map_length. unfold rust_assert. cbn [length Nat.eqb negb bind]. unfold slice_to. rewrite map_length.
    assert (L : (S (length r) - 1 <=? length (k0 :: r))%nat = true) by (apply Nat.leb_le; cbn [length]; lia). rewrite L. cbn [bind].
    replace (S (length r) - 1)%nat with (length (map f (k0 :: r)) - 1)%nat by (rewrite map_length; reflexivity).
    rewrite (get_last _ (f [])) by discriminate. cbn [bind]. rewrite last_map.
    rewrite map_length, firstn_map, <- removelast_firstn_pred.
    assert (Hrl : Forall (is_bytes (16 * m)) (removelast (k0 :: r))) by (rewrite removelast_firstn_pred; now apply Forall_firstn').
    rewrite (fold_lane_ok p m f sp) by assumption.
    rewrite (dk_xor _ _ _ D); [reflexivity| |].
    + apply fold_bytes; assumption.
    + apply (Forall_last (is_bytes (16 * m))); [assumption|discriminate].
  - unfold chain_post, s_chain_post. destruct keys as [|k0 r]; [reflexivity|]. rewrite map_length. unfold rust_assert. cbn [length Nat.eqb negb bind].
    unfold get. cbn [map nth_error bind]. unfold slice_from. cbn [length Nat.leb bind skipn].
    inversion Hk; subst. rewrite (dk_xor _ _ _ D) by assumption. rewrite (fold_lane_ok round m f g); [reflexivity|assumption|assumption| |assumption].
    now apply xor_bytes.
Qed.
