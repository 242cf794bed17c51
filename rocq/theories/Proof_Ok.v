(** What it means for the operations of a block type to agree with the specification.
    [f] is the value a byte array converts to; all facts are about values of that form, which are
    the only ones the API can produce (theorem [reachable_from_bytes]). *)
From Coq Require Import Lia Arith.
From Verif Require Import Word Interface Fips197 Spec_Api Proof_Word Proof_Fips.
Open Scope N_scope.

Record data_ok {T} (o : ops T) (n : nat) (f : list N -> T) : Prop := {
  dk_size : o_size o = n;
  dk_new : forall b, is_bytes n b -> o_new o b = Ret (f b);
  dk_from : forall b, is_bytes n b -> o_from o b = Ret (f b);
  dk_store : forall b dst, is_bytes n b ->
      o_store o (f b) dst = if Nat.leb n (length dst) then (Ret tt, b ++ skipn n dst) else (Panic, dst);
  dk_and : forall a b, is_bytes n a -> is_bytes n b -> o_and o (f a) (f b) = f (map2 N.land a b);
  dk_or : forall a b, is_bytes n a -> is_bytes n b -> o_or o (f a) (f b) = f (map2 N.lor a b);
  dk_xor : forall a b, is_bytes n a -> is_bytes n b -> o_xor o (f a) (f b) = f (map2 N.lxor a b);
  dk_not : forall a, is_bytes n a -> o_not o (f a) = f (map (bnot 8) a);
  dk_zero : o_zero o = f (repeat 0 n);
  dk_is_zero : forall a, is_bytes n a -> (o_is_zero o (f a) = true <-> a = repeat 0 n);
  dk_eq : forall a b, is_bytes n a -> is_bytes n b -> (o_eq o (f a) (f b) = true <-> a = b)
}.

Record enc_ok {T} (o : ops T) (m : nat) (f : list N -> T) : Prop := {
  ek_enc : forall a k, is_bytes (16 * m) a -> is_bytes (16 * m) k ->
      o_enc o (f a) (f k) = f (on_lanes m spec_enc a k);
  ek_enc_last : forall a k, is_bytes (16 * m) a -> is_bytes (16 * m) k ->
      o_enc_last o (f a) (f k) = f (on_lanes m spec_enc_last a k)
}.
Record dec_ok {T} (o : ops T) (m : nat) (f : list N -> T) : Prop := {
  ek_dec : forall a k, is_bytes (16 * m) a -> is_bytes (16 * m) k ->
      o_dec o (f a) (f k) = f (on_lanes m spec_dec a k);
  ek_dec_last : forall a k, is_bytes (16 * m) a -> is_bytes (16 * m) k ->
      o_dec_last o (f a) (f k) = f (on_lanes m spec_dec_last a k)
}.
Record mix_ok {T} (e : block_ext T) (f : list N -> T) : Prop := {
  mk_mc : forall a, is_bytes 16 a -> e_mc e (f a) = f (mix_columns a);
  mk_imc : forall a, is_bytes 16 a -> e_imc e (f a) = f (inv_mix_columns a)
}.
(** The key schedule returns FIPS-197 round keys. *)
Record key_ok {T} (e : block_ext T) (f : list N -> T) : Prop := {
  kk_128 : forall key, is_bytes 16 key -> e_keygen_128 e key = Ret (map f (round_keys K128 key));
  kk_192 : forall key, is_bytes 24 key -> e_keygen_192 e key = Ret (map f (round_keys K192 key));
  kk_256 : forall key, is_bytes 32 key -> e_keygen_256 e key = Ret (map f (round_keys K256 key))
}.
(** Weaker: it returns the right number of round keys (some round keys, never a panic). *)
Definition key_shape {T} (e : block_ext T) (f : list N -> T) : Prop :=
  forall k key, is_bytes (key_len k) key ->
  exists rks, Forall (is_bytes 16) rks /\ length rks = (nr_of k + 1)%nat /\
    match k with K128 => e_keygen_128 e key | K192 => e_keygen_192 e key | K256 => e_keygen_256 e key end
    = Ret (map f rks).

Lemma on_lanes_1 g a b : length a = 16%nat -> length b = 16%nat -> on_lanes 1 g a b = g a b.
Proof.
  intros Ha Hb. unfold on_lanes, lanes. cbn [chunks map2 concat]. rewrite app_nil_r.
  now rewrite !firstn_all2 by lia.
Qed.

Lemma enc_ok_1 {T} (o : ops T) f :
  (forall a k, is_bytes 16 a -> is_bytes 16 k -> o_enc o (f a) (f k) = f (spec_enc a k)) ->
  (forall a k, is_bytes 16 a -> is_bytes 16 k -> o_enc_last o (f a) (f k) = f (spec_enc_last a k)) ->
  enc_ok o 1 f.
Proof.
  intros H1 H2. split; intros a k Ha Hk; change (is_bytes 16 a) in Ha; change (is_bytes 16 k) in Hk;
    rewrite on_lanes_1 by (eapply is_bytes_len; eassumption); auto.
Qed.
Lemma dec_ok_1 {T} (o : ops T) f :
  (forall a k, is_bytes 16 a -> is_bytes 16 k -> o_dec o (f a) (f k) = f (spec_dec a k)) ->
  (forall a k, is_bytes 16 a -> is_bytes 16 k -> o_dec_last o (f a) (f k) = f (spec_dec_last a k)) ->
  dec_ok o 1 f.
Proof.
  intros H1 H2. split; intros a k Ha Hk; change (is_bytes 16 a) in Ha; change (is_bytes 16 k) in Hk;
    rewrite on_lanes_1 by (eapply is_bytes_len; eassumption); auto.
Qed.

Lemma is_bytes_and n a b : is_bytes n a -> is_bytes n b -> is_bytes n (map2 N.land a b).
Proof. intros [L F] [L' F']. split; [rewrite map2_length; lia|]. apply map2_ok; try assumption. apply land_byte. Qed.
Lemma is_bytes_or n a b : is_bytes n a -> is_bytes n b -> is_bytes n (map2 N.lor a b).
Proof. intros [L F] [L' F']. split; [rewrite map2_length; lia|]. apply map2_ok; try assumption. apply lor_byte. Qed.
Lemma is_bytes_not n a : is_bytes n a -> is_bytes n (map (bnot 8) a).
Proof. intros [L F]. split; [rewrite map_length; lia|]. apply map_ok; [|assumption]. intros. apply (bnot_lt 8). assumption. Qed.

(** Writing a block over the start of a long enough destination. *)
Lemma raw_write_block (dst b : list N) n : length b = n ->
  w_then (w_assert_len n) (w_step (fun d => raw_write d b)) dst =
  if Nat.leb n (length dst) then (Ret tt, b ++ skipn n dst) else (Panic, dst).
Proof.
  intros <-. unfold w_then, w_assert_len, w_step, rust_assert, raw_write. destruct (Nat.leb_spec (length b) (length dst)); [|reflexivity].
  destruct (Nat.leb_spec (length b) (length dst)); [reflexivity|lia].
Qed.
Lemma raw_read_all n (b : list N) : length b = n -> raw_read b 0 n = Ret b.
Proof.
  intros H. unfold raw_read. cbn [Nat.add]. change (skipn 0 b) with b. rewrite H, Nat.leb_refl. rewrite firstn_all2 by lia. reflexivity.
Qed.
Lemma zeros_iff n a : length a = n -> (forallb (fun x => x =? 0) a = true <-> a = repeat 0 n).
Proof.
  intros <-. induction a as [|x a IH]; [split; reflexivity|]. cbn [forallb length repeat].
  rewrite andb_true_iff, N.eqb_eq, IH. split; [intros [-> E]; now rewrite <- E|intros [=-> E]; split; [reflexivity|exact E]].
Qed.
Lemma xor_zeros_iff n a b : length a = n -> length b = n -> (map2 N.lxor a b = repeat 0 n <-> a = b).
Proof.
  intros <-. revert b. induction a as [|x a IH]; intros [|y b] H; cbn in *; try lia; [split; reflexivity|].
  specialize (IH b ltac:(lia)). split.
  - intros [=E1 E2]. apply N.lxor_eq in E1. apply IH in E2. now subst.
  - intros [=-> ->]. rewrite N.lxor_nilpotent. f_equal. now apply IH.
Qed.
Lemma of_le_zero_iff l : of_le l = 0 <-> l = repeat 0 (length l).
Proof.
  induction l as [|b l IH]; [split; reflexivity|]. cbn [of_le length repeat]. split.
  - intros H. assert (b = 0 /\ of_le l = 0) as [-> E] by lia. f_equal. now apply IH.
  - intros [=-> E]. apply IH in E. lia.
Qed.
