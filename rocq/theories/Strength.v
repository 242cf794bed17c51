(** Each property theorem, as stated, implies the executable test of its claim in Model_Tests: every lemma below follows from
    the theorem(s) of that number together with C15 (values are made from bytes) and C26 (calls return) alone.  So an edit
    of the model that makes a test fail makes the statement of the theorem of the same number false, whatever its proof;
    seeded/LOG.jsonl is read with that. *)
From Coq Require Import String Arith Lia.
From Verif Require Import Word Interface Fips197 Spec_Api Spec_Reach Spec_User Spec_Cfg Spec_Fmt Model_Lib Model_Cfg Model_Fmt Model_Tests.
From Verif Require Import Proof_Word Proof_Reach.
From Verif Require Import Props_Cipher Props_Rounds Props_Blocks Props_Batch Props_Total Props_Fmt.
Open Scope N_scope.
Open Scope list_scope.

Lemma leqb_refl a : leqb a a = true. Proof. induction a; cbn; [reflexivity|]. now rewrite N.eqb_refl. Qed.
Lemma leqb_eq a b : leqb a b = true <-> a = b.
Proof.
  split; [|intros <-; apply leqb_refl]. revert b. induction a as [|x a IH]; intros [|y b] H; try discriminate; [reflexivity|].
  cbn in H. apply andb_prop in H as [H1 H2]. apply N.eqb_eq in H1. f_equal; auto.
Qed.
Lemma lleqb_refl a : lleqb a a = true. Proof. induction a; cbn; [reflexivity|]. now rewrite leqb_refl. Qed.
Lemma is_ok r b : r = Ret b -> is leqb r b = true. Proof. intros ->. apply leqb_refl. Qed.
Lemma is_ok2 r b : r = Ret b -> is lleqb r b = true. Proof. intros ->. apply lleqb_refl. Qed.
Lemma holds_ok {A} (p : A -> bool) r a : r = Ret a -> p a = true -> holds p r = true. Proof. now intros ->. Qed.
Lemma okr_ok {A} (r : outcome A) a : r = Ret a -> okr r = true. Proof. now intros ->. Qed.
Lemma and_ok a b : a = true -> b = true -> a && b = true. Proof. now intros -> ->. Qed.
Lemma forallb_ok {A} (p : A -> bool) (Q : A -> Prop) l : Forall Q l -> (forall a, Q a -> p a = true) -> forallb p l = true.
Proof. intros F H. induction F; cbn; [reflexivity|]. now rewrite H. Qed.
Ltac ands := repeat match goal with |- _ && _ = true => apply and_ok end.

Lemma key_sizes_ok f : (forall k key, is_bytes (key_len k) key -> f k key = true) -> key_sizes f = true.
Proof. intros H. unfold key_sizes. ands; apply H; apply is_bytesb_correct; vm_compute; reflexivity. Qed.
Lemma bytes_list n l : forallb (is_bytesb n) l = true -> Forall (is_bytes n) l.
Proof. intros H. rewrite forallb_forall in H. apply Forall_forall. intros x Hx. now apply is_bytesb_correct, H. Qed.
Definition both n (ab : list N * list N) : Prop := is_bytes n (fst ab) /\ is_bytes n (snd ab).
Lemma both_list n l : forallb (fun ab => is_bytesb n (fst ab) && is_bytesb n (snd ab)) l = true -> Forall (both n) l.
Proof. intros H. rewrite forallb_forall in H. apply Forall_forall. intros x Hx. apply H, andb_prop in Hx as [A B]. split; now apply is_bytesb_correct. Qed.
Lemma A16 : is_bytes 16 blkA. Proof. now apply is_bytesb_correct. Qed.
Lemma B16 : is_bytes 16 blkB. Proof. now apply is_bytesb_correct. Qed.
Lemma C16 : is_bytes 16 blkC. Proof. now apply is_bytesb_correct. Qed.
Lemma D16 : is_bytes 16 blkD. Proof. now apply is_bytesb_correct. Qed.
Lemma E16 : is_bytes 16 blkE. Proof. now apply is_bytesb_correct. Qed.
Lemma blks16 : Forall (is_bytes 16) blks. Proof. apply bytes_list. vm_compute. reflexivity. Qed.
Lemma wide2_32 : Forall (is_bytes 32) wide2. Proof. apply bytes_list. vm_compute. reflexivity. Qed.
Lemma wide4_64 : Forall (is_bytes 64) wide4. Proof. apply bytes_list. vm_compute. reflexivity. Qed.

Section Follows.
Context (c : cfg) (i : impl) (E : impl_of c = Some i).

(** C15 *)
Lemma made1 b : is_bytes 16 b -> exists x, reach1 i x /\ o_from (i_ops1 i) b = Ret x /\ shows (i_ops1 i) x b.
Proof. intros B. destruct (C15_byte_conversions_lossless c i E) as ((_ & H & _) & _ & _). destruct (H b B) as (x & Hx & F & _ & _ & S). now exists x. Qed.
Lemma made2 b : is_bytes 32 b -> exists x, reach2 i x /\ o_from (i_ops2 i) b = Ret x /\ shows (i_ops2 i) x b.
Proof. intros B. destruct (C15_byte_conversions_lossless c i E) as (_ & (_ & H & _) & _). destruct (H b B) as (x & Hx & F & _ & _ & S). now exists x. Qed.
Lemma made4 b : is_bytes 64 b -> exists x, reach4 i x /\ o_from (i_ops4 i) b = Ret x /\ shows (i_ops4 i) x b.
Proof. intros B. destruct (C15_byte_conversions_lossless c i E) as (_ & _ & (_ & H & _)). destruct (H b B) as (x & Hx & F & _ & _ & S). now exists x. Qed.
Lemma shown1 x : reach1 i x -> exists b, is_bytes 16 b /\ shows (i_ops1 i) x b /\ o_from (i_ops1 i) b = Ret x.
Proof. intros H. destruct (C15_byte_conversions_lossless c i E) as ((_ & _ & Q & _) & _ & _). now apply Q. Qed.
Lemma shown2 x : reach2 i x -> exists b, is_bytes 32 b /\ shows (i_ops2 i) x b /\ o_from (i_ops2 i) b = Ret x.
Proof. intros H. destruct (C15_byte_conversions_lossless c i E) as (_ & (_ & _ & Q & _) & _). now apply Q. Qed.
Lemma shown4 x : reach4 i x -> exists b, is_bytes 64 b /\ shows (i_ops4 i) x b /\ o_from (i_ops4 i) b = Ret x.
Proof. intros H. destruct (C15_byte_conversions_lossless c i E) as (_ & _ & (_ & _ & Q & _)). now apply Q. Qed.
Lemma with1_ok b f : is_bytes 16 b -> (forall x, reach1 i x -> shows (i_ops1 i) x b -> f x = true) -> with1 i b f = true.
Proof. intros B H. destruct (made1 b B) as (x & Hx & F & S). apply (holds_ok _ _ x F). now apply H. Qed.
Lemma with2_ok b f : is_bytes 32 b -> (forall x, reach2 i x -> shows (i_ops2 i) x b -> f x = true) -> with2 i b f = true.
Proof. intros B H. destruct (made2 b B) as (x & Hx & F & S). apply (holds_ok _ _ x F). now apply H. Qed.
Lemma with4_ok b f : is_bytes 64 b -> (forall x, reach4 i x -> shows (i_ops4 i) x b -> f x = true) -> with4 i b f = true.
Proof. intros B H. destruct (made4 b B) as (x & Hx & F & S). apply (holds_ok _ _ x F). now apply H. Qed.
Lemma shows_ok {T} (o : ops T) x b : shows o x b -> shows_b o x b = true.
Proof. intros H. now apply is_ok. Qed.
Lemma same_refl {T} (o : ops T) x b : shows o x b -> same o x x = true.
Proof. intros H. unfold same, shows in *. rewrite H. cbn. now rewrite leqb_refl. Qed.
Lemma same1 x y : x = y -> reach1 i x -> same (i_ops1 i) x y = true.
Proof. intros <- H. destruct (shown1 x H) as (b & _ & S & _). now apply (same_refl _ _ b). Qed.
Lemma same1' x y : x = y -> reach1 i y -> same (i_ops1 i) x y = true. Proof. intros -> H. now apply same1. Qed.

Lemma t01_follows : conforming c = true -> t01 i = true.
Proof.
  intros C. apply key_sizes_ok. intros k key Hk. apply (forallb_ok _ (is_bytes 16)); [apply bytes_list; reflexivity|]. intros p Hp.
  apply is_ok. now apply (C01_encrypt_block_is_fips197 c).
Qed.
Lemma t02_follows : conforming c = true -> t02 i = true.
Proof.
  intros C. apply key_sizes_ok. intros k key Hk. apply (forallb_ok _ (is_bytes 16)); [apply bytes_list; reflexivity|]. intros p Hp.
  destruct (C02_decrypt_block_is_fips197 c i k key p E C Hk Hp) as [H1 H2]. ands; now apply is_ok.
Qed.
Lemma t03_follows : rv32_zk c = false -> t03 i = true.
Proof.
  intros C. apply key_sizes_ok. intros k key Hk. apply (forallb_ok _ (is_bytes 16)); [apply bytes_list; reflexivity|]. intros p Hp.
  destruct (C03_same_key c i k key p E C Hk Hp) as (ct & pt & B1 & H1 & H2 & B2 & H3 & H4).
  ands; apply is_ok; [rewrite H1; exact H2|rewrite H3; exact H4|].
  destruct (C26_cipher_calls_return c i k E) as (Q & _). destruct (Q key Hk) as [_ (d & Ed & Hd)].
  destruct (made1 p Hp) as (x & Hx & Fx & Sx). destruct (C03_encrypter_side c i k d x E C Hd Hx) as (e & y & z & Ee & _ & _ & Ez & Dz).
  destruct (C26_cipher_calls_return c i k E) as (_ & _ & QE & Q1 & _). destruct (QE d Hd) as (e' & Ee' & He). assert (e' = e) by congruence. subst e'.
  destruct (Q1 e x He Hx) as (z' & Ez' & Hz). assert (z' = z) by congruence. subst z'. destruct (shown1 z Hz) as (b & Bb & Sb & Fb).
  unfold encrypt_message_via_dec. rewrite Ed. cbn [bind]. rewrite Ee. cbn [bind by_groups group_len].
  assert (Ep : firstn 16 p = p) by (destruct Hp as [<- _]; apply firstn_all). rewrite Ep. unfold encrypt_group. rewrite Fx. cbn [bind]. rewrite Ez. cbn [bind]. rewrite Sb. cbn [bind].
  rewrite app_nil_r. unfold decrypt_bytes. rewrite Ed. cbn [bind]. rewrite Fb. cbn [bind]. rewrite Dz. exact Sx.
Qed.
Lemma wide_follows one two four :
  ((forall x y, reach1 i x -> reach1 i y -> exists x' y', one x = Ret x' /\ one y = Ret y' /\ exists z, two (x2_of_pair i (x, y)) = Ret z /\ x2_to_pair i z = (x', y')) /\
   (forall x y z w, reach1 i x -> reach1 i y -> reach1 i z -> reach1 i w -> exists x' y' z' w', one x = Ret x' /\ one y = Ret y' /\ one z = Ret z' /\ one w = Ret w' /\
     exists r, four (x4_of_quad i (x, y, z, w)) = Ret r /\ x4_to_quad i r = (x', y', z', w'))) ->
  (forall x, reach1 i x -> returns (one x) (reach1 i)) -> t_wide i one two four = true.
Proof.
  intros [H2 H4] Q. unfold t_wide, with_quad. apply with1_ok; [exact A16|]. intros a Ha _. apply with1_ok; [exact B16|]. intros b Hb _. apply with1_ok; [exact C16|]. intros d Hd _.
  apply with1_ok; [exact E16|]. intros e He _. destruct (H2 a b Ha Hb) as (a' & b' & Ea & Eb & z & Ez & Pz). destruct (H4 a b d e Ha Hb Hd He) as (a2 & b2 & d' & e' & Ea2 & Eb2 & Ed & Ee & r & Er & Pr).
  assert (a2 = a') by congruence. assert (b2 = b') by congruence. subst a2 b2.
  assert (R : forall x y, reach1 i x -> one x = Ret y -> reach1 i y) by (intros x y Hx Ex; destruct (Q x Hx) as (y' & Ey & Hy); assert (y' = y) by congruence; now subst).
  apply (holds_ok _ _ a' Ea), (holds_ok _ _ b' Eb), (holds_ok _ _ d' Ed), (holds_ok _ _ e' Ee). apply and_ok.
  - apply (holds_ok _ _ z Ez). rewrite Pz. ands; (apply same1; [reflexivity|eapply R; [|eassumption]; assumption]).
  - apply (holds_ok _ _ r Er). rewrite Pr. ands; (apply same1; [reflexivity|eapply R; [|eassumption]; assumption]).
Qed.
Lemma t04_follows : t04 i = true.
Proof.
  apply key_sizes_ok. intros k key Hk. destruct (C26_cipher_calls_return c i k E) as (Q & _ & _ & Q1 & _). destruct (Q key Hk) as [(e & Ee & He) _].
  apply (holds_ok _ _ e Ee), wide_follows; [now apply (C04_two_and_four_block_encryption c)|]. intros x Hx. now apply Q1.
Qed.
Lemma t05_follows : t05 i = true.
Proof.
  apply key_sizes_ok. intros k key Hk. destruct (C26_cipher_calls_return c i k E) as (Q & _ & _ & _ & _ & _ & Q1 & _). destruct (Q key Hk) as [_ (d & Ed & Hd)].
  apply (holds_ok _ _ d Ed), wide_follows; [now apply (C05_two_and_four_block_decryption c)|]. intros x Hx. now apply Q1.
Qed.
Lemma shows_list l bs : Forall2 (shows (i_ops1 i)) l bs -> fold_right (fun k r => b <- to_bytes (i_ops1 i) k ;; r' <- r ;; Ret (b :: r')) (Ret []) l = Ret bs.
Proof. intros F. induction F as [|x b l bs S F IH]; [reflexivity|]. cbn [fold_right]. rewrite S. cbn [bind]. rewrite IH. reflexivity. Qed.
Lemma t07_follows : conforming c = true -> t07 i = true.
Proof.
  intros C. apply key_sizes_ok. intros k key Hk. destruct (C07_round_keys_are_key_expansion c i k key E C Hk) as (e & Ee & F). apply is_ok2.
  unfold key_bytes. rewrite Ee. cbn [bind]. now apply shows_list.
Qed.
Lemma oeq_refl {A} (eqb : A -> A -> bool) (r : outcome A) : (forall a, r = Ret a -> eqb a a = true) -> oeq eqb r r = true.
Proof. intros H. destruct r; cbn; auto. Qed.
Lemma t08_follows : rv32_zk c = false -> t08 i = true.
Proof.
  intros C. apply key_sizes_ok. intros k key Hk. destruct (C08_conversions_lose_nothing c i k E C) as (H1 & H2 & H3). destruct (C26_cipher_calls_return c i k E) as (Q & _).
  destruct (Q key Hk) as [(e & Ee & He) (d & Ed & Hd)]. assert (L : forall r : outcome (list (list N)), oeq lleqb r r = true) by (intros r; apply oeq_refl; intros; apply lleqb_refl).
  apply and_ok.
  - apply (holds_ok _ _ e Ee). rewrite (H1 e 2%nat He). cbn [bind]. apply and_ok; [apply L|]. rewrite (H3 key Hk), Ee. cbn [bind]. apply L.
  - apply (holds_ok _ _ d Ed). rewrite (H2 d 2%nat Hd). cbn [bind]. apply L.
Qed.
Lemma round_follows f spec : (forall x k a b, reach1 i x -> reach1 i k -> shows (i_ops1 i) x a -> shows (i_ops1 i) k b -> shows (i_ops1 i) (f x k) (spec a b)) -> t_round i f spec = true.
Proof.
  intros H. apply (forallb_ok _ (both 16)); [apply both_list; vm_compute; reflexivity|]. intros [a b] [Ha Hb]. cbn [fst snd] in *. apply is_ok. unfold op2_bytes.
  destruct (made1 a Ha) as (x & Hx & Fx & Sx). destruct (made1 b Hb) as (y & Hy & Fy & Sy). rewrite Fx. cbn [bind]. rewrite Fy. cbn [bind]. now apply H.
Qed.
Lemma t09_follows : t09 i = true.
Proof. apply and_ok; apply round_follows; intros x k a b Hx Hk Sx Sk; now apply (C09_enc_is_documented_round c i x k a b). Qed.
Lemma t10_follows : rv32_zk c = false -> t10 i = true.
Proof. intros C. apply and_ok; apply round_follows; intros x k a b Hx Hk Sx Sk; now apply (C10_dec_is_documented_round c i x k a b). Qed.
Lemma t11_follows : rv32_zk c = false -> t11 i = true.
Proof.
  intros C. apply (forallb_ok _ (is_bytes 16)); [exact blks16|]. intros a Ha. destruct (made1 a Ha) as (x & Hx & Fx & Sx). destruct (C11_mc_imc c i x a E C Hx Sx) as (H1 & H2 & _).
  unfold op1_bytes. rewrite Fx. cbn [bind]. ands; now apply is_ok.
Qed.
Lemma chain_follows {T} (o : ops T) n wth (reach : T -> Prop) chain round ws :
  (forall b f, is_bytes n b -> (forall x, reach x -> shows o x b -> f x = true) -> wth b f = true) -> (forall x, reach x -> exists b, shows o x b) ->
  (forall x, chain x [] = Panic) -> (forall x ks, reach x -> Forall reach ks -> chain x ks = documented_chain o round x ks) -> (forall x ks, ks <> [] -> reach x -> Forall reach ks -> returns (chain x ks) reach) ->
  Forall (is_bytes n) ws -> (5 < List.length ws)%nat -> t_chain o wth chain round ws = true.
Proof.
  intros W S P H Q F L. assert (B : forall j, (j <= 5)%nat -> is_bytes n (nth j ws [])) by (intros j Hj; rewrite Forall_forall in F; apply F, nth_In; lia).
  unfold t_chain. apply (W _ _ (B 0%nat ltac:(lia))). intros x Hx _. apply (W _ _ (B 1%nat ltac:(lia))). intros k0 H0 _. apply (W _ _ (B 2%nat ltac:(lia))). intros k1 H1 _.
  apply (W _ _ (B 5%nat ltac:(lia))). intros k2 H2 _. apply and_ok; [now rewrite P|].
  apply (forallb_ok _ (fun l => l <> [] /\ Forall reach l)).
  - repeat constructor; (discriminate || assumption).
  - intros l [Hl Fl]. destruct (Q x l Hl Hx Fl) as (y & Ey & Hy). rewrite <- (H x l Hx Fl), Ey. cbn. destruct (S y Hy) as (b & Sb). now rewrite (same_refl _ _ _ Sb).
Qed.
Lemma t12_follows : rv32_zk c = false -> t12 i = true.
Proof.
  intros C. destruct (C12_chains_are_documented c i E C) as (D1 & D2 & D4). destruct (C26_chain_calls_return c i E) as (Q1 & Q2 & Q4). pose proof (C12_empty_slice_panics i) as P.
  assert (S1 : forall x, reach1 i x -> exists b, shows (i_ops1 i) x b) by (intros x Hx; destruct (shown1 x Hx) as (b & _ & S & _); eauto).
  assert (S2 : forall x, reach2 i x -> exists b, shows (i_ops2 i) x b) by (intros x Hx; destruct (shown2 x Hx) as (b & _ & S & _); eauto).
  assert (S4 : forall x, reach4 i x -> exists b, shows (i_ops4 i) x b) by (intros x Hx; destruct (shown4 x Hx) as (b & _ & S & _); eauto).
  pose proof (o_zero (i_ops1 i)) as z1. pose proof (o_zero (i_ops2 i)) as z2. pose proof (o_zero (i_ops4 i)) as z4.
  unfold t12. ands; [apply (chain_follows _ 16 _ (reach1 i))|apply (chain_follows _ 16 _ (reach1 i))|apply (chain_follows _ 32 _ (reach2 i))|apply (chain_follows _ 32 _ (reach2 i))
    |apply (chain_follows _ 64 _ (reach4 i))|apply (chain_follows _ 64 _ (reach4 i))]; try (exact with1_ok || exact with2_ok || exact with4_ok || assumption || exact blks16 || exact wide2_32 || exact wide4_64 || (vm_compute; repeat constructor)).
  all: try (intros x; first [apply (P x z2 z4)|apply (P z1 x z4)|apply (P z1 z2 x)]).
  all: intros; first [now apply D1|now apply D2|now apply D4|now apply Q1|now apply Q2|now apply Q4].
Qed.
Lemma t13_follows : rv32_zk c = false -> t13 i = true.
Proof.
  intros C. apply (forallb_ok _ (both 16)); [apply both_list; vm_compute; reflexivity|]. intros [a b] [Ha Hb]. cbn [fst snd] in *. apply with1_ok; [exact Ha|]. intros x Hx _.
  apply with1_ok; [exact Hb|]. intros k Hk _. destruct (C13_rounds_can_be_undone c i x k E C Hx Hk) as (H1 & H2 & H3 & H4). ands; now apply same1'.
Qed.
Lemma lanes_follows f1 f2 f4 : lanewise2 i f2 f1 -> lanewise4 i f4 f1 -> (forall x k, reach1 i x -> reach1 i k -> reach1 i (f1 x k)) ->
  (forall x, reach2 i x -> let '(a, b) := x2_to_pair i x in reach1 i a /\ reach1 i b) -> (forall x, reach4 i x -> let '(a, b, c, d) := x4_to_quad i x in reach1 i a /\ reach1 i b /\ reach1 i c /\ reach1 i d) ->
  t_lanes i f1 f2 f4 = true.
Proof.
  intros L2 L4 Q P2 P4. unfold t_lanes. apply and_ok.
  - apply (forallb_ok _ (both 32)); [apply both_list; vm_compute; reflexivity|]. intros [a b] [Ha Hb]. cbn [fst snd] in *. apply with2_ok; [exact Ha|]. intros x Hx _.
    apply with2_ok; [exact Hb|]. intros k Hk _. pose proof (P2 x Hx) as Rx. pose proof (P2 k Hk) as Rk. destruct (x2_to_pair i x) as [xa xb] eqn:Ex. destruct (x2_to_pair i k) as [ka kb] eqn:Ek.
    rewrite (proj2 (L2 x k Hx Hk xa xb ka kb Ex Ek)). ands; apply same1; try reflexivity; apply Q; tauto.
  - apply (forallb_ok _ (both 64)); [apply both_list; vm_compute; reflexivity|]. intros [a b] [Ha Hb]. cbn [fst snd] in *. apply with4_ok; [exact Ha|]. intros x Hx _.
    apply with4_ok; [exact Hb|]. intros k Hk _. pose proof (P4 x Hx) as Rx. pose proof (P4 k Hk) as Rk. destruct (x4_to_quad i x) as [[[xa xb] xc] xd] eqn:Ex. destruct (x4_to_quad i k) as [[[ka kb] kc] kd] eqn:Ek.
    rewrite (proj2 (L4 x k Hx Hk xa xb xc xd ka kb kc kd Ex Ek)). ands; apply same1; try reflexivity; apply Q; tauto.
Qed.
(** Reachable values stay reachable ([reach_closed]: no theorem about the model, only the definition of the reachable sets). *)
Lemma t14_follows : t14 i = true.
Proof.
  destruct (C14_wide_rounds_are_lanewise c i E) as (H1 & H2 & H3 & H4 & H5 & H6 & H7 & H8). pose proof (reach_closed i) as A.
  unfold t14. ands; apply lanes_follows; try assumption; try apply A; intros; now apply A.
Qed.
Lemma widths_ok (f : forall T, ops T -> (list N -> (T -> bool) -> bool) -> nat -> list (list N) -> bool) : f _ (i_ops1 i) (with1 i) 16%nat blks = true -> f _ (i_ops2 i) (with2 i) 32%nat wide2 = true -> f _ (i_ops4 i) (with4 i) 64%nat wide4 = true -> widths i f = true.
Proof. intros H1 H2 H4. unfold widths. now ands. Qed.
(** One proof for the three widths. *)
Definition wth_ok {T} (o : ops T) n (reach : T -> Prop) (wth : list N -> (T -> bool) -> bool) : Prop :=
  forall b f, is_bytes n b -> (forall x, reach x -> shows o x b -> f x = true) -> wth b f = true.
Lemma by_widths (f : forall T, ops T -> (list N -> (T -> bool) -> bool) -> nat -> list (list N) -> bool) (P : forall T, ops T -> nat -> (T -> Prop) -> Prop) :
  for_all_widths i P ->
  (forall T (o : ops T) wth n l reach, P T o n reach -> wth_ok o n reach wth -> (forall x, reach x -> exists b, shows o x b) -> Forall (is_bytes n) l -> f T o wth n l = true) -> widths i f = true.
Proof.
  intros (P1 & P2 & P4) H. apply widths_ok.
  - apply (H _ _ _ _ _ (reach1 i)); [exact P1|exact with1_ok| |exact blks16]. intros x Hx. destruct (shown1 x Hx) as (b & _ & S & _). eauto.
  - apply (H _ _ _ _ _ (reach2 i)); [exact P2|exact with2_ok| |exact wide2_32]. intros x Hx. destruct (shown2 x Hx) as (b & _ & S & _). eauto.
  - apply (H _ _ _ _ _ (reach4 i)); [exact P4|exact with4_ok| |exact wide4_64]. intros x Hx. destruct (shown4 x Hx) as (b & _ & S & _). eauto.
Qed.
Lemma pairs_both n l : Forall (is_bytes n) l -> Forall (both n) (pairs l).
Proof.
  intros F. apply Forall_forall. intros [a b] H. rewrite Forall_forall in F. unfold pairs in H. apply in_app_iff in H as [H|H]; (split; [apply in_combine_l in H|apply in_combine_r in H]; apply F; cbn [fst snd] in *; try assumption).
  apply in_app_iff in H as [H|H]; [destruct l; [destruct H|now right]|]. destruct l as [|y l]; [destruct H|]. destruct H as [H|[]]. now left.
Qed.
Lemma prod_both n l : Forall (is_bytes n) l -> Forall (both n) (list_prod l l).
Proof. intros F. apply Forall_forall. intros [a b] H. apply in_prod_iff in H as [A B]. rewrite Forall_forall in F. split; now apply F. Qed.
Lemma count_bytes m : (m <= 200)%nat -> Forall (fun b => b < 256) (map N.of_nat (seq 1 m)).
Proof. intros H. apply Forall_forall. intros x Hx. apply in_map_iff in Hx as (j & <- & Hj). apply in_seq in Hj. lia. Qed.
Lemma t15_follows : t15 i = true.
Proof.
  apply (by_widths _ lossless (C15_byte_conversions_lossless c i E)). intros T o wth n l reach (Z & H & _) _ _ F. rewrite Z, Nat.eqb_refl. apply (forallb_ok _ (is_bytes n)); [exact F|].
  intros b B. destruct (H b B) as (x & _ & E1 & E2 & E3 & S). rewrite E1, E2, E3. cbn [bind]. ands; now apply is_ok.
Qed.
Lemma t16_follows : t16 i = true.
Proof.
  apply (by_widths _ stores_exactly (C16_store_to_exact c i E)). intros T o wth n l reach H W _ F. apply (forallb_ok _ (is_bytes n)); [exact F|].
  intros b B. apply W; [exact B|]. intros x Hx Sx. apply forallb_forall. intros m _. cbv zeta beta. rewrite (H x b _ Hx Sx). rewrite map_length, seq_length.
  destruct (Nat.ltb m n); unfold weq; cbn [fst snd oeq]; now rewrite leqb_refl.
Qed.
Lemma t17_follows : t17 i = true.
Proof.
  assert (N0 : for_all_widths i (fun T o n reach => try_from_exact T o n reach /\ (n <= 64)%nat)) by (destruct (C17_try_from_total_and_exact c i E) as (H1 & H2 & H4); repeat split; try assumption; lia).
  apply (by_widths _ _ N0). intros T o wth n l reach [H Hn] _ _ _. apply forallb_forall. intros dbg _. apply forallb_forall. intros m Hm.
  assert (L : (m <= 200)%nat) by (cbn in Hm; lia). pose proof (H dbg _ (count_bytes m L)) as Q. cbv zeta. rewrite map_length, seq_length in Q.
  destruct (Nat.ltb m n) eqn:Lt.
  - rewrite Q. cbn. now rewrite Nat.eqb_refl.
  - destruct Q as (x & _ & -> & S). cbn [negb andb]. now apply shows_ok.
Qed.
Lemma t19_follows : t19 i = true.
Proof.
  apply (by_widths _ eq_is_bytes (C19_equality_is_byte_equality c i E)). intros T o wth n l reach (H & _) W _ F. apply (forallb_ok _ (both n)); [now apply prod_both|].
  intros [a b] [Ha Hb]. cbn [fst snd] in *. apply W; [exact Ha|]. intros x Hx Sx. apply W; [exact Hb|]. intros y Hy Sy. pose proof (H x y a b Hx Hy Sx Sy) as Q. rewrite <- leqb_eq in Q.
  destruct (o_eq o x y), (leqb a b); intuition congruence.
Qed.
Lemma not_255 a : Forall (fun b => b < 256) a -> map (fun v => 255 - v) a = map (N.lxor 255) a.
Proof.
  intros F. apply map_ext_Forall. eapply Forall_impl; [|exact F]. intros v Hv. cbv beta. change 255 with (N.ones 8). symmetry. rewrite N.lxor_comm. fold (N.lnot v 8).
  apply (N.lnot_sub_low v 8). destruct (N.eq_dec v 0) as [->|]; [reflexivity|]. apply N.log2_lt_pow2; [lia|]. exact Hv.
Qed.
Lemma t20_follows : t20 i = true.
Proof.
  apply (by_widths _ bytewise (C20_bit_operators_bytewise c i E)). intros T o wth n l reach H W _ F. apply (forallb_ok _ (both n)); [now apply pairs_both|].
  intros [a b] [Ha Hb]. cbn [fst snd] in *. apply W; [exact Ha|]. intros x Hx Sx. apply W; [exact Hb|]. intros y Hy Sy. destruct (H x y a b Hx Hy Sx Sy) as (H1 & H2 & H3 & H4 & H5 & H6 & H7).
  rewrite (not_255 a) in H4 by apply Ha. ands; now apply shows_ok.
Qed.
Lemma all_zero n b : is_bytes n b -> (forall j, nth j b 0 = 0) <-> b = repeat 0 n.
Proof.
  intros [L _]. split.
  - intros H. apply (nth_ext _ _ 0 0); [now rewrite repeat_length|]. intros j _. now rewrite H, nth_repeat.
  - intros -> j. apply nth_repeat.
Qed.
Lemma t21_follows : t21 i = true.
Proof.
  pose proof (C21_zero c i E) as Z. pose proof (C19_equality_is_byte_equality c i E) as Q.
  assert (N0 : for_all_widths i (fun T o n reach => zero_laws T o n reach /\ eq_is_bytes T o n reach)) by (destruct Z as (Z1 & Z2 & Z4), Q as (Q1 & Q2 & Q4); exact (conj (conj Z1 Q1) (conj (conj Z2 Q2) (conj Z4 Q4)))).
  apply (by_widths _ _ N0). intros T o wth n l reach [(Z1 & Z2 & Z3 & Z4 & Z5 & Z6) (Q1 & _)] W S F. ands.
  - now apply shows_ok.
  - rewrite Z3. now apply shows_ok.
  - apply (forallb_ok _ (is_bytes n)); [exact F|]. intros b B. apply W; [exact B|]. intros x Hx Sx. apply and_ok.
    + pose proof (Z4 x b Hx Sx) as X. rewrite (all_zero n b B), <- leqb_eq in X. destruct (o_is_zero o x), (leqb b (repeat 0 n)); intuition congruence.
    + rewrite (Z6 x Hx). now apply (same_refl _ _ b).
  - apply (forallb_ok _ (both n)); [now apply prod_both|]. intros [a b] [Ha Hb]. cbn [fst snd] in *. apply W; [exact Ha|]. intros x Hx Sx. apply W; [exact Hb|]. intros y Hy Sy.
    pose proof (Z5 x y Hx Hy) as X. rewrite (Q1 x y a b Hx Hy Sx Sy), <- leqb_eq in X. destruct (o_is_zero o (o_xor o x y)), (leqb a b); intuition congruence.
Qed.
Lemma of_be_byte b j : is_bytes 16 b -> (j < 16)%nat -> (of_be b / 256 ^ N.of_nat (15 - j)) mod 256 = nth j b 0.
Proof.
  intros [L F] Hj. rewrite <- (to_be_of_be b F) at 2. rewrite L. unfold to_be. rewrite rev_nth by (rewrite to_le_length; lia). rewrite to_le_length.
  replace (16 - S j)%nat with (15 - j)%nat by lia. rewrite nth_to_le by lia. reflexivity.
Qed.
Lemma of_be_lt' b : is_bytes 16 b -> of_be b < 2 ^ 128.
Proof. exact (of_be_lt b). Qed.
Lemma t18_follows : t18 i = true.
Proof.
  destruct (C18_u128_conversions c i E) as [H1 H2]. apply (forallb_ok _ (is_bytes 16)); [exact blks16|]. intros b B.
  assert (V : of_be b < 2 ^ 128) by (apply of_be_lt'; exact B).
  destruct (H1 _ V) as (x & Hx & Ex & Ux & b' & Sx & Bb & Q).
  assert (b' = b). { apply (nth_ext _ _ 0 0); [destruct B, Bb; congruence|]. intros j Hj. assert (j < 16)%nat by (destruct Bb; lia). rewrite Q by assumption. now apply of_be_byte. }
  subst b'. apply and_ok.
  - apply is_ok. rewrite Ex. exact Sx.
  - apply with1_ok; [exact B|]. intros y Hy Sy. destruct (C15_byte_conversions_lossless c i E) as ((_ & _ & _ & _ & U) & _). rewrite (U y x b Hy Hx Sy Sx), Ux. cbn. apply N.eqb_refl.
Qed.
Lemma t22_follows : t22 i = true.
Proof.
  destruct (C22_wide_narrow_conversions c i E) as (P2 & _ & P4 & _ & P42 & _). pose proof (reach_closed i) as A.
  unfold t22. apply with1_ok; [exact A16|]. intros a Ha Sa. apply with1_ok; [exact B16|]. intros b Hb Sb. apply with1_ok; [exact C16|]. intros d Hd Sd.
  apply with1_ok; [exact D16|]. intros e He Se. destruct (P2 a b _ _ Ha Hb Sa Sb) as (U1 & U2 & U3 & U4). destruct (P2 d e _ _ Hd He Sd Se) as (V1 & V2 & _).
  destruct (P4 a b d e _ _ _ _ Ha Hb Hd He Sa Sb Sd Se) as (W1 & W2 & W3 & W4).
  assert (Hab : reach2 i (x2_of_pair i (a, b))) by now apply A. assert (Hde : reach2 i (x2_of_pair i (d, e))) by now apply A.
  destruct (P42 _ _ _ _ Hab Hde U1 V1) as (X1 & X2 & X3 & X4). rewrite U2, W2. rewrite <- !app_assoc in X1. rewrite <- !app_assoc in X3.
  assert (Q : x4_of_quad i (a, b, d, e) = x4_of_pair i (x2_of_pair i (a, b), x2_of_pair i (d, e))).
  { destruct (C15_byte_conversions_lossless c i E) as (_ & _ & (_ & _ & _ & _ & U)). apply (U _ _ (blkA ++ blkB ++ blkC ++ blkD)); [now apply A|now apply A|exact W1|exact X1]. }
  rewrite Q, X2, <- Q. ands; now apply shows_ok.
Qed.
Lemma seqb_ok r s : r = Ret s -> seqb r s = true. Proof. intros ->. apply String.eqb_refl. Qed.
Lemma u128_of_be x b : is_bytes 16 b -> reach1 i x -> shows (i_ops1 i) x b -> to_u128 (i_ops1 i) x = Ret (of_be b).
Proof.
  intros B Hx Sx. destruct (C18_u128_conversions c i E) as [H1 _]. assert (V : of_be b < 2 ^ 128) by (apply of_be_lt'; exact B).
  destruct (H1 _ V) as (y & Hy & Ey & Uy & b' & Sy & Bb & Q).
  assert (b' = b). { apply (nth_ext _ _ 0 0); [destruct B, Bb; congruence|]. intros j Hj. assert (j < 16)%nat by (destruct Bb; lia). rewrite Q by assumption. now apply of_be_byte. }
  subst b'. destruct (C15_byte_conversions_lossless c i E) as ((_ & _ & _ & _ & U) & _). now rewrite (U x y b Hx Hy Sx Sy).
Qed.
(** with C18: the number a block converts to *)
Lemma t23_follows : t23 i = true.
Proof.
  apply (forallb_ok _ (is_bytes 16)); [exact blks16|]. intros b B. cbv zeta. apply with1_ok; [exact B|]. intros x Hx Sx. apply forallb_forall. intros alt _. apply forallb_forall. intros w _.
  destruct (C23_printed_forms c i x (of_be b) alt w E Hx (u128_of_be x b B Hx Sx)) as (H1 & H2 & H3 & H4 & H5). rewrite H4 in H5. ands; now apply seqb_ok.
Qed.
(** with C18 and C22: the numbers the blocks of a wide block convert to *)
Lemma keys_numbers l bs : keys_of i l = Ret bs -> Forall2 (fun x v => to_u128 (i_ops1 i) x = Ret v) l (map of_be bs).
Proof.
  revert bs. induction l as [|x l IH]; intros bs H; cbn in H; [injection H as <-; constructor|].
  destruct (to_bytes (i_ops1 i) x) as [b| |] eqn:B; cbn in H; try discriminate. unfold keys_of in IH. destruct (fold_right _ _ l) as [r| |]; cbn in H; try discriminate. injection H as <-.
  cbn [map]. constructor; [unfold to_u128; now rewrite B|now apply IH].
Qed.
Lemma t24_follows : t24 i = true.
Proof.
  destruct (C22_wide_narrow_conversions c i E) as (P2 & _ & P4 & _). pose proof (reach_closed i) as A. destruct (C15_byte_conversions_lossless c i E) as (_ & (_ & _ & _ & _ & U2) & (_ & _ & _ & _ & U4)).
  apply forallb_forall. intros alt _. cbv zeta. destruct (C24_wide_debug c i alt None E) as [D2 D4].
  destruct (made1 _ A16) as (a & Ha & _ & Sa). destruct (made1 _ B16) as (b & Hb & _ & Sb). destruct (made1 _ C16) as (d & Hd & _ & Sd). destruct (made1 _ D16) as (e & He & _ & Se). ands.
  - apply with2_ok; [apply is_bytesb_correct; reflexivity|]. intros x Hx Sx. destruct (P2 a b _ _ Ha Hb Sa Sb) as (Q1 & Q2 & _). assert (R : reach2 i (x2_of_pair i (a, b))) by now apply A.
    rewrite (U2 x _ _ Hx R Sx Q1). apply seqb_ok. apply (D2 _ a b); [exact R|exact Q2|apply u128_of_be; auto using A16|apply u128_of_be; auto using B16].
  - apply with4_ok; [apply is_bytesb_correct; reflexivity|]. intros x Hx Sx. destruct (P4 a b d e _ _ _ _ Ha Hb Hd He Sa Sb Sd Se) as (Q1 & Q2 & _).
    assert (R : reach4 i (x4_of_quad i (a, b, d, e))) by now apply A.
    rewrite (U4 x _ _ Hx R Sx Q1). apply seqb_ok. apply (D4 _ a b d e); [exact R|exact Q2|apply u128_of_be; auto using A16|apply u128_of_be; auto using B16|apply u128_of_be; auto using C16|apply u128_of_be; auto using D16].
  - apply key_sizes_ok. intros k key Hk. destruct (C24_key_object_debug c i k alt None E) as [KE KD]. destruct (C26_cipher_calls_return c i k E) as (Nw & _). destruct (Nw key Hk) as ((e' & Ee & Re) & (d' & Ed & Rd)).
    ands; [apply (holds_ok _ _ e' Ee); destruct (keys_of i (enc_keys e')) as [l| |] eqn:L; try reflexivity; apply seqb_ok, KE; [exact Re|now apply keys_numbers]|
           apply (holds_ok _ _ d' Ed); destruct (keys_of i (dec_keys d')) as [l| |] eqn:L; try reflexivity; apply seqb_ok, KD; [exact Rd|now apply keys_numbers]].
Qed.
Lemma t27_follows : t27 i = true.
Proof.
  apply key_sizes_ok. intros k key Hk. cbv zeta. set (m := blkA ++ blkB ++ blkC). assert (B : is_bytes (groups_len [One; Two]) m) by (apply is_bytesb_correct; reflexivity).
  destruct (C27_grouping_irrelevant c i k key [One; Two] [Two; One] m E Hk eq_refl B) as (x & y & _ & _ & -> & -> & -> & ->). cbn. now rewrite !leqb_refl.
Qed.
Lemma images_follow f : bijective_on (reach1 i) f -> distinct_images i f = true.
Proof.
  intros (Cl & Inj & _). apply (forallb_ok _ (both 16)); [apply prod_both, blks16|]. intros [a b] [Ha Hb]. cbn [fst snd] in *.
  destruct (leqb a b) eqn:L; [reflexivity|]. cbn [orb]. destruct (made1 a Ha) as (x & Hx & Fx & Sx). destruct (made1 b Hb) as (y & Hy & Fy & Sy). unfold op1_bytes. rewrite Fx, Fy. cbn [bind].
  destruct (shown1 (f x) (Cl x Hx)) as (p & Bp & Sp & _). destruct (shown1 (f y) (Cl y Hy)) as (q & Bq & Sq & _). rewrite Sp, Sq. cbn [oeq]. destruct (leqb p q) eqn:Lpq; [|reflexivity].
  apply leqb_eq in Lpq. subst q. destruct (C15_byte_conversions_lossless c i E) as ((_ & _ & _ & U1 & U2) & _).
  assert (x = y) by (apply Inj; auto; apply (U2 _ _ p); auto). subst y. assert (a = b) by (apply (U1 x); assumption). subst b. now rewrite leqb_refl in L.
Qed.
Lemma t28_follows : rv32_zk c = false -> t28 i = true.
Proof.
  intros C. unfold t28. apply with1_ok; [exact B16|]. intros k Hk _. destruct (C28_rounds_are_permutations c i k E C Hk) as (H1 & H2 & H3 & H4 & H5 & H6). ands; now apply images_follow.
Qed.
End Follows.
