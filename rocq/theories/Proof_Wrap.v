(** Key wrap on top of the crate (for C59). *)
From Coq Require Import Lia Arith ZifyN ZifyNat.
From Verif Require Import Word Interface Fips197 Spec_Api Spec_Cfg Spec_User Spec_Modes2 Model_Lib.
From Verif Require Import Proof_Shape Proof_Word Proof_Fips Proof_Ok Proof_Sem Proof_Lib Proof_Inst Proof_Main Proof_Bitslice Samples Props_Batch Props_Modes Proof_Machine Proof_Cmac Proof_Xts.
Open Scope N_scope.

(** ** Halves of a block *)
Lemma of_be_app a b : of_be (a ++ b) = of_be a * 2 ^ (8 * N.of_nat (length b)) + of_be b.
Proof. unfold of_be. rewrite rev_app_distr, of_le_app, rev_length. lia. Qed.
Lemma of_be_lt n b : is_bytes n b -> of_be b < 2 ^ (8 * N.of_nat n).
Proof. intros [L F]. unfold of_be. rewrite <- rev_length in L. rewrite <- L. apply of_le_lt. now apply Forall_rev. Qed.
Lemma of_be_64 b : is_bytes 8 b -> of_be b < 2 ^ 64.
Proof. apply (of_be_lt 8). Qed.
Lemma be_back n b : is_bytes n b -> to_be n (of_be b) = b.
Proof. intros [L F]. rewrite <- L. now apply to_be_of_be. Qed.
Lemma to_be_n n v : is_bytes n (to_be n v).
Proof. unfold to_be. split; [rewrite rev_length; apply to_le_length|]. apply Forall_rev, to_le_ok. Qed.
Lemma lor_halves a x : a < 2 ^ 64 -> x < 2 ^ 64 -> N.lor (u128_shl a 64) x = a * 2 ^ 64 + x.
Proof.
  intros A X. unfold u128_shl. rewrite N.mod_small by (change (2 ^ 128) with (2 ^ 64 * 2 ^ 64); apply N.mul_lt_mono_pos_r; [reflexivity|exact A]).
  assert (L : N.land (a * 2 ^ 64) x = 0).
  { apply N.bits_inj. intros n. rewrite N.land_spec, N.bits_0. destruct (N.lt_ge_cases n 64) as [H|H]; [now rewrite N.mul_pow2_bits_low|].
    rewrite <- (N.mod_small x (2 ^ 64)) by exact X. now rewrite N.mod_pow2_bits_high, andb_false_r. }
  rewrite <- N.lxor_lor by exact L. symmetry. now apply N.add_nocarry_lxor.
Qed.
Lemma halves y : is_bytes 16 y -> is_bytes 8 (firstn 8 y) /\ is_bytes 8 (skipn 8 y) /\ of_be y / 2 ^ 64 = of_be (firstn 8 y) /\ of_be y mod 2 ^ 64 = of_be (skipn 8 y).
Proof.
  intros [L F]. assert (B1 : is_bytes 8 (firstn 8 y)) by (split; [rewrite firstn_length; lia|now apply bytes_firstn]).
  assert (B2 : is_bytes 8 (skipn 8 y)) by (split; [rewrite skipn_length; lia|now apply bytes_skipn]). split; [exact B1|]. split; [exact B2|].
  pose proof (of_be_64 _ B2) as U. rewrite <- (firstn_skipn 8 y) at 1 3. rewrite of_be_app, (proj1 B2). change (8 * N.of_nat 8) with 64.
  destruct (mod_div_of (of_be (firstn 8 y) * 2 ^ 64 + of_be (skipn 8 y)) (of_be (firstn 8 y)) (2 ^ 64) (of_be (skipn 8 y)) U ltac:(lia)) as [M D]. now split.
Qed.
Lemma join_halves a x : is_bytes 8 a -> is_bytes 8 x -> N.lor (u128_shl (of_be a) 64) (of_be x) = of_be (a ++ x).
Proof. intros A X. rewrite lor_halves by now apply of_be_64. rewrite of_be_app, (proj1 X). reflexivity. Qed.
Lemma xor_counter a t : is_bytes 8 a -> N.of_nat t < 2 ^ 64 -> N.lxor (of_be a) (N.of_nat t) = of_be (xorb a (to_be 8 (N.of_nat t))).
Proof.
  intros A T. rewrite <- (of_be_to_be 8 (N.of_nat t)) at 1 by exact T. apply (of_ne_xor true 8); [exact A|apply to_be_n].
Qed.

(** ** The passes on bytes *)
Fixpoint pass (f : list N -> list N) (t : nat) (a : list N) (r : list (list N)) : state :=
  match r with
  | [] => (a, [])
  | x :: q => let y := f (a ++ x) in let s := pass f (t + 1) (xorb (firstn 8 y) (to_be 8 (N.of_nat t))) q in (fst s, skipn 8 y :: snd s)
  end.
Fixpoint pass_back (g : list N -> list N) (t : nat) (a : list N) (r : list (list N)) : state :=
  match r with
  | [] => (a, [])
  | x :: q => let s := pass_back g (t + 1) a q in let y := g (xorb (fst s) (to_be 8 (N.of_nat t)) ++ x) in (firstn 8 y, skipn 8 y :: snd s)
  end.
Definition good (n : nat) (s : state) : Prop := is_bytes 8 (fst s) /\ length (snd s) = n /\ Forall (is_bytes 8) (snd s).
Lemma pass_steps f r : forall t a d, fold_left (fun s t => w_step f t s) (seq t (length r)) (a, r ++ d) = (fst (pass f t a r), d ++ snd (pass f t a r)).
Proof.
  induction r as [|x q IH]; intros t a d; [cbn; now rewrite app_nil_r|]. cbn [length seq fold_left app]. unfold w_step at 2. cbn [fst snd hd tl].
  rewrite <- app_assoc. rewrite <- (Nat.add_1_r t), IH. cbn [pass fst snd]. now rewrite <- app_assoc.
Qed.
Lemma pass_back_steps g r : forall t a d, fold_left (fun s t => w_step_back g t s) (rev (seq t (length r))) (a, d ++ r) = (fst (pass_back g t a r), snd (pass_back g t a r) ++ d).
Proof.
  induction r as [|x q IH]; intros t a d; [cbn; now rewrite app_nil_r|]. cbn [length seq rev]. rewrite fold_left_app. cbn [fold_left].
  replace (d ++ x :: q) with ((d ++ [x]) ++ q) by now rewrite <- app_assoc. rewrite <- (Nat.add_1_r t), IH. unfold w_step_back. cbn [fst snd pass_back].
  rewrite app_assoc, last_last, removelast_last. reflexivity.
Qed.
Lemma passes_counted n c : seq 1 (c * n) = concat (map (fun j => seq (n * j + 1) n) (seq 0 c)).
Proof.
  induction c as [|c IH]; [reflexivity|]. rewrite seq_S, map_app, concat_app. cbn [map concat Nat.add]. rewrite app_nil_r, <- IH.
  replace (S c * n)%nat with (c * n + n)%nat by lia. rewrite seq_app. f_equal. f_equal. lia.
Qed.
Lemma fold_concat {A B} (F : A -> B -> A) L : forall s, fold_left F (concat L) s = fold_left (fun s l => fold_left F l s) L s.
Proof. induction L as [|l L IH]; intros s; [reflexivity|]. cbn [concat fold_left]. now rewrite fold_left_app, IH. Qed.
Lemma rev_concat {A} (L : list (list A)) : rev (concat L) = concat (map (@rev A) (rev L)).
Proof. induction L as [|l L IH]; [reflexivity|]. cbn [concat rev]. rewrite rev_app_distr, IH, map_app, concat_app. cbn [map concat]. now rewrite app_nil_r. Qed.
Lemma fold_map {A B C} (F : A -> C -> A) (h : B -> C) l : forall s, fold_left F (map h l) s = fold_left (fun s x => F s (h x)) l s.
Proof. induction l as [|x l IH]; intros s; [reflexivity|]. cbn [map fold_left]. apply IH. Qed.
Lemma pass_length f r : forall t a, length (snd (pass f t a r)) = length r.
Proof. induction r as [|x q IH]; intros t a; [reflexivity|]. cbn [pass snd length]. now rewrite IH. Qed.
Lemma pass_back_length f r : forall t a, length (snd (pass_back f t a r)) = length r.
Proof. induction r as [|x q IH]; intros t a; [reflexivity|]. cbn [pass_back snd length]. now rewrite IH. Qed.
Lemma w_passes f s : w f s = fold_left (fun s j => pass f (length (snd s) * j + 1) (fst s) (snd s)) (seq 0 6) s.
Proof.
  unfold w. rewrite passes_counted, fold_concat, fold_map. set (n := length (snd s)). assert (L : length (snd s) = n) by reflexivity. clearbody n. revert s L.
  generalize (seq 0 6). induction l as [|j l IH]; intros [a r] L; [reflexivity|]. cbn [fold_left fst snd] in *. rewrite L. subst n.
  pose proof (pass_steps f r (length r * j + 1) a []) as P. rewrite app_nil_r in P. cbn [app] in P. rewrite P. rewrite <- surjective_pairing. apply IH. apply pass_length.
Qed.
Lemma w_back_passes g s : w_back g s = fold_left (fun s j => pass_back g (length (snd s) * j + 1) (fst s) (snd s)) (rev (seq 0 6)) s.
Proof.
  unfold w_back. rewrite passes_counted, rev_concat, <- map_rev, map_map, fold_concat, fold_map. set (n := length (snd s)). assert (L : length (snd s) = n) by reflexivity. clearbody n. revert s L.
  generalize (rev (seq 0 6)). induction l as [|j l IH]; intros [a r] L; [reflexivity|]. cbn [fold_left fst snd] in *. rewrite L. subst n.
  pose proof (pass_back_steps g r (length r * j + 1) a []) as P. cbn [app] in P. rewrite P. rewrite app_nil_r. rewrite <- surjective_pairing. apply IH. apply pass_back_length.
Qed.

(** ** The program *)
Section Wrap.
  Context (i : impl) (f1 : list N -> T1 i) (f4 : list N -> T4 i) (E : embeds i f1 f4) (k : key_size).
  Lemma kw_pass_ok e f : runs i f1 f4 (encrypt_block i k e) (encrypt_4_blocks i k e) f -> forall r t a, N.of_nat (t + length r) <= 2 ^ 64 -> is_bytes 8 a -> Forall (is_bytes 8) r ->
    kw_pass i k e t (of_be a) (map of_be r) = Ret (of_be (fst (pass f t a r)), map of_be (snd (pass f t a r))) /\ good (length r) (pass f t a r).
  Proof.
    intros (R1 & R2 & _). pose proof (em1 _ _ _ E) as D. induction r as [|x q IH]; intros t a T A F; [split; [reflexivity|repeat split; (exact A || constructor || apply A)]|].
    apply Forall_cons_iff in F as [X F]. cbn [length] in T. cbn [map kw_pass pass]. rewrite join_halves by assumption. rewrite (of_u128_ok _ f1) by exact D. cbn [bind].
    pose proof (is_bytes_app 8 8 a x A X) as AX. change (8 + 8)%nat with 16%nat in AX. rewrite (be_back 16) by exact AX. rewrite R2 by exact AX. cbn [bind].
    pose proof (R1 _ AX) as Y. rewrite (to_u128_ok _ f1) by assumption. cbn [bind]. destruct (halves _ Y) as (Y1 & Y2 & -> & ->). set (y := f (a ++ x)) in *.
    assert (T1' : N.of_nat t < 2 ^ 64) by lia. rewrite xor_counter by assumption. assert (A' : is_bytes 8 (xorb (firstn 8 y) (to_be 8 (N.of_nat t)))) by (apply xorb_bytes; [exact Y1|apply to_be_n]).
    destruct (IH (t + 1)%nat _ ltac:(lia) A' F) as [-> (G1 & G2 & G3)]. cbn [bind fst snd map]. split; [reflexivity|]. split; [exact G1|]. cbn [snd length]. split; [now rewrite G2|now constructor].
  Qed.
  Lemma kw_passes_ok e f n : runs i f1 f4 (encrypt_block i k e) (encrypt_4_blocks i k e) f -> forall js s, (forall j, In j js -> (j < 6)%nat) -> 6 * N.of_nat n + 1 <= 2 ^ 64 -> good n s ->
    kw_passes i k e js (of_be (fst s)) (map of_be (snd s)) =
      let s' := fold_left (fun s j => pass f (length (snd s) * j + 1) (fst s) (snd s)) js s in Ret (of_be (fst s'), map of_be (snd s')).
  Proof.
    intros R. induction js as [|j js IH]; intros s H B (G1 & G2 & G3); [reflexivity|]. cbn [kw_passes fold_left]. rewrite map_length.
    destruct (kw_pass_ok e f R (snd s) (length (snd s) * j + 1) (fst s)) as [-> G]; [|assumption|assumption|].
    { pose proof (H j (or_introl eq_refl)). rewrite G2. assert (n * j <= n * 5)%nat by (apply Nat.mul_le_mono_l; lia). lia. }
    cbn [bind fst snd]. rewrite G2 in G. rewrite G2. apply IH; [intros; apply H; now right|exact B|exact G].
  Qed.
  Lemma kw_pass_back_ok d g : runs i f1 f4 (decrypt_block i k d) (decrypt_4_blocks i k d) g -> forall r t a, N.of_nat (t + length r) <= 2 ^ 64 -> is_bytes 8 a -> Forall (is_bytes 8) r ->
    kw_pass_back i k d t (of_be a) (map of_be r) = Ret (of_be (fst (pass_back g t a r)), map of_be (snd (pass_back g t a r))) /\ good (length r) (pass_back g t a r).
  Proof.
    intros (R1 & R2 & _). pose proof (em1 _ _ _ E) as D. induction r as [|x q IH]; intros t a T A F; [split; [reflexivity|repeat split; (exact A || constructor || apply A)]|].
    apply Forall_cons_iff in F as [X F]. cbn [length] in T. cbn [map kw_pass_back pass_back].
    destruct (IH (t + 1)%nat a ltac:(lia) A F) as [-> (G1 & G2 & G3)]. cbn [bind fst snd].
    assert (T1' : N.of_nat t < 2 ^ 64) by lia. rewrite xor_counter by assumption. assert (A' : is_bytes 8 (xorb (fst (pass_back g (t + 1) a q)) (to_be 8 (N.of_nat t)))) by (apply xorb_bytes; [exact G1|apply to_be_n]).
    rewrite join_halves by assumption. rewrite (of_u128_ok _ f1) by exact D. cbn [bind].
    pose proof (is_bytes_app 8 8 _ x A' X) as AX. change (8 + 8)%nat with 16%nat in AX. rewrite (be_back 16) by exact AX. rewrite R2 by exact AX. cbn [bind].
    pose proof (R1 _ AX) as Y. rewrite (to_u128_ok _ f1) by assumption. cbn [bind]. destruct (halves _ Y) as (Y1 & Y2 & -> & ->). cbn [fst snd map].
    split; [reflexivity|]. split; [exact Y1|]. cbn [snd length]. split; [now rewrite G2|now constructor].
  Qed.
  Lemma kw_passes_back_ok d g n : runs i f1 f4 (decrypt_block i k d) (decrypt_4_blocks i k d) g -> forall js s, (forall j, In j js -> (j < 6)%nat) -> 6 * N.of_nat n + 1 <= 2 ^ 64 -> good n s ->
    let s' := fold_left (fun s j => pass_back g (length (snd s) * j + 1) (fst s) (snd s)) js s in
    kw_passes_back i k d js (of_be (fst s)) (map of_be (snd s)) = Ret (of_be (fst s'), map of_be (snd s')) /\ good n s'.
  Proof.
    intros R. induction js as [|j js IH]; intros s H B (G1 & G2 & G3); [repeat split; (apply G1 || assumption)|]. cbn [kw_passes_back fold_left]. rewrite map_length.
    destruct (kw_pass_back_ok d g R (snd s) (length (snd s) * j + 1) (fst s)) as [-> G]; [|assumption|assumption|].
    { pose proof (H j (or_introl eq_refl)). rewrite G2. assert (n * j <= n * 5)%nat by (apply Nat.mul_le_mono_l; lia). lia. }
    cbn [bind fst snd]. rewrite G2 in G. rewrite G2. apply IH; [intros; apply H; now right|exact B|exact G].
  Qed.
End Wrap.

(** ** Steps *)
Section Steps.
  Context (f : list N -> list N) (Hf : forall x, is_bytes 16 x -> is_bytes 16 (f x)).
  Lemma w_step_good n t s : (0 < n)%nat -> good n s -> good n (w_step f t s).
  Proof.
    intros P. destruct s as [a [|x r]]; intros (A & L & F); [cbn in L; lia|]. cbn [fst snd] in *. apply Forall_cons_iff in F as [X F].
    pose proof (Hf _ (is_bytes_app 8 8 a x A X)) as Y. destruct (halves _ Y) as (Y1 & Y2 & _). unfold w_step. cbn [fst snd hd tl]. split; [apply xorb_bytes; [exact Y1|apply to_be_n]|].
    cbn [snd length] in *. split; [rewrite app_length; cbn [length]; lia|]. apply Forall_app. split; [exact F|now constructor].
  Qed.
  Lemma w_step_back_good n t s : (0 < n)%nat -> good n s -> good n (w_step_back f t s).
  Proof.
    intros P. destruct s as [a r]; intros (A & L & F). cbn [fst snd] in *. destruct (exists_last (l := r)) as (q & x & ->); [now destruct r; [cbn in L; lia|]|].
    apply Forall_app in F as [F X]. apply Forall_cons_iff in X as [X _]. rewrite app_length in L. cbn [length] in L. unfold w_step_back. cbn [fst snd]. rewrite last_last, removelast_last.
    pose proof (Hf _ (is_bytes_app 8 8 (xorb a (to_be 8 (N.of_nat t))) x (xorb_bytes _ _ _ A (to_be_n 8 _)) X)) as Y. destruct (halves _ Y) as (Y1 & Y2 & _).
    split; [exact Y1|]. cbn [snd length]. split; [lia|now constructor].
  Qed.
End Steps.
Section Back.
  Context (f g : list N -> list N) (Hf : forall x, is_bytes 16 x -> is_bytes 16 (f x)) (Hg : forall x, is_bytes 16 x -> is_bytes 16 (g x)) (I : inverse f g).
  Lemma step_back n t s : (0 < n)%nat -> good n s -> w_step_back g t (w_step f t s) = s.
  Proof.
    intros P. destruct s as [a [|x r]]; intros (A & L & F); [cbn in L; lia|]. cbn [fst snd] in *. apply Forall_cons_iff in F as [X F].
    pose proof (is_bytes_app 8 8 a x A X) as AX. pose proof (Hf _ AX) as Y. destruct (halves _ Y) as (Y1 & Y2 & _). unfold w_step, w_step_back. cbn [fst snd hd tl]. rewrite last_last, removelast_last.
    unfold xorb. rewrite (xor_xor 8) by (apply Y1 || apply to_be_n). rewrite firstn_skipn. rewrite (proj1 (I _ AX)).
    now rewrite (firstn_exact 8 a) by apply A; rewrite (skipn_exact 8 a) by apply A.
  Qed.
  Lemma back_step n t s : (0 < n)%nat -> good n s -> w_step f t (w_step_back g t s) = s.
  Proof.
    intros P. destruct s as [a r]; intros (A & L & F). cbn [fst snd] in *. destruct (exists_last (l := r)) as (q & x & ->); [now destruct r; [cbn in L; lia|]|].
    apply Forall_app in F as [F X]. apply Forall_cons_iff in X as [X _]. unfold w_step, w_step_back. cbn [fst snd]. rewrite last_last, removelast_last. cbn [hd tl].
    pose proof (xorb_bytes _ _ _ A (to_be_n 8 (N.of_nat t))) as AT. pose proof (is_bytes_app 8 8 _ x AT X) as AX. rewrite firstn_skipn. rewrite (proj2 (I _ AX)).
    rewrite (firstn_exact 8) by apply AT. rewrite (skipn_exact 8) by apply AT. unfold xorb. rewrite (xor_xor 8) by (apply A || apply to_be_n). reflexivity.
  Qed.
  Lemma fold_good (h : nat -> state -> state) n l : (forall t s, good n s -> good n (h t s)) -> forall s, good n s -> good n (fold_left (fun s t => h t s) l s).
  Proof. intros H. induction l as [|t l IH]; intros s G; [exact G|]. cbn [fold_left]. apply IH. now apply H. Qed.
  Lemma fold_back (h b : nat -> state -> state) n l : (forall t s, good n s -> good n (h t s)) -> (forall t s, good n s -> b t (h t s) = s) ->
    forall s, good n s -> fold_left (fun s t => b t s) (rev l) (fold_left (fun s t => h t s) l s) = s.
  Proof.
    intros H B. induction l as [|t l IH]; intros s G; [reflexivity|]. cbn [rev fold_left]. rewrite fold_left_app. rewrite IH by now apply H. cbn [fold_left]. now apply B.
  Qed.
  Lemma w_good n s : good n s -> good n (w f s).
  Proof. intros G. pose proof G as (_ & L & _). unfold w. rewrite L. destruct n as [|n]; [exact G|]. apply (fold_good (w_step f)); [|exact G]. intros. now apply w_step_good; [|lia|]. Qed.
  Lemma w_back_good n s : good n s -> good n (w_back g s).
  Proof. intros G. pose proof G as (_ & L & _). unfold w_back. rewrite L. destruct n as [|n]; [exact G|]. apply (fold_good (w_step_back g)); [|exact G]. intros. now apply w_step_back_good; [|lia|]. Qed.
  Lemma w_there_and_back n s : good n s -> w_back g (w f s) = s.
  Proof.
    intros G. pose proof (w_good n s G) as (_ & L' & _). pose proof G as (_ & L & _). unfold w_back. rewrite L'. unfold w. rewrite L. destruct n as [|n]; [reflexivity|].
    apply (fold_back (w_step f) (w_step_back g) (S n)); [| |exact G]; intros; [now apply w_step_good; [|lia|]|apply (step_back (S n)); [lia|assumption]].
  Qed.
  Lemma w_back_and_there n s : good n s -> w f (w_back g s) = s.
  Proof.
    intros G. pose proof (w_back_good n s G) as (_ & L' & _). pose proof G as (_ & L & _). unfold w. rewrite L'. unfold w_back. rewrite L. destruct n as [|n]; [reflexivity|].
    rewrite <- (rev_involutive (seq 1 (6 * S n))) at 1.
    apply (fold_back (w_step_back g) (w_step f) (S n)); [| |exact G]; intros; [now apply w_step_back_good; [|lia|]|apply (back_step (S n)); [lia|assumption]].
  Qed.
End Back.
