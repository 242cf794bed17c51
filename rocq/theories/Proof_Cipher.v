(** The ciphers over arbitrary round keys: the code's algorithm is CIPHER / INVCIPHER, and they are inverse. *)
From Coq Require Import Lia Arith.
From Verif Require Import Word Interface Fips197 Spec_Api Model_Lib Proof_Word Proof_Fips Proof_Ok Proof_KeySpec Proof_Sem Proof_Lib Proof_Inst.
Open Scope N_scope.

(** CIPHER and INVCIPHER with round key [i] given by a function. *)
Definition g_cipher (nr : nat) (rk : nat -> list N) (inp : list N) : list N :=
  let s := fold_left (fun s i => add_round_key (mix_columns (shift_rows (sub_bytes s))) (rk i)) (seq 1 (nr - 1)) (add_round_key inp (rk 0%nat)) in
  add_round_key (shift_rows (sub_bytes s)) (rk nr).
Definition g_inv_cipher (nr : nat) (rk : nat -> list N) (inp : list N) : list N :=
  let s := fold_left (fun s i => inv_mix_columns (add_round_key (inv_sub_bytes (inv_shift_rows s)) (rk i))) (rev (seq 1 (nr - 1))) (add_round_key inp (rk nr)) in
  add_round_key (inv_sub_bytes (inv_shift_rows s)) (rk 0%nat).
Lemma g_cipher_spec nr w inp : cipher nr w inp = g_cipher nr (round_key w) inp. Proof. reflexivity. Qed.
Lemma g_inv_cipher_spec nr w inp : inv_cipher nr w inp = g_inv_cipher nr (round_key w) inp. Proof. reflexivity. Qed.

Lemma fold_ext {A B} (P : A -> Prop) (Q : B -> Prop) (f g : A -> B -> A) l : 
  (forall a b, P a -> Q b -> f a b = g a b /\ P (g a b)) -> Forall Q l -> forall a, P a -> fold_left f l a = fold_left g l a /\ P (fold_left g l a).
Proof. intros H F. induction F; intros a Ha; [split; [reflexivity|assumption]|]. cbn [fold_left]. destruct (H a x Ha H0) as [-> Hp]. auto. Qed.
Lemma fold_map' {A B C} (f : A -> C -> A) (h : B -> C) l a : fold_left f (map h l) a = fold_left (fun x b => f x (h b)) l a.
Proof. revert a. induction l; intros; [reflexivity|]. cbn. apply IHl. Qed.

(** pre-xor chain = post-xor chain *)
Lemma b_chain_pre_spec (pre : option (bop * bop)) (g : bop) x keys (dec : bool) :
  pre_fips pre -> g = (if dec then spec_dec else spec_enc) -> is_bytes 16 x -> Forall (is_bytes 16) keys -> keys <> [] ->
  b_chain (match pre with None => None | Some (p, q) => Some (if dec then q else p) end) g x keys = b_chain None g x keys.
Proof.
  intros Hp Hg Hx Hk Hne. destruct Hp as [->| ->]; [reflexivity|]. unfold neon_pre.
  unfold b_chain. destruct keys as [|k0 r]; [congruence|]. clear Hne.
  revert x k0 Hx Hk. induction r as [|k1 r IH]; intros x k0 Hx Hk.
  - reflexivity.
  - inversion Hk as [|? ? H0 H1]; subst. inversion H1 as [|? ? H2 H3]; subst.
    change (removelast (k0 :: k1 :: r)) with (k0 :: removelast (k1 :: r)). change (last (k0 :: k1 :: r) []) with (last (k1 :: r) []). cbn [fold_left].
    rewrite IH; [|destruct dec|assumption].
    + destruct dec; reflexivity.
    + now apply inv_mix_columns_bytes, inv_sub_bytes_bytes, inv_shift_rows_bytes, xor_bytes.
    + now apply mix_columns_bytes, sub_bytes_bytes, shift_rows_bytes, xor_bytes.
Qed.

Lemma spec_enc_shift s k : is_bytes 16 s -> add_round_key (mix_columns (shift_rows (sub_bytes s))) k = spec_enc s k.
Proof. intros H. unfold spec_enc. now rewrite shift_sub by apply H. Qed.
Lemma spec_enc_last_shift s k : is_bytes 16 s -> add_round_key (shift_rows (sub_bytes s)) k = spec_enc_last s k.
Proof. intros H. unfold spec_enc_last. now rewrite shift_sub by apply H. Qed.

Lemma firstn_keys_shape k rks : good_keys k rks ->
  firstn (nr_of k) rks = nth 0 rks [] :: map (fun i => nth i rks []) (seq 1 (nr_of k - 1)).
Proof. intros [L F]. destruct k; cbn in L; explode L; reflexivity. Qed.
Lemma swap_shape g k rks : good_keys k rks ->
  firstn (nr_of k) (b_swap g rks) = nth (nr_of k) rks [] :: map (fun i => g (nth i rks [])) (rev (seq 1 (nr_of k - 1)))
  /\ nth (nr_of k) (b_swap g rks) [] = nth 0 rks [].
Proof. intros [L F]. destruct k; cbn in L; explode L; split; reflexivity. Qed.
Lemma good_nth k rks i : good_keys k rks -> (i <= nr_of k)%nat -> is_bytes 16 (nth i rks []).
Proof. intros [L F] Hi. apply (Forall_nth' (is_bytes 16)); [assumption|lia]. Qed.

Lemma b_encrypt_cipher pre keys k rks x : pre_fips pre -> good_keys k rks -> is_bytes 16 x ->
  b_encrypt (fips_sem pre keys) k rks x = g_cipher (nr_of k) (fun i => nth i rks []) x.
Proof.
  intros Hp Hk Hx. unfold b_encrypt, b_run, fips_sem, s_pre1. cbn [s_pre s_enc s_enc_last].
  destruct (good_first k rks Hk) as (F & Ne & Hn).
  rewrite (b_chain_pre_spec pre spec_enc x _ false) by (assumption || reflexivity).
  rewrite firstn_keys_shape by assumption. unfold b_chain, g_cipher. rewrite fold_map'.
  assert (Hx0 : is_bytes 16 (add_round_key x (nth 0 rks []))) by (apply xor_bytes; [assumption|apply (good_nth k); [assumption|lia]]).
  destruct (fold_ext (is_bytes 16) (fun i => (i <= nr_of k)%nat)
    (fun s i => add_round_key (mix_columns (shift_rows (sub_bytes s))) (nth i rks [])) (fun s i => spec_enc s (nth i rks [])) (seq 1 (nr_of k - 1)))
    with (a := add_round_key x (nth 0 rks [])) as [E B].
  - intros a b Ha Hb. split; [now apply spec_enc_shift|]. apply spec_enc_bop; [assumption|now apply (good_nth k)].
  - apply Forall_forall. intros j Hj. apply in_seq in Hj. lia.
  - assumption.
  - cbv zeta. rewrite E, spec_enc_last_shift by assumption. reflexivity.
Qed.

Lemma inv_mix_ark a k : is_bytes 16 a -> is_bytes 16 k -> inv_mix_columns (add_round_key a k) = add_round_key (inv_mix_columns a) (inv_mix_columns k).
Proof. intros [L _] [L' _]. apply mix_with_xor; assumption. Qed.
Lemma b_decrypt_cipher pre keys k rks x : pre_fips pre -> good_keys k rks -> is_bytes 16 x ->
  b_decrypt (fips_sem pre keys) k (b_swap inv_mix_columns rks) x = g_inv_cipher (nr_of k) (fun i => nth i rks []) x.
Proof.
  intros Hp Hk Hx. unfold b_decrypt, b_run, fips_sem, s_pre1. cbn [s_pre s_dec s_dec_last].
  assert (Hs : good_keys k (b_swap inv_mix_columns rks)) by (apply b_swap_good; [apply inv_mix_columns_bytes|assumption]).
  destruct (good_first k _ Hs) as (F & Ne & Hn).
  rewrite (b_chain_pre_spec pre spec_dec x _ true) by (assumption || reflexivity).
  destruct (swap_shape inv_mix_columns k rks Hk) as [-> ->]. unfold b_chain, g_inv_cipher. rewrite fold_map'.
  assert (Hx0 : is_bytes 16 (add_round_key x (nth (nr_of k) rks []))) by (apply xor_bytes; [assumption|apply (good_nth k); [assumption|lia]]).
  destruct (fold_ext (is_bytes 16) (fun i => (i <= nr_of k)%nat)
    (fun s i => inv_mix_columns (add_round_key (inv_sub_bytes (inv_shift_rows s)) (nth i rks []))) (fun s i => spec_dec s (inv_mix_columns (nth i rks []))) (rev (seq 1 (nr_of k - 1))))
    with (a := add_round_key x (nth (nr_of k) rks [])) as [E B].
  - intros a b Ha Hb. pose proof (good_nth k rks b Hk Hb). split.
    + unfold spec_dec. apply inv_mix_ark; [|assumption]. now apply inv_sub_bytes_bytes, inv_shift_rows_bytes.
    + apply spec_dec_bop; [assumption|now apply inv_mix_columns_bytes].
  - apply Forall_forall. intros j Hj. apply in_rev, in_seq in Hj. lia.
  - assumption.
  - cbv zeta. rewrite E. reflexivity.
Qed.

(** ** CIPHER and INVCIPHER undo each other, for any round keys *)
Lemma fold_undo {A B} (P : A -> Prop) (Q : B -> Prop) (F G : A -> B -> A) (h : A -> A) l :
  (forall a b, P a -> Q b -> P (F a b) /\ G (h (F a b)) b = h a) -> Forall Q l -> forall a, P a -> fold_left G (rev l) (h (fold_left F l a)) = h a.
Proof.
  intros H Fo. induction Fo as [|x l Hx _ IH]; intros a Ha; [reflexivity|]. cbn [fold_left rev]. rewrite fold_left_app. cbn [fold_left].
  destruct (H a x Ha Hx) as [Hp E]. rewrite IH by assumption. exact E.
Qed.
Lemma fold_P {A B} (P : A -> Prop) (Q : B -> Prop) (F : A -> B -> A) l : (forall a b, P a -> Q b -> P (F a b)) -> Forall Q l -> forall a, P a -> P (fold_left F l a).
Proof. intros H Fo. induction Fo; intros a Ha; [assumption|]. cbn. auto. Qed.

Section Inverse.
Context (k : key_size) (rks : list (list N)) (Hk : good_keys k rks).
Let rk := fun i => nth i rks [].
Let rk_ok i : (i <= nr_of k)%nat -> is_bytes 16 (rk i) := good_nth k rks i Hk.
Let seq_ok : Forall (fun i => (i <= nr_of k)%nat) (seq 1 (nr_of k - 1)).
Proof. apply Forall_forall. intros j Hj. apply in_seq in Hj. lia. Qed.

Lemma inv_cipher_cipher x : is_bytes 16 x -> g_inv_cipher (nr_of k) rk (g_cipher (nr_of k) rk x) = x.
Proof.
  intros Hx. unfold g_inv_cipher, g_cipher.
  set (F := fun s i => add_round_key (mix_columns (shift_rows (sub_bytes s))) (rk i)).
  set (G := fun s i => inv_mix_columns (add_round_key (inv_sub_bytes (inv_shift_rows s)) (rk i))).
  set (h := fun s => shift_rows (sub_bytes s)).
  assert (Hx0 : is_bytes 16 (add_round_key x (rk 0%nat))) by (apply xor_bytes; [assumption|apply rk_ok; lia]).
  assert (HF : forall a b, is_bytes 16 a -> (b <= nr_of k)%nat -> is_bytes 16 (F a b)).
  { intros a b Ha Hb. apply xor_bytes; [|now apply rk_ok]. now apply mix_columns_bytes, shift_rows_bytes, sub_bytes_bytes. }
  set (sf := fold_left F (seq 1 (nr_of k - 1)) (add_round_key x (rk 0%nat))).
  assert (Hsf : is_bytes 16 sf) by (eapply fold_P; [exact HF|exact seq_ok|assumption]).
  assert (Hh : forall a, is_bytes 16 a -> is_bytes 16 (h a)) by (intros; now apply shift_rows_bytes, sub_bytes_bytes).
  assert (Hinv : forall a, is_bytes 16 a -> inv_sub_bytes (inv_shift_rows (h a)) = a).
  { intros a Ha. unfold h. rewrite inv_shift_shift by (now apply sub_bytes_bytes). apply inv_sub_sub, Ha. }
  cbv zeta. change (shift_rows (sub_bytes sf)) with (h sf).
  rewrite ark_ark by (apply Hh, Hsf || (apply rk_ok; lia)).
  unfold sf. rewrite (fold_undo (is_bytes 16) (fun i => (i <= nr_of k)%nat) F G h).
  - rewrite Hinv by assumption. apply ark_ark; [apply Hx|apply rk_ok; lia].
  - intros a b Ha Hb. split; [now apply HF|]. unfold G. rewrite Hinv by now apply HF. unfold F.
    rewrite ark_ark; [|apply mix_columns_bytes, Hh, Ha|now apply rk_ok]. apply inv_mix_mix, Hh, Ha.
  - exact seq_ok.
  - assumption.
Qed.

Lemma cipher_inv_cipher x : is_bytes 16 x -> g_cipher (nr_of k) rk (g_inv_cipher (nr_of k) rk x) = x.
Proof.
  intros Hx. unfold g_inv_cipher, g_cipher.
  set (F := fun s i => add_round_key (mix_columns (shift_rows (sub_bytes s))) (rk i)).
  set (G := fun s i => inv_mix_columns (add_round_key (inv_sub_bytes (inv_shift_rows s)) (rk i))).
  set (h := fun s => inv_sub_bytes (inv_shift_rows s)).
  assert (Hx0 : is_bytes 16 (add_round_key x (rk (nr_of k)))) by (apply xor_bytes; [assumption|apply rk_ok; lia]).
  assert (HG : forall a b, is_bytes 16 a -> (b <= nr_of k)%nat -> is_bytes 16 (G a b)).
  { intros a b Ha Hb. apply inv_mix_columns_bytes, xor_bytes; [|now apply rk_ok]. now apply inv_sub_bytes_bytes, inv_shift_rows_bytes. }
  assert (seq_ok' : Forall (fun i => (i <= nr_of k)%nat) (rev (seq 1 (nr_of k - 1)))) by (apply Forall_rev, seq_ok).
  set (sf := fold_left G (rev (seq 1 (nr_of k - 1))) (add_round_key x (rk (nr_of k)))).
  assert (Hsf : is_bytes 16 sf) by (eapply fold_P; [exact HG|exact seq_ok'|assumption]).
  assert (Hh : forall a, is_bytes 16 a -> is_bytes 16 (h a)) by (intros; now apply inv_sub_bytes_bytes, inv_shift_rows_bytes).
  assert (Hinv : forall a, is_bytes 16 a -> shift_rows (sub_bytes (h a)) = a).
  { intros a Ha. unfold h. rewrite sub_inv_sub by (now apply inv_shift_rows_bytes). apply shift_inv_shift, Ha. }
  cbv zeta. change (inv_sub_bytes (inv_shift_rows sf)) with (h sf).
  rewrite ark_ark by (apply Hh, Hsf || (apply rk_ok; lia)).
  rewrite <- (rev_involutive (seq 1 (nr_of k - 1))) at 1. unfold sf.
  rewrite (fold_undo (is_bytes 16) (fun i => (i <= nr_of k)%nat) G F h).
  - rewrite Hinv by assumption. apply ark_ark; [apply Hx|apply rk_ok; lia].
  - intros a b Ha Hb. split; [now apply HG|]. unfold F. rewrite Hinv by now apply HG. unfold G.
    rewrite mix_inv_mix; [|apply xor_bytes; [apply Hh, Ha|now apply rk_ok]]. apply ark_ark; [apply Hh, Ha|now apply rk_ok].
  - exact seq_ok'.
  - assumption.
Qed.
End Inverse.

(** ** Round keys forth and back *)
Lemma b_swap_swap g h k rks : (forall a, is_bytes 16 a -> h (g a) = a) -> good_keys k rks -> b_swap h (b_swap g rks) = rks.
Proof.
  intros H [L F]. destruct k; cbn in L; explode L; inv_forall; unfold b_swap;
    cbv [length seq map Nat.eqb orb Nat.sub nth]; rewrite !H by assumption; reflexivity.
Qed.

(** ** With the FIPS-197 round keys *)
Lemma round_keys_nth k key i : (i <= nr_of k)%nat -> nth i (round_keys k key) [] = round_key (key_expansion (nk_of k) (nr_of k) key) i.
Proof.
  intros H. unfold round_keys. rewrite (nth_indep _ [] (round_key (key_expansion (nk_of k) (nr_of k) key) 0%nat)) by (rewrite map_length, seq_length; lia).
  rewrite map_nth, seq_nth by lia. reflexivity.
Qed.
Lemma g_cipher_ext nr rk rk' x : (forall i, (i <= nr)%nat -> rk i = rk' i) -> g_cipher nr rk x = g_cipher nr rk' x.
Proof.
  intros H. unfold g_cipher. rewrite !H by lia. cbv zeta. do 3 f_equal.
  assert (F : Forall (fun i => (i <= nr)%nat) (seq 1 (nr - 1))) by (apply Forall_forall; intros j Hj; apply in_seq in Hj; lia).
  generalize (add_round_key x (rk' 0%nat)). induction F; intros a; [reflexivity|]. cbn [fold_left]. rewrite H by assumption. apply IHF.
Qed.
Lemma g_inv_cipher_ext nr rk rk' x : (forall i, (i <= nr)%nat -> rk i = rk' i) -> g_inv_cipher nr rk x = g_inv_cipher nr rk' x.
Proof.
  intros H. unfold g_inv_cipher. rewrite !H by lia. cbv zeta. do 3 f_equal.
  assert (F : Forall (fun i => (i <= nr)%nat) (rev (seq 1 (nr - 1)))) by (apply Forall_forall; intros j Hj; apply in_rev, in_seq in Hj; lia).
  generalize (add_round_key x (rk' nr)). induction F; intros a; [reflexivity|]. cbn [fold_left]. rewrite H by assumption. apply IHF.
Qed.
Lemma round_keys_good k key : is_bytes (key_len k) key -> good_keys k (round_keys k key).
Proof. intros H. destruct (round_keys_ok k key H). now split. Qed.
Lemma b_encrypt_fips pre keys k key x : pre_fips pre -> is_bytes (key_len k) key -> is_bytes 16 x ->
  b_encrypt (fips_sem pre keys) k (round_keys k key) x = aes_encrypt k key x.
Proof.
  intros Hp Hk Hx. rewrite b_encrypt_cipher by (assumption || now apply round_keys_good). unfold aes_encrypt. rewrite g_cipher_spec.
  apply g_cipher_ext. intros i Hi. now apply round_keys_nth.
Qed.
Lemma b_decrypt_fips pre keys k key x : pre_fips pre -> is_bytes (key_len k) key -> is_bytes 16 x ->
  b_decrypt (fips_sem pre keys) k (b_swap inv_mix_columns (round_keys k key)) x = aes_decrypt k key x.
Proof.
  intros Hp Hk Hx. rewrite b_decrypt_cipher by (assumption || now apply round_keys_good). unfold aes_decrypt. rewrite g_inv_cipher_spec.
  apply g_inv_cipher_ext. intros i Hi. now apply round_keys_nth.
Qed.
Lemma aes_encrypt_bytes k key x : is_bytes (key_len k) key -> is_bytes 16 x -> is_bytes 16 (aes_encrypt k key x).
Proof.
  intros Hk Hx. rewrite <- (b_encrypt_fips None round_keys) by (assumption || now left).
  apply b_run_bytes; [apply spec_enc_bop|apply spec_enc_last_bop|exact I|now apply round_keys_good|assumption].
Qed.
Lemma aes_decrypt_bytes k key x : is_bytes (key_len k) key -> is_bytes 16 x -> is_bytes 16 (aes_decrypt k key x).
Proof.
  intros Hk Hx. rewrite <- (b_decrypt_fips None round_keys) by (assumption || now left).
  apply b_run_bytes; [apply spec_dec_bop|apply spec_dec_last_bop|exact I| |assumption]. apply b_swap_good; [apply inv_mix_columns_bytes|now apply round_keys_good].
Qed.
Lemma aes_decrypt_encrypt k key x : is_bytes (key_len k) key -> is_bytes 16 x -> aes_decrypt k key (aes_encrypt k key x) = x.
Proof.
  intros Hk Hx. rewrite <- (b_encrypt_fips None round_keys), <- (b_decrypt_fips None round_keys) by (assumption || (now left) || (rewrite (b_encrypt_fips None round_keys) by (assumption || now left); now apply aes_encrypt_bytes)).
  pose proof (round_keys_good k key Hk) as G.
  rewrite b_decrypt_cipher; [| now left|assumption|rewrite (b_encrypt_fips None round_keys) by (assumption || now left); now apply aes_encrypt_bytes].
  rewrite b_encrypt_cipher by (assumption || now left). now apply inv_cipher_cipher.
Qed.
Lemma aes_encrypt_decrypt k key x : is_bytes (key_len k) key -> is_bytes 16 x -> aes_encrypt k key (aes_decrypt k key x) = x.
Proof.
  intros Hk Hx. pose proof (aes_decrypt_bytes k key x Hk Hx) as B. rewrite <- (b_encrypt_fips None round_keys) by (assumption || now left).
  pose proof (round_keys_good k key Hk) as G. rewrite b_encrypt_cipher by (assumption || now left).
  rewrite <- (b_decrypt_fips None round_keys) by (assumption || now left). rewrite b_decrypt_cipher by (assumption || now left). now apply cipher_inv_cipher.
Qed.
