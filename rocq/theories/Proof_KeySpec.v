(** The FIPS-197 key expansion as a word recurrence, and in groups of Nk words. *)
From Coq Require Import Lia Arith.
From Verif Require Import Word Fips197 Proof_Word Proof_Fips.
Open Scope N_scope.

Definition tmp_word (nk i : nat) (temp : list N) : list N :=
  if Nat.eqb (Nat.modulo i nk) 0 then xor_word (sub_word (rot_word temp)) (rcon (Nat.div i nk))
  else if Nat.ltb 6 nk && Nat.eqb (Nat.modulo i nk) 4 then sub_word temp else temp.
Definition expand (nk c s : nat) (w0 : list (list N)) := fold_left (expand_step nk) (seq s c) w0.

Lemma expand_step_eq nk w i : expand_step nk w i = w ++ [xor_word (nth (i - nk) w []) (tmp_word nk i (nth (i - 1) w []))].
Proof. reflexivity. Qed.
Lemma expand_length nk c : forall s w0, length w0 = s -> length (expand nk c s w0) = (s + c)%nat.
Proof.
  induction c as [|c IH]; intros s w0 H; [cbn; lia|]. unfold expand. cbn [seq fold_left]. fold (expand nk c (S s) (expand_step nk w0 s)).
  rewrite IH; [lia|]. rewrite expand_step_eq, app_length. cbn. lia.
Qed.
Lemma expand_prefix nk c : forall s w0 i, length w0 = s -> (i < s)%nat -> nth i (expand nk c s w0) [] = nth i w0 [].
Proof.
  induction c as [|c IH]; intros s w0 i H Hi; [reflexivity|]. unfold expand. cbn [seq fold_left]. fold (expand nk c (S s) (expand_step nk w0 s)).
  rewrite IH; [|rewrite expand_step_eq, app_length; cbn; lia|lia]. rewrite expand_step_eq. apply app_nth1. lia.
Qed.
Lemma expand_rec nk c : (0 < nk)%nat -> forall s w0 i, length w0 = s -> (nk <= s)%nat -> (s <= i < s + c)%nat ->
  let w := expand nk c s w0 in nth i w [] = xor_word (nth (i - nk) w []) (tmp_word nk i (nth (i - 1) w [])).
Proof.
  intros Hnk. induction c as [|c IH]; intros s w0 i H Hs Hi; [lia|].
  assert (E : expand nk (S c) s w0 = expand nk c (S s) (expand_step nk w0 s)) by reflexivity.
  assert (L : length (expand_step nk w0 s) = S s) by (rewrite expand_step_eq, app_length; cbn; lia).
  cbv zeta. rewrite E. destruct (Nat.eq_dec i s) as [->|Hne].
  - rewrite !expand_prefix by (assumption || lia). rewrite expand_step_eq.
    rewrite app_nth2 by lia. replace (s - length w0)%nat with 0%nat by lia. cbn [nth]. rewrite !app_nth1 by lia. reflexivity.
  - apply IH; [assumption|lia|lia].
Qed.
Lemma expand_app nk c d : forall s w0, expand nk (c + d) s w0 = expand nk d (s + c) (expand nk c s w0).
Proof. intros. unfold expand. rewrite seq_app, fold_left_app. reflexivity. Qed.

Lemma xor_word_bytes u v : is_bytes 4 u -> is_bytes 4 v -> is_bytes 4 (xor_word u v).
Proof. apply xor_bytes. Qed.
Lemma sub_word_bytes u : is_bytes 4 u -> is_bytes 4 (sub_word u).
Proof. apply sub_bytes_bytes. Qed.
Lemma rot_word_bytes u : is_bytes 4 u -> is_bytes 4 (rot_word u).
Proof. intros H. bytes_tac H. split; [reflexivity|]. repeat constructor; assumption. Qed.
Lemma rc_bytes rc : rc < 256 -> is_bytes 4 [rc; 0; 0; 0].
Proof. intros. split; [reflexivity|]. repeat constructor; assumption || reflexivity. Qed.
Lemma rcon_bytes j : is_bytes 4 (rcon j).
Proof.
  apply rc_bytes. generalize (j - 1)%nat as n. induction n as [|n IH]; [reflexivity|].
  change (Nat.iter (S n) xtimes 1) with (xtimes (Nat.iter n xtimes 1)). apply xtimes_lt.
Qed.
Lemma tmp_word_bytes nk i t : is_bytes 4 t -> is_bytes 4 (tmp_word nk i t).
Proof.
  intros H. unfold tmp_word. destruct (Nat.eqb _ 0); [|destruct (_ && _)]; try assumption.
  - apply xor_word_bytes; [|apply rcon_bytes]. now apply sub_word_bytes, rot_word_bytes.
  - now apply sub_word_bytes.
Qed.
Lemma expand_bytes nk c : (0 < nk)%nat -> forall s w0, length w0 = s -> (nk <= s)%nat -> Forall (is_bytes 4) w0 -> Forall (is_bytes 4) (expand nk c s w0).
Proof.
  intros Hnk. induction c as [|c IH]; intros s w0 H Hs F; [exact F|]. unfold expand. cbn [seq fold_left]. fold (expand nk c (S s) (expand_step nk w0 s)).
  apply IH; [rewrite expand_step_eq, app_length; cbn; lia|lia|].
  rewrite expand_step_eq. apply Forall_app. split; [assumption|]. constructor; [|constructor].
  assert (G : forall i, (i < s)%nat -> is_bytes 4 (nth i w0 [])) by (intros i Hi; apply (proj1 (Forall_forall _ _) F), nth_In; lia).
  apply xor_word_bytes; [apply G; lia|apply tmp_word_bytes, G; lia].
Qed.

(** The (unbounded, here 100 words beyond the key) word sequence of a key. *)
Definition W (nk : nat) (key : list N) (i : nat) : list N := nth i (expand nk 100 nk (chunks 4 nk key)) [].

Lemma key_words nk key : is_bytes (4 * nk) key -> Forall (is_bytes 4) (chunks 4 nk key).
Proof.
  revert key. induction nk as [|nk IH]; intros key [L F]; cbn [chunks]; constructor.
  - split; [rewrite firstn_length; lia|now apply bytes_ok_firstn].
  - apply IH. split; [rewrite skipn_length; lia|now apply bytes_ok_skipn].
Qed.
Lemma key_chunks_length {A} k nk (key : list A) : length (chunks k nk key) = nk.
Proof. revert key. induction nk; intros; cbn; auto. Qed.

Lemma W_rec nk key i : (0 < nk)%nat -> (nk <= i < nk + 100)%nat ->
  W nk key i = xor_word (W nk key (i - nk)) (tmp_word nk i (W nk key (i - 1))).
Proof. intros H Hi. apply (expand_rec nk 100 H nk); [apply key_chunks_length|lia|lia]. Qed.
Lemma W_bytes nk key i : (0 < nk)%nat -> is_bytes (4 * nk) key -> (i < nk + 100)%nat -> is_bytes 4 (W nk key i).
Proof.
  intros H Hk Hi. unfold W. pose proof (expand_bytes nk 100 H nk (chunks 4 nk key) (key_chunks_length _ _ _) (le_n _) (key_words nk key Hk)) as F.
  apply (proj1 (Forall_forall _ _) F). apply nth_In. rewrite expand_length by apply key_chunks_length. lia.
Qed.
Lemma W_key nk key i : (i < nk)%nat -> W nk key i = nth i (chunks 4 nk key) [].
Proof. intros Hi. apply expand_prefix; [apply key_chunks_length|assumption]. Qed.

Lemma firstn_seq_nth {A} (d : A) l s n : (s + n <= length l)%nat -> firstn n (skipn s l) = map (fun i => nth i l d) (seq s n).
Proof.
  revert l s. induction n as [|n IH]; intros l s H; [reflexivity|].
  cbn [seq map]. rewrite <- IH by lia. clear IH. revert s H. induction l as [|x l IHl]; intros s H; [cbn in H; lia|].
  destruct s as [|s]; [reflexivity|]. cbn [skipn nth]. rewrite IHl by (cbn in H; lia). reflexivity.
Qed.
Definition rk (nk : nat) (key : list N) (r : nat) : list N := concat (map (W nk key) (seq (4 * r) 4)).
Lemma round_keys_W k key : round_keys k key = map (rk (nk_of k) key) (seq 0 (nr_of k + 1)).
Proof.
  unfold round_keys. apply map_ext_in. intros r Hr. apply in_seq in Hr. unfold round_key, rk. f_equal.
  assert (L : length (key_expansion (nk_of k) (nr_of k) key) = (4 * (nr_of k + 1))%nat).
  { unfold key_expansion. fold (expand (nk_of k) (4 * (nr_of k + 1) - nk_of k) (nk_of k) (chunks 4 (nk_of k) key)).
    rewrite expand_length by apply key_chunks_length. destruct k; reflexivity. }
  rewrite (firstn_seq_nth []) by lia. apply map_ext_in. intros i Hi. apply in_seq in Hi.
  unfold W, key_expansion. fold (expand (nk_of k) (4 * (nr_of k + 1) - nk_of k) (nk_of k) (chunks 4 (nk_of k) key)).
  set (c := (4 * (nr_of k + 1) - nk_of k)%nat).
  assert (Hc : (c <= 100)%nat) by (unfold c; destruct k; cbn; lia).
  replace 100%nat with (c + (100 - c))%nat by lia. rewrite expand_app.
  symmetry. apply expand_prefix.
  - apply expand_length, key_chunks_length.
  - unfold c. destruct k; cbn [nk_of nr_of] in *; lia.
Qed.

(** Groups of words: each group is the running xor of the previous one. *)
Fixpoint chain_xor (ws : list (list N)) (t : list N) : list (list N) :=
  match ws with [] => [] | w :: ws' => let x := xor_word w t in x :: chain_xor ws' x end.
Definition t_first (rc : N) (d : list N) : list N := xor_word (sub_word (rot_word d)) [rc; 0; 0; 0].
Definition words nk key s n := map (W nk key) (seq s n).
Definition rcb (j : nat) : N := nth j [0; 0x01; 0x02; 0x04; 0x08; 0x10; 0x20; 0x40; 0x80; 0x1b; 0x36] 0.
Lemma rcon_rcb j : (1 <= j <= 10)%nat -> rcon j = [rcb j; 0; 0; 0].
Proof. intros H. do 11 (destruct j as [|j]; [try lia; reflexivity|]). lia. Qed.
Lemma rcb_lt j : rcb j < 256.
Proof. do 11 (destruct j as [|j]; [reflexivity|]). unfold rcb. rewrite nth_overflow by (cbn; lia). reflexivity. Qed.

Lemma plain_chain nk key n : forall s, (0 < nk)%nat -> (nk < s)%nat -> (s + n <= nk + 100)%nat ->
  (forall i, (s <= i < s + n)%nat -> forall t, tmp_word nk i t = t) ->
  words nk key s n = chain_xor (words nk key (s - nk) n) (W nk key (s - 1)).
Proof.
  induction n as [|n IH]; intros s Hnk Hs Hn Ht; [reflexivity|]. unfold words. cbn [seq map chain_xor].
  assert (E : W nk key s = xor_word (W nk key (s - nk)) (W nk key (s - 1))).
  { rewrite (W_rec nk key s) by lia. rewrite Ht by lia. reflexivity. }
  rewrite <- E. f_equal. fold (words nk key (S s) n). rewrite IH; try lia.
  - replace (S s - 1)%nat with s by lia. replace (S s - nk)%nat with (S (s - nk)) by lia. reflexivity.
  - intros i Hi. apply Ht. lia.
Qed.
Lemma group_chain nk key n s t : (0 < nk)%nat -> (nk <= s)%nat -> (0 < n)%nat -> (s + n <= nk + 100)%nat ->
  tmp_word nk s (W nk key (s - 1)) = t ->
  (forall i, (s < i < s + n)%nat -> forall t, tmp_word nk i t = t) ->
  words nk key s n = chain_xor (words nk key (s - nk) n) t.
Proof.
  intros Hnk Hs Hn0 Hn Ht Hp. destruct n as [|n]; [lia|]. unfold words. cbn [seq map chain_xor].
  assert (E : W nk key s = xor_word (W nk key (s - nk)) t) by (rewrite (W_rec nk key s) by lia; now rewrite Ht).
  rewrite <- E. f_equal. fold (words nk key (S s) n). rewrite plain_chain; try lia.
  - replace (S s - 1)%nat with s by lia. replace (S s - nk)%nat with (S (s - nk)) by lia. reflexivity.
  - intros i Hi. apply Hp. lia.
Qed.

Lemma words_length nk key s n : length (words nk key s n) = n.
Proof. unfold words. now rewrite map_length, seq_length. Qed.
Lemma words_bytes nk key s n : (0 < nk)%nat -> is_bytes (4 * nk) key -> (s + n <= nk + 100)%nat -> Forall (is_bytes 4) (words nk key s n).
Proof.
  intros H Hk Hn. unfold words. apply Forall_forall. intros x Hx. apply in_map_iff in Hx. destruct Hx as (i & <- & Hi).
  apply in_seq in Hi. apply W_bytes; [assumption|assumption|lia].
Qed.
Lemma rk_words nk key r : rk nk key r = concat (words nk key (4 * r) 4).
Proof. reflexivity. Qed.
Lemma words_concat4 ws : Forall (is_bytes 4) ws -> is_bytes (4 * length ws) (concat ws).
Proof.
  induction 1 as [|w ws [L F] _ [L' F']]; [split; [reflexivity|constructor]|]. cbn [concat length]. split.
  - rewrite app_length. lia.
  - now apply bytes_ok_app.
Qed.
Lemma rk_bytes k key r : is_bytes (key_len k) key -> (r <= nr_of k)%nat -> is_bytes 16 (rk (nk_of k) key r).
Proof.
  intros Hk Hr. rewrite rk_words. change 16%nat with (4 * 4)%nat. rewrite <- (words_length (nk_of k) key (4 * r) 4) at 1.
  apply words_concat4, words_bytes; [destruct k; cbn; lia|exact Hk|]. destruct k; cbn [nr_of nk_of] in *; lia.
Qed.
Lemma round_keys_bytes k key : is_bytes (key_len k) key -> Forall (is_bytes 16) (round_keys k key).
Proof.
  intros H. rewrite round_keys_W. apply Forall_forall. intros x Hx. apply in_map_iff in Hx. destruct Hx as (r & <- & Hr).
  apply in_seq in Hr. apply rk_bytes; [assumption|lia].
Qed.

(** The three schedules. *)
Lemma words_128 key r : (r < 10)%nat ->
  words 4 key (4 * S r) 4 = chain_xor (words 4 key (4 * r) 4) (t_first (rcb (S r)) (W 4 key (4 * r + 3))).
Proof.
  intros H. rewrite (group_chain 4 key 4 (4 * S r) (t_first (rcb (S r)) (W 4 key (4 * r + 3)))); try lia.
  - f_equal. f_equal. lia.
  - replace (4 * S r - 1)%nat with (4 * r + 3)%nat by lia. unfold tmp_word, t_first. rewrite <- rcon_rcb by lia.
    do 10 (destruct r as [|r]; [reflexivity|]). lia.
  - intros i Hi t. assert (i = 4 * S r + 1 \/ i = 4 * S r + 2 \/ i = 4 * S r + 3)%nat as D by lia. unfold tmp_word.
    assert (M : (i mod 4 <> 0)%nat). { destruct D as [->|[->| ->]]; rewrite (Nat.mul_comm 4), Nat.add_comm, Nat.mod_add by lia; discriminate. }
    apply Nat.eqb_neq in M. rewrite M. reflexivity.
Qed.
Lemma words_192 key g : (g < 8)%nat ->
  words 6 key (6 * S g) 6 = chain_xor (words 6 key (6 * g) 6) (t_first (rcb (S g)) (W 6 key (6 * g + 5))).
Proof.
  intros H. rewrite (group_chain 6 key 6 (6 * S g) (t_first (rcb (S g)) (W 6 key (6 * g + 5)))); try lia.
  - f_equal. f_equal. lia.
  - replace (6 * S g - 1)%nat with (6 * g + 5)%nat by lia. unfold tmp_word, t_first. rewrite <- rcon_rcb by lia.
    do 8 (destruct g as [|g]; [reflexivity|]). lia.
  - intros i Hi t. unfold tmp_word.
    assert (M : (i mod 6 <> 0)%nat).
    { replace i with (i - 6 * S g + S g * 6)%nat by lia. rewrite Nat.mod_add, Nat.mod_small by lia. lia. }
    apply Nat.eqb_neq in M. rewrite M. reflexivity.
Qed.
Lemma words_256_a key g : (g < 7)%nat ->
  words 8 key (8 * S g) 4 = chain_xor (words 8 key (8 * g) 4) (t_first (rcb (S g)) (W 8 key (8 * g + 7))).
Proof.
  intros H. rewrite (group_chain 8 key 4 (8 * S g) (t_first (rcb (S g)) (W 8 key (8 * g + 7)))); try lia.
  - f_equal. f_equal. lia.
  - replace (8 * S g - 1)%nat with (8 * g + 7)%nat by lia. unfold tmp_word, t_first. rewrite <- rcon_rcb by lia.
    do 7 (destruct g as [|g]; [reflexivity|]). lia.
  - intros i Hi t. unfold tmp_word.
    assert (M : (i mod 8 = i - 8 * S g)%nat).
    { replace i with (i - 8 * S g + S g * 8)%nat at 1 by lia. rewrite Nat.mod_add, Nat.mod_small by lia. lia. }
    rewrite M. destruct (Nat.eqb_spec (i - 8 * S g) 0); [lia|]. destruct (Nat.eqb_spec (i - 8 * S g) 4); [lia|]. reflexivity.
Qed.
Lemma words_256_b key g : (g < 7)%nat ->
  words 8 key (8 * S g + 4) 4 = chain_xor (words 8 key (8 * g + 4) 4) (sub_word (W 8 key (8 * S g + 3))).
Proof.
  intros H. rewrite (group_chain 8 key 4 (8 * S g + 4) (sub_word (W 8 key (8 * S g + 3)))); try lia.
  - f_equal. f_equal. lia.
  - replace (8 * S g + 4 - 1)%nat with (8 * S g + 3)%nat by lia. unfold tmp_word.
    do 7 (destruct g as [|g]; [reflexivity|]). lia.
  - intros i Hi t. unfold tmp_word.
    assert (M : (i mod 8 = i - 8 * S g)%nat).
    { replace i with (i - 8 * S g + S g * 8)%nat at 1 by lia. rewrite Nat.mod_add, Nat.mod_small by lia. lia. }
    rewrite M. destruct (Nat.eqb_spec (i - 8 * S g) 0); [lia|]. destruct (Nat.eqb_spec (i - 8 * S g) 4); [lia|]. reflexivity.
Qed.
