(** C46: the table look-ups of the default software implementation give keys and messages away.  An observer who sees which entries of the
    constant tables one call reads (C45: that is all there is to see) can compute from it the key and the blocks the call worked on: the
    observations of two calls are equal only if keys and blocks are.  With the feature constant-time, and on CPUs with AES instructions,
    the observation is the same for all keys and blocks (C36, C44). *)
From Coq Require Import Lia Arith String.
From Coq Require Import List.
From Verif Require Import Word Interface Fips197 Spec_Api Spec_Actual Spec_Cfg Spec_User Spec_Client Spec_Leak Spec_LeakClient Spec_LeakSoft Model_Cfg Model_Leak Model_LeakAccel Model_LeakSoft Model_LeakBlock Model_Running Model_Client Model_LeakClient.
From Verif Require Import Proof_Shape Proof_Word Proof_Fips Proof_Ok Proof_Sem Proof_Lib Proof_KeySpec Proof_Inst Proof_Cipher Proof_KeyGen Proof_Leak Proof_LeakRun Proof_LeakEngine Proof_LeakSoft Proof_LeakTable Proof_LeakClient Proof_LeakReveal Proof_LeakRevealKey Proof_LeakRevealMix.
From Verif Require Import Props_Keys Props_Actual Props_LeakClient Samples.
Open Scope string_scope.
Open Scope list_scope.
Open Scope N_scope.

(** What the observer sees of the last of a sequence of calls, on a build with the default software implementation for a big-endian
    ([be = true]) or little-endian target; nothing of the calls before it. *)
Definition last_seen (be : bool) (l : list call) : list event := last (watch (timed P_software be) [] (straight l)) [].

(** Stepping through a client. *)
Lemma watch_typed (be : bool) v q l a v' seen : typed q = true -> timed P_software be v q = Some (a, v', seen) ->
  watch (timed P_software be) v (straight (q :: l)) = seen :: watch (timed P_software be) v' (straight l).
Proof. intros Ht Hs. cbn [straight watch]. rewrite Ht, Hs. reflexivity. Qed.
Definition keys_of (k : key_size) (key : list N) : list N := map of_be (round_keys k key).
Lemma step_enc_from be v k key : is_bytes (key_len k) key ->
  timed P_software be v (Enc_from k key) = Some (Made 1, v ++ [TEnc k (keys_of k key)], trace (g_keygen table_engine k) (start key [])).
Proof. intros H. destruct (table_keyed k key [] H) as [A _]. cbn [g_be table_engine s_keys fips_sem] in A. change (of_ne true) with of_be in A. cbn [timed_with engine_of obind]. unfold ran_with. cbn [List.length]. unfold keys_of. rewrite <- A. reflexivity. Qed.
Definition setup_dec (k : key_size) : stmt := Seq (g_keygen table_engine k) (s_swap_keys (g_imc table_engine) "keys" "drk" (nr_of k + 1)).
Definition dkeys_of (k : key_size) (key : list N) : list N := map of_be (b_swap inv_mix_columns (round_keys k key)).
Lemma good_round_keys k key : is_bytes (key_len k) key -> good_keys k (round_keys k key).
Proof. intros H. now apply round_keys_good. Qed.
Lemma swapped_keys k rks f G st : uop table_engine f G -> good_keys k rks -> arrs st "keys" = map of_be rks ->
  arrs (final (s_swap_keys f "keys" "drk" (nr_of k + 1)) st) "drk" = map of_be (b_swap G rks).
Proof.
  intros U GK A. pose proof (swap_keys_run table_engine f G "keys" "drk" k rks st U ltac:(discriminate) GK A) as H. specialize (H "drk"). rewrite H. apply upd_same.
Qed.
Lemma step_dec_from be v k key : is_bytes (key_len k) key ->
  timed P_software be v (Dec_from k key) = Some (Made 1, v ++ [TDec k (dkeys_of k key)], trace (setup_dec k) (start key [])).
Proof.
  intros H. destruct (table_keyed k key [] H) as [A _]. cbn [g_be table_engine s_keys fips_sem] in A. change (of_ne true) with of_be in A.
  pose proof (swapped_keys k _ _ _ _ table_imc_u (good_round_keys k key H) A) as X. cbn [s_imc fips_sem] in X.
  cbn [timed_with engine_of obind]. unfold ran_with. cbn [List.length]. unfold dkeys_of. rewrite <- X. unfold setup_dec. rewrite final_seq. reflexivity.
Qed.
Lemma step_new be v g msg : is_bytes (group_len g) msg ->
  timed P_software be v (On g (New msg)) = Some (Made 1, v ++ [TBlock g msg], trace (copy_program [("in", 0, group_len g)%nat]) (start [] msg)).
Proof.
  intros [L _]. cbn [timed_with timed_on_with]. unfold ran_with. rewrite (copy_whole (group_len g) (start [] msg) msg eq_refl L). reflexivity.
Qed.
Lemma is_bytesb_complete n l : is_bytes n l -> is_bytesb n l = true.
Proof.
  intros [L F]. unfold is_bytesb. rewrite L, Nat.eqb_refl. apply forallb_forall. intros x Hx. rewrite Forall_forall in F. now apply N.ltb_lt, F.
Qed.
Lemma typed_key k key : is_bytes (key_len k) key -> typed (Enc_from k key) = true /\ typed (Dec_from k key) = true.
Proof. intros H. apply is_bytesb_complete in H. split; exact H. Qed.
Lemma typed_new g msg : is_bytes (group_len g) msg -> typed (On g (New msg)) = true.
Proof. intros H. now apply is_bytesb_complete in H. Qed.

(** ** Round keys *)
Lemma inner_keys k key key' : is_bytes (key_len k) key -> is_bytes (key_len k) key' ->
  (forall j, (0 < j < nr_of k)%nat -> nth j (round_keys k key) [] = nth j (round_keys k key') []) -> key = key'.
Proof.
  intros H H' E. apply (window_key std_first k key key' 1 std_first_ok H H'); [destruct k; cbn; lia|]. intros j Hj. rewrite !round_keys_std. apply E. clear - Hj. destruct k; cbn [nr_of window] in *; lia.
Qed.
Lemma swap_nth G k rks j : good_keys k rks -> (0 < j < nr_of k)%nat -> nth j (b_swap G rks) [] = G (nth (nr_of k - j) rks []).
Proof.
  intros [L _] Hj. unfold b_swap. rewrite L. replace (nr_of k + 1 - 1)%nat with (nr_of k) by lia.
  match goal with |- nth j (map ?f (seq 0 ?n)) [] = _ => rewrite (nth_indep _ [] (f 0%nat)) by (rewrite map_length, seq_length; lia); rewrite (map_nth f), seq_nth by lia end.
  cbn [Nat.add]. destruct (Nat.eqb_spec j 0); [lia|]. destruct (Nat.eqb_spec j (nr_of k)); [lia|]. reflexivity.
Qed.
Lemma inner_dec_keys k key key' : is_bytes (key_len k) key -> is_bytes (key_len k) key' ->
  (forall j, (0 < j < nr_of k)%nat -> nth j (b_swap inv_mix_columns (round_keys k key)) [] = nth j (b_swap inv_mix_columns (round_keys k key')) []) -> key = key'.
Proof.
  intros H H' E. apply (inner_keys k key key' H H'). intros j Hj. pose proof (E (nr_of k - j)%nat ltac:(lia)) as X.
  destruct (good_round_keys k key H) as [L F]. destruct (good_round_keys k key' H') as [L' F'].
  rewrite !(swap_nth _ k) in X by ((split; assumption) || lia). replace (nr_of k - (nr_of k - j))%nat with j in X by lia.
  apply inv_mix_inj in X; [exact X|apply nth_bytes16; [assumption|lia]|apply nth_bytes16; [assumption|lia]].
Qed.
Lemma with_keys_low k (l l' : list (list N)) a a' : good_keys k l -> good_keys k l' -> length a = length a' -> low_equal (with_arr "keys" (map of_be l) (start [] a)) (with_arr "keys" (map of_be l') (start [] a')).
Proof.
  intros [L _] [L' _] La. split; [reflexivity|]. intros x. unfold with_arr. cbn [set_arr arrs]. unfold upd. destruct (String.eqb "keys" x); [rewrite !map_length; congruence|].
  cbn. destruct (String.eqb x "key"); [reflexivity|]. destruct (String.eqb x "in"); [exact La|reflexivity].
Qed.

(** ** Key set-up *)
(** Making a key object, for encryption or for decryption, shows the key. *)
Theorem C46_key_setup_reveals_key : forall be k key key', is_bytes (key_len k) key -> is_bytes (key_len k) key' ->
  (last_seen be [Enc_from k key] = last_seen be [Enc_from k key'] <-> key = key') /\
  (last_seen be [Dec_from k key] = last_seen be [Dec_from k key'] <-> key = key').
Proof.
  intros be k key key' H H'. destruct (typed_key k key H) as [T1 T2]. destruct (typed_key k key' H') as [T1' T2'].
  split; (split; [|now intros ->]); unfold last_seen.
  - rewrite (watch_typed be [] _ [] _ _ _ T1 (step_enc_from be [] k key H)), (watch_typed be [] _ [] _ _ _ T1' (step_enc_from be [] k key' H')).
    cbn [straight watch last]. intros E. exact (setup_reveals k key key' [] [] H H' eq_refl E).
  - rewrite (watch_typed be [] _ [] _ _ _ T2 (step_dec_from be [] k key H)), (watch_typed be [] _ [] _ _ _ T2' (step_dec_from be [] k key' H')).
    cbn [straight watch last]. intros E. unfold setup_dec in E.
    apply (split_seq (g_keygen table_engine k)) in E as (E & _ & _); [exact (setup_reveals k key key' [] [] H H' eq_refl E)|destruct k; vm_compute; reflexivity|].
    apply start_low'; [destruct H as [L _], H' as [L' _]; congruence|reflexivity].
Qed.
Print Assumptions C46_key_setup_reveals_key.
(** Keys that differ in their last bit only. *)
Definition zeros : list N := repeat 0 16.
Definition one_bit : list N := repeat 0 15 ++ [1].
Example C46_key_setup_case : last_seen false [Enc_from K128 zeros] <> last_seen false [Enc_from K128 one_bit] /\ last_seen true [Dec_from K128 zeros] <> last_seen true [Dec_from K128 one_bit].
Proof.
  assert (Z : is_bytes 16 zeros) by (apply is_bytesb_correct; reflexivity). assert (O : is_bytes 16 one_bit) by (apply is_bytesb_correct; reflexivity).
  split; intros E; [apply (C46_key_setup_reveals_key false K128 zeros one_bit Z O) in E|apply (C46_key_setup_reveals_key true K128 zeros one_bit Z O) in E]; discriminate E.
Qed.
(** The four look-ups that tell them apart: SubWord of the last word of the key. *)
Example C46_key_setup_seen : (firstn 4 (filter is_lookup (last_seen false [Enc_from K128 zeros])), firstn 4 (filter is_lookup (last_seen false [Enc_from K128 one_bit]))) =
  ([Lookup "TE4" 0; Lookup "TE4" 0; Lookup "TE4" 0; Lookup "TE4" 0], [Lookup "TE4" 0; Lookup "TE4" 0; Lookup "TE4" 1; Lookup "TE4" 0]).
Proof. vm_compute. reflexivity. Qed.
(** With the feature constant-time the observer sees no difference (C44). *)
Example C46_contrast : watch (timed P_constant_time false) [] (straight [Enc_from K128 zeros]) = watch (timed P_constant_time false) [] (straight [Enc_from K128 one_bit]).
Proof.
  assert (X : exists i, rustc_ok c_ct_le = true /\ impl_of c_ct_le = Some i /\ running c_ct_le = Some P_constant_time) by (eexists; split; [reflexivity|split; reflexivity]).
  destruct X as (i & X1 & X2 & X3). apply (C44_straight_line c_ct_le P_constant_time i); auto.
Qed.
(** Converting a key object alone shows the key, too. *)
Theorem C46_conversion_reveals_key : forall be k key key', is_bytes (key_len k) key -> is_bytes (key_len k) key' ->
  (last_seen be [Enc_from k key; Decrypter 0] = last_seen be [Enc_from k key'; Decrypter 0] <-> key = key') /\
  (last_seen be [Dec_from k key; Encrypter 0] = last_seen be [Dec_from k key'; Encrypter 0] <-> key = key').
Proof.
  intros be k key key' H H'. destruct (typed_key k key H) as [T1 T2]. destruct (typed_key k key' H') as [T1' T2'].
  pose proof (good_round_keys k key H) as GK. pose proof (good_round_keys k key' H') as GK'.
  split; (split; [|now intros ->]); unfold last_seen.
  - rewrite (watch_typed be [] _ _ _ _ _ T1 (step_enc_from be [] k key H)), (watch_typed be [] _ _ _ _ _ T1' (step_enc_from be [] k key' H')). cbn [app].
    set (p := s_swap_keys (g_imc table_engine) "keys" "drk" (nr_of k + 1)).
    change (trace p (with_arr "keys" (keys_of k key) (start [] [])) = trace p (with_arr "keys" (keys_of k key') (start [] [])) -> key = key').
    intros E. apply (inner_keys k key key' H H').
    refine (swap_tells (g_imc table_engine) "keys" "drk" k _ _ _ _ tells_imc (quiet_mixes g_imc ltac:(right; left; reflexivity)) ltac:(discriminate) GK GK' _ _ _ E); [reflexivity|reflexivity|exact (with_keys_low k _ _ _ _ GK GK' eq_refl)].
  - rewrite (watch_typed be [] _ _ _ _ _ T2 (step_dec_from be [] k key H)), (watch_typed be [] _ _ _ _ _ T2' (step_dec_from be [] k key' H')). cbn [app].
    set (p := s_swap_keys (g_mc table_engine) "keys" "drk" (nr_of k + 1)).
    change (trace p (with_arr "keys" (dkeys_of k key) (start [] [])) = trace p (with_arr "keys" (dkeys_of k key') (start [] [])) -> key = key').
    pose proof (b_swap_good inv_mix_columns k _ (fun a => inv_mix_columns_bytes a) GK) as GS. pose proof (b_swap_good inv_mix_columns k _ (fun a => inv_mix_columns_bytes a) GK') as GS'.
    intros E. apply (inner_dec_keys k key key' H H').
    refine (swap_tells (g_mc table_engine) "keys" "drk" k _ _ _ _ tells_mc (quiet_mixes g_mc ltac:(left; reflexivity)) ltac:(discriminate) GS GS' _ _ _ E); [reflexivity|reflexivity|exact (with_keys_low k _ _ _ _ GS GS' eq_refl)].
Qed.
Print Assumptions C46_conversion_reveals_key.
Example C46_conversion_case : last_seen false [Enc_from K128 zeros; Decrypter 0] <> last_seen false [Enc_from K128 one_bit; Decrypter 0].
Proof.
  assert (Z : is_bytes 16 zeros) by (apply is_bytesb_correct; reflexivity). assert (O : is_bytes 16 one_bit) by (apply is_bytesb_correct; reflexivity).
  intros E. apply (C46_conversion_reveals_key false K128 zeros one_bit Z O) in E. discriminate E.
Qed.

(** ** Encryption and decryption *)
Lemma group_blocks g : group_len g = (16 * group_size g)%nat. Proof. destruct g; reflexivity. Qed.
Lemma crypt_shows (dec : bool) k g rks rks' msg msg' : good_keys k rks -> good_keys k rks' -> is_bytes (group_len g) msg -> is_bytes (group_len g) msg' ->
  let p := s_crypt table_engine k 1 (group_size g) dec "keys" in
  trace p (with_arr "keys" (map of_be rks) (start [] msg)) = trace p (with_arr "keys" (map of_be rks') (start [] msg')) ->
  (forall j, (0 < j < nr_of k)%nat -> nth j rks [] = nth j rks' []) /\ (nth 0 rks [] = nth 0 rks' [] -> msg = msg').
Proof.
  intros GK GK' B B' p E. rewrite group_blocks in B, B'.
  assert (M : (group_size g <= 4)%nat /\ (0 < group_size g)%nat) by (destruct g; cbn; lia). destruct M as [M1 M2].
  assert (LE : low_equal (with_arr "keys" (map of_be rks) (start [] msg)) (with_arr "keys" (map of_be rks') (start [] msg'))).
  { apply (with_keys_low k); try assumption. destruct B as [L _], B' as [L' _]. congruence. }
  destruct (crypt_tells dec "keys" k (group_size g) rks rks' msg msg' (with_arr "keys" (map of_be rks) (start [] msg)) (with_arr "keys" (map of_be rks') (start [] msg')) M1 M2 GK GK' B B' eq_refl eq_refl eq_refl eq_refl LE E) as [X Y].
  split; [exact Y|]. intros Z. apply (blocks_equal (group_size g) (nth 0 rks [])); try assumption.
  - destruct GK as [L F]. apply nth_bytes16; [exact F|lia].
  - intros j Hj. pose proof (X j Hj) as Q. rewrite <- Z in Q. exact Q.
Qed.
(** The call to [encrypt] (of one, two, four blocks) alone shows the key and the message, the call to [decrypt] key and ciphertext. *)
Theorem C46_encrypt_reveals_key_and_message : forall be k g key key' msg msg',
  is_bytes (key_len k) key -> is_bytes (key_len k) key' -> is_bytes (group_len g) msg -> is_bytes (group_len g) msg' ->
  let calls key msg := [Enc_from k key; On g (New msg); On g (Encrypt 0 1)] in
  last_seen be (calls key msg) = last_seen be (calls key' msg') <-> key = key' /\ msg = msg'.
Proof.
  intros be k g key key' msg msg' H H' B B' calls. split; [|now intros [-> ->]]. destruct (typed_key k key H) as [T1 _]. destruct (typed_key k key' H') as [T1' _].
  unfold last_seen, calls. rewrite (watch_typed be [] _ _ _ _ _ T1 (step_enc_from be [] k key H)), (watch_typed be [] _ _ _ _ _ T1' (step_enc_from be [] k key' H')). cbn [app].
  rewrite (watch_typed be _ _ _ _ _ _ (typed_new g msg B) (step_new be _ g msg B)), (watch_typed be _ _ _ _ _ _ (typed_new g msg' B') (step_new be _ g msg' B')). cbn [app].
  set (p := s_crypt table_engine k 1 (group_size g) false "keys").
  assert (V : vec_n P_software g = 1%nat /\ vec_m P_software g = group_size g) by (destruct g; split; reflexivity). destruct V as [V1 V2].
  cbn [straight watch typed typed_on timed_with]. unfold timed_on_with. cbn [engine_of obind nth_error tblock_at]. rewrite V1, V2.
  assert (Gg : group_eqb g g = true) by (destruct g; reflexivity). rewrite Gg. unfold ran_with. cbn [obind watch last]. fold p.
  intros E. destruct (crypt_shows false k g _ _ msg msg' (good_round_keys k key H) (good_round_keys k key' H') B B' E) as [X Y].
  pose proof (inner_keys k key key' H H' X) as Ek. split; [exact Ek|]. apply Y. now rewrite Ek.
Qed.
Print Assumptions C46_encrypt_reveals_key_and_message.
(** The same message under two keys, and two messages under the same key. *)
Example C46_encrypt_case : let seen key msg := last_seen false [Enc_from K128 key; On Two (New msg); On Two (Encrypt 0 1)] in
  seen zeros (zeros ++ zeros) <> seen one_bit (zeros ++ zeros) /\ seen zeros (zeros ++ zeros) <> seen zeros (zeros ++ one_bit).
Proof.
  assert (Z : is_bytes 16 zeros) by (apply is_bytesb_correct; reflexivity). assert (O : is_bytes 16 one_bit) by (apply is_bytesb_correct; reflexivity).
  assert (ZZ : is_bytes 32 (zeros ++ zeros)) by (apply is_bytesb_correct; reflexivity). assert (ZO : is_bytes 32 (zeros ++ one_bit)) by (apply is_bytesb_correct; reflexivity).
  intros seen. split; intros E.
  - apply (C46_encrypt_reveals_key_and_message false K128 Two zeros one_bit (zeros ++ zeros) (zeros ++ zeros) Z O ZZ ZZ) in E as [E _]. discriminate E.
  - apply (C46_encrypt_reveals_key_and_message false K128 Two zeros zeros (zeros ++ zeros) (zeros ++ one_bit) Z Z ZZ ZO) in E as [_ E]. discriminate E.
Qed.
Theorem C46_decrypt_reveals_key_and_message : forall be k g key key' msg msg',
  is_bytes (key_len k) key -> is_bytes (key_len k) key' -> is_bytes (group_len g) msg -> is_bytes (group_len g) msg' ->
  let calls key msg := [Dec_from k key; On g (New msg); On g (Decrypt 0 1)] in
  last_seen be (calls key msg) = last_seen be (calls key' msg') <-> key = key' /\ msg = msg'.
Proof.
  intros be k g key key' msg msg' H H' B B' calls. split; [|now intros [-> ->]]. destruct (typed_key k key H) as [_ T1]. destruct (typed_key k key' H') as [_ T1'].
  unfold last_seen, calls. rewrite (watch_typed be [] _ _ _ _ _ T1 (step_dec_from be [] k key H)), (watch_typed be [] _ _ _ _ _ T1' (step_dec_from be [] k key' H')). cbn [app].
  rewrite (watch_typed be _ _ _ _ _ _ (typed_new g msg B) (step_new be _ g msg B)), (watch_typed be _ _ _ _ _ _ (typed_new g msg' B') (step_new be _ g msg' B')). cbn [app].
  set (p := s_crypt table_engine k 1 (group_size g) true "keys").
  assert (V : vec_n P_software g = 1%nat /\ vec_m P_software g = group_size g) by (destruct g; split; reflexivity). destruct V as [V1 V2].
  cbn [straight watch typed typed_on timed_with]. unfold timed_on_with. cbn [engine_of obind nth_error tblock_at]. rewrite V1, V2.
  assert (Gg : group_eqb g g = true) by (destruct g; reflexivity). rewrite Gg. unfold ran_with. cbn [obind watch last]. fold p.
  pose proof (b_swap_good inv_mix_columns k _ (fun a => inv_mix_columns_bytes a) (good_round_keys k key H)) as GS. pose proof (b_swap_good inv_mix_columns k _ (fun a => inv_mix_columns_bytes a) (good_round_keys k key' H')) as GS'.
  intros E. destruct (crypt_shows true k g _ _ msg msg' GS GS' B B' E) as [X Y].
  pose proof (inner_dec_keys k key key' H H' X) as Ek. split; [exact Ek|]. apply Y. now rewrite Ek.
Qed.
Print Assumptions C46_decrypt_reveals_key_and_message.
Example C46_decrypt_case : let seen key msg := last_seen true [Dec_from K128 key; On One (New msg); On One (Decrypt 0 1)] in
  seen zeros zeros <> seen one_bit zeros /\ seen zeros zeros <> seen zeros one_bit.
Proof.
  assert (Z : is_bytes 16 zeros) by (apply is_bytesb_correct; reflexivity). assert (O : is_bytes 16 one_bit) by (apply is_bytesb_correct; reflexivity). intros seen. split; intros E.
  - apply (C46_decrypt_reveals_key_and_message true K128 One zeros one_bit zeros zeros Z O Z Z) in E as [E _]. discriminate E.
  - apply (C46_decrypt_reveals_key_and_message true K128 One zeros zeros zeros one_bit Z Z Z O) in E as [_ E]. discriminate E.
Qed.

(** ** Single rounds and mixing *)
(** One round shows its first operand - all blocks of it - and nothing of the round key. *)
Theorem C46_round_reveals_first_operand : forall be g round a a' b b', In round [Enc; Dec; Enc_last; Dec_last] ->
  is_bytes (group_len g) a -> is_bytes (group_len g) a' -> is_bytes (group_len g) b -> is_bytes (group_len g) b' ->
  let calls a b := [On g (New a); On g (New b); On g (round 0%nat 1%nat)] in
  last_seen be (calls a b) = last_seen be (calls a' b') <-> a = a'.
Proof.
  intros be g round a a' b b' R Ha Ha' Hb Hb' calls. unfold last_seen, calls.
  rewrite (watch_typed be _ _ _ _ _ _ (typed_new g a Ha) (step_new be _ g a Ha)), (watch_typed be _ _ _ _ _ _ (typed_new g a' Ha') (step_new be _ g a' Ha')). cbn [app].
  rewrite (watch_typed be _ _ _ _ _ _ (typed_new g b Hb) (step_new be _ g b Hb)), (watch_typed be _ _ _ _ _ _ (typed_new g b' Hb') (step_new be _ g b' Hb')). cbn [app].
  assert (V : vec_n P_software g = 1%nat /\ vec_m P_software g = group_size g) by (destruct g; split; reflexivity). destruct V as [V1 V2].
  assert (Gg : group_eqb g g = true) by (destruct g; reflexivity). assert (M : (group_size g <= 4)%nat) by (destruct g; cbn; lia).
  rewrite group_blocks in Ha, Ha', Hb, Hb'.
  destruct R as [<-|[<-|[<-|[<-|[]]]]]; cbn [straight watch typed typed_on timed_with]; unfold timed_on_with; cbn [engine_of obind nth_error tblock_at]; rewrite V1, V2, Gg; unfold ran_with; cbn [obind watch last].
  - apply (binary_shows (g_enc table_engine 1)); auto. apply (shows_rounds g_enc). cbn; tauto.
  - apply (binary_shows (g_dec table_engine 1)); auto. apply (shows_rounds g_dec). cbn; tauto.
  - apply (binary_shows (g_enc_last table_engine 1)); auto. apply (shows_rounds g_enc_last). cbn; tauto.
  - apply (binary_shows (g_dec_last table_engine 1)); auto. apply (shows_rounds g_dec_last). cbn; tauto.
Qed.
Print Assumptions C46_round_reveals_first_operand.
Example C46_round_case : let seen a b := last_seen false [On One (New a); On One (New b); On One (Enc_last 0 1)] in
  seen zeros zeros = seen zeros one_bit /\ seen zeros zeros <> seen one_bit zeros.
Proof.
  assert (Z : is_bytes 16 zeros) by (apply is_bytesb_correct; reflexivity). assert (O : is_bytes 16 one_bit) by (apply is_bytesb_correct; reflexivity). intros seen. split.
  - apply (C46_round_reveals_first_operand false One Enc_last zeros zeros zeros one_bit); auto. cbn; tauto.
  - intros E. apply (C46_round_reveals_first_operand false One Enc_last zeros one_bit zeros zeros) in E; auto; [discriminate E|cbn; tauto].
Qed.
(** The first four look-ups of one round on the block 00 11 22 .. ff: bytes 0, 5, 10, 15. *)
Example C46_round_seen : firstn 4 (filter is_lookup (last_seen false [On One (New fips_block); On One (New zeros); On One (Enc 0 1)])) = [Lookup "TE0" 0x00; Lookup "TE1" 0x55; Lookup "TE2" 0xaa; Lookup "TE3" 0xff].
Proof. vm_compute. reflexivity. Qed.
Theorem C46_mixing_reveals_block : forall be mix a a', In mix [Mc; Imc] -> is_bytes 16 a -> is_bytes 16 a' ->
  last_seen be [On One (New a); mix 0%nat] = last_seen be [On One (New a'); mix 0%nat] <-> a = a'.
Proof.
  intros be mix a a' R Ha Ha'. unfold last_seen.
  rewrite (watch_typed be _ _ _ _ _ _ (typed_new One a Ha) (step_new be _ One a Ha)), (watch_typed be _ _ _ _ _ _ (typed_new One a' Ha') (step_new be _ One a' Ha')). cbn [app].
  destruct R as [<-|[<-|[]]]; cbn [straight watch typed timed_with engine_of obind nth_error tblock_at group_eqb]; unfold ran_with; cbn [obind watch last].
  - apply (unary_shows (g_mc table_engine)); auto; [exact tells_mc|apply (quiet_mixes g_mc); cbn; tauto].
  - apply (unary_shows (g_imc table_engine)); auto; [exact tells_imc|apply (quiet_mixes g_imc); cbn; tauto].
Qed.
Print Assumptions C46_mixing_reveals_block.
Example C46_mixing_case : last_seen false [On One (New zeros); Imc 0] <> last_seen false [On One (New one_bit); Imc 0].
Proof.
  assert (Z : is_bytes 16 zeros) by (apply is_bytesb_correct; reflexivity). assert (O : is_bytes 16 one_bit) by (apply is_bytesb_correct; reflexivity).
  intros E. apply (C46_mixing_reveals_block false Imc zeros one_bit) in E; auto; [discriminate E|cbn; tauto].
Qed.

(** ** Key set-up, conversions and encryption or decryption of a message, together *)
Theorem C46_trace_reveals_key_and_message : forall k g program key key' msg msg', In program [encrypt_program; decrypt_program; convert_program] ->
  is_bytes (key_len k) key -> is_bytes (key_len k) key' -> is_bytes (group_len g) msg -> is_bytes (group_len g) msg' ->
  let seen key msg := trace (program table_engine k 1%nat (group_size g)) (start key msg) in
  seen key msg = seen key' msg' <-> key = key' /\ msg = msg'.
Proof.
  intros k g program key key' msg msg' P H H' B B' seen. split; [|now intros [-> ->]]. intros E. unfold seen in E. clear seen. rewrite group_blocks in B, B'.
  assert (M : (group_size g <= 4)%nat /\ (0 < group_size g)%nat) by (destruct g; cbn; lia). destruct M as [M1 M2].
  assert (LE : low_equal (start key msg) (start key' msg')) by (apply start_low'; [destruct H as [L _], H' as [L' _]; congruence|destruct B as [L _], B' as [L' _]; congruence]).
  assert (Q : quiet_stmt false (g_keygen table_engine k) = true) by (destruct k; vm_compute; reflexivity).
  assert (Qs : forall f src dst, In f [g_mc; g_imc] -> quiet_stmt false (s_swap_keys (f table_engine) src dst (nr_of k + 1)) = true).
  { intros f src dst [<-|[<-|[]]]; destruct k; vm_compute; reflexivity. }
  assert (S : key = key').
  { destruct P as [<-|[<-|[<-|[]]]]; unfold encrypt_program, decrypt_program, convert_program in E;
      apply (split_seq (g_keygen table_engine k)) in E as (E & _ & _); try assumption; apply (setup_reveals k key key' msg msg' H H'); try assumption; destruct B as [L _], B' as [L' _]; congruence. }
  split; [exact S|]. subst key'. clear H'. pose proof (good_round_keys k key H) as GK.
  destruct (table_keyed k key msg H) as [A I]. destruct (table_keyed k key msg' H) as [A' I']. cbn [g_be table_engine s_keys fips_sem] in A, A'. change (of_ne true) with of_be in A, A'.
  assert (End : forall (dec : bool) keys rks st st', good_keys k rks -> arrs st "in" = msg -> arrs st' "in" = msg' -> arrs st keys = map of_be rks -> arrs st' keys = map of_be rks -> low_equal st st' ->
    trace (block [s_crypt table_engine k 1 (group_size g) dec keys]) st = trace (block [s_crypt table_engine k 1 (group_size g) dec keys]) st' -> msg = msg').
  { clear - M1 M2 B B'. intros dec keys rks st st' GK I I' A A' LE E. rewrite !trace_block_cons in E. change (trace (block []) ?s) with (@nil event) in E. rewrite !app_nil_r in E.
    destruct (crypt_tells dec keys k (group_size g) rks rks msg msg' st st' M1 M2 GK GK B B' I I' A A' LE E) as [X _].
    apply (blocks_equal (group_size g) (nth 0 rks [])); try assumption. destruct GK as [L F]. apply nth_bytes16; [exact F|lia]. }
  assert (Sw : forall f G src dst rks st, uop table_engine f G -> src <> dst -> dst <> "in" -> good_keys k rks -> arrs st src = map of_be rks ->
    arrs (final (s_swap_keys f src dst (nr_of k + 1)) st) dst = map of_be (b_swap G rks) /\ arrs (final (s_swap_keys f src dst (nr_of k + 1)) st) "in" = arrs st "in").
  { clear. intros f G src dst rks st U Ne Ni GK A. pose proof (swap_keys_run table_engine f G src dst k rks st U Ne GK A) as X. split; [rewrite (X dst); apply upd_same|rewrite (X "in"); apply upd_other; congruence]. }
  destruct P as [<-|[<-|[<-|[]]]]; unfold encrypt_program, decrypt_program, convert_program in E;
    apply (split_seq (g_keygen table_engine k)) in E as (_ & E & LE1); try assumption; clear LE.
  - exact (End false "keys" _ _ _ GK I I' A A' LE1 E).
  - set (s1 := final (g_keygen table_engine k) (start key msg)) in *. set (s1' := final (g_keygen table_engine k) (start key msg')) in *. clearbody s1 s1'.
    apply (split_seq (s_swap_keys (g_imc table_engine) "keys" "drk" (nr_of k + 1))) in E as (_ & E & LE2); [|apply (Qs g_imc); cbn; tauto|exact LE1].
    destruct (Sw _ _ "keys" "drk" _ s1 table_imc_u ltac:(discriminate) ltac:(discriminate) GK A) as [D I1]. destruct (Sw _ _ "keys" "drk" _ s1' table_imc_u ltac:(discriminate) ltac:(discriminate) GK A') as [D' I1'].
    rewrite I in I1. rewrite I' in I1'. refine (End true "drk" _ _ _ (b_swap_good (s_imc sx) k _ _ GK) I1 I1' D D' LE2 E). exact (fun a => inv_mix_columns_bytes a).
  - set (s1 := final (g_keygen table_engine k) (start key msg)) in *. set (s1' := final (g_keygen table_engine k) (start key msg')) in *. clearbody s1 s1'.
    apply (split_seq (s_swap_keys (g_imc table_engine) "keys" "drk" (nr_of k + 1))) in E as (_ & E & LE2); [|apply (Qs g_imc); cbn; tauto|exact LE1].
    destruct (Sw _ _ "keys" "drk" _ s1 table_imc_u ltac:(discriminate) ltac:(discriminate) GK A) as [D I1]. destruct (Sw _ _ "keys" "drk" _ s1' table_imc_u ltac:(discriminate) ltac:(discriminate) GK A') as [D' I1'].
    rewrite I in I1. rewrite I' in I1'. pose proof (b_swap_good (s_imc sx) k _ (fun a => inv_mix_columns_bytes a) GK) as GS.
    set (s2 := final _ s1) in *. set (s2' := final _ s1') in *. clearbody s2 s2'.
    apply (split_seq (s_swap_keys (g_mc table_engine) "drk" "erk" (nr_of k + 1))) in E as (_ & E & LE3); [|apply (Qs g_mc); cbn; tauto|exact LE2].
    destruct (Sw _ _ "drk" "erk" _ s2 table_mc_u ltac:(discriminate) ltac:(discriminate) GS D) as [Z I2]. destruct (Sw _ _ "drk" "erk" _ s2' table_mc_u ltac:(discriminate) ltac:(discriminate) GS D') as [Z' I2'].
    rewrite I1 in I2. rewrite I1' in I2'. refine (End false "erk" _ _ _ (b_swap_good (s_mc sx) k _ _ GS) I2 I2' Z Z' LE3 E). exact (fun a => mix_columns_bytes a).
Qed.
Print Assumptions C46_trace_reveals_key_and_message.
Example C46_trace_case : let seen key msg := trace (convert_program table_engine K128 1 1) (start key msg) in seen zeros zeros <> seen zeros one_bit.
Proof.
  assert (Z : is_bytes 16 zeros) by (apply is_bytesb_correct; reflexivity). assert (O : is_bytes 16 one_bit) by (apply is_bytesb_correct; reflexivity).
  intros seen E. apply (C46_trace_reveals_key_and_message K128 One convert_program zeros zeros zeros one_bit) in E as [_ E]; auto; [discriminate E|cbn; tauto].
Qed.
