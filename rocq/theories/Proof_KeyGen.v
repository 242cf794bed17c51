(** The array-style key schedules compute KeyExpansion with the first-word formula they are given,
    whatever it is: RV32 and the big-endian constant-time backend. *)
From Coq Require Import Lia Arith.
From Verif Require Import Word Interface Fips197 Spec_Api Spec_Actual Model_Columns Model_Bitslice Isa_riscv Model_Rv32
  Proof_Word Proof_Fips Proof_Ok Proof_Shift Proof_Lanes Proof_Bitslice Proof_X86 Proof_Table Proof_Rv64 Proof_Rv32 Proof_Wide Proof_KeySpec Proof_KeyTable Proof_KeyX86 Proof_KeyRv64 Proof_Columns.
Open Scope N_scope.

Lemma of_ne_xor be a b : is_bytes 4 a -> is_bytes 4 b -> N.lxor (of_ne be a) (of_ne be b) = of_ne be (xor_word a b).
Proof.
  intros Ha Hb. destruct be; cbn [of_ne]; [|now apply of_le_xor].
  unfold of_be. rewrite of_le_xor by (split; [rewrite rev_length; (apply Ha || apply Hb)|apply Forall_rev; (apply Ha || apply Hb)]).
  bytes_tac Ha. bytes_tac Hb. reflexivity.
Qed.
Section With.
Context (first : nat -> list N -> list N).
Definition xtmp (nk i : nat) (temp : list N) : list N :=
  if Nat.eqb (Nat.modulo i nk) 0 then first (Nat.div i nk) temp
  else if Nat.ltb 6 nk && Nat.eqb (Nat.modulo i nk) 4 then sub_word temp else temp.
Definition xexpand (nk c s : nat) (w0 : list (list N)) := fold_left (expand_step_with first nk) (seq s c) w0.
Lemma xstep_eq nk w i : expand_step_with first nk w i = w ++ [xor_word (nth (i - nk) w []) (xtmp nk i (nth (i - 1) w []))].
Proof. reflexivity. Qed.
Lemma xexpand_length nk c : forall s w0, length w0 = s -> length (xexpand nk c s w0) = (s + c)%nat.
Proof.
  induction c as [|c IH]; intros s w0 H; [cbn; lia|]. unfold xexpand. cbn [seq fold_left]. fold (xexpand nk c (S s) (expand_step_with first nk w0 s)).
  rewrite IH; [lia|]. rewrite xstep_eq, app_length. cbn. lia.
Qed.
Lemma xexpand_prefix nk c : forall s w0 i, length w0 = s -> (i < s)%nat -> nth i (xexpand nk c s w0) [] = nth i w0 [].
Proof.
  induction c as [|c IH]; intros s w0 i H Hi; [reflexivity|]. unfold xexpand. cbn [seq fold_left]. fold (xexpand nk c (S s) (expand_step_with first nk w0 s)).
  rewrite IH; [|rewrite xstep_eq, app_length; cbn; lia|lia]. rewrite xstep_eq. apply app_nth1. lia.
Qed.
Lemma xexpand_rec nk c : (0 < nk)%nat -> forall s w0 i, length w0 = s -> (nk <= s)%nat -> (s <= i < s + c)%nat ->
  let w := xexpand nk c s w0 in nth i w [] = xor_word (nth (i - nk) w []) (xtmp nk i (nth (i - 1) w [])).
Proof.
  intros Hnk. induction c as [|c IH]; intros s w0 i H Hs Hi; [lia|].
  assert (E : xexpand nk (S c) s w0 = xexpand nk c (S s) (expand_step_with first nk w0 s)) by reflexivity.
  assert (L : length (expand_step_with first nk w0 s) = S s) by (rewrite xstep_eq, app_length; cbn; lia).
  cbv zeta. rewrite E. destruct (Nat.eq_dec i s) as [->|Hne].
  - rewrite !xexpand_prefix by (assumption || lia). rewrite xstep_eq.
    rewrite app_nth2 by lia. replace (s - length w0)%nat with 0%nat by lia. cbn [nth]. rewrite !app_nth1 by lia. reflexivity.
  - apply IH; [assumption|lia|lia].
Qed.
Lemma xexpand_app nk c d : forall s w0, xexpand nk (c + d) s w0 = xexpand nk d (s + c) (xexpand nk c s w0).
Proof. intros. unfold xexpand. rewrite seq_app, fold_left_app. reflexivity. Qed.

Definition first_ok : Prop := forall j t, is_bytes 4 t -> is_bytes 4 (first j t).
Context (Hfirst : first_ok).
Lemma xtmp_bytes nk i t : is_bytes 4 t -> is_bytes 4 (xtmp nk i t).
Proof.
  intros H. unfold xtmp. destruct (Nat.eqb _ 0); [|destruct (_ && _)]; try assumption.
  - now apply Hfirst.
  - now apply sub_word_bytes.
Qed.
Lemma xexpand_bytes nk c : (0 < nk)%nat -> forall s w0, length w0 = s -> (nk <= s)%nat -> Forall (is_bytes 4) w0 -> Forall (is_bytes 4) (xexpand nk c s w0).
Proof.
  intros Hnk. induction c as [|c IH]; intros s w0 H Hs F; [exact F|]. unfold xexpand. cbn [seq fold_left]. fold (xexpand nk c (S s) (expand_step_with first nk w0 s)).
  apply IH; [rewrite xstep_eq, app_length; cbn; lia|lia|].
  rewrite xstep_eq. apply Forall_app. split; [assumption|]. constructor; [|constructor].
  assert (G : forall i, (i < s)%nat -> is_bytes 4 (nth i w0 [])) by (intros i Hi; apply (proj1 (Forall_forall _ _) F), nth_In; lia).
  apply xor_word_bytes; [apply G; lia|apply xtmp_bytes, G; lia].
Qed.
Definition XW (nk : nat) (key : list N) (i : nat) : list N := nth i (xexpand nk 100 nk (chunks 4 nk key)) [].
Lemma XW_rec nk key i : (0 < nk)%nat -> (nk <= i < nk + 100)%nat ->
  XW nk key i = xor_word (XW nk key (i - nk)) (xtmp nk i (XW nk key (i - 1))).
Proof. intros H Hi. apply (xexpand_rec nk 100 H nk); [apply key_chunks_length|lia|lia]. Qed.
Lemma XW_bytes nk key i : (0 < nk)%nat -> is_bytes (4 * nk) key -> (i < nk + 100)%nat -> is_bytes 4 (XW nk key i).
Proof.
  intros H Hk Hi. unfold XW. pose proof (xexpand_bytes nk 100 H nk (chunks 4 nk key) (key_chunks_length _ _ _) (le_n _) (key_words nk key Hk)) as F.
  apply (proj1 (Forall_forall _ _) F). apply nth_In. rewrite xexpand_length by apply key_chunks_length. lia.
Qed.
Lemma XW_key nk key i : (i < nk)%nat -> XW nk key i = nth i (chunks 4 nk key) [].
Proof. intros Hi. apply xexpand_prefix; [apply key_chunks_length|assumption]. Qed.
Definition xrk (nk : nat) (key : list N) (r : nat) : list N := concat (map (XW nk key) (seq (4 * r) 4)).
Lemma round_keys_XW k key : round_keys_with first k key = map (xrk (nk_of k) key) (seq 0 (nr_of k + 1)).
Proof.
  unfold round_keys_with. apply map_ext_in. intros r Hr. apply in_seq in Hr. unfold round_key, xrk. f_equal.
  change (key_expansion_with first (nk_of k) (nr_of k) key) with (xexpand (nk_of k) (4 * (nr_of k + 1) - nk_of k) (nk_of k) (chunks 4 (nk_of k) key)).
  rewrite (firstn_seq_nth []).
  2:{ rewrite xexpand_length by apply key_chunks_length. destruct k; cbn [nk_of nr_of] in *; lia. }
  apply map_ext_in. intros i Hi. apply in_seq in Hi. unfold XW.
  set (c := (4 * (nr_of k + 1) - nk_of k)%nat).
  assert (Hc : (c <= 100)%nat) by (unfold c; destruct k; cbn; lia).
  replace 100%nat with (c + (100 - c))%nat by lia. rewrite xexpand_app.
  symmetry. apply xexpand_prefix.
  - apply xexpand_length, key_chunks_length.
  - unfold c. destruct k; cbn [nk_of nr_of] in *; lia.
Qed.

(** ** The column loops, with formulas [f j] (for the [j]-th group) and [g] *)
Lemma xtmp_first nk k t : (0 < nk)%nat -> xtmp nk (k * nk + nk) t = first (S k) t.
Proof.
  intros Hn. unfold xtmp. replace (k * nk + nk)%nat with (S k * nk)%nat by lia.
  rewrite Nat.mod_mul, Nat.div_mul by lia. reflexivity.
Qed.
Lemma xtmp_plain nk k r t : (0 < r < nk)%nat -> (nk <= 6 \/ r <> 4)%nat -> xtmp nk (k * nk + (nk + r)) t = t.
Proof.
  intros Hr D. unfold xtmp. replace (k * nk + (nk + r))%nat with (r + S k * nk)%nat by lia.
  rewrite Nat.mod_add, Nat.mod_small by lia. destruct (Nat.eqb_spec r 0); [lia|].
  destruct (Nat.eqb_spec r 4); [|now rewrite andb_false_r]. destruct (Nat.ltb_spec 6 nk); [lia|]. reflexivity.
Qed.
Lemma xtmp_mid k t : xtmp 8 (k * 8 + 12) t = sub_word t.
Proof.
  unfold xtmp. replace (k * 8 + 12)%nat with (4 + S k * 8)%nat by lia.
  rewrite Nat.mod_add, Nat.mod_small by lia. reflexivity.
Qed.

Context (be : bool) (key : list N).
Let F nk i := of_ne be (XW nk key i).
Definition f_ok (f : N -> N -> N -> N) (j : nat) : Prop := forall a d, is_bytes 4 a -> is_bytes 4 d ->
  f (of_ne be a) (of_ne be d) (rcb j) = of_ne be (xor_word a (first j d)).
Definition g_ok (g : N -> N -> N) : Prop := forall a d, is_bytes 4 a -> is_bytes 4 d ->
  g (of_ne be a) (of_ne be d) = of_ne be (xor_word a (sub_word d)).
Section Nk.
Context (nk : nat) (Hnk : (0 < nk)%nat) (Hk : is_bytes (4 * nk) key).
Lemma XF_first f k i j m : f_ok f (S k) -> m = (k * nk + nk)%nat -> i = (k * nk)%nat -> S j = m -> (m < nk + 100)%nat ->
  f (F nk i) (F nk j) (rcb (S k)) = F nk m.
Proof.
  intros Hf -> -> Hj Hm. unfold F. rewrite (XW_rec nk key (k * nk + nk)) by lia.
  replace (k * nk + nk - nk)%nat with (k * nk)%nat by lia. replace (k * nk + nk - 1)%nat with j by lia.
  rewrite xtmp_first by assumption. apply Hf; apply XW_bytes; try assumption; lia.
Qed.
Lemma XF_plain k r i j m : m = (k * nk + (nk + r))%nat -> (0 < r < nk)%nat -> (nk <= 6 \/ r <> 4)%nat -> (i + nk = m)%nat -> S j = m -> (m < nk + 100)%nat ->
  N.lxor (F nk i) (F nk j) = F nk m.
Proof.
  intros -> Hr D Hi Hj Hm. unfold F. rewrite (XW_rec nk key (k * nk + (nk + r))) by lia.
  replace (k * nk + (nk + r) - nk)%nat with i by lia. replace (k * nk + (nk + r) - 1)%nat with j by lia.
  rewrite xtmp_plain by assumption. apply of_ne_xor; apply XW_bytes; try assumption; lia.
Qed.
End Nk.
Lemma XF_mid g k i j m : g_ok g -> is_bytes 32 key -> m = (k * 8 + 12)%nat -> (i + 8 = m)%nat -> S j = m -> (m < 108)%nat ->
  g (F 8 i) (F 8 j) = F 8 m.
Proof.
  intros Hg Hk -> Hi Hj Hm. unfold F. rewrite (XW_rec 8 key (k * 8 + 12)) by lia.
  replace (k * 8 + 12 - 8)%nat with i by lia. replace (k * 8 + 12 - 1)%nat with j by lia. rewrite xtmp_mid.
  apply Hg; apply (XW_bytes 8); (exact Hk || lia).
Qed.

Lemma xcol_128 f : (forall j, (1 <= j <= 10)%nat -> f_ok f j) -> is_bytes 16 key -> col_keygen_128 be f key = Ret (map (F 4) (seq 0 44)).
Proof.
  intros Hf Hk. unfold col_keygen_128. rewrite (col_load_st be (F 4) 44 4) by (apply Hk || (intros; unfold F; rewrite XW_key by lia; reflexivity) || lia).
  cbn [bind]. change (step_by 40 4) with (map (fun k => k * 4)%nat (seq 0 10)).
  pose proof (loop_st (fun cols i =>
    cols <- col_first f cols (i + 4) (i + 0) (i + 3) (Nat.div i 4) ;;
    cols <- col_xor cols (i + 5) (i + 1) (i + 4) ;;
    cols <- col_xor cols (i + 6) (i + 2) (i + 5) ;;
    col_xor cols (i + 7) (i + 3) (i + 6)) (fun k => colst (F 4) 44 (k * 4 + 4)) 4 10 0) as P.
  etransitivity; [apply P|].
  - intros k H. rewrite Nat.div_mul by lia.
    rewrite col_first_st; try lia; [|apply (XF_first 4 ltac:(lia) Hk f k); try lia; apply Hf; lia]. cbn [bind]. rewrite <- Nat.add_succ_r.
    rewrite col_xor_st; try lia; [|apply (XF_plain 4 ltac:(lia) Hk k 1); lia]. cbn [bind]. rewrite <- Nat.add_succ_r.
    rewrite col_xor_st; try lia; [|apply (XF_plain 4 ltac:(lia) Hk k 2); lia]. cbn [bind]. rewrite <- Nat.add_succ_r.
    rewrite col_xor_st; try lia; [|apply (XF_plain 4 ltac:(lia) Hk k 3); lia]. f_equal. f_equal. lia.
  - reflexivity.
Qed.
Lemma xcol_192 f : (forall j, (1 <= j <= 8)%nat -> f_ok f j) -> is_bytes 24 key -> col_keygen_192 be f key = Ret (map (F 6) (seq 0 52)).
Proof.
  intros Hf Hk. unfold col_keygen_192. rewrite (col_load_st be (F 6) 52 6) by (apply Hk || (intros; unfold F; rewrite XW_key by lia; reflexivity) || lia).
  cbn [bind]. change (step_by 42 6) with (map (fun k => k * 6)%nat (seq 0 7)).
  pose proof (loop_st (fun cols i =>
    cols <- col_first f cols (i + 6) (i + 0) (i + 5) (Nat.div i 6) ;;
    cols <- col_xor cols (i + 7) (i + 1) (i + 6) ;;
    cols <- col_xor cols (i + 8) (i + 2) (i + 7) ;;
    cols <- col_xor cols (i + 9) (i + 3) (i + 8) ;;
    cols <- col_xor cols (i + 10) (i + 4) (i + 9) ;;
    col_xor cols (i + 11) (i + 5) (i + 10)) (fun k => colst (F 6) 52 (k * 6 + 6)) 6 7 0) as P.
  change (colst (F 6) 52 6) with (colst (F 6) 52 (0 * 6 + 6)). rewrite P; clear P.
  - cbn [bind]. change ((0 + 7) * 6 + 6)%nat with 48%nat.
    rewrite col_first_st; try lia; [|apply (XF_first 6 ltac:(lia) Hk f 7); try lia; apply Hf; lia]. cbn [bind].
    rewrite col_xor_st; try lia; [|apply (XF_plain 6 ltac:(lia) Hk 7 1); lia]. cbn [bind].
    rewrite col_xor_st; try lia; [|apply (XF_plain 6 ltac:(lia) Hk 7 2); lia]. cbn [bind].
    rewrite col_xor_st; try lia; [|apply (XF_plain 6 ltac:(lia) Hk 7 3); lia].
    reflexivity.
  - intros k H. rewrite Nat.div_mul by lia.
    rewrite col_first_st; try lia; [|apply (XF_first 6 ltac:(lia) Hk f k); try lia; apply Hf; lia]. cbn [bind]. rewrite <- Nat.add_succ_r.
    rewrite col_xor_st; try lia; [|apply (XF_plain 6 ltac:(lia) Hk k 1); lia]. cbn [bind]. rewrite <- Nat.add_succ_r.
    rewrite col_xor_st; try lia; [|apply (XF_plain 6 ltac:(lia) Hk k 2); lia]. cbn [bind]. rewrite <- Nat.add_succ_r.
    rewrite col_xor_st; try lia; [|apply (XF_plain 6 ltac:(lia) Hk k 3); lia]. cbn [bind]. rewrite <- Nat.add_succ_r.
    rewrite col_xor_st; try lia; [|apply (XF_plain 6 ltac:(lia) Hk k 4); lia]. cbn [bind]. rewrite <- Nat.add_succ_r.
    rewrite col_xor_st; try lia; [|apply (XF_plain 6 ltac:(lia) Hk k 5); lia]. f_equal. f_equal. lia.
Qed.
Lemma xcol_256 f f' g : (forall j, (1 <= j <= 6)%nat -> f_ok f j) -> f_ok f' 7 -> g_ok g -> is_bytes 32 key -> col_keygen_256 be f f' g key = Ret (map (F 8) (seq 0 60)).
Proof.
  intros Hf Hf' Hg Hk. unfold col_keygen_256. rewrite (col_load_st be (F 8) 60 8) by (apply Hk || (intros; unfold F; rewrite XW_key by lia; reflexivity) || lia).
  cbn [bind]. change (step_by 48 8) with (map (fun k => k * 8)%nat (seq 0 6)).
  pose proof (loop_st (fun cols i =>
    cols <- col_first f cols (i + 8) (i + 0) (i + 7) (Nat.div i 8) ;;
    cols <- col_xor cols (i + 9) (i + 1) (i + 8) ;;
    cols <- col_xor cols (i + 10) (i + 2) (i + 9) ;;
    cols <- col_xor cols (i + 11) (i + 3) (i + 10) ;;
    cols <- col_mid g cols (i + 12) (i + 4) (i + 11) ;;
    cols <- col_xor cols (i + 13) (i + 5) (i + 12) ;;
    cols <- col_xor cols (i + 14) (i + 6) (i + 13) ;;
    col_xor cols (i + 15) (i + 7) (i + 14)) (fun k => colst (F 8) 60 (k * 8 + 8)) 8 6 0) as P.
  change (colst (F 8) 60 8) with (colst (F 8) 60 (0 * 8 + 8)). rewrite P; clear P.
  - cbn [bind]. change ((0 + 6) * 8 + 8)%nat with 56%nat.
    rewrite col_first_st; try lia; [|apply (XF_first 8 ltac:(lia) Hk f' 6); try lia; apply Hf']. cbn [bind].
    rewrite col_xor_st; try lia; [|apply (XF_plain 8 ltac:(lia) Hk 6 1); lia]. cbn [bind].
    rewrite col_xor_st; try lia; [|apply (XF_plain 8 ltac:(lia) Hk 6 2); lia]. cbn [bind].
    rewrite col_xor_st; try lia; [|apply (XF_plain 8 ltac:(lia) Hk 6 3); lia].
    reflexivity.
  - intros k H. rewrite Nat.div_mul by lia.
    rewrite col_first_st; try lia; [|apply (XF_first 8 ltac:(lia) Hk f k); try lia; apply Hf; lia]. cbn [bind]. rewrite <- Nat.add_succ_r.
    rewrite col_xor_st; try lia; [|apply (XF_plain 8 ltac:(lia) Hk k 1); lia]. cbn [bind]. rewrite <- Nat.add_succ_r.
    rewrite col_xor_st; try lia; [|apply (XF_plain 8 ltac:(lia) Hk k 2); lia]. cbn [bind]. rewrite <- Nat.add_succ_r.
    rewrite col_xor_st; try lia; [|apply (XF_plain 8 ltac:(lia) Hk k 3); lia]. cbn [bind]. rewrite <- Nat.add_succ_r.
    rewrite col_mid_st; try lia; [|apply (XF_mid g k); try lia; assumption]. cbn [bind]. rewrite <- Nat.add_succ_r.
    rewrite col_xor_st; try lia; [|apply (XF_plain 8 ltac:(lia) Hk k 5); lia]. cbn [bind]. rewrite <- Nat.add_succ_r.
    rewrite col_xor_st; try lia; [|apply (XF_plain 8 ltac:(lia) Hk k 6); lia]. cbn [bind]. rewrite <- Nat.add_succ_r.
    rewrite col_xor_st; try lia; [|apply (XF_plain 8 ltac:(lia) Hk k 7); lia]. f_equal. f_equal. lia.
Qed.
Lemma xcol_blocks k : is_bytes (key_len k) key ->
  col_blocks be (nr_of k + 1) (map (F (nk_of k)) (seq 0 (4 * (nr_of k + 1)))) = round_keys_with first k key.
Proof.
  intros H. assert (Hn : (0 < nk_of k)%nat) by (destruct k; cbn; lia).
  assert (Hb : forall i, (i < 4 * (nr_of k + 1))%nat -> is_bytes 4 (XW (nk_of k) key i)).
  { intros i Hi. apply XW_bytes; [assumption|exact H|]. destruct k; cbn [nk_of nr_of] in *; lia. }
  unfold col_blocks. rewrite map_map.
  rewrite (map_ext_in _ (XW (nk_of k) key)).
  2:{ intros i Hi. apply in_seq in Hi. unfold F. pose proof (Hb i ltac:(lia)) as B. clear - B. destruct be; cbn [to_ne of_ne].
      - unfold to_be, of_be. assert (E : to_le 4 (of_le (rev (XW (nk_of k) key i))) = rev (XW (nk_of k) key i)).
        { rewrite <- (proj1 B) at 1. rewrite <- rev_length. apply to_le_of_le, Forall_rev, B. }
        rewrite E. apply rev_involutive.
      - rewrite <- (proj1 B) at 1. apply to_le_of_le, B. }
  rewrite chunks_words.
  - rewrite round_keys_XW. apply map_ext_in. intros r Hr. apply in_seq in Hr. unfold xrk. f_equal.
    rewrite (firstn_seq_nth []) by (rewrite map_length, seq_length; lia). apply map_ext_in. intros i Hi. apply in_seq in Hi.
    rewrite (nth_indep _ [] (XW (nk_of k) key 0)) by (rewrite map_length, seq_length; lia). rewrite map_nth, seq_nth by lia. reflexivity.
  - now rewrite map_length, seq_length.
  - apply Forall_forall. intros w Hw. apply in_map_iff in Hw. destruct Hw as (i & <- & Hi). apply in_seq in Hi. apply Hb. lia.
Qed.
End With.

(** ** The standard formula gives the standard schedule *)
Lemma round_keys_std k key : round_keys_with std_first k key = round_keys k key.
Proof. reflexivity. Qed.

(** ** RV32 *)
Lemma r32_sub_word_ok x w : is_bytes 4 w -> r32_sub_word x (of_le w) = N.lxor x (of_le (sub_word w)).
Proof.
  intros H. bytes_tac H. unfold r32_sub_word. rewrite (esi_ok _ _ 0), (esi_ok _ _ 1), (esi_ok _ _ 2), (esi_ok _ _ 3) by ((repeat constructor; assumption) || lia).
  cbv zeta. cbn [nth skipn firstn Nat.sub app]. rewrite !N.lxor_assoc. f_equal. 
  repeat (rewrite w4_lxor by byte_lt'). rewrite ?N.lxor_0_l, ?N.lxor_0_r. reflexivity.
Qed.
Lemma rotr_rot_word w : is_bytes 4 w -> rotr 32 (of_le w) 8 = of_le (rot_word w).
Proof.
  intros H. pose proof (rotr_le w 1 (proj2 H)) as R. rewrite (proj1 H) in R.
  change (8 * N.of_nat 4) with 32 in R. change (8 * N.of_nat 1) with 8 in R. rewrite R by lia. bytes_tac H. reflexivity.
Qed.
Lemma rv32_first_ok k : first_ok (rv32_first k).
Proof. intros j t H. unfold rv32_first, std_first. destruct (rv32_rotates k j); apply xor_word_bytes; try apply rcon_bytes; apply sub_word_bytes; now try apply rot_word_bytes. Qed.
Lemma first_word_xor be a s j : is_bytes 4 a -> is_bytes 4 s -> (1 <= j <= 10)%nat -> 
  N.lxor (N.lxor (of_ne be a) (rcb j)) (of_ne be s) = of_ne be (xor_word a (xor_word s (if be then rev (rcon j) else rcon j))).
Proof.
  intros Ha Hs Hj. rewrite (rcon_rcb j Hj). pose proof (rc_bytes _ (rcb_lt j)) as B.
  assert (B' : is_bytes 4 (if be then rev [rcb j; 0; 0; 0] else [rcb j; 0; 0; 0])) by (destruct be; [split; [reflexivity|apply Forall_rev, B]|exact B]).
  assert (D : rcb j = of_ne be (if be then rev [rcb j; 0; 0; 0] else [rcb j; 0; 0; 0])).
  { destruct be; cbn [of_ne]; unfold of_be; rewrite ?rev_involutive; cbn [of_le]; lia. }
  rewrite D at 1. rewrite <- (of_ne_xor be a), <- (of_ne_xor be s) by (try apply xor_word_bytes; assumption).
  rewrite N.lxor_assoc. f_equal. apply N.lxor_comm.
Qed.
Lemma r32_first_ok k j : rv32_rotates k j = false -> (1 <= j <= 10)%nat -> f_ok (rv32_first k) false r32_first j.
Proof.
  intros E Hj a d Ha Hd. unfold r32_first, rv32_first. rewrite E. cbn [of_ne]. rewrite r32_sub_word_ok by assumption.
  apply (first_word_xor false a (sub_word d)); [assumption|now apply sub_word_bytes|assumption].
Qed.
Lemma r32_first_rot_ok k j : rv32_rotates k j = true -> (1 <= j <= 10)%nat -> f_ok (rv32_first k) false r32_first_rot j.
Proof.
  intros E Hj a d Ha Hd. unfold r32_first_rot, rv32_first, std_first. rewrite E. cbn [of_ne]. rewrite rotr_rot_word by assumption.
  pose proof (rot_word_bytes d Hd). rewrite r32_sub_word_ok by assumption.
  apply (first_word_xor false a (sub_word (rot_word d))); [assumption|now apply sub_word_bytes|assumption].
Qed.
Lemma r32_mid_ok : g_ok false r32_mid.
Proof. intros a d Ha Hd. unfold r32_mid. cbn [of_ne]. rewrite r32_sub_word_ok by assumption. apply (of_ne_xor false); [assumption|now apply sub_word_bytes]. Qed.

Lemma rv32_cols_ok k key : is_bytes (key_len k) key ->
  exists cols, match k with K128 => col_keygen_128 false r32_first key | K192 => col_keygen_192 false r32_first key
                          | K256 => col_keygen_256 false r32_first_rot r32_first r32_mid key end = Ret cols /\
               col_blocks false (nr_of k + 1) cols = rv32_round_keys k key.
Proof.
  intros H. pose proof (rv32_first_ok k) as Hf. unfold rv32_round_keys. rewrite <- (xcol_blocks (rv32_first k) Hf false key k H).
  destruct k; eexists; (split; [|reflexivity]).
  - rewrite (xcol_128 _ Hf) by (assumption || (intros; now apply r32_first_ok)). reflexivity.
  - rewrite (xcol_192 _ Hf) by (assumption || (intros; apply r32_first_ok; [reflexivity|lia])). reflexivity.
  - rewrite (xcol_256 _ Hf); [reflexivity| | |exact r32_mid_ok|assumption].
    + intros j Hj. apply r32_first_rot_ok; [|lia]. do 7 (destruct j as [|j]; [reflexivity|]). lia.
    + apply r32_first_ok; [reflexivity|lia].
Qed.
Lemma rv32_keygen_ok k key : is_bytes (key_len k) key ->
  match k with K128 => r32_keygen_128 key | K192 => r32_keygen_192 key | K256 => r32_keygen_256 key end = Ret (map r32_of_bytes (rv32_round_keys k key)).
Proof.
  intros H. destruct (rv32_cols_ok k key H) as (cols & E & Eb). rewrite <- Eb.
  destruct k; unfold r32_keygen_128, r32_keygen_192, r32_keygen_256, r32_keygen; rewrite E; reflexivity.
Qed.

(** ** Big-endian constant-time *)
Lemma be_first_ok : first_ok be_first.
Proof.
  intros j t H. unfold be_first. apply xor_word_bytes.
  - apply sub_word_bytes. bytes_tac H. split; [reflexivity|]. repeat constructor; assumption.
  - destruct (rcon_bytes j) as [L F]. split; [now rewrite rev_length|now apply Forall_rev].
Qed.
Lemma bs_sub_be w : is_bytes 4 w -> bs_sub_word (of_be w) = of_be (sub_word w).
Proof.
  intros H. unfold of_be. rewrite (bs_sub_ok (rev w)) by (split; [rewrite rev_length; apply H|apply Forall_rev, H]).
  unfold sub_word. now rewrite map_rev.
Qed.
Lemma be_rot_first_ok j : (1 <= j <= 10)%nat -> f_ok be_first true (rot_first bs_sub_word) j.
Proof.
  intros Hj a d Ha Hd. unfold rot_first, be_first. cbn [of_ne]. rewrite bs_sub_be by assumption.
  assert (B : is_bytes 4 (sub_word d)) by now apply sub_word_bytes.
  assert (B2 : is_bytes 4 (sub_word (rot_word_back d))).
  { apply sub_word_bytes. bytes_tac Hd. split; [reflexivity|]. repeat constructor; assumption. }
  assert (E : rotr 32 (of_be (sub_word d)) 8 = of_be (sub_word (rot_word_back d))).
  { unfold of_be. rewrite rotr_rot_word by (split; [rewrite rev_length; apply B|apply Forall_rev, B]). clear - Hd. bytes_tac Hd. reflexivity. }
  rewrite E. pose proof (first_word_xor true a (sub_word (rot_word_back d)) j Ha B2 Hj) as X. cbn [of_ne] in X. rewrite <- X.
  rewrite !N.lxor_assoc. f_equal. apply N.lxor_comm.
Qed.
Lemma be_mid_ok : g_ok true (sub_mid bs_sub_word).
Proof. intros a d Ha Hd. unfold sub_mid. cbn [of_ne]. rewrite bs_sub_be by assumption. apply (of_ne_xor true); [assumption|now apply sub_word_bytes]. Qed.
Lemma be_keygen_ok k key : is_bytes (key_len k) key ->
  match k with K128 => bs_keygen_128 true key | K192 => bs_keygen_192 true key | K256 => bs_keygen_256 true key end = Ret (map (of_ne true) (be_round_keys k key)).
Proof.
  intros H. pose proof be_first_ok as Hf. unfold be_round_keys. rewrite <- (xcol_blocks be_first Hf true key k H).
  destruct k; unfold bs_keygen_128, bs_keygen_192, bs_keygen_256, bs_keygen.
  - rewrite (xcol_128 _ Hf) by (assumption || (intros; now apply be_rot_first_ok)). reflexivity.
  - rewrite (xcol_192 _ Hf) by (assumption || (intros; apply be_rot_first_ok; lia)). reflexivity.
  - rewrite (xcol_256 _ Hf); [reflexivity| | |exact be_mid_ok|assumption]; [intros j Hj|]; apply be_rot_first_ok; lia.
Qed.

(** All of these schedules have the right shape. *)
Lemma round_keys_with_ok first k key : first_ok first -> is_bytes (key_len k) key ->
  length (round_keys_with first k key) = (nr_of k + 1)%nat /\ Forall (is_bytes 16) (round_keys_with first k key).
Proof.
  intros Hf H. rewrite round_keys_XW. split; [now rewrite map_length, seq_length|].
  apply Forall_forall. intros x Hx. apply in_map_iff in Hx as (r & <- & Hr). apply in_seq in Hr. unfold xrk.
  assert (F : Forall (is_bytes 4) (map (XW first (nk_of k) key) (seq (4 * r) 4))).
  { apply Forall_forall. intros w Hw. apply in_map_iff in Hw as (i & <- & Hi). apply in_seq in Hi. apply XW_bytes; [assumption|destruct k; cbn; lia|exact H|destruct k; cbn [nk_of nr_of] in *; lia]. }
  destruct (words_concat4 _ F) as [L F']. split; [rewrite L, map_length, seq_length; reflexivity|exact F'].
Qed.
