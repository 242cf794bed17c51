(** The AES-NI backend's key schedules are the FIPS-197 key expansion. *)
From Coq Require Import Lia Arith Btauto.
From Verif Require Import Word Interface Fips197 Spec_Api Isa_x86 Model_X86 Proof_Word Proof_Fips Proof_Ok Proof_Bitslice Proof_X86 Proof_KeySpec Proof_Table Proof_KeyTable.
Open Scope N_scope.

Ltac xor_bits := repeat (apply cons_eq); try reflexivity; apply N.bits_inj; intro; rewrite !N.lxor_spec, ?N.bits_0; btauto.

Lemma x86_mix_t a b c d t : length a = 4%nat -> length b = 4%nat -> length c = 4%nat -> length d = 4%nat -> length t = 4%nat ->
  mm_xor (x86_mix (a ++ b ++ c ++ d)) (t ++ t ++ t ++ t) = concat (chain_xor [a; b; c; d] t).
Proof.
  intros La Lb Lc Ld Lt. explode La. explode Lb. explode Lc. explode Ld. explode Lt.
  unfold x86_mix, mm_xor, mm_bslli, xor_word. cbn [app repeat firstn map2 chain_xor concat].
  unfold xor_word. cbn [map2 app].
  xor_bits.
Qed.

Lemma dword_words a b c d : length a = 4%nat -> length b = 4%nat -> length c = 4%nat -> length d = 4%nat ->
  dword (a ++ b ++ c ++ d) 0 = a /\ dword (a ++ b ++ c ++ d) 1 = b /\ dword (a ++ b ++ c ++ d) 2 = c /\ dword (a ++ b ++ c ++ d) 3 = d.
Proof. intros La Lb Lc Ld. explode La. explode Lb. explode Lc. explode Ld. repeat split. Qed.
Lemma rot_sub d : length d = 4%nat -> rot_word (sub_word d) = sub_word (rot_word d).
Proof. intros L. explode L. reflexivity. Qed.
Lemma len_sub d : length (sub_word d) = length d.
Proof. apply map_length. Qed.
Lemma len_xor u v : length u = 4%nat -> length v = 4%nat -> length (xor_word u v) = 4%nat.
Proof. intros. unfold xor_word. rewrite map2_length. lia. Qed.
Lemma len_rot d : length d = 4%nat -> length (rot_word d) = 4%nat.
Proof. intros L. explode L. reflexivity. Qed.
Lemma len_first rc d : length d = 4%nat -> length (t_first rc d) = 4%nat.
Proof. intros. apply len_xor; [rewrite len_sub; now apply len_rot|reflexivity]. Qed.

Ltac len4 := repeat first [assumption | reflexivity | apply len_first | apply len_xor | apply len_rot | rewrite len_sub].
(** AESKEYGENASSIST followed by the three broadcasts the code uses. *)
Lemma assist_ff rc a b c d : length a = 4%nat -> length b = 4%nat -> length c = 4%nat -> length d = 4%nat ->
  mm_shuffle_epi32 0xff (mm_aeskeygenassist rc (a ++ b ++ c ++ d)) = let t := t_first rc d in t ++ t ++ t ++ t.
Proof.
  intros La Lb Lc Ld. unfold mm_aeskeygenassist. destruct (dword_words a b c d La Lb Lc Ld) as (_ & -> & _ & ->).
  rewrite (rot_sub d) by assumption. fold (t_first rc d). unfold mm_shuffle_epi32.
  assert (Q := dword_words (sub_word b) (xor_word (rot_word (sub_word b)) [rc; 0; 0; 0]) (sub_word d) (t_first rc d) ltac:(len4) ltac:(len4) ltac:(len4) ltac:(len4)).
  destruct Q as (_ & _ & _ & E).
  exact (f_equal (fun t => t ++ t ++ t ++ t) E).
Qed.
Lemma assist_55 rc a b c d : length a = 4%nat -> length b = 4%nat -> length c = 4%nat -> length d = 4%nat ->
  mm_shuffle_epi32 0x55 (mm_aeskeygenassist rc (a ++ b ++ c ++ d)) = let t := t_first rc b in t ++ t ++ t ++ t.
Proof.
  intros La Lb Lc Ld. unfold mm_aeskeygenassist. destruct (dword_words a b c d La Lb Lc Ld) as (_ & -> & _ & ->).
  rewrite (rot_sub b) by assumption. fold (t_first rc b). unfold mm_shuffle_epi32.
  assert (Q := dword_words (sub_word b) (t_first rc b) (sub_word d) (xor_word (rot_word (sub_word d)) [rc; 0; 0; 0]) ltac:(len4) ltac:(len4) ltac:(len4) ltac:(len4)).
  destruct Q as (_ & E & _ & _).
  exact (f_equal (fun t => t ++ t ++ t ++ t) E).
Qed.
Lemma assist_aa rc a b c d : length a = 4%nat -> length b = 4%nat -> length c = 4%nat -> length d = 4%nat ->
  mm_shuffle_epi32 0xaa (mm_aeskeygenassist rc (a ++ b ++ c ++ d)) = let t := sub_word d in t ++ t ++ t ++ t.
Proof.
  intros La Lb Lc Ld. unfold mm_aeskeygenassist. destruct (dword_words a b c d La Lb Lc Ld) as (_ & -> & _ & ->).
  unfold mm_shuffle_epi32.
  assert (Q := dword_words (sub_word b) (xor_word (rot_word (sub_word b)) [rc; 0; 0; 0]) (sub_word d) (xor_word (rot_word (sub_word d)) [rc; 0; 0; 0]) ltac:(len4) ltac:(len4) ltac:(len4) ltac:(len4)).
  destruct Q as (_ & _ & E & _).
  exact (f_equal (fun t => t ++ t ++ t ++ t) E).
Qed.

Lemma concat_4 {A} (a b c d : list A) : concat [a; b; c; d] = a ++ b ++ c ++ d.
Proof. cbn. now rewrite app_nil_r. Qed.

Ltac words_lens :=
  repeat match goal with H : is_bytes 4 ?x |- _ => lazymatch goal with _ : length x = 4%nat |- _ => fail | _ => pose proof (proj1 H) end end.
Lemma x86_128_ok ws rc : length ws = 4%nat -> Forall (is_bytes 4) ws ->
  x86_keyexp_128 rc (concat ws) = concat (chain_xor ws (t_first rc (nth 3 ws []))).
Proof.
  intros L F. destruct (list_4 ws L) as (a & b & c & d & ->). inv_forall. words_lens. cbn [nth].
  unfold x86_keyexp_128. rewrite concat_4. rewrite assist_ff by assumption. apply x86_mix_t; try assumption. now apply len_first.
Qed.
Lemma x86_256_1_ok ws vs rc : length ws = 4%nat -> length vs = 4%nat -> Forall (is_bytes 4) ws -> Forall (is_bytes 4) vs ->
  x86_keyexp_256_1 rc (concat ws) (concat vs) = concat (chain_xor ws (t_first rc (nth 3 vs []))).
Proof.
  intros L L' F F'. destruct (list_4 ws L) as (a & b & c & d & ->). destruct (list_4 vs L') as (a' & b' & c' & d' & ->). inv_forall. words_lens. cbn [nth].
  unfold x86_keyexp_256_1. rewrite !concat_4. rewrite assist_ff by assumption. apply x86_mix_t; try assumption. now apply len_first.
Qed.
Lemma x86_256_2_ok ws vs : length ws = 4%nat -> length vs = 4%nat -> Forall (is_bytes 4) ws -> Forall (is_bytes 4) vs ->
  x86_keyexp_256_2 (concat ws) (concat vs) = concat (chain_xor ws (sub_word (nth 3 vs []))).
Proof.
  intros L L' F F'. destruct (list_4 ws L) as (a & b & c & d & ->). destruct (list_4 vs L') as (a' & b' & c' & d' & ->). inv_forall. words_lens. cbn [nth].
  unfold x86_keyexp_256_2. rewrite !concat_4. rewrite assist_aa by assumption. apply x86_mix_t; try assumption. now rewrite len_sub.
Qed.

(** The 192-bit state keeps six words; the last two dwords of its second register are junk. *)
Lemma x86_fwd_ok ws j rc : length ws = 6%nat -> Forall (is_bytes 4) ws -> length j = 8%nat ->
  exists j', length j' = 8%nat /\
  x86_fwd rc (concat (firstn 4 ws), concat (skipn 4 ws) ++ j) =
  let xs := chain_xor ws (t_first rc (nth 5 ws [])) in (concat (firstn 4 xs), concat (skipn 4 xs) ++ j').
Proof.
  intros L F Lj. destruct (list_6 ws L) as (a & b & c & d & e & f & ->). inv_forall. words_lens. cbn [nth firstn skipn].
  assert (exists j1 j2, j = j1 ++ j2 /\ length j1 = 4%nat /\ length j2 = 4%nat) as (j1 & j2 & -> & L1 & L2).
  { exists (firstn 4 j), (skipn 4 j). rewrite firstn_skipn, firstn_length, skipn_length. split; [reflexivity|lia]. }
  unfold x86_fwd.
  replace (concat [e; f] ++ j1 ++ j2) with (e ++ f ++ j1 ++ j2) by (cbn [concat]; rewrite app_nil_r, <- app_assoc; reflexivity).
  rewrite concat_4, assist_55 by assumption. cbv zeta.
  set (t := t_first rc f). assert (Lt : length t = 4%nat) by now apply len_first.
  rewrite x86_mix_t by assumption.
  cbn [chain_xor concat firstn skipn]. rewrite !app_nil_r.
  set (x0 := xor_word a t). set (x1 := xor_word b x0). set (x2 := xor_word c x1). set (x3 := xor_word d x2).
  assert (L3 : length x3 = 4%nat) by (repeat (apply len_xor; try assumption)).
  assert (L2' : length x2 = 4%nat) by (repeat (apply len_xor; try assumption)).
  assert (L1' : length x1 = 4%nat) by (repeat (apply len_xor; try assumption)).
  assert (L0' : length x0 = 4%nat) by (repeat (apply len_xor; try assumption)).
  unfold mm_shuffle_epi32.
  destruct (dword_words x0 x1 x2 x3 L0' L1' L2' L3) as (_ & _ & _ & E).
  change (mm_xor (mm_xor (e ++ f ++ j1 ++ j2) (mm_bslli 4 (e ++ f ++ j1 ++ j2))) _) with
    (mm_xor (mm_xor (e ++ f ++ j1 ++ j2) (mm_bslli 4 (e ++ f ++ j1 ++ j2)))
       (dword (x0 ++ x1 ++ x2 ++ x3) 3 ++ dword (x0 ++ x1 ++ x2 ++ x3) 3 ++ dword (x0 ++ x1 ++ x2 ++ x3) 3 ++ dword (x0 ++ x1 ++ x2 ++ x3) 3)).
  rewrite E. exists (map2 N.lxor (map2 N.lxor j1 f) x3 ++ map2 N.lxor (map2 N.lxor j2 j1) x3). split.
  - rewrite app_length, !map2_length. lia.
  - f_equal. clearbody x3. 
    assert (Le : length e = 4%nat) by assumption. assert (Lf : length f = 4%nat) by assumption. clear - L1 L2 L3 Le Lf.
    explode Le. explode Lf. 
    explode L1. explode L2. explode L3. unfold mm_xor, mm_bslli, xor_word. cbn [app repeat firstn map2].
    xor_bits.
Qed.

Definition hx (nk : nat) key g (j : list N) := (concat (words nk key (6 * g) 4), concat (words nk key (6 * g + 4) 2) ++ j).
Lemma words_app nk key s n m : words nk key s (n + m) = words nk key s n ++ words nk key (s + n) m.
Proof. unfold words. now rewrite seq_app, map_app. Qed.
Lemma words_firstn nk key s : firstn 4 (words nk key s 6) = words nk key s 4.
Proof. reflexivity. Qed.
Lemma words_skipn nk key s : skipn 4 (words nk key s 6) = words nk key (s + 4) 2.
Proof. unfold words. cbn [seq map skipn]. now rewrite !Nat.add_succ_r, Nat.add_0_r. Qed.

Lemma x86_fwd_words key g j : is_bytes 24 key -> (g < 8)%nat -> length j = 8%nat ->
  exists j', length j' = 8%nat /\ x86_fwd (rcb (S g)) (hx 6 key g j) = hx 6 key (S g) j'.
Proof.
  intros H Hg Lj. destruct (x86_fwd_ok (words 6 key (6 * g) 6) j (rcb (S g))) as (j' & L' & E).
  - apply words_length. - apply words_bytes; [lia|exact H|lia]. - assumption.
  - exists j'. split; [assumption|]. unfold hx. rewrite <- words_firstn, <- words_skipn. rewrite E.
    rewrite words_nth by lia. rewrite <- words_192 by assumption. cbv zeta. rewrite words_firstn, words_skipn. reflexivity.
Qed.

Lemma x86_192_ok key g j : is_bytes 24 key -> (S g < 8)%nat -> length j = 8%nat ->
  exists j', length j' = 8%nat /\
  x86_keyexp_192 (rcb (S g)) (rcb (S (S g))) (hx 6 key g j) =
  (hx 6 key (S (S g)) j', (concat (words 6 key (6 * g + 4) 4), concat (words 6 key (6 * g + 8) 4), concat (words 6 key (6 * g + 12) 4))).
Proof.
  intros H Hg Lj. destruct (x86_fwd_words key g j H ltac:(lia) Lj) as (j1 & L1 & E1).
  destruct (x86_fwd_words key (S g) j1 H ltac:(lia) L1) as (j2 & L2 & E2).
  exists j2. split; [assumption|]. unfold x86_keyexp_192. cbv zeta. rewrite E1, E2. f_equal. unfold hx. cbn [fst snd].
  assert (B : forall i, (i < 106)%nat -> length (W 6 key i) = 4%nat) by (intros; apply (W_bytes 6 key i ltac:(lia) H); lia).
  replace (6 * S g)%nat with (6 * g + 6)%nat by lia. replace (6 * S (S g))%nat with (6 * g + 12)%nat by lia.
  assert (A : forall n i, words 6 key (6 * g + n) (S i) = W 6 key (6 * g + n) :: words 6 key (6 * g + S n) i).
  { intros n i. unfold words. cbn [seq map]. now rewrite !Nat.add_succ_r. }
  rewrite <- !Nat.add_assoc. cbn [Nat.add]. rewrite !A. unfold words. cbn [seq map concat]. rewrite !app_nil_r.
  assert (P : forall n, (n < 12)%nat -> length (W 6 key (6 * g + n)) = 4%nat) by (intros; apply B; lia).
  pose proof (P 4 ltac:(lia))%nat as P4. pose proof (P 5 ltac:(lia))%nat as P5. pose proof (P 6 ltac:(lia))%nat as P6. pose proof (P 7 ltac:(lia))%nat as P7.
  pose proof (P 8 ltac:(lia))%nat as P8. pose proof (P 9 ltac:(lia))%nat as P9. pose proof (P 10 ltac:(lia))%nat as P10. pose proof (P 11 ltac:(lia))%nat as P11.
  clear - P4 P5 P6 P7 P8 P9 P10 P11.
  generalize dependent (W 6 key (6 * g + 4)). generalize dependent (W 6 key (6 * g + 5)).
  generalize dependent (W 6 key (6 * g + 6)). generalize dependent (W 6 key (6 * g + 7)).
  generalize dependent (W 6 key (6 * g + 8)). generalize dependent (W 6 key (6 * g + 9)).
  generalize dependent (W 6 key (6 * g + 10)). generalize dependent (W 6 key (6 * g + 11)).
  intros w1 L1 w2 L2 w3 L3 w4 L4 w5 L5 w6 L6 w7 L7 w8 L8.
  explode L1. explode L2. explode L3. explode L4. explode L5. explode L6. explode L7. explode L8. reflexivity.
Qed.

Lemma x86_keys k key :
  map xb (round_keys k key) = map (fun r => concat (words (nk_of k) key (4 * r) 4)) (seq 0 (nr_of k + 1)).
Proof. rewrite round_keys_W, map_map. reflexivity. Qed.
Lemma key128_0 key : is_bytes 16 key -> key = concat (words 4 key 0 4).
Proof. intros H. unfold words. cbn [seq map]. rewrite !W_key by lia. bytes_tac H. reflexivity. Qed.
Lemma key192_lo key : is_bytes 24 key -> firstn 16 key = concat (words 6 key 0 4).
Proof. intros H. unfold words. cbn [seq map]. rewrite !W_key by lia. bytes_tac H. reflexivity. Qed.
Lemma key192_hi key : is_bytes 24 key -> skipn 16 key = concat (words 6 key 4 2).
Proof. intros H. unfold words. cbn [seq map]. rewrite !W_key by lia. bytes_tac H. reflexivity. Qed.

Local Opaque x86_keyexp_128 x86_keyexp_192 x86_keyexp_256_1 x86_keyexp_256_2 W.
Lemma x86_key_128 key : is_bytes 16 key -> x86_keygen_128 key = Ret (map xb (round_keys K128 key)).
Proof.
  intros H. rewrite (x86_keys K128). unfold x86_keygen_128.
  assert (E : x86_from key = Ret (concat (words 4 key (4 * 0) 4))).
  { unfold x86_from, mm_loadu. rewrite raw_read_all by apply H. f_equal. now apply key128_0. }
  rewrite E. cbn [bind]. cbv zeta.
  assert (St : forall r, (r < 10)%nat -> x86_keyexp_128 (rcb (S r)) (concat (words 4 key (4 * r) 4)) = concat (words 4 key (4 * S r) 4)).
  { intros r Hr. rewrite x86_128_ok, words_nth by (apply words_length || (apply words_bytes; [lia|exact H|lia]) || lia).
    rewrite words_128 by assumption. reflexivity. }
  rewrite (St 0%nat ltac:(lia) : x86_keyexp_128 0x01 _ = _), (St 1%nat ltac:(lia) : x86_keyexp_128 0x02 _ = _),
    (St 2%nat ltac:(lia) : x86_keyexp_128 0x04 _ = _), (St 3%nat ltac:(lia) : x86_keyexp_128 0x08 _ = _),
    (St 4%nat ltac:(lia) : x86_keyexp_128 0x10 _ = _), (St 5%nat ltac:(lia) : x86_keyexp_128 0x20 _ = _),
    (St 6%nat ltac:(lia) : x86_keyexp_128 0x40 _ = _), (St 7%nat ltac:(lia) : x86_keyexp_128 0x80 _ = _),
    (St 8%nat ltac:(lia) : x86_keyexp_128 0x1b _ = _), (St 9%nat ltac:(lia) : x86_keyexp_128 0x36 _ = _).
  reflexivity.
Qed.
Lemma x86_key_256 dbg key : is_bytes 32 key -> x86_keygen_256 dbg key = Ret (map xb (round_keys K256 key)).
Proof.
  intros H. rewrite (x86_keys K256) by assumption. unfold x86_keygen_256.
  unfold slice_to, slice_from. rewrite (proj1 H). cbn [Nat.leb bind].
  assert (K0 : is_bytes 16 (rk 8 key 0)) by (apply (rk_bytes K256); [exact H|cbn; lia]).
  assert (K1 : is_bytes 16 (rk 8 key 1)) by (apply (rk_bytes K256); [exact H|cbn; lia]).
  rewrite key256_lo, key256_hi by assumption.
  rewrite !try_from_exact by (apply K0 || apply K1). unfold x86_from, mm_loadu. rewrite !raw_read_all by (apply K0 || apply K1).
  cbn [bind unwrap omap nk_of]. cbv zeta. rewrite !rk_words.
  assert (St : forall g, (g < 7)%nat -> x86_keyexp_256_1 (rcb (S g)) (concat (words 8 key (8 * g) 4)) (concat (words 8 key (8 * g + 4) 4)) = concat (words 8 key (8 * S g) 4)).
  { intros g Hg. rewrite x86_256_1_ok, words_nth by (apply words_length || (apply words_bytes; [lia|exact H|lia]) || lia).
    rewrite words_256_a by assumption. do 2 f_equal. f_equal. f_equal. lia. }
  assert (T : forall g, (g < 7)%nat -> x86_keyexp_256_2 (concat (words 8 key (8 * g + 4) 4)) (concat (words 8 key (8 * S g) 4)) = concat (words 8 key (8 * S g + 4) 4)).
  { intros g Hg. rewrite x86_256_2_ok, words_nth by (apply words_length || (apply words_bytes; [lia|exact H|lia]) || lia).
    rewrite words_256_b by assumption. reflexivity. }
  change (4 * 0)%nat with (8 * 0)%nat. change (4 * 1)%nat with (8 * 0 + 4)%nat.
  rewrite (St 0%nat ltac:(lia) : x86_keyexp_256_1 0x01 _ _ = _), (T 0%nat ltac:(lia)),
    (St 1%nat ltac:(lia) : x86_keyexp_256_1 0x02 _ _ = _), (T 1%nat ltac:(lia)),
    (St 2%nat ltac:(lia) : x86_keyexp_256_1 0x04 _ _ = _), (T 2%nat ltac:(lia)),
    (St 3%nat ltac:(lia) : x86_keyexp_256_1 0x08 _ _ = _), (T 3%nat ltac:(lia)),
    (St 4%nat ltac:(lia) : x86_keyexp_256_1 0x10 _ _ = _), (T 4%nat ltac:(lia)),
    (St 5%nat ltac:(lia) : x86_keyexp_256_1 0x20 _ _ = _), (T 5%nat ltac:(lia)),
    (St 6%nat ltac:(lia) : x86_keyexp_256_1 0x40 _ _ = _).
  reflexivity.
Qed.
Lemma key_block_ok {B} src (k : list N -> outcome B) : length src = 8%nat ->
  (key_block <- with_to (repeat 0 16) 8 (fun _ => Ret src) ;;
   key_block <- with_from key_block 8 (fun s => Ret (repeat 0 (length s))) ;; k key_block) = k (src ++ repeat 0 8).
Proof. intros L. explode L. reflexivity. Qed.
Lemma x86_key_192 dbg key : is_bytes 24 key -> x86_keygen_192 dbg key = Ret (map xb (round_keys K192 key)).
Proof.
  intros H. rewrite (x86_keys K192). unfold x86_keygen_192, x86_from, mm_loadu.
  unfold slice_to, slice_from. rewrite (proj1 H). cbn [Nat.leb bind].
  assert (L0 : length (firstn 16 key) = 16%nat) by (rewrite firstn_length, (proj1 H); reflexivity).
  assert (L1 : length (skipn 16 key) = 8%nat) by (rewrite skipn_length, (proj1 H); reflexivity).
  rewrite try_from_exact, raw_read_all by assumption. cbn [bind unwrap]. rewrite L1. cbn [Nat.eqb rust_assert bind].
  rewrite key_block_ok by assumption. cbn [bind].
  rewrite raw_read_all by (rewrite app_length, L1; reflexivity). cbn [bind].
  rewrite key192_lo, key192_hi by assumption.
  change (concat (words 6 key 0 4), concat (words 6 key 4 2) ++ repeat 0 8) with (hx 6 key 0 (repeat 0 8)).
  destruct (x86_192_ok key 0 (repeat 0 8) H ltac:(lia) eq_refl) as (j1 & J1 & E1).
  destruct (x86_192_ok key 2 j1 H ltac:(lia) J1) as (j2 & J2 & E2).
  destruct (x86_192_ok key 4 j2 H ltac:(lia) J2) as (j3 & J3 & E3).
  destruct (x86_192_ok key 6 j3 H ltac:(lia) J3) as (j4 & J4 & E4).
  rewrite (E1 : x86_keyexp_192 0x01 0x02 _ = _), (E2 : x86_keyexp_192 0x04 0x08 _ = _), (E3 : x86_keyexp_192 0x10 0x20 _ = _), (E4 : x86_keyexp_192 0x40 0x80 _ = _).
  reflexivity.
Qed.
Lemma x86_key_ok dbg : key_ok (x86_ext dbg) xb.
Proof. split; [apply x86_key_128|apply x86_key_192|apply x86_key_256]. Qed.
