(** C23, C24: the printed forms. *)
From Coq Require Import Lia Arith String Ascii.
From Verif Require Import Word Interface Fips197 Spec_Api Spec_Reach Spec_Cfg Spec_User Model_Lib Model_Cfg Model_Fmt Spec_Fmt.
From Verif Require Import Proof_Word Proof_Fips Proof_Ok Proof_Sem Proof_Lib Proof_Reach Proof_Inst Proof_Cipher Proof_KeySpec Proof_Main Proof_Fmt.
From Verif Require Import Samples.
From Verif Require Props_Total.
Open Scope string_scope.
Open Scope N_scope.

Section One.
Context (i : impl) (f1 : list N -> T1 i) (D : data_ok (i_ops1 i) 16 f1).
Lemma to_u128_f b : is_bytes 16 b -> to_u128 (i_ops1 i) (f1 b) = Ret (of_be b).
Proof. intros B. unfold to_u128. now rewrite (to_bytes_ok _ 16 f1) by assumption. Qed.
Lemma lower_f b f : is_bytes 16 b -> fmt_lower_hex i (f1 b) f = Ret ((if f_alternate f then "0x" else "") ++ numeral lower_hex 16 32 (of_be b)).
Proof.
  intros B. unfold fmt_lower_hex. rewrite (to_bytes_ok _ 16 f1) by assumption. cbn [bind]. f_equal. f_equal.
  rewrite (numeral_bytes lower_hex 16 ltac:(discriminate) 2); [now rewrite (proj1 B)|reflexivity|apply byte_lower|apply B].
Qed.
Lemma upper_f b f : is_bytes 16 b -> fmt_upper_hex i (f1 b) f = Ret ((if f_alternate f then "0X" else "") ++ numeral upper_hex 16 32 (of_be b)).
Proof.
  intros B. unfold fmt_upper_hex. rewrite (to_bytes_ok _ 16 f1) by assumption. cbn [bind]. f_equal. f_equal.
  rewrite (numeral_bytes upper_hex 16 ltac:(discriminate) 2); [now rewrite (proj1 B)|reflexivity|apply byte_upper|apply B].
Qed.
Lemma binary_f b f : is_bytes 16 b -> fmt_binary i (f1 b) f = Ret ((if f_alternate f then "0b" else "") ++ numeral binary 2 128 (of_be b)).
Proof.
  intros B. unfold fmt_binary. rewrite (to_bytes_ok _ 16 f1) by assumption. cbn [bind]. f_equal. f_equal.
  rewrite (numeral_bytes binary 2 ltac:(discriminate) 8); [now rewrite (proj1 B)|reflexivity|apply byte_binary|apply B].
Qed.
Lemma display_f b f : is_bytes 16 b -> fmt_display i (f1 b) f = Ret (hex_of (f_alternate f) (of_be b)).
Proof. intros B. unfold fmt_display, hex_of. destruct (f_alternate f); [now rewrite upper_f|now rewrite lower_f]. Qed.
Lemma debug_f b f : is_bytes 16 b -> fmt_debug i (f1 b) f = Ret (hex_of (f_alternate f) (of_be b)).
Proof. apply display_f. Qed.
Lemma of_be_lt b : is_bytes 16 b -> of_be b < 2 ^ 128.
Proof. intros B. unfold of_be. pose proof (of_le_lt (rev b) (Forall_rev (proj2 B))) as H. rewrite rev_length, (proj1 B) in H. exact H. Qed.
Lemma of_be_inj a b : is_bytes 16 a -> is_bytes 16 b -> of_be a = of_be b -> a = b.
Proof.
  intros Ha Hb E. pose proof (to_be_of_be a (proj2 Ha)) as X. pose proof (to_be_of_be b (proj2 Hb)) as Y. rewrite (proj1 Ha) in X. rewrite (proj1 Hb) in Y. congruence.
Qed.
Lemma all_debug rks f : Forall (is_bytes 16) rks ->
  all_ret (map (fun g => g f) (map (fmt_debug i) (map f1 rks))) = Ret (map (hex_of (f_alternate f)) (map of_be rks)).
Proof. induction 1 as [|b rks B F IH]; [reflexivity|]. cbn [map all_ret]. rewrite debug_f by assumption. cbn [bind]. rewrite IH. reflexivity. Qed.
Lemma debug_object name rks f : rks <> [] -> Forall (is_bytes 16) rks ->
  debug_struct1 name "round_keys" (debug_array (map (fmt_debug i) (map f1 rks))) f = Ret (object_text (f_alternate f) name (map of_be rks)).
Proof.
  intros Hne F. unfold debug_struct1, debug_array. rewrite all_debug by assumption. cbn [bind]. f_equal.
  assert (Hne' : map of_be rks <> []) by (destruct rks; [congruence|discriminate]).
  unfold object_text. destruct (f_alternate f).
  - rewrite object_pretty by assumption. unfold pretty_lines. rewrite !sapp_assoc. reflexivity.
  - rewrite entries_plain. rewrite !sapp_assoc. reflexivity.
Qed.
End One.

Lemma Ret_inj {A} (a b : A) : Ret a = Ret b -> a = b.
Proof. congruence. Qed.
(** ** C23 *)
Theorem C23_printed_forms : forall c i x v alt width,
  impl_of c = Some i -> reach1 i x -> to_u128 (i_ops1 i) x = Ret v ->
  let f := FOpts alt width in
  fmt_lower_hex i x f = Ret ((if alt then "0x" else "") ++ numeral "0123456789abcdef" 16 32 v) /\
  fmt_upper_hex i x f = Ret ((if alt then "0X" else "") ++ numeral "0123456789ABCDEF" 16 32 v) /\
  fmt_binary i x f = Ret ((if alt then "0b" else "") ++ numeral "01" 2 128 v) /\
  fmt_display i x f = Ret (numeral (if alt then "0123456789ABCDEF" else "0123456789abcdef") 16 32 v) /\
  fmt_debug i x f = fmt_display i x f.
Proof.
  intros c i x v alt w E Hx Hv f. destruct (widths c i E) as ((f1 & D & HR) & _). apply HR in Hx as (b & B & ->).
  rewrite (to_u128_f i f1 D) in Hv by assumption. injection Hv as <-.
  rewrite (lower_f i f1 D), (upper_f i f1 D), (binary_f i f1 D), (display_f i f1 D), (debug_f i f1 D) by assumption.
  refine (conj _ (conj _ (conj _ (conj _ _)))); reflexivity.
Qed.
Print Assumptions C23_printed_forms.
Example C23_printed_forms_case : forall c k, In c samples -> with_values c k (fun i u =>
  exists v, to_u128 (i_ops1 i) (u_x u) = Ret v /\ fmt_lower_hex i (u_x u) (FOpts true None) = Ret ("0x" ++ numeral "0123456789abcdef" 16 32 v)).
Proof. intros c k H. apply case_any; [exact H|]. intros i u E. destruct (Props_Total.C26_u128_calls_return c i E) as (_ & A). destruct (A (u_x u)) as (v & B & _); auto with cases. exists v. split; [exact B|]. destruct (C23_printed_forms c i (u_x u) v true None) as (D & _); auto with cases. Qed.
(** The numerals have the length they should have, and the text of any form determines the block. *)
Theorem C23_digits : forall alphabet base n v, base <> 0 -> String.length (numeral alphabet base n v) = n /\
  forall j, (j < n)%nat -> String.get j (numeral alphabet base n v) = Some (nth_char alphabet ((v / base ^ N.of_nat (n - 1 - j)) mod base)).
Proof.
  intros al base n v Hb. split; [now apply numeral_length|]. revert v. induction n as [|n IH]; intros v j Hj; [lia|]. cbn [numeral].
  assert (G : forall s c m, String.get m (s ++ String c "") = if Nat.ltb m (String.length s) then String.get m s else if Nat.eqb m (String.length s) then Some c else None).
  { induction s as [|a s IHs]; intros c m; destruct m as [|m]; try reflexivity. cbn [append String.get String.length]. rewrite IHs. reflexivity. }
  rewrite G, numeral_length by assumption. destruct (Nat.ltb_spec j n) as [L|L].
  - rewrite IH by assumption. f_equal. f_equal. f_equal. rewrite N.div_div by (try apply N.pow_nonzero; assumption). f_equal.
    replace (S n - 1 - j)%nat with (S (n - 1 - j)) by lia. now rewrite Nat2N.inj_succ, N.pow_succ_r'.
  - assert (j = n) by lia. subst j. rewrite Nat.eqb_refl. replace (S n - 1 - n)%nat with 0%nat by lia. change (base ^ N.of_nat 0) with 1. now rewrite N.div_1_r.
Qed.
Print Assumptions C23_digits.
Example C23_digits_case : numeral "0123456789abcdef" 16 4 0x1f0a = "1f0a" /\ numeral "01" 2 8 5 = "00000101".
Proof. split; reflexivity. Qed.
Theorem C23_text_determines_block : forall c i x y alt width,
  impl_of c = Some i -> reach1 i x -> reach1 i y ->
  let f := FOpts alt width in
  fmt_lower_hex i x f = fmt_lower_hex i y f \/ fmt_upper_hex i x f = fmt_upper_hex i y f \/ fmt_binary i x f = fmt_binary i y f \/
  fmt_display i x f = fmt_display i y f \/ fmt_debug i x f = fmt_debug i y f ->
  x = y.
Proof.
  intros c i x y alt w E Hx Hy f H. destruct (widths c i E) as ((f1 & D & HR) & _). apply HR in Hx as (a & A & ->). apply HR in Hy as (b & B & ->).
  change (fmt_debug i) with (fmt_display i) in H.
  rewrite !(lower_f i f1 D), !(upper_f i f1 D), !(binary_f i f1 D), !(display_f i f1 D) in H by assumption.
  pose proof (of_be_lt a A) as La. pose proof (of_be_lt b B) as Lb.
  f_equal. apply of_be_inj; try assumption.
  destruct H as [H|[H|[H|[H|H]]]]; apply Ret_inj in H; try apply sapp_inj_l in H.
  - apply (numeral_inj lower_hex 16) in H; [assumption|discriminate|exact lower_ok|exact La|exact Lb].
  - apply (numeral_inj upper_hex 16) in H; [assumption|discriminate|exact upper_ok|exact La|exact Lb].
  - apply (numeral_inj binary 2) in H; [assumption|discriminate|exact binary_ok|exact La|exact Lb].
  - now apply hex_of_inj in H.
  - now apply hex_of_inj in H.
Qed.
Print Assumptions C23_text_determines_block.
Example C23_text_determines_block_case : forall c k, In c samples -> with_values c k (fun i u =>
  fmt_lower_hex i (u_x u) (FOpts false None) <> fmt_lower_hex i (u_y u) (FOpts false None)).
Proof. intros c k H. apply case_any; [exact H|]. intros i u E. intros X. apply (u_differ _ _ u), (C23_text_determines_block c i _ _ false None); auto with cases. Qed.

(** ** C24 *)
Theorem C24_wide_debug : forall c i alt width, impl_of c = Some i ->
  let f := FOpts alt width in
  (forall x a b va vb, reach2 i x -> x2_to_pair i x = (a, b) -> to_u128 (i_ops1 i) a = Ret va -> to_u128 (i_ops1 i) b = Ret vb ->
     fmt_debug_x2 i x f = Ret (tuple_text alt [va; vb])) /\
  (forall x a b c d va vb vc vd, reach4 i x -> x4_to_quad i x = (a, b, c, d) ->
     to_u128 (i_ops1 i) a = Ret va -> to_u128 (i_ops1 i) b = Ret vb -> to_u128 (i_ops1 i) c = Ret vc -> to_u128 (i_ops1 i) d = Ret vd ->
     fmt_debug_x4 i x f = Ret (tuple_text alt [va; vb; vc; vd])).
Proof.
  intros c i alt w E f. destruct (inst_any c i E) as (s & f1 & f2 & f4 & _ & _ & S1 & R). pose proof (R_d1 _ _ _ _ _ R) as D.
  assert (T : forall rks, rks <> [] -> Forall (is_bytes 16) rks -> debug_tuple (map (fmt_debug i) (map f1 rks)) f = Ret (tuple_text alt (map of_be rks))).
  { intros rks Hne F. unfold debug_tuple. rewrite (all_debug i f1 D) by assumption. cbn [bind]. f_equal. unfold tuple_text. subst f. cbn [f_alternate].
    assert (Hne' : map of_be rks <> []) by (destruct rks; [congruence|discriminate]). destruct alt.
    - rewrite entries_pretty by assumption. rewrite sapp_assoc. reflexivity.
    - now rewrite entries_plain. }
  split.
  - intros x a b va vb Hx Hp Ha Hb. unreach R S1. destruct (split2 _ B) as (u & v & Hu & Hv & ->). rewrite (R_x2_to_pair _ _ _ _ _ R) in Hp by assumption. injection Hp as <- <-.
    rewrite (to_u128_f i f1 D) in Ha, Hb by assumption. injection Ha as <-. injection Hb as <-.
    unfold fmt_debug_x2. rewrite (R_x2_to_pair _ _ _ _ _ R) by assumption. apply (T [u; v]); [discriminate|auto].
  - intros x a b c0 d va vb vc vd Hx Hp Ha Hb Hc Hd. unreach R S1. destruct (split4 _ B) as (u & v & t & z & Hu & Hv & Ht & Hz & ->).
    rewrite (R_x4_to_quad _ _ _ _ _ R) in Hp by assumption. injection Hp as <- <- <- <-.
    rewrite (to_u128_f i f1 D) in Ha, Hb, Hc, Hd by assumption. injection Ha as <-. injection Hb as <-. injection Hc as <-. injection Hd as <-.
    unfold fmt_debug_x4. rewrite (R_x4_to_quad _ _ _ _ _ R) by assumption. apply (T [u; v; t; z]); [discriminate|auto].
Qed.
Print Assumptions C24_wide_debug.
Example C24_wide_debug_case : forall c k, In c samples -> with_values c k (fun i u =>
  exists va vb, fmt_debug_x2 i (u_x2 u) (FOpts false None) = Ret (tuple_text false [va; vb])).
Proof. intros c k H. apply case_any; [exact H|]. intros i u E. destruct (x2_to_pair i (u_x2 u)) as [a b] eqn:X. assert (R2 : reach1 i a /\ reach1 i b) by (split; intros P1 P2 P4 PE PD A; pose proof (ac_x2_to_pair _ _ _ _ _ _ A (u_x2 u) (u_reach_2 _ _ u _ _ _ _ _ A)) as Z; rewrite X in Z; apply Z). destruct (Props_Total.C26_u128_calls_return c i E) as (_ & A). destruct (A a (proj1 R2)) as (va & Va & _). destruct (A b (proj2 R2)) as (vb & Vb & _). exists va, vb. destruct (C24_wide_debug c i false None E) as (Q & _). apply (Q _ a b); auto with cases. Qed.

Lemma good_ne k rks : good_keys k rks -> rks <> [].
Proof. intros [L _] ->. cbn in L. lia. Qed.
Lemma u128s i f1 (D : data_ok (i_ops1 i) 16 f1) rks vs : Forall (is_bytes 16) rks -> Forall2 (fun x v => to_u128 (i_ops1 i) x = Ret v) (map f1 rks) vs -> vs = map of_be rks.
Proof.
  intros F. revert vs. induction F as [|b rks B F IH]; intros vs H; inversion H; subst; [reflexivity|]. cbn [map].
  rewrite (to_u128_f i f1 D) in * by assumption. f_equal; [congruence|]. now apply IH.
Qed.
Theorem C24_key_object_debug : forall c i k alt width, impl_of c = Some i ->
  let f := FOpts alt width in
  (forall e vs, reachE i k e -> Forall2 (fun x v => to_u128 (i_ops1 i) x = Ret v) (enc_keys e) vs ->
     fmt_debug_enc i k e f = Ret (object_text alt (object_name true k) vs)) /\
  (forall d vs, reachD i k d -> Forall2 (fun x v => to_u128 (i_ops1 i) x = Ret v) (dec_keys d) vs ->
     fmt_debug_dec i k d f = Ret (object_text alt (object_name false k) vs)).
Proof.
  intros c i k alt w E f. destruct (inst_any c i E) as (s & f1 & f2 & f4 & _ & _ & S1 & R). pose proof (R_d1 _ _ _ _ _ R) as D. split.
  - intros e vs He Hv. unreach R S1. cbn [enc_keys] in Hv. apply (u128s i f1 D) in Hv; [|apply G]. subst vs.
    unfold fmt_debug_enc. cbn [enc_keys]. rewrite (debug_object i f1 D) by (apply G || now apply (good_ne k)). subst f. cbn [f_alternate]. destruct k; reflexivity.
  - intros e vs He Hv. unreach R S1. cbn [dec_keys] in Hv. apply (u128s i f1 D) in Hv; [|apply G]. subst vs.
    unfold fmt_debug_dec. cbn [dec_keys]. rewrite (debug_object i f1 D) by (apply G || now apply (good_ne k)). subst f. cbn [f_alternate]. destruct k; reflexivity.
Qed.
Print Assumptions C24_key_object_debug.

Lemma printed_rk alt name k rks j : String.length name = 9%nat -> good_keys k rks -> (j <= nr_of k)%nat ->
  printed_key alt j (object_text alt name (map of_be rks)) = nth j rks [].
Proof.
  intros Hn [L F] Hj. assert (Lt : (j < length rks)%nat) by lia.
  assert (B : is_bytes 16 (nth j rks [])) by (rewrite Forall_forall in F; apply F, nth_In; assumption).
  assert (Q : nth j (map of_be rks) 0 = of_be (nth j rks [])).
  { change 0 with (of_be []). apply map_nth. }
  rewrite printed_key_ok; [|assumption|rewrite map_length; assumption|rewrite Q; now apply of_be_lt]. rewrite Q.
  pose proof (to_be_of_be _ (proj2 B)) as X. now rewrite (proj1 B) in X.
Qed.
(** The text determines the round keys, in every configuration. *)
Theorem C24_text_determines_object : forall c i k alt width, impl_of c = Some i ->
  let f := FOpts alt width in
  (forall e e', reachE i k e -> reachE i k e' -> fmt_debug_enc i k e f = fmt_debug_enc i k e' f -> e = e') /\
  (forall d d', reachD i k d -> reachD i k d' -> fmt_debug_dec i k d f = fmt_debug_dec i k d' f -> d = d').
Proof.
  intros c i k alt w E f. destruct (inst_any c i E) as (s & f1 & f2 & f4 & _ & _ & S1 & R). pose proof (R_d1 _ _ _ _ _ R) as D.
  assert (X : forall name rks rks', String.length name = 9%nat -> good_keys k rks -> good_keys k rks' -> object_text alt name (map of_be rks) = object_text alt name (map of_be rks') -> rks = rks').
  { intros name rks rks' Hn G G' Eq. apply (nth_ext _ _ [] []); [destruct G, G'; congruence|]. intros j Hj. assert (j <= nr_of k)%nat by (destruct G; lia).
    rewrite <- (printed_rk alt name k rks j), <- (printed_rk alt name k rks' j) by assumption. now rewrite Eq. }
  split; intros e e' He He' Eq; unreach R S1; unfold fmt_debug_enc, fmt_debug_dec in Eq; cbn [enc_keys dec_keys] in Eq;
    rewrite !(debug_object i f1 D) in Eq by (first [apply G | apply G0 | now apply (good_ne k)]); apply Ret_inj in Eq; f_equal; f_equal; eapply X; try eassumption; now destruct k.
Qed.
Print Assumptions C24_text_determines_object.
Example C24_text_determines_object_case : forall c k, In c samples -> with_values c k (fun i u =>
  forall e', reachE i k e' -> fmt_debug_enc i k (u_enc u) (FOpts true None) = fmt_debug_enc i k e' (FOpts true None) -> u_enc u = e').
Proof. intros c k H. apply case_any; [exact H|]. intros i u E. intros e' He. apply (C24_text_determines_object c i k true None E); auto with cases. Qed.

(** The hazard: whoever reads the Debug text of a key object has the key. *)
Lemma concat_chunks' nk (key : list N) : length key = (4 * nk)%nat -> concat (chunks 4 nk key) = key.
Proof.
  revert key. induction nk as [|nk IH]; intros key L; [now destruct key|]. cbn [chunks concat]. rewrite IH by (rewrite skipn_length; lia). apply firstn_skipn.
Qed.
Lemma key_prefix k key : is_bytes (key_len k) key ->
  firstn (key_len k) (nth 0 (round_keys k key) [] ++ nth 1 (round_keys k key) [])%list = key.
Proof.
  intros B. rewrite round_keys_W.
  assert (N01 : forall j, (j < nr_of k + 1)%nat -> nth j (map (rk (nk_of k) key) (seq 0 (nr_of k + 1))) [] = rk (nk_of k) key j).
  { intros j Hj. rewrite (nth_indep _ [] (rk (nk_of k) key 0)) by (rewrite map_length, seq_length; assumption). rewrite map_nth, seq_nth by assumption. reflexivity. }
  rewrite !N01 by (destruct k; cbn; lia). unfold rk. rewrite <- concat_app, <- map_app.
  assert (Sq : (seq (4 * 0) 4 ++ seq (4 * 1) 4 = seq 0 (nk_of k) ++ seq (nk_of k) (8 - nk_of k))%list) by (destruct k; reflexivity).
  rewrite Sq, map_app, concat_app.
  assert (Wk : map (W (nk_of k) key) (seq 0 (nk_of k)) = chunks 4 (nk_of k) key).
  { rewrite <- (map_ext_in (fun i => nth i (chunks 4 (nk_of k) key) [])).
    - pose proof (firstn_seq_nth [] (chunks 4 (nk_of k) key) 0 (nk_of k)) as F. rewrite key_chunks_length in F. specialize (F ltac:(lia)). rewrite <- F.
      cbn [skipn]. rewrite <- (key_chunks_length 4 (nk_of k) key) at 1. apply firstn_all.
    - intros j Hj. apply in_seq in Hj. symmetry. apply W_key. lia. }
  rewrite Wk, concat_chunks' by apply B. rewrite firstn_app, (proj1 B), Nat.sub_diag, app_nil_r. rewrite <- (proj1 B). apply firstn_all.
Qed.
Lemma swap_last g k rks : good_keys k rks -> nth (nr_of k) (b_swap g rks) [] = nth 0 rks [].
Proof. intros G. apply (swap_shape g k rks G). Qed.
Lemma swap_mid g k rks j : good_keys k rks -> (1 <= j < nr_of k)%nat -> nth j (b_swap g rks) [] = g (nth (nr_of k - j) rks []).
Proof.
  intros [L _] Hj. unfold b_swap. cbv zeta. rewrite L. replace (nr_of k + 1 - 1)%nat with (nr_of k) by lia.
  rewrite (nth_indep _ [] (g [])) by (rewrite map_length, seq_length; lia).
  match goal with |- nth _ (map ?h _) _ = _ => rewrite (nth_indep _ (g []) (h 0%nat)) by (rewrite map_length, seq_length; lia); rewrite (map_nth h) end.
  rewrite seq_nth by lia. cbn [Nat.add]. destruct (Nat.eqb_spec j 0); [lia|]. destruct (Nat.eqb_spec j (nr_of k)); [lia|]. reflexivity.
Qed.
Theorem C24_debug_text_reveals_key : forall c i k key alt width,
  impl_of c = Some i -> conforming c = true -> is_bytes (key_len k) key ->
  exists e d te td, enc_new i k key = Ret e /\ dec_new i k key = Ret d /\
    fmt_debug_enc i k e (FOpts alt width) = Ret te /\ recover_key alt k te = key /\
    fmt_debug_dec i k d (FOpts alt width) = Ret td /\ recover_key_dec alt k td = key.
Proof.
  intros c i k key alt w E C Hk. destruct (inst c i E (conforming_rv c C)) as (pre & keys & f1 & f2 & f4 & Hpre & K & S1 & R). rewrite (K C) in *.
  pose proof (R_d1 _ _ _ _ _ R) as D. pose proof (round_keys_good k key Hk) as G.
  assert (Gd : good_keys k (b_swap inv_mix_columns (round_keys k key))) by (apply b_swap_good; [apply inv_mix_columns_bytes|assumption]).
  do 4 eexists. split; [apply (enc_new_ok _ _ _ _ _ R); assumption|]. split; [apply (dec_new_ok _ _ _ _ _ R S1); assumption|].
  unfold fmt_debug_enc, fmt_debug_dec. cbn [enc_keys dec_keys fips_sem s_keys s_imc].
  rewrite !(debug_object i f1 D) by (first [apply G | apply Gd | now apply (good_ne k)]). cbn [f_alternate].
  split; [reflexivity|]. split; [|split; [reflexivity|]].
  - unfold recover_key. rewrite !(printed_rk alt _ k) by (assumption || (now destruct k) || (destruct k; cbn; lia)). now apply key_prefix.
  - unfold recover_key_dec. rewrite !(printed_rk alt _ k) by (assumption || (now destruct k) || (destruct k; cbn; lia)).
    etransitivity; [|apply (key_prefix k key Hk)]. f_equal. f_equal.
    + apply swap_last. exact G.
    + rewrite (swap_mid inv_mix_columns k) by (assumption || (destruct k; cbn; lia)). replace (nr_of k - (nr_of k - 1))%nat with 1%nat by (destruct k; reflexivity).
      apply mix_inv_mix. apply (good_nth k); [assumption|destruct k; cbn; lia].
Qed.
Print Assumptions C24_debug_text_reveals_key.
Example C24_case : forall c k, In c conforming_samples -> exists i e t, impl_of c = Some i /\ enc_new i k (fips_key k) = Ret e /\
  fmt_debug_enc i k e (FOpts false None) = Ret t /\ recover_key false k t = fips_key k.
Proof.
  intros c k H. destruct (sample_impl c) as [i E]; [apply in_app_iff; now left|].
  destruct (C24_debug_text_reveals_key c i k (fips_key k) false None E (sample_conforming c H) (fips_key_ok k)) as (e & d & te & td & A & _ & B & D & _). now exists i, e, te.
Qed.
