(** Lemmas on numerals, Debug layout and reading printed keys back. *)
From Coq Require Import Lia Arith String Ascii.
From Verif Require Import Word Fips197 Interface Model_Lib Model_Fmt Spec_Fmt Proof_Word.
Open Scope string_scope.
Open Scope N_scope.

(** ** Strings *)
Lemma sapp_nil_r s : s ++ "" = s. Proof. induction s; cbn; congruence. Qed.
Lemma sapp_assoc a b c : (a ++ b) ++ c = a ++ b ++ c. Proof. induction a; cbn; congruence. Qed.
Lemma slen_app a b : String.length (a ++ b) = (String.length a + String.length b)%nat. Proof. induction a; cbn; congruence. Qed.
Lemma sapp_inj_l a b c : a ++ b = a ++ c -> b = c. Proof. induction a; cbn; [auto|]. intros [= H]. auto. Qed.
Lemma substring_0 m s : substring 0 (String.length m) (m ++ s) = m.
Proof. induction m as [|c m IH]; cbn; [now destruct s|]. now rewrite IH. Qed.
Lemma substring_mid p m s : substring (String.length p) (String.length m) (p ++ m ++ s) = m.
Proof. induction p as [|c p IH]; cbn; [apply substring_0|exact IH]. Qed.
Lemma concat_cons sep x l : String.concat sep (x :: l) = x ++ match l with [] => "" | _ => sep ++ String.concat sep l end.
Proof. destruct l; cbn; [now rewrite sapp_nil_r|reflexivity]. Qed.
Lemma concat_cons0 x l : String.concat "" (x :: l) = x ++ String.concat "" l.
Proof. rewrite concat_cons. destruct l; reflexivity. Qed.
Lemma concat_app0 l m : String.concat "" (l ++ m)%list = String.concat "" l ++ String.concat "" m.
Proof. induction l as [|x l IH]; [reflexivity|]. cbn [app]. rewrite !concat_cons0, IH. now rewrite sapp_assoc. Qed.

(** ** Numerals *)
Section Num.
Context (al : string) (base : N) (Hb : base <> 0).
Lemma numeral_length n v : String.length (numeral al base n v) = n.
Proof. revert v. induction n as [|n IH]; intros v; [reflexivity|]. cbn [numeral]. rewrite slen_app, IH. cbn. lia. Qed.
Lemma numeral_app n m v : numeral al base (n + m) v = numeral al base n (v / base ^ N.of_nat m) ++ numeral al base m v.
Proof.
  revert v. induction m as [|m IH]; intros v.
  - cbn [numeral]. rewrite Nat.add_0_r, sapp_nil_r. change (base ^ N.of_nat 0) with 1. now rewrite N.div_1_r.
  - rewrite Nat.add_succ_r. cbn [numeral]. rewrite IH, sapp_assoc. f_equal. f_equal.
    rewrite N.div_div by (try apply N.pow_nonzero; assumption). f_equal. now rewrite Nat2N.inj_succ, N.pow_succ_r'.
Qed.
Lemma numeral_mod n v : numeral al base n (v mod base ^ N.of_nat n) = numeral al base n v.
Proof.
  revert v. induction n as [|n IH]; intros v; [reflexivity|]. cbn [numeral]. rewrite Nat2N.inj_succ, N.pow_succ_r'.
  assert (P : base ^ N.of_nat n <> 0) by now apply N.pow_nonzero.
  rewrite N.mod_mul_r by assumption. f_equal.
  - rewrite <- (IH (v / base)). f_equal. rewrite (N.mul_comm base), N.div_add by assumption. now rewrite (N.div_small (v mod base)) by now apply N.mod_lt.
  - f_equal. f_equal. rewrite (N.mul_comm base), N.mod_add by assumption. now rewrite N.mod_mod.
Qed.
(** bytes, most significant first, [per] digits each *)
Lemma numeral_bytes per (f : N -> string) l : base ^ N.of_nat per = 256 ->
  (forall b, b < 256 -> f b = numeral al base per b) -> Forall (fun b => b < 256) l ->
  concat_map f l = numeral al base (length l * per) (of_be l).
Proof.
  intros Hp Hf. induction l as [|b l IH] using rev_ind; intros Hl; [reflexivity|].
  apply Forall_app in Hl as [Hl Hb1]. inversion Hb1; subst. unfold concat_map. rewrite map_app, concat_app0. fold (concat_map f l). rewrite IH by assumption.
  cbn [map String.concat]. rewrite Hf by assumption. rewrite app_length. cbn [length]. replace ((length l + 1) * per)%nat with (length l * per + per)%nat by lia.
  rewrite numeral_app, Hp. unfold of_be. rewrite rev_app_distr. cbn [rev app of_le].
  f_equal.
  - f_equal. rewrite (N.mul_comm 256), N.div_add by lia. now rewrite N.div_small.
  - rewrite <- (numeral_mod per). rewrite <- (numeral_mod per (b + _)). f_equal. rewrite Hp. rewrite (N.mul_comm 256), N.mod_add by lia. reflexivity.
Qed.
End Num.

Lemma sweep256 (P : N -> bool) : forallb (fun n => P (N.of_nat n)) (seq 0 256) = true -> forall b, b < 256 -> P b = true.
Proof. intros H b Hb. rewrite forallb_forall in H. rewrite <- (N2Nat.id b). apply H, in_seq. lia. Qed.
Lemma byte_lower b : b < 256 -> fmt_u8_zero_padded 2 16 digit_lower b = numeral lower_hex 16 2 b.
Proof. intros H. apply String.eqb_eq. revert b H. apply (sweep256 (fun b => (fmt_u8_zero_padded 2 16 digit_lower b =? numeral lower_hex 16 2 b)%string)). vm_compute. reflexivity. Qed.
Lemma byte_upper b : b < 256 -> fmt_u8_zero_padded 2 16 digit_upper b = numeral upper_hex 16 2 b.
Proof. intros H. apply String.eqb_eq. revert b H. apply (sweep256 (fun b => (fmt_u8_zero_padded 2 16 digit_upper b =? numeral upper_hex 16 2 b)%string)). vm_compute. reflexivity. Qed.
Lemma byte_binary b : b < 256 -> fmt_u8_zero_padded 8 2 digit_lower b = numeral binary 2 8 b.
Proof. intros H. apply String.eqb_eq. revert b H. apply (sweep256 (fun b => (fmt_u8_zero_padded 8 2 digit_lower b =? numeral binary 2 8 b)%string)). vm_compute. reflexivity. Qed.

(** ** Reading a numeral back *)
Lemma read_app base acc a b : read_number base acc (a ++ b) = read_number base (read_number base acc a) b.
Proof. revert acc. induction a as [|c a IH]; intros acc; [reflexivity|]. cbn. apply IH. Qed.
Section Read.
Context (al : string) (base : N) (Hb : base <> 0) (Hd : forall d, d < base -> digit_value (nth_char al d) = d).
Lemma read_numeral n v acc : read_number base acc (numeral al base n v) = acc * base ^ N.of_nat n + v mod base ^ N.of_nat n.
Proof.
  revert v acc. induction n as [|n IH]; intros v acc.
  - cbn [numeral read_number]. change (base ^ N.of_nat 0) with 1. rewrite N.mod_1_r. lia.
  - cbn [numeral]. rewrite read_app, IH. cbn [read_number]. rewrite Hd by now apply N.mod_lt. rewrite Nat2N.inj_succ, N.pow_succ_r'.
    assert (P : base ^ N.of_nat n <> 0) by now apply N.pow_nonzero. rewrite N.mod_mul_r by assumption. nia.
Qed.
Lemma read_back n v : v < base ^ N.of_nat n -> read_number base 0 (numeral al base n v) = v.
Proof. intros H. rewrite read_numeral, N.mod_small by assumption. lia. Qed.
Lemma numeral_inj n v u : v < base ^ N.of_nat n -> u < base ^ N.of_nat n -> numeral al base n v = numeral al base n u -> v = u.
Proof. intros Hv Hu E. rewrite <- (read_back n v Hv), <- (read_back n u Hu). now rewrite E. Qed.
End Read.
Lemma digits_ok al base : forallb (fun d => digit_value (nth_char al (N.of_nat d)) =? N.of_nat d) (seq 0 (N.to_nat base)) = true ->
  forall d, d < base -> digit_value (nth_char al d) = d.
Proof. intros H d Hd. rewrite forallb_forall in H. rewrite <- (N2Nat.id d). apply N.eqb_eq, H, in_seq. lia. Qed.
Lemma lower_ok d : d < 16 -> digit_value (nth_char lower_hex d) = d. Proof. now apply digits_ok. Qed.
Lemma upper_ok d : d < 16 -> digit_value (nth_char upper_hex d) = d. Proof. now apply digits_ok. Qed.
Lemma binary_ok d : d < 2 -> digit_value (nth_char binary d) = d. Proof. now apply digits_ok. Qed.
Lemma alphabet_ok (alt : bool) d : d < 16 -> digit_value (nth_char (if alt then upper_hex else lower_hex) d) = d.
Proof. destruct alt; [apply upper_ok|apply lower_ok]. Qed.
Lemma hex_of_length alt v : String.length (hex_of alt v) = 32%nat. Proof. now apply numeral_length. Qed.
Lemma hex_of_read alt v : v < 2 ^ 128 -> read_number 16 0 (hex_of alt v) = v.
Proof. intros H. apply read_back; [discriminate|apply alphabet_ok|exact H]. Qed.
Lemma hex_of_inj alt v u : v < 2 ^ 128 -> u < 2 ^ 128 -> hex_of alt v = hex_of alt u -> v = u.
Proof. intros Hv Hu E. rewrite <- (hex_of_read alt v Hv), <- (hex_of_read alt u Hu). now rewrite E. Qed.

(** ** PadAdapter *)
Fixpoint nonl (s : string) : bool := match s with "" => true | String c s' => negb (Ascii.eqb c newline) && nonl s' end.
Lemma pad_false s t : nonl s = true -> pad_adapter false (s ++ t) = s ++ pad_adapter false t.
Proof.
  induction s as [|c s IH]; intros H; [reflexivity|]. cbn [nonl] in H. apply andb_true_iff in H as [Hc Hs].
  cbn [append pad_adapter]. destruct (Ascii.eqb c newline); [discriminate|]. cbn [append]. now rewrite IH.
Qed.
Lemma pad_line c s t : nonl (String c s) = true -> pad_adapter true (String c s ++ nl ++ t) = "    " ++ String c s ++ nl ++ pad_adapter true t.
Proof.
  intros H. cbn [nonl] in H. apply andb_true_iff in H as [Hc Hs]. change (String c s ++ nl ++ t) with (String c (s ++ nl ++ t)). cbn [pad_adapter].
  destruct (Ascii.eqb c newline); [discriminate|]. rewrite pad_false by assumption. reflexivity.
Qed.
Lemma nonl_app s t : nonl (s ++ t) = nonl s && nonl t.
Proof. induction s as [|c s IH]; [reflexivity|]. cbn. rewrite IH. now rewrite andb_assoc. Qed.
Lemma nonl_numeral al base n v : nonl al = true -> nonl (numeral al base n v) = true.
Proof.
  intros H. revert v. induction n as [|n IH]; intros v; [reflexivity|]. cbn [numeral]. rewrite nonl_app, IH. cbn [nonl andb]. rewrite andb_true_r.
  unfold nth_char. assert (G : forall s m c, nonl s = true -> String.get m s = Some c -> Ascii.eqb c newline = false).
  { induction s as [|a s IHs]; intros m c Hs; [discriminate|]. cbn [nonl] in Hs. apply andb_true_iff in Hs as [Ha Hs]. destruct m; cbn.
    - intros [= <-]. now destruct (Ascii.eqb a newline).
    - now apply IHs. }
  destruct (String.get _ al) eqn:E; [now rewrite (G _ _ _ H E)|reflexivity].
Qed.
Lemma nonl_hex alt v : nonl (hex_of alt v) = true. Proof. apply nonl_numeral. now destruct alt. Qed.
Lemma hex_cons alt v : exists c s, hex_of alt v = String c s.
Proof. pose proof (hex_of_length alt v). destruct (hex_of alt v); [discriminate|eauto]. Qed.
Local Opaque hex_of.
Lemma pad_hex alt v t : pad_adapter true (hex_of alt v ++ "," ++ nl ++ t) = "    " ++ hex_of alt v ++ "," ++ nl ++ pad_adapter true t.
Proof.
  destruct (hex_cons alt v) as (c & s & E). pose proof (nonl_hex alt v) as N1. rewrite E in *.
  replace (String c s ++ "," ++ nl ++ t) with (String c (s ++ ",") ++ nl ++ t) by (cbn; now rewrite sapp_assoc).
  rewrite pad_line; [cbn; now rewrite sapp_assoc|]. cbn [nonl] in *. rewrite nonl_app. cbn [nonl andb]. now rewrite andb_true_r.
Qed.

(** ** Layouts *)
Lemma entries_plain vs : entries false true (map (hex_of false) vs) = String.concat ", " (map (hex_of false) vs).
Proof.
  assert (G : forall vs, entries false false (map (hex_of false) vs) = match vs with [] => "" | _ => ", " ++ String.concat ", " (map (hex_of false) vs) end).
  { clear vs. induction vs as [|v vs IH]; [reflexivity|]. cbn [map entries]. rewrite IH, concat_cons, !sapp_assoc. destruct vs; reflexivity. }
  destruct vs as [|v vs]; [reflexivity|]. cbn [map entries]. rewrite G, concat_cons. cbn [append]. destruct vs; reflexivity.
Qed.
Definition pretty_lines (ind : string) (vs : list N) : string := String.concat "" (map (fun v => ind ++ hex_of true v ++ "," ++ line_break) vs).
Lemma pretty_cons ind v vs : pretty_lines ind (v :: vs) = ind ++ hex_of true v ++ "," ++ line_break ++ pretty_lines ind vs.
Proof. unfold pretty_lines. cbn [map]. rewrite concat_cons0, !sapp_assoc. reflexivity. Qed.
Lemma entries_pretty vs : vs <> [] -> entries true true (map (hex_of true) vs) = line_break ++ pretty_lines "    " vs.
Proof.
  assert (G : forall vs, entries true false (map (hex_of true) vs) = pretty_lines "    " vs).
  { clear vs. induction vs as [|v vs IH]; [reflexivity|]. cbn [map entries]. rewrite IH, pretty_cons.
    pose proof (pad_hex true v "") as P. cbn [pad_adapter] in P. rewrite !sapp_nil_r in P. rewrite P. rewrite !sapp_assoc. reflexivity. }
  destruct vs as [|v vs]; [congruence|]. intros _. cbn [map entries]. rewrite G, pretty_cons.
  pose proof (pad_hex true v "") as P. cbn [pad_adapter] in P. rewrite !sapp_nil_r in P. rewrite P. rewrite !sapp_assoc. reflexivity.
Qed.
Lemma pad_pretty vs t : pad_adapter true (pretty_lines "    " vs ++ t) = pretty_lines "        " vs ++ pad_adapter true t.
Proof.
  induction vs as [|v vs IH]; [reflexivity|]. rewrite !pretty_cons. rewrite !sapp_assoc.
  assert (X : forall u, pad_adapter true ("    " ++ hex_of true v ++ "," ++ line_break ++ u) = "        " ++ hex_of true v ++ "," ++ line_break ++ pad_adapter true u).
  { intros u. replace ("    " ++ hex_of true v ++ "," ++ line_break ++ u) with (String " " ("   " ++ hex_of true v ++ ",") ++ nl ++ u) by (cbn; now rewrite !sapp_assoc).
    rewrite pad_line; [cbn; now rewrite !sapp_assoc|]. cbn. rewrite nonl_app, nonl_hex. reflexivity. }
  rewrite X, IH. reflexivity.
Qed.
Lemma object_pretty vs : vs <> [] ->
  pad_adapter true ("round_keys" ++ ": " ++ ("[" ++ entries true true (map (hex_of true) vs) ++ "]") ++ "," ++ nl) =
  "    round_keys: [" ++ line_break ++ pretty_lines "        " vs ++ "    ]," ++ line_break.
Proof.
  intros H. rewrite entries_pretty by assumption.
  replace ("round_keys" ++ ": " ++ ("[" ++ (line_break ++ pretty_lines "    " vs) ++ "]") ++ "," ++ nl)
    with ("round_keys: [" ++ nl ++ pretty_lines "    " vs ++ "]," ++ nl) by (cbn; now rewrite !sapp_assoc).
  change ("round_keys: [") with (String "r" "ound_keys: [") at 1. rewrite pad_line by reflexivity. rewrite pad_pretty. reflexivity.
Qed.

(** ** Recovering keys *)
Lemma concat_sep_split sep l1 x l2 :
  exists p s, String.concat sep (l1 ++ x :: l2)%list = p ++ x ++ s /\
    String.length p = fold_right (fun y n => String.length y + String.length sep + n)%nat 0%nat l1.
Proof.
  induction l1 as [|y l1 IH]; cbn [app fold_right].
  - rewrite concat_cons. exists "", (match l2 with [] => "" | _ => sep ++ String.concat sep l2 end). split; reflexivity.
  - destruct IH as (p & s & E & L). rewrite concat_cons. exists (y ++ sep ++ p), s. split.
    + destruct (l1 ++ x :: l2)%list eqn:D; [now destruct l1|]. rewrite E, !sapp_assoc. reflexivity.
    + rewrite !slen_app, L. lia.
Qed.
Lemma stride {A} (f : A -> string) m (sep : string) l : (forall a, String.length (f a) = m) ->
  fold_right (fun y n => String.length y + String.length sep + n)%nat 0%nat (map f l) = ((m + String.length sep) * length l)%nat.
Proof. intros H. induction l as [|a l IH]; [cbn; lia|]. cbn [map fold_right length]. rewrite IH, H. lia. Qed.
Lemma split_nth {A} (l : list A) j d : (j < length l)%nat -> exists l1 l2, l = (l1 ++ nth j l d :: l2)%list /\ length l1 = j.
Proof.
  revert j. induction l as [|a l IH]; intros j H; cbn in H; [lia|]. destruct j as [|j].
  - exists [], l. split; reflexivity.
  - destruct (IH j ltac:(lia)) as (l1 & l2 & E & L). exists (a :: l1), l2. cbn [nth app length]. split; [now rewrite E at 1|now rewrite L].
Qed.
Lemma printed_key_ok alt name vs j : String.length name = 9%nat -> (j < length vs)%nat -> nth j vs 0 < 2 ^ 128 ->
  printed_key alt j (object_text alt name vs) = to_be 16 (nth j vs 0).
Proof.
  intros Hn Hj Hv. unfold printed_key. f_equal. rewrite <- (hex_of_read alt (nth j vs 0) Hv). f_equal.
  destruct (split_nth vs j 0 Hj) as (l1 & l2 & E & L). set (v := nth j vs 0) in *. rewrite E. unfold object_text. destruct alt.
  - set (g := fun v => "        " ++ hex_of true v ++ "," ++ line_break). rewrite map_app. cbn [map].
    destruct (concat_sep_split "" (map g l1) (g v) (map g l2)) as (p & s & Ep & Lp). rewrite Ep.
    assert (Hg : forall a, String.length (g a) = 42%nat) by (intros a; unfold g; rewrite !slen_app, hex_of_length; reflexivity).
    rewrite (stride g 42 "" l1 Hg), L in Lp. unfold g at 1.
    match goal with |- substring ?n 32 ?t = _ => assert (T : exists q r, t = q ++ hex_of true v ++ r /\ String.length q = n) end.
    { exists (name ++ " {" ++ line_break ++ "    round_keys: [" ++ line_break ++ p ++ "        "). eexists. split; [rewrite !sapp_assoc; reflexivity|].
      rewrite !slen_app, Hn, Lp. cbn. lia. }
    destruct T as (q & r & -> & Lq). rewrite <- Lq, <- (hex_of_length true v). apply substring_mid.
  - rewrite map_app. cbn [map].
    destruct (concat_sep_split ", " (map (hex_of false) l1) (hex_of false v) (map (hex_of false) l2)) as (p & s & Ep & Lp). rewrite Ep.
    rewrite (stride (hex_of false) 32 ", " l1 (hex_of_length false)), L in Lp.
    match goal with |- substring ?n 32 ?t = _ => assert (T : exists q r, t = q ++ hex_of false v ++ r /\ String.length q = n) end.
    { exists (name ++ " { round_keys: [" ++ p). eexists. split; [rewrite !sapp_assoc; reflexivity|].
      rewrite !slen_app, Hn, Lp. cbn. lia. }
    destruct T as (q & r & -> & Lq). rewrite <- Lq, <- (hex_of_length false v). apply substring_mid.
Qed.
