(** C54: printing to any sink. *)
From Coq Require Import Lia Arith String Ascii.
From Verif Require Import Word Interface Fips197 Spec_Api Spec_Reach Spec_Cfg Spec_User Model_Lib Model_Cfg Model_Fmt Spec_Fmt Spec_Sink Model_Sink.
From Verif Require Import Proof_Word Proof_Fips Proof_Ok Proof_Sem Proof_Lib Proof_Reach Proof_Inst Proof_Main Proof_Sink Samples.
From Verif Require Props_Fmt Props_Total.
Open Scope string_scope.
Open Scope N_scope.

Lemma u128_bytes i x v : to_u128 (i_ops1 i) x = Ret v -> has_bytes i x.
Proof. unfold to_u128, has_bytes. destruct (to_bytes (i_ops1 i) x) as [b| |]; [intros _; now exists b|intros H; discriminate H..]. Qed.
Lemma agrees_as p t s : agrees p t -> t = Ret s -> prints_as p s.
Proof. intros (u & -> & P) E. apply Props_Fmt.Ret_inj in E. now rewrite <- E. Qed.

(** A block of value [v] in each of the five formats, with or without '#', any width *)
Theorem C54_blocks_to_any_sink : forall c i x v alt width,
  impl_of c = Some i -> reach1 i x -> to_u128 (i_ops1 i) x = Ret v ->
  let f := FOpts alt width in
  prints_as (put_lower_hex i x f) ((if alt then "0x" else "") ++ numeral "0123456789abcdef" 16 32 v) /\
  prints_as (put_upper_hex i x f) ((if alt then "0X" else "") ++ numeral "0123456789ABCDEF" 16 32 v) /\
  prints_as (put_binary i x f) ((if alt then "0b" else "") ++ numeral "01" 2 128 v) /\
  prints_as (put_display i x f) (numeral (if alt then "0123456789ABCDEF" else "0123456789abcdef") 16 32 v) /\
  prints_as (put_debug i x f) (numeral (if alt then "0123456789ABCDEF" else "0123456789abcdef") 16 32 v).
Proof.
  intros c i x v alt w E Hx Hv f. pose proof (u128_bytes i x v Hv) as B. destruct (Props_Fmt.C23_printed_forms c i x v alt w E Hx Hv) as (L & U & N & D & G).
  refine (conj _ (conj _ (conj _ (conj _ _)))).
  - exact (agrees_as _ _ _ (as_lower i x f B) L).
  - exact (agrees_as _ _ _ (as_upper i x f B) U).
  - exact (agrees_as _ _ _ (as_binary i x f B) N).
  - exact (agrees_as _ _ _ (as_display i x f B) D).
  - refine (agrees_as _ _ _ (as_debug i x f B) _). etransitivity; [exact G|exact D].
Qed.
Print Assumptions C54_blocks_to_any_sink.
(** [write!(f, "{}", x)] with [f] a 31-byte buffer fails, with a 32-byte buffer succeeds. *)
Example C54_blocks_to_any_sink_case : forall c k, In c samples -> with_values c k (fun i u => exists v s,
  to_u128 (i_ops1 i) (u_x u) = Ret v /\ put_display i (u_x u) fresh (buffer 31) "" = Ret (s, false) /\
  put_display i (u_x u) fresh (buffer 32) "" = Ret (numeral "0123456789abcdef" 16 32 v, true)).
Proof.
  intros c k H. apply case_any; [exact H|]. intros i u E. destruct (Props_Total.C26_u128_calls_return c i E) as (_ & A). destruct (A (u_x u)) as (v & B & _); auto with cases. exists v.
  destruct (C54_blocks_to_any_sink c i (u_x u) v false None) as (_ & _ & _ & P & _); auto with cases. cbv zeta in P. change (FOpts false None) with fresh in P.
  assert (L : String.length (numeral "0123456789abcdef" 16 32 v) = 32%nat) by (apply Props_Fmt.C23_digits; discriminate). revert L P. generalize (numeral "0123456789abcdef" 16 32 v). intros t L (ps & <- & P).
  exists (fst (feed (buffer 31) "" ps)). split; [exact B|]. rewrite !P. destruct (buffer_feed 31 ps "") as [_ O]; [cbn; lia|]. destruct (buffer_feed 32 ps "") as [_ O']; [cbn; lia|].
  rewrite L in O, O'. cbn [String.length] in O, O'. split.
  - destruct (feed (buffer 31) "" ps) as [s [|]]; [|reflexivity]. cbn [snd] in O. exfalso. pose proof (proj1 O eq_refl). lia.
  - assert (T : snd (feed (buffer 32) "" ps) = true) by (apply O'; lia). unfold buffer in T |- *. destruct (recorder_feed (fun s p => Nat.leb (String.length s + String.length (piece_text p)) 32) ps "") as (a & b & X & Y & Z).
    apply Z in T. subst b. rewrite app_nil_r in X. subst a. destruct Z as [_ Z]. specialize (Z eq_refl). rewrite (surjective_pairing (feed _ _ ps)). f_equal. f_equal; [exact Y|exact Z].
Qed.

(** The wide blocks and the key objects *)
Theorem C54_wide_and_key_objects_to_any_sink : forall c i k alt width, impl_of c = Some i ->
  let f := FOpts alt width in
  let value x v := to_u128 (i_ops1 i) x = Ret v in
  (forall x a b va vb, reach2 i x -> x2_to_pair i x = (a, b) -> value a va -> value b vb ->
     prints_as (put_debug_x2 i x f) (tuple_text alt [va; vb])) /\
  (forall x a b c d va vb vc vd, reach4 i x -> x4_to_quad i x = (a, b, c, d) -> value a va -> value b vb -> value c vc -> value d vd ->
     prints_as (put_debug_x4 i x f) (tuple_text alt [va; vb; vc; vd])) /\
  (forall e vs, reachE i k e -> Forall2 value (enc_keys e) vs -> prints_as (put_debug_enc i k e f) (object_text alt (object_name true k) vs)) /\
  (forall d vs, reachD i k d -> Forall2 value (dec_keys d) vs -> prints_as (put_debug_dec i k d f) (object_text alt (object_name false k) vs)).
Proof.
  intros c i k alt w E f value. destruct (Props_Fmt.C24_wide_debug c i alt w E) as (W2 & W4). destruct (Props_Fmt.C24_key_object_debug c i k alt w E) as (KE & KD).
  assert (Q : forall xs vs, Forall2 value xs vs -> forall x, In x xs -> agrees (put_debug i x f) (fmt_debug i x f)).
  { intros xs vs F. induction F as [|x v xs vs V F IH]; intros y H; [destruct H|]. destruct H as [<-|H]; [|now apply IH]. apply as_debug. exact (u128_bytes i x v V). }
  refine (conj _ (conj _ (conj _ _))).
  - intros x a b va vb Hx X Ha Hb. refine (agrees_as _ _ _ _ (W2 x a b va vb Hx X Ha Hb)). unfold put_debug_x2, fmt_debug_x2. rewrite X.
    apply (as_tuple (put_debug i) (fmt_debug i) [a; b] f); [intros H; discriminate H|]. apply (Q [a; b] [va; vb]). now repeat constructor.
  - intros x a b c' d va vb vc vd Hx X Ha Hb Hc Hd. refine (agrees_as _ _ _ _ (W4 x a b c' d va vb vc vd Hx X Ha Hb Hc Hd)). unfold put_debug_x4, fmt_debug_x4. rewrite X.
    apply (as_tuple (put_debug i) (fmt_debug i) [a; b; c'; d] f); [intros H; discriminate H|]. apply (Q [a; b; c'; d] [va; vb; vc; vd]). now repeat constructor.
  - intros e vs He F. refine (agrees_as _ _ _ _ (KE e vs He F)). unfold put_debug_enc, fmt_debug_enc. apply as_struct1. apply as_array; [|now apply (Q _ vs)].
    intros Z. destruct (inst_any c i E) as (s & f1 & f2 & f4 & _ & _ & S1 & R). unreach R S1. cbn [enc_keys] in Z. apply map_eq_nil in Z. exact (Props_Fmt.good_ne k _ G Z).
  - intros e vs He F. refine (agrees_as _ _ _ _ (KD e vs He F)). unfold put_debug_dec, fmt_debug_dec. apply as_struct1. apply as_array; [|now apply (Q _ vs)].
    intros Z. destruct (inst_any c i E) as (s & f1 & f2 & f4 & _ & _ & S1 & R). unreach R S1. cbn [dec_keys] in Z. apply map_eq_nil in Z. exact (Props_Fmt.good_ne k _ G Z).
Qed.
Print Assumptions C54_wide_and_key_objects_to_any_sink.
Example C54_wide_and_key_objects_case : forall c k, In c samples -> with_values c k (fun i u =>
  exists vs, prints_as (put_debug_enc i k (u_enc u) (FOpts true None)) (object_text true (object_name true k) vs)).
Proof.
  intros c k H. apply case_any; [exact H|]. intros i u E. destruct (Props_Total.C26_u128_calls_return c i E) as (_ & A).
  assert (F : exists vs, Forall2 (fun x v => to_u128 (i_ops1 i) x = Ret v) (enc_keys (u_enc u)) vs).
  { pose proof (u_reachE _ _ u) as He. destruct (inst_any c i E) as (s & f1 & f2 & f4 & _ & _ & S1 & R). unreach R S1. cbn [enc_keys]. destruct G as [_ G]. clear - G A R. pose proof (R_d1 _ _ _ _ _ R) as D.
    induction G as [|b rks B G IH]; [exists []; constructor|]. destruct IH as (vs & F). exists (of_be b :: vs). cbn [map]. constructor; [now apply (Props_Fmt.to_u128_f i f1 D)|exact F]. }
  destruct F as (vs & F). exists vs. destruct (C54_wide_and_key_objects_to_any_sink c i k true None E) as (_ & _ & Q & _). apply Q; auto with cases.
Qed.
(** The pretty form of a pair through a 12-byte buffer: cut off inside the second entry's padding *)
Example C54_cut_off : let v s := fun _ : fopts => put (Str s) in
  put_tuple [v "ab"; v "cd"] (FOpts true None) (buffer 12) "" = Ret ("(" ++ line_break ++ "    ab," ++ line_break, false) /\
  put_tuple [v "ab"; v "cd"] (FOpts false None) (buffer 12) "" = Ret ("(ab, cd)", true).
Proof. split; vm_compute; reflexivity. Qed.

(** What that means for a sink that keeps what it accepts: it ends with a prefix of the text, and with all of it if Ok is returned ... *)
Theorem C54_no_text_lost_or_invented : forall p t allow s, prints_as p t -> exists got rest ok,
  p (recorder allow) s = Ret (s ++ got, ok) /\ t = got ++ rest /\ (ok = true -> rest = "").
Proof.
  intros p t allow s (ps & <- & P). destruct (recorder_feed allow ps s) as (a & b & E & F & O). exists (text a), (text b), (snd (feed (recorder allow) s ps)).
  split; [rewrite P, <- F; now destruct (feed (recorder allow) s ps)|]. split; [rewrite E; apply text_app|]. intros H. apply O in H. now rewrite H.
Qed.
Print Assumptions C54_no_text_lost_or_invented.
(** ... a [String] gets all of it and there is no error; a buffer of [n] bytes never overflows, and there is an error exactly when the text does not fit. *)
Theorem C54_strings_and_buffers : forall p t, prints_as p t ->
  (forall s, p growing s = Ret (s ++ t, true)) /\
  (forall n s, (String.length s <= n)%nat -> exists s' ok, p (buffer n) s = Ret (s', ok) /\
     (String.length s' <= n)%nat /\ (ok = true <-> (String.length s + String.length t <= n)%nat)).
Proof.
  intros p t (ps & <- & P). split; [intros s; now rewrite P, growing_feed|]. intros n s L. destruct (buffer_feed n ps s L) as [A B].
  exists (fst (feed (buffer n) s ps)), (snd (feed (buffer n) s ps)). split; [rewrite P; now destruct (feed (buffer n) s ps)|]. now split.
Qed.
Print Assumptions C54_strings_and_buffers.
(** Both apply to every block of every sample build; the policy of the first may be anything, here "no more than ten writes' worth". *)
Example C54_strings_and_buffers_case : forall c k, In c samples -> with_values c k (fun i u => exists v,
  to_u128 (i_ops1 i) (u_x u) = Ret v /\ put_lower_hex i (u_x u) (FOpts true None) growing "x = " = Ret ("x = " ++ "0x" ++ numeral "0123456789abcdef" 16 32 v, true) /\
  forall allow, exists got rest ok, put_lower_hex i (u_x u) (FOpts true None) (recorder allow) "" = Ret (got, ok) /\ "0x" ++ numeral "0123456789abcdef" 16 32 v = got ++ rest).
Proof.
  intros c k H. apply case_any; [exact H|]. intros i u E. destruct (Props_Total.C26_u128_calls_return c i E) as (_ & A). destruct (A (u_x u)) as (v & B & _); auto with cases. exists v. split; [exact B|].
  destruct (C54_blocks_to_any_sink c i (u_x u) v true None) as (P & _); auto with cases. cbv zeta in P. split; [exact (proj1 (C54_strings_and_buffers _ _ P) "x = ")|].
  intros allow. destruct (C54_no_text_lost_or_invented _ _ allow "" P) as (g & r & ok & E1 & E2 & _). exists g, r, ok. split; [exact E1|exact E2].
Qed.
