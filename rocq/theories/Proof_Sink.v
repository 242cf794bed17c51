(** What the printing code sends to a sink. *)
From Coq Require Import Arith String Ascii Lia.
From Verif Require Import Word Interface Fips197 Model_Lib Model_Fmt Spec_Sink Model_Sink.
Open Scope string_scope.

Definition prints (p : printer) (ps : list piece) : Prop := forall k s, p k s = Ret (feed k s ps).
Lemma feed_app k s a b : feed k s (a ++ b) = let '(s', ok) := feed k s a in if ok then feed k s' b else (s', false).
Proof.
  revert s. induction a as [|p a IH]; intros s; [reflexivity|]. cbn [app feed]. destruct (write k s p) as [s' [|]]; [apply IH|reflexivity].
Qed.
Lemma str_assoc a b c : (a ++ b) ++ c = a ++ (b ++ c).
Proof. induction a as [|x a IH]; [reflexivity|]. cbn [String.append]. now rewrite IH. Qed.
Lemma str_nil_r a : a ++ "" = a.
Proof. induction a as [|x a IH]; [reflexivity|]. cbn [String.append]. now rewrite IH. Qed.
Lemma text_app a b : text (a ++ b)%list = text a ++ text b.
Proof. induction a as [|p a IH]; [reflexivity|]. cbn [app text]. now rewrite IH, str_assoc. Qed.
Lemma prints_put p : prints (put p) [p].
Proof. intros k s. unfold put. cbn [feed]. destruct (write k s p) as [s' [|]]; reflexivity. Qed.
Lemma prints_done : prints done []. Proof. intros k s. reflexivity. Qed.
Lemma prints_then p q a b : prints p a -> prints q b -> prints (then_ p q) (a ++ b).
Proof.
  intros P Q k s. unfold then_. rewrite P. cbn [bind]. rewrite feed_app. destruct (feed k s a) as [s' [|]]; cbn [fst snd]; [apply Q|reflexivity].
Qed.
Lemma prints_ext p q a : (forall k s, p k s = q k s) -> prints p a -> prints q a.
Proof. intros E P k s. now rewrite <- E. Qed.
Lemma prints_in_order l ps : Forall2 prints l ps -> prints (in_order l) (concat ps).
Proof. induction 1 as [|p a l ps P _ IH]; [apply prints_done|]. cbn [in_order concat]. now apply prints_then. Qed.

(** ** The PadAdapter *)
Fixpoint pad_line_pieces (b : bool) (ls : list string) : list piece :=
  match ls with [] => [] | l :: r => (if b then [Str "    "] else []) ++ Str l :: pad_line_pieces (ends_line l) r end.
Fixpoint last_flag (b : bool) (ls : list string) : bool := match ls with [] => b | l :: r => last_flag (ends_line l) r end.
Definition pad_piece (b : bool) (p : piece) : list piece :=
  match p with Str t => pad_line_pieces b (lines t) | Chr c => (if b then [Str "    "] else []) ++ [Chr c] end.
Definition flag_after (b : bool) (p : piece) : bool := match p with Str t => last_flag b (lines t) | Chr c => Ascii.eqb c newline end.
Fixpoint pad_pieces (b : bool) (ps : list piece) : list piece := match ps with [] => [] | p :: r => pad_piece b p ++ pad_pieces (flag_after b p) r end.

Lemma pad_lines_feed k ls : forall s b, exists b', pad_lines k s b ls = ((fst (feed k s (pad_line_pieces b ls)), b'), snd (feed k s (pad_line_pieces b ls))) /\
  (snd (feed k s (pad_line_pieces b ls)) = true -> b' = last_flag b ls).
Proof.
  induction ls as [|l ls IH]; intros s b; [now exists b|]. cbn [pad_lines pad_line_pieces last_flag]. rewrite feed_app.
  assert (E : (if b then write k s (Str "    ") else (s, true)) = feed k s (if b then [Str "    "] else [])) by (destruct b; cbn [feed]; [destruct (write k s (Str "    ")) as [s' [|]]; reflexivity|reflexivity]).
  rewrite E. destruct (feed k s (if b then [Str "    "] else [])) as [s1 [|]]; [|exists b; split; [reflexivity|intros H; discriminate H]].
  cbn [feed]. destruct (write k s1 (Str l)) as [s2 [|]]; [|exists (ends_line l); split; [reflexivity|intros H; discriminate H]]. apply IH.
Qed.
Lemma pad_write_feed k s b p : exists b', pad_write k (s, b) p = ((fst (feed k s (pad_piece b p)), b'), snd (feed k s (pad_piece b p))) /\
  (snd (feed k s (pad_piece b p)) = true -> b' = flag_after b p).
Proof.
  destruct p as [t|c]; cbn [pad_write fst snd pad_piece flag_after]; [apply pad_lines_feed|]. rewrite feed_app.
  assert (E : (if b then write k s (Str "    ") else (s, true)) = feed k s (if b then [Str "    "] else [])) by (destruct b; cbn [feed]; [destruct (write k s (Str "    ")) as [s' [|]]; reflexivity|reflexivity]).
  rewrite E. destruct (feed k s (if b then [Str "    "] else [])) as [s1 [|]]; [|exists b; split; [reflexivity|intros H; discriminate H]].
  cbn [feed]. destruct (write k s1 (Chr c)) as [s2 [|]]; eexists; split; reflexivity.
Qed.
Lemma padded_feed k ps : forall s b, (fst (fst (feed (padded k) (s, b) ps)), snd (feed (padded k) (s, b) ps)) = feed k s (pad_pieces b ps).
Proof.
  induction ps as [|p ps IH]; intros s b; [reflexivity|]. cbn [feed pad_pieces]. rewrite feed_app. change (write (padded k) (s, b) p) with (pad_write k (s, b) p).
  destruct (pad_write_feed k s b p) as (b' & E & F). rewrite E. destruct (feed k s (pad_piece b p)) as [s' [|]]; cbn [fst snd] in *; [|reflexivity]. rewrite (F eq_refl). apply IH.
Qed.
Lemma prints_in_pad p a : prints p a -> prints (in_pad p) (pad_pieces true a).
Proof. intros P k s. unfold in_pad. rewrite P. cbn [bind]. now rewrite padded_feed. Qed.
(** its text *)
Fixpoint ends (b : bool) (s : string) : bool := match s with EmptyString => b | String c s' => ends (Ascii.eqb c newline) s' end.
Lemma pad_app s t : forall b, pad_adapter b (s ++ t) = pad_adapter b s ++ pad_adapter (ends b s) t.
Proof. induction s as [|c s IH]; intros b; [reflexivity|]. cbn [String.append pad_adapter ends]. rewrite IH. now rewrite !str_assoc. Qed.
Lemma ends_app s t : forall b, ends b (s ++ t) = ends (ends b s) t.
Proof. induction s as [|c s IH]; intros b; [reflexivity|]. cbn [String.append ends]. apply IH. Qed.
Lemma lines_concat s : fold_right String.append "" (lines s) = s.
Proof.
  induction s as [|c s IH]; [reflexivity|]. cbn [lines]. destruct (Ascii.eqb c newline); [cbn [fold_right]; now rewrite IH|].
  destruct (lines s) as [|l r]; cbn [fold_right] in *; [now rewrite <- IH|]. rewrite <- IH. reflexivity.
Qed.
(** a line: no break but at the end, not empty *)
Fixpoint is_line (s : string) : Prop := match s with EmptyString => False | String c "" => True | String c s' => Ascii.eqb c newline = false /\ is_line s' end.
Lemma lines_are s : Forall is_line (lines s).
Proof.
  induction s as [|c s IH]; [constructor|]. cbn [lines]. destruct (Ascii.eqb c newline) eqn:E; [constructor; [exact I|exact IH]|].
  destruct IH as [|l r L IH]; [repeat constructor|]. constructor; [|exact IH]. destruct l; [destruct L|]. split; assumption.
Qed.
Lemma pad_line b l : is_line l -> pad_adapter b l = (if b then "    " else "") ++ l /\ ends b l = ends_line l.
Proof.
  revert b. induction l as [|c l IH]; intros b H; [destruct H|]. destruct l as [|c' l].
  - split; reflexivity.
  - destruct H as [N H]. destruct (IH false H) as [E1 E2]. change (pad_adapter b (String c (String c' l))) with ((if b then "    " else "") ++ String c (pad_adapter (Ascii.eqb c newline) (String c' l))).
    change (ends b (String c (String c' l))) with (ends (Ascii.eqb c newline) (String c' l)). rewrite N, E1. split; [reflexivity|exact E2].
Qed.
Lemma pad_lines_text ls : Forall is_line ls -> forall b, text (pad_line_pieces b ls) = pad_adapter b (fold_right String.append "" ls) /\ last_flag b ls = ends b (fold_right String.append "" ls).
Proof.
  induction 1 as [|l ls L _ IH]; intros b; [split; reflexivity|]. cbn [pad_line_pieces fold_right last_flag]. rewrite text_app, pad_app, ends_app. destruct (pad_line b l L) as [E1 E2]. rewrite E1, E2.
  destruct (IH (ends_line l)) as [F1 F2]. cbn [text piece_text]. rewrite F1, F2. split; [|reflexivity]. rewrite str_assoc. destruct b; reflexivity.
Qed.
Lemma pad_piece_text b p : text (pad_piece b p) = pad_adapter b (piece_text p) /\ flag_after b p = ends b (piece_text p).
Proof.
  destruct p as [t|c].
  - cbn [pad_piece flag_after piece_text]. destruct (pad_lines_text _ (lines_are t) b) as [E F]. now rewrite lines_concat in E, F.
  - cbn [pad_piece flag_after piece_text pad_adapter ends]. split; [|reflexivity]. rewrite text_app. destruct b; reflexivity.
Qed.
Lemma pad_pieces_text ps : forall b, text (pad_pieces b ps) = pad_adapter b (text ps).
Proof.
  induction ps as [|p ps IH]; intros b; [reflexivity|]. cbn [pad_pieces text]. rewrite text_app, IH, pad_app. destruct (pad_piece_text b p) as [-> ->]. reflexivity.
Qed.

(** ** [prints_as] *)
Lemma as_put s : prints_as (put (Str s)) s.
Proof. exists [Str s]. split; [cbn; apply str_nil_r|apply prints_put]. Qed.
Lemma as_chr c : prints_as (put (Chr c)) (String c "").
Proof. exists [Chr c]. split; [reflexivity|apply prints_put]. Qed.
Lemma as_done : prints_as done "". Proof. exists []. split; [reflexivity|apply prints_done]. Qed.
Lemma as_then p q a b : prints_as p a -> prints_as q b -> prints_as (then_ p q) (a ++ b).
Proof. intros (ps & <- & P) (qs & <- & Q). exists (ps ++ qs)%list. split; [apply text_app|now apply prints_then]. Qed.
Lemma as_in_order l ts : Forall2 prints_as l ts -> prints_as (in_order l) (fold_right String.append "" ts).
Proof. induction 1 as [|p t l ts P _ IH]; [apply as_done|]. cbn [in_order fold_right]. now apply as_then. Qed.
Lemma as_pad p a : prints_as p a -> prints_as (in_pad p) (pad_adapter true a).
Proof. intros (ps & <- & P). exists (pad_pieces true ps). split; [apply pad_pieces_text|now apply prints_in_pad]. Qed.
Lemma as_text p a b : a = b -> prints_as p a -> prints_as p b. Proof. now intros ->. Qed.
Lemma as_u8 width base digit n : prints_as (put_u8_zero_padded width base digit n) (fmt_u8_zero_padded width base digit n).
Proof.
  unfold put_u8_zero_padded, fmt_u8_zero_padded. apply as_then; [|apply as_put].
  assert (Q : forall m, prints_as (in_order (repeat (put (Chr "0")) m)) (repeat_char "0" m)) by (induction m as [|m IH]; [apply as_done|]; cbn [repeat in_order repeat_char]; apply (as_then _ _ "0" _ (as_chr "0") IH)). apply Q.
Qed.
Lemma concat_nil l : String.concat "" l = fold_right String.append "" l.
Proof. induction l as [|a l IH]; [reflexivity|]. cbn [String.concat fold_right]. destruct l; [cbn; now rewrite str_nil_r|]. rewrite IH. reflexivity. Qed.

(** The pieces of a printed value add up to the text of Model_Fmt. *)
Definition agrees (p : printer) (t : outcome string) : Prop := exists s, t = Ret s /\ prints_as p s.
Section Agree.
  Context (i : impl) (shown : forall x : T1 i, outcome (list N)).
  Definition has_bytes (x : T1 i) : Prop := exists b, to_bytes (i_ops1 i) x = Ret b.
  Lemma as_bytes prefix width base digit x f : has_bytes x ->
    agrees (put_bytes i prefix width base digit x f) (b <- to_bytes (i_ops1 i) x ;; Ret ((if f_alternate f then prefix else "") ++ concat_map (fmt_u8_zero_padded width base digit) b)).
  Proof.
    intros [b B]. rewrite B. cbn [bind]. eexists. split; [reflexivity|]. unfold put_bytes. rewrite B. apply as_then; [destruct (f_alternate f); [apply as_put|apply as_done]|].
    unfold concat_map. rewrite concat_nil. destruct (as_in_order (map (put_u8_zero_padded width base digit) b) (map (fmt_u8_zero_padded width base digit) b)) as (ps & E & P).
    - clear B. induction b; cbn [map]; constructor; [apply as_u8|assumption].
    - exists ps. split; [exact E|]. intros k s. cbn [bind]. apply P.
  Qed.
  Lemma as_binary x f : has_bytes x -> agrees (put_binary i x f) (fmt_binary i x f). Proof. apply as_bytes. Qed.
  Lemma as_lower x f : has_bytes x -> agrees (put_lower_hex i x f) (fmt_lower_hex i x f). Proof. apply as_bytes. Qed.
  Lemma as_upper x f : has_bytes x -> agrees (put_upper_hex i x f) (fmt_upper_hex i x f). Proof. apply as_bytes. Qed.
  Lemma as_display x f : has_bytes x -> agrees (put_display i x f) (fmt_display i x f).
  Proof. intros H. unfold put_display, fmt_display. destruct (f_alternate f); [now apply as_upper|now apply as_lower]. Qed.
  Lemma as_debug x f : has_bytes x -> agrees (put_debug i x f) (fmt_debug i x f). Proof. apply as_display. Qed.

  Lemma all_agree {A} (pr : A -> fopts -> printer) (tx : A -> fopts -> outcome string) l f : (forall x, In x l -> agrees (pr x f) (tx x f)) ->
    exists ts, all_ret (map (fun g => g f) (map tx l)) = Ret ts /\ Forall2 prints_as (map (fun x => pr x f) l) ts.
  Proof.
    induction l as [|x l IH]; intros H; [exists []; split; [reflexivity|constructor]|]. destruct IH as (ts & E & F); [intros y Hy; apply H; now right|]. destruct (H x (or_introl eq_refl)) as (t & Et & Pt).
    exists (t :: ts). cbn [map all_ret]. rewrite Et. cbn [bind]. rewrite E. split; [reflexivity|]. now constructor.
  Qed.
  (** entries of tuples and lists *)
  Lemma as_rest (alt : bool) (sep : printer -> printer) ls ts :
    (forall p t, prints_as p t -> prints_as (sep p) (if alt then pad_adapter true (t ++ "," ++ nl) else ", " ++ t)) ->
    Forall2 prints_as ls ts -> prints_as (in_order (map sep ls)) (entries alt false ts).
  Proof.
    intros H F. induction F as [|p t ls ts P F IH]; [apply as_done|]. cbn [map in_order entries]. apply as_then; [|exact IH]. specialize (H p t P). destruct alt; exact H.
  Qed.
  Lemma as_tuple {A} (pr : A -> fopts -> printer) (tx : A -> fopts -> outcome string) l f : l <> [] -> (forall x, In x l -> agrees (pr x f) (tx x f)) ->
    agrees (put_tuple (map pr l) f) (debug_tuple (map tx l) f).
  Proof.
    intros N H. destruct (all_agree pr tx l f H) as (ts & E & F). unfold debug_tuple. rewrite E. cbn [bind]. eexists. split; [reflexivity|]. unfold put_tuple. cbv zeta.
    destruct l as [|x l]; [contradiction|]. cbn [map] in *. inversion F as [|p t ps ts' P F' E1 E2]. subst ts. cbn [entries in_order].
    apply (as_text _ ("" ++ ((if f_alternate f then ("(" ++ nl) ++ pad_adapter true (t ++ "," ++ nl) else "(" ++ t) ++ entries (f_alternate f) false ts') ++ ")")).
    { destruct (f_alternate f); cbn [String.append]; rewrite ?str_assoc; reflexivity. }
    apply as_then; [apply as_put|]. apply as_then; [|apply as_put]. apply as_then.
    - destruct (f_alternate f); (apply as_then; [apply as_put|]); [|exact P]. apply as_pad. apply as_then; [exact P|apply as_put].
    - rewrite map_map. rewrite <- (map_map (fun x => pr x f) (fun p => if f_alternate f then then_ done (in_pad (then_ p (put (Str ("," ++ nl))))) else then_ (put (Str ", ")) p)).
      apply as_rest; [|exact F']. intros q u Q. destruct (f_alternate f).
      + apply (as_then _ _ "" _ as_done). apply as_pad. apply as_then; [exact Q|apply as_put].
      + apply as_then; [apply as_put|exact Q].
  Qed.
  Lemma as_array {A} (pr : A -> fopts -> printer) (tx : A -> fopts -> outcome string) l f : l <> [] -> (forall x, In x l -> agrees (pr x f) (tx x f)) ->
    agrees (put_array (map pr l) f) (debug_array (map tx l) f).
  Proof.
    intros N H. destruct (all_agree pr tx l f H) as (ts & E & F). unfold debug_array. rewrite E. cbn [bind]. eexists. split; [reflexivity|]. unfold put_array. cbv zeta.
    destruct l as [|x l]; [contradiction|]. cbn [map] in *. inversion F as [|p t ps ts' P F' E1 E2]. subst ts. cbn [entries in_order].
    apply (as_text _ ("[" ++ ((if f_alternate f then nl ++ pad_adapter true (t ++ "," ++ nl) else "" ++ t) ++ entries (f_alternate f) false ts') ++ "]")).
    { destruct (f_alternate f); cbn [String.append]; rewrite ?str_assoc; reflexivity. }
    apply as_then; [apply as_put|]. apply as_then; [|apply as_put]. apply as_then.
    - destruct (f_alternate f).
      + apply as_then; [apply as_put|]. apply as_pad. apply as_then; [exact P|apply as_put].
      + apply as_then; [apply as_done|exact P].
    - rewrite map_map. rewrite <- (map_map (fun x => pr x f) (fun p => if f_alternate f then then_ done (in_pad (then_ p (put (Str ("," ++ nl))))) else then_ (put (Str ", ")) p)).
      apply as_rest; [|exact F']. intros q u Q. destruct (f_alternate f).
      + apply (as_then _ _ "" _ as_done). apply as_pad. apply as_then; [exact Q|apply as_put].
      + apply as_then; [apply as_put|exact Q].
  Qed.
  Lemma as_struct1 name field v tv f : agrees (v f) (tv f) -> agrees (put_struct1 name field v f) (debug_struct1 name field tv f).
  Proof.
    intros (t & E & P). unfold debug_struct1. rewrite E. cbn [bind]. eexists. split; [reflexivity|]. unfold put_struct1. destruct (f_alternate f).
    - apply (as_text _ (name ++ (" {" ++ nl) ++ pad_adapter true (fold_right String.append "" [field; ": "; t; "," ++ nl]) ++ "}")).
      { rewrite ?str_assoc. cbn [fold_right]. rewrite str_nil_r. reflexivity. }
      apply as_then; [apply as_put|]. apply as_then; [apply as_put|]. apply as_then; [|apply as_put]. apply as_pad. apply as_in_order. repeat constructor; (apply as_put || exact P).
    - apply (as_text _ (name ++ fold_right String.append "" [" { "; field; ": "; t; " }"])); [cbn [fold_right]; rewrite ?str_nil_r; reflexivity|].
      apply as_then; [apply as_put|]. apply as_in_order. repeat constructor; (apply as_put || exact P).
  Qed.
End Agree.

(** ** Sinks *)
Lemma recorder_write allow (s : string) p : write (recorder allow) s p = if allow s p then (s ++ piece_text p, true) else (s, false).
Proof. reflexivity. Qed.
Lemma recorder_feed allow ps : forall s : string, exists a b, (ps = a ++ b)%list /\ fst (feed (recorder allow) s ps) = s ++ text a /\ (snd (feed (recorder allow) s ps) = true <-> b = []).
Proof.
  induction ps as [|p ps IH]; intros s; [exists [], []; cbn; rewrite str_nil_r; now repeat split|]. cbn [feed]. rewrite recorder_write. destruct (allow s p) eqn:A.
  - destruct (IH (s ++ piece_text p)) as (a & b & E & T & O). exists (p :: a), b. split; [now rewrite E|]. cbn [text]. rewrite <- str_assoc. split; [exact T|exact O].
  - exists [], (p :: ps). cbn [app fst snd text]. rewrite str_nil_r. repeat split; intros H; discriminate H.
Qed.
Lemma str_len a b : String.length (a ++ b) = (String.length a + String.length b)%nat.
Proof. induction a as [|x a IH]; [reflexivity|]. cbn [String.append String.length]. rewrite IH. lia. Qed.
Lemma growing_feed ps : forall s : string, feed growing s ps = (s ++ text ps, true).
Proof. induction ps as [|p ps IH]; intros s; [cbn; now rewrite str_nil_r|]. cbn [feed text]. change (write growing s p) with (s ++ piece_text p, true). cbv iota beta. rewrite IH. now rewrite str_assoc. Qed.
Lemma buffer_feed n ps : forall s : string, (String.length s <= n)%nat ->
  (String.length (fst (feed (buffer n) s ps)) <= n)%nat /\ (snd (feed (buffer n) s ps) = true <-> (String.length s + String.length (text ps) <= n)%nat).
Proof.
  induction ps as [|p ps IH]; intros s L; [cbn; split; [exact L|]; split; intros; [lia|reflexivity]|]. cbn [feed text]. change (write (buffer n) s p) with (if Nat.leb (String.length s + String.length (piece_text p)) n then (s ++ piece_text p, true) else (s, false)). rewrite str_len.
  destruct (Nat.leb_spec (String.length s + String.length (piece_text p)) n) as [H|H].
  - destruct (IH (s ++ piece_text p)) as [A B]; [rewrite str_len; lia|]. split; [exact A|]. etransitivity; [exact B|]. rewrite str_len. split; lia.
  - cbn [fst snd]. split; [exact L|]. split; [intros Q; discriminate Q|lia].
Qed.
