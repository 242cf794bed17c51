(** Layouts without padding, their bytes, and the parts of a value in any permitted layout. *)
From Coq Require Import Lia Arith.
From Verif Require Import Word Proof_Word Spec_Layout.
Open Scope nat_scope.

Lemma skipn_skipn {A} a b (l : list A) : skipn a (skipn b l) = skipn (a + b) l.
Proof. revert l. induction b as [|b IH]; intros l; [now rewrite Nat.add_0_r|]. rewrite Nat.add_succ_r. destruct l as [|x l]; [now rewrite !skipn_nil|]. cbn [skipn]. apply IH. Qed.
(** ** Packed types: parts of sizes [ss], one after the other *)
Fixpoint from (o : nat) (ss : list nat) : list (nat * nat) := match ss with [] => [] | s :: r => (o, s) :: from (o + s) r end.
Definition total (ss : list nat) : nat := fold_right Nat.add 0 ss.
Definition packed (L : compiler) (t : ty) (ss : list nat) : Prop := parts L t = from 0 ss /\ size (L t) = total ss.
Lemma total_app a b : total (a ++ b) = total a + total b.
Proof. induction a as [|x a IH]; [reflexivity|]. cbn [app total fold_right]. fold (total (a ++ b)) (total a). lia. Qed.
Lemma from_app o a b : from o (a ++ b) = from o a ++ from (o + total a) b.
Proof.
  revert o. induction a as [|x a IH]; intros o; [cbn; now rewrite Nat.add_0_r|]. cbn [app from total fold_right]. rewrite IH. fold (total a). now rewrite Nat.add_assoc.
Qed.
Lemma from_shift o d ss : map (fun c => (d + fst c, snd c)) (from o ss) = from (d + o) ss.
Proof. revert o. induction ss as [|s ss IH]; intros o; [reflexivity|]. cbn [from map fst snd]. rewrite IH. now rewrite Nat.add_assoc. Qed.
Fixpoint times (n : nat) (ss : list nat) : list nat := match n with O => [] | S n => ss ++ times n ss end.
Lemma times_total n ss : total (times n ss) = n * total ss.
Proof. induction n as [|n IH]; [reflexivity|]. cbn [times]. rewrite total_app, IH. lia. Qed.
Lemma parts_array L u n : parts L (Array u n) = flat_map (fun o => map (fun c => (o + fst c, snd c)) (parts L u)) (offsets (L (Array u n))).
Proof. reflexivity. Qed.
Lemma parts_struct L r fs : parts L (Struct r fs) = concat (map2 (fun o => map (fun c => (o + fst c, snd c))) (offsets (L (Struct r fs))) (map (parts L) fs)).
Proof. reflexivity. Qed.
Lemma packed_array L u n ss : follows_the_reference L -> packed L u ss -> packed L (Array u n) (times n ss).
Proof.
  intros [R _] [P S]. pose proof (R (Array u n)) as (_ & _ & E). split.
  - rewrite parts_array, E. cbn [offsets]. rewrite P, S. clear.
    assert (Q : forall b, flat_map (fun o => map (fun c => (o + fst c, snd c)) (from 0 ss)) (map (fun j => j * total ss) (seq b n)) = from (b * total ss) (times n ss)).
    { induction n as [|n IH]; intros b; [reflexivity|]. cbn [seq map flat_map times]. rewrite IH, from_app, from_shift, Nat.add_0_r. f_equal. f_equal. lia. }
    apply (Q 0).
  - rewrite E. cbn [size]. now rewrite S, times_total.
Qed.
Lemma packed_prim L p : follows_the_reference L -> packed L (Prim p) [prim_size p].
Proof. intros [R _]. destruct (R (Prim p)) as (_ & _ & E & _). split; [reflexivity|]. rewrite E. cbn. lia. Qed.
Lemma packed_transparent L t ss : follows_the_reference L -> packed L t ss -> packed L (Struct Transparent [t]) ss /\ align (L (Struct Transparent [t])) = align (L t).
Proof.
  intros [R _] [P S]. destruct (R (Struct Transparent [t])) as (_ & _ & E). split; [split|].
  - rewrite parts_struct, E. cbn [offsets map map2 concat]. rewrite P, from_shift, app_nil_r. reflexivity.
  - now rewrite E.
  - now rewrite E.
Qed.
Lemma round_up_exact n a : 0 < a -> Nat.divide a n -> round_up n a = n.
Proof.
  intros A [k ->]. unfold round_up. replace ((k * a + (a - 1)) / a) with k; [reflexivity|]. rewrite Nat.div_add_l by lia. rewrite (Nat.div_small (a - 1)) by lia. lia.
Qed.
Lemma align_pos L t : follows_the_reference L -> 0 < align (L t).
Proof. intros [R _]. destruct (R t) as ((e & ->) & _). pose proof (Nat.pow_nonzero 2 e). lia. Qed.
Lemma align_divides L t : follows_the_reference L -> Nat.divide (align (L t)) (size (L t)).
Proof. intros [R _]. apply (R t). Qed.
Lemma align_le L t : follows_the_reference L -> 0 < size (L t) -> align (L t) <= size (L t).
Proof. intros F H. apply Nat.divide_pos_le; [exact H|]. now apply align_divides. Qed.
Lemma pow2_divide a b : 2 ^ a <= 2 ^ b -> Nat.divide (2 ^ a) (2 ^ b).
Proof. intros H. apply Nat.pow_le_mono_r_iff in H; [|lia]. exists (2 ^ (b - a)). rewrite <- Nat.pow_add_r. f_equal. lia. Qed.
Lemma align_pow L t : follows_the_reference L -> exists e, align (L t) = 2 ^ e.
Proof. intros [R _]. apply (R t). Qed.
(** a repr(C) struct of equal fields, no bigger than its alignment makes it *)
Lemma packed_fields L u n e ss : follows_the_reference L -> packed L u ss -> 0 < total ss -> align (L u) <= 2 ^ e -> Nat.divide (2 ^ e) (n * total ss) ->
  packed L (Struct (ReprC e) (repeat u n)) (times n ss) /\ align (L (Struct (ReprC e) (repeat u n))) = 2 ^ e.
Proof.
  intros F [P S] T A D. pose proof (proj1 F (Struct (ReprC e) (repeat u n))) as (_ & _ & E). pose proof (align_pos L u F) as Pos. pose proof (align_divides L u F) as Div.
  assert (CA : c_align (2 ^ e) (map L (repeat u n)) = 2 ^ e).
  { unfold c_align. clear -A. induction n as [|n IH]; [reflexivity|]. cbn [repeat map fold_right]. rewrite IH. lia. }
  assert (CO : forall m b, c_offsets (b * size (L u)) (map L (repeat u m)) = map (fun j => j * size (L u)) (seq b m) /\ c_end (b * size (L u)) (map L (repeat u m)) = (b + m) * size (L u)).
  { clear -Pos Div. induction m as [|m IH]; intros b; [cbn; split; [reflexivity|lia]|]. cbn [repeat map c_offsets c_end seq].
    rewrite round_up_exact by (exact Pos || now apply Nat.divide_mul_r). replace (b * size (L u) + size (L u)) with (S b * size (L u)) by lia. destruct (IH (S b)) as [-> ->]. split; [reflexivity|lia]. }
  destruct (CO n 0) as [C1 C2]. cbn [Nat.mul Nat.add] in C1, C2.
  split; [split|].
  - rewrite parts_struct, E. unfold c_layout. cbn [offsets]. rewrite C1, S. clear -P.
    assert (Q : forall b m, concat (map2 (fun o => map (fun c => (o + fst c, snd c))) (map (fun j => j * total ss) (seq b m)) (map (parts L) (repeat u m))) = from (b * total ss) (times m ss)).
    { intros b m. revert b. induction m as [|m IH]; intros b; [reflexivity|]. cbn [seq repeat map map2 concat times]. rewrite IH, P, from_shift, from_app, Nat.add_0_r. f_equal. f_equal. lia. }
    apply (Q 0 n).
  - rewrite E. unfold c_layout. cbn [size]. rewrite CA, C2, S, times_total. apply round_up_exact; [lia|exact D].
  - rewrite E. unfold c_layout. cbn [align]. exact CA.
Qed.

(** Packed: no padding *)
Lemma in_from o ss j : o <= j < o + total ss -> exists c, In c (from o ss) /\ within j c = true.
Proof.
  revert o. induction ss as [|s ss IH]; intros o H; [cbn in H; lia|]. cbn [total fold_right] in H. fold (total ss) in H. cbn [from]. destruct (Nat.ltb_spec j (o + s)) as [C|C].
  - exists (o, s). split; [now left|]. unfold within. cbn [fst snd]. apply andb_true_intro. split; [apply Nat.leb_le|apply Nat.ltb_lt]; lia.
  - destruct (IH (o + s)) as (c & I & W); [lia|]. exists c. split; [now right|exact W].
Qed.
Lemma packed_full L t ss : packed L t ss -> no_padding L t.
Proof. intros [P S] j H. rewrite P. apply in_from. lia. Qed.

(** ** Bytes of packed values *)
Definition image (be : bool) (ss : list nat) (v : list N) : list N := concat (map2 (to_ne be) ss v).
Fixpoint split (ss : list nat) (b : list N) : list (list N) := match ss with [] => [] | s :: r => firstn s b :: split r (skipn s b) end.
Lemma to_ne_len be n x : length (to_ne be n x) = n.
Proof. unfold to_ne, to_be. destruct be; [rewrite rev_length|]; apply to_le_length. Qed.
Lemma image_length be ss v : length v = length ss -> length (image be ss v) = total ss.
Proof.
  unfold image. revert v. induction ss as [|s ss IH]; intros [|x v] H; try discriminate H; [reflexivity|]. cbn [map2 concat total fold_right]. rewrite app_length, to_ne_len.
  fold (total ss). rewrite IH by (now injection H). reflexivity.
Qed.
Definition byte_at (be : bool) (cs : list (nat * nat * N)) (j : nat) : option N :=
  option_map (fun cx => nth (j - fst (fst cx)) (to_ne be (snd (fst cx)) (snd cx)) 0%N) (find (fun cx => within j (fst cx)) cs).
Lemma memory_from be : forall ss v o, length v = length ss -> map (byte_at be (combine (from o ss) v)) (seq o (total ss)) = map Some (image be ss v).
Proof.
  induction ss as [|s ss IH]; intros [|x v] o H; try discriminate H; [reflexivity|]. cbn [total fold_right from combine]. fold (total ss). rewrite seq_app, map_app.
  unfold image. cbn [map2 concat]. rewrite map_app. f_equal.
  - apply (nth_ext _ _ None None).
    + now rewrite !map_length, seq_length, to_ne_len.
    + intros k Hk. rewrite map_length, seq_length in Hk.
      rewrite (nth_indep _ None (byte_at be (((o, s), x) :: combine (from (o + s) ss) v) 0)) by (now rewrite map_length, seq_length). rewrite map_nth, seq_nth by exact Hk.
      rewrite (nth_indep (map Some _) None (Some 0%N)) by (now rewrite map_length, to_ne_len). rewrite map_nth. unfold byte_at. cbn [find fst snd].
      assert (W : within (o + k) (o, s) = true) by (unfold within; cbn [fst snd]; apply andb_true_intro; split; [apply Nat.leb_le|apply Nat.ltb_lt]; lia).
      rewrite W. cbn [option_map fst snd]. f_equal. f_equal. lia.
  - fold (image be ss v). rewrite <- (IH v (o + s)) by (now injection H). apply map_ext_in. intros j Hj. apply in_seq in Hj. unfold byte_at. cbn [find fst].
    assert (W : within j (o, s) = false) by (unfold within; cbn [fst snd]; apply andb_false_iff; right; apply Nat.ltb_ge; lia). now rewrite W.
Qed.
Lemma packed_memory be L t ss v : packed L t ss -> length v = length ss -> memory be L t v = map Some (image be ss v).
Proof. intros [P S] H. unfold memory. rewrite P, S. apply (memory_from be ss v 0 H). Qed.
Lemma all_some_map {A} (l : list A) : all_some (map Some l) = Some l.
Proof. induction l as [|x l IH]; [reflexivity|]. cbn [map all_some]. now rewrite IH. Qed.
Lemma read_from be : forall ss o b, map (fun c => option_map (of_ne be) (all_some (firstn (snd c) (skipn (fst c) (map Some b))))) (from o ss) = map Some (map (of_ne be) (split ss (skipn o b))).
Proof.
  induction ss as [|s ss IH]; intros o b; [reflexivity|]. cbn [from map split fst snd]. rewrite skipn_map, firstn_map, all_some_map. cbn [option_map]. f_equal. rewrite IH, skipn_skipn. now rewrite (Nat.add_comm s o).
Qed.
Lemma packed_read be L t ss b : packed L t ss -> typed_read be L t (map Some b) = Some (map (of_ne be) (split ss b)).
Proof. intros [P _]. unfold typed_read. rewrite P, read_from. cbn [skipn]. apply all_some_map. Qed.
Lemma packed_transmute be L t u ss ts v : packed L t ss -> packed L u ts -> total ss = total ts -> length v = length ss ->
  transmute be L t u v = Some (map (of_ne be) (split ts (image be ss v))).
Proof.
  intros P Q E H. unfold transmute. rewrite (proj2 P), (proj2 Q), E, Nat.eqb_refl. rewrite (packed_memory be L t ss v P H). now apply packed_read.
Qed.
Lemma split_app a b l : split (a ++ b) l = split a (firstn (total a) l) ++ split b (skipn (total a) l).
Proof.
  revert l. induction a as [|s a IH]; intros l; [reflexivity|]. cbn [app split total fold_right]. fold (total a). rewrite IH, firstn_firstn, Nat.min_l by lia. cbn [app]. f_equal.
  rewrite <- firstn_skipn_comm, skipn_skipn. now rewrite (Nat.add_comm (total a) s).
Qed.
Lemma split_times n ss l : split (times n ss) l = concat (map (split ss) (chunks (total ss) n l)).
Proof. revert l. induction n as [|n IH]; intros l; [reflexivity|]. cbn [times chunks map concat]. now rewrite split_app, IH. Qed.
Lemma times_length n ss : length (times n ss) = n * length ss.
Proof. induction n as [|n IH]; [reflexivity|]. cbn [times]. rewrite app_length, IH. lia. Qed.
Lemma image_bytes be n v : is_bytes n v -> image be (times n [1]) v = v.
Proof.
  intros [L F]. revert n L. induction F as [|x v X F IH]; intros n L.
  - cbn in L. subst n. reflexivity.
  - cbn [length] in L. subst n. unfold image. cbn [times app map2 concat]. change (concat (map2 (to_ne be) (times (length v) [1]) v)) with (image be (times (length v) [1]) v). rewrite IH by reflexivity.
    unfold to_ne, to_be. assert (E : to_le 1 x = [x]) by (unfold to_le; cbn; now rewrite N.mod_small). rewrite E. destruct be; reflexivity.
Qed.
Lemma image_words be w v : image be (times (length v) [w]) v = concat (map (to_ne be w) v).
Proof. unfold image. induction v as [|x v IH]; [reflexivity|]. cbn [length times app map2 map concat]. now rewrite IH. Qed.

(** ** Parts in the default representation, wherever the compiler puts the fields *)
Definition disjoint (c d : nat * nat) : Prop := fst c + snd c <= fst d \/ fst d + snd d <= fst c.
Definition tidy (s : nat) (cs : list (nat * nat)) : Prop := Forall (fun c => fst c + snd c <= s) cs /\ ForallOrdPairs disjoint cs.
Lemma pairs_app {A} (R : A -> A -> Prop) a b : ForallOrdPairs R a -> ForallOrdPairs R b -> (forall x y, In x a -> In y b -> R x y) -> ForallOrdPairs R (a ++ b).
Proof.
  intros Ha Hb H. induction Ha as [|x a X Ha IH]; [exact Hb|]. cbn [app]. constructor.
  - apply Forall_app. split; [exact X|]. apply Forall_forall. intros y Hy. apply H; [now left|exact Hy].
  - apply IH. intros. apply H; [now right|assumption].
Qed.
Lemma tidy_shift s o cs : tidy s cs -> tidy (o + s) (map (fun c => (o + fst c, snd c)) cs) /\ Forall (fun c => o <= fst c) (map (fun c => (o + fst c, snd c)) cs).
Proof.
  intros [F D]. split; [split|].
  - apply Forall_map. revert F. apply Forall_impl. intros c H. cbn [fst snd]. lia.
  - clear F. induction D as [|c cs X D IH]; cbn [map]; constructor; [|exact IH]. apply Forall_map. revert X. apply Forall_impl. intros d. unfold disjoint. cbn [fst snd]. lia.
  - apply Forall_map. apply Forall_forall. intros c _. cbn [fst]. lia.
Qed.
Lemma tidy_fields L s (fs : list ty) os : Forall (fun f => tidy (size (L f)) (parts L f)) fs ->
  Forall (fun f => fst f + size (snd f) <= s) (combine os (map L fs)) -> ForallOrdPairs apart (combine os (map L fs)) ->
  tidy s (concat (map2 (fun o => map (fun c => (o + fst c, snd c))) os (map (parts L) fs))) /\
  Forall (fun c => exists f, In f (combine os (map L fs)) /\ fst f <= fst c /\ fst c + snd c <= fst f + size (snd f)) (concat (map2 (fun o => map (fun c => (o + fst c, snd c))) os (map (parts L) fs))).
Proof.
  intros T. revert os. induction T as [|f fs Tf T IH]; intros os In_ Ap.
  - destruct os; (split; [split; constructor|constructor]).
  - destruct os as [|o os]; [split; [split; constructor|constructor]|]. cbn [map combine map2 concat] in *. apply Forall_cons_iff in In_ as [I0 In_]. cbn [fst snd] in I0.
    inversion Ap as [|? ? A0 Ap' E1]. destruct (IH os In_ Ap') as [[F D] W]. destruct (tidy_shift _ o _ Tf) as [[F0 D0] W0]. split; [split|].
    + apply Forall_app. split; [|exact F]. revert F0. apply Forall_impl. intros c. lia.
    + apply pairs_app; [exact D0|exact D|]. intros c d Hc Hd. rewrite Forall_forall in F0, W0, W, A0. pose proof (F0 c Hc) as Q1. pose proof (W0 c Hc) as Q2. destruct (W d Hd) as (g & Hg & Q3 & Q4).
      pose proof (A0 g Hg) as Q5. unfold apart in Q5. cbn [fst snd] in Q5. unfold disjoint. lia.
    + apply Forall_app. split.
      * apply Forall_forall. intros c Hc. rewrite Forall_forall in F0, W0. exists (o, L f). split; [now left|]. cbn [fst snd]. split; [now apply W0|now apply F0].
      * revert W. apply Forall_impl. intros c (g & Hg & Q). exists g. split; [now right|exact Q].
Qed.
Lemma tidy_tuple L fs : follows_the_reference L -> Forall (fun f => tidy (size (L f)) (parts L f)) fs -> tidy (size (L (Tuple fs))) (parts L (Tuple fs)).
Proof.
  intros [R _] T. destruct (R (Tuple fs)) as (_ & _ & Q). unfold Tuple in *. assert (RR : rust_rules (map L fs) (L (Struct Auto fs))) by (destruct fs as [|? [|]]; exact Q). clear Q. destruct RR as (_ & In_ & Ap). rewrite parts_struct.
  apply tidy_fields; [exact T| |exact Ap]. revert In_. apply Forall_impl. intros f. lia.
Qed.
Lemma tidy_prim L p : follows_the_reference L -> tidy (size (L (Prim p))) (parts L (Prim p)).
Proof. intros [R _]. destruct (R (Prim p)) as (_ & _ & E & _). rewrite E. split; [constructor; [cbn; lia|constructor]|]. repeat constructor. Qed.

(** A part of a value is found in memory where the part is. *)
Lemma find_part be s cs v j k : tidy s cs -> length v = length cs -> j < length cs -> k < snd (nth j cs (0, 0)) ->
  byte_at be (combine cs v) (fst (nth j cs (0, 0)) + k) = Some (nth k (to_ne be (snd (nth j cs (0, 0))) (nth j v 0%N)) 0%N).
Proof.
  intros [_ D]. revert v j. induction D as [|c cs X D IH]; intros v j Lv Hj Hk; [cbn in Hj; lia|]. destruct v as [|x v]; [discriminate Lv|]. cbn [combine]. unfold byte_at. cbn [find fst].
  destruct j as [|j].
  - cbn [nth] in *. assert (W : within (fst c + k) c = true) by (unfold within; apply andb_true_intro; split; [apply Nat.leb_le|apply Nat.ltb_lt]; lia). rewrite W. cbn [option_map fst snd]. f_equal. f_equal. lia.
  - cbn [nth] in *. assert (Hj' : j < length cs) by (cbn [length] in Hj; lia). rewrite Forall_forall in X. pose proof (X _ (nth_In cs (0, 0) Hj')) as Q. unfold disjoint in Q.
    assert (W : within (fst (nth j cs (0, 0)) + k) c = false) by (unfold within; apply andb_false_iff; destruct Q; [right; apply Nat.ltb_ge|left; apply Nat.leb_gt]; lia). rewrite W.
    apply (IH v j); [now injection Lv|exact Hj'|exact Hk].
Qed.

(** ** The two compilers of the specification follow the reference *)
Section Ty_ind.
  Context (P : ty -> Prop) (Hp : forall p, P (Prim p)) (Ha : forall u n, P u -> P (Array u n)) (Hs : forall r fs, Forall P fs -> P (Struct r fs)).
  Fixpoint ty_rect' (t : ty) : P t :=
    match t with
    | Prim p => Hp p | Array u n => Ha u n (ty_rect' u)
    | Struct r fs => Hs r fs ((fix go l : Forall P l := match l with [] => Forall_nil _ | f :: l => Forall_cons _ (ty_rect' f) (go l) end) fs)
    end.
End Ty_ind.
Definition sound (l : layout) : Prop := (exists e, align l = 2 ^ e) /\ Nat.divide (align l) (size l).
Lemma round_up_divides n a : Nat.divide a (round_up n a).
Proof. exists ((n + (a - 1)) / a). reflexivity. Qed.
Lemma round_up_ge n a : 0 < a -> n <= round_up n a.
Proof. intros A. unfold round_up. pose proof (Nat.div_mod (n + (a - 1)) a). pose proof (Nat.mod_upper_bound (n + (a - 1)) a). nia. Qed.
Lemma max_pow a b : Nat.max (2 ^ a) (2 ^ b) = 2 ^ Nat.max a b.
Proof.
  destruct (Nat.le_ge_cases a b) as [H|H]; [rewrite (Nat.max_r a b) by exact H; apply Nat.max_r|rewrite (Nat.max_l a b) by exact H; apply Nat.max_l]; now apply Nat.pow_le_mono_r.
Qed.
Lemma c_sound e fs : Forall sound fs -> sound (c_layout (2 ^ e) fs).
Proof.
  intros F. split; [|apply round_up_divides]. unfold c_layout, c_align. cbn [align]. induction F as [|f fs [[e' E] _] _ [e'' IH]]; [now exists e|]. cbn [map fold_right]. rewrite E, IH, max_pow. now eexists.
Qed.
Lemma c_align_ge a fs : Forall (fun f => align f <= c_align a fs) fs.
Proof.
  unfold c_align. induction fs as [|f fs IH]; [constructor|]. cbn [map fold_right]. constructor; [lia|]. revert IH. apply Forall_impl. intros g. lia.
Qed.
Lemma c_rules_from fs : Forall sound fs -> forall o, length (c_offsets o fs) = length fs /\
  Forall (fun f => Nat.divide (align (snd f)) (fst f) /\ o <= fst f /\ fst f + size (snd f) <= c_end o fs) (combine (c_offsets o fs) fs) /\
  ForallOrdPairs apart (combine (c_offsets o fs) fs) /\ o <= c_end o fs.
Proof.
  induction 1 as [|f fs [[e E] _] _ IH]; intros o; [repeat split; constructor|]. cbn [c_offsets c_end combine length].
  assert (A : 0 < align f) by (rewrite E; pose proof (Nat.pow_nonzero 2 e); lia). pose proof (round_up_ge o _ A) as G.
  destruct (IH (round_up o (align f) + size f)) as (I1 & I2 & I3 & I4). split; [now rewrite I1|]. split; [|split; [|lia]].
  - constructor; [cbn [fst snd]; split; [apply round_up_divides|lia]|]. revert I2. apply Forall_impl. intros g (Q1 & Q2 & Q3). split; [exact Q1|lia].
  - constructor; [|exact I3]. revert I2. apply Forall_impl. intros g (Q1 & Q2 & Q3). left. cbn [fst snd]. lia.
Qed.
Lemma c_rules e fs : Forall sound fs -> rust_rules fs (c_layout (2 ^ e) fs).
Proof.
  intros F. destruct (c_rules_from fs F 0) as (L & R & A & _). split; [exact L|]. split; [|exact A].
  pose proof (c_sound e fs F) as [[e' E] _]. unfold c_layout in *. cbn [size align offsets] in *. pose proof (round_up_ge (c_end 0 fs) (c_align (2 ^ e) fs)) as G. rewrite E in G at 1. pose proof (Nat.pow_nonzero 2 e').
  apply Forall_forall. intros f Hf. rewrite Forall_forall in R. destruct (R f Hf) as (Q1 & _ & Q2). split; [exact Q1|]. split; [lia|].
  pose proof (c_align_ge (2 ^ e) fs) as CA. rewrite Forall_forall in CA. apply CA. destruct f as [o f]. now apply in_combine_r in Hf.
Qed.
Lemma combine_app {A B} (a : list A) (b : list B) c d : length a = length b -> combine (a ++ c) (b ++ d) = combine a b ++ combine c d.
Proof. revert b. induction a as [|x a IH]; intros [|y b] H; try discriminate H; [reflexivity|]. cbn [app combine]. now rewrite IH by (now injection H). Qed.
Lemma combine_rev {A B} (a : list A) (b : list B) : length a = length b -> combine (rev a) (rev b) = rev (combine a b).
Proof.
  revert b. induction a as [|x a IH]; intros [|y b] H; try discriminate H; [reflexivity|]. cbn [rev combine]. rewrite combine_app by (rewrite !rev_length; now injection H). rewrite IH by (now injection H). reflexivity.
Qed.
Lemma pairs_rev {A} (R : A -> A -> Prop) l : (forall x y, R x y -> R y x) -> ForallOrdPairs R l -> ForallOrdPairs R (rev l).
Proof.
  intros S H. induction H as [|x l X _ IH]; [constructor|]. cbn [rev]. apply pairs_app; [exact IH|repeat constructor|]. intros y z Hy [<-|[]]. apply S. rewrite Forall_forall in X. apply X. now apply in_rev.
Qed.
Lemma place_rules back fs : Forall sound fs -> rust_rules fs (place back fs) /\ sound (place back fs).
Proof.
  intros F. destruct back; [|split; [apply (c_rules 0), F|apply (c_sound 0), F]]. unfold place. cbv zeta. pose proof (Forall_rev F) as F'. destruct (c_rules 0 _ F') as (L & R & A). pose proof (c_sound 0 _ F') as S. change (2 ^ 0) with 1 in *.
  split; [|exact S]. unfold rust_rules. cbn [size align offsets].
  assert (CR : combine (rev (offsets (c_layout 1 (rev fs)))) fs = rev (combine (offsets (c_layout 1 (rev fs))) (rev fs))) by (rewrite <- (rev_involutive fs) at 2; now apply combine_rev).
  rewrite CR. rewrite rev_length in L.
  split; [now rewrite rev_length|]. split; [now apply Forall_rev|]. apply pairs_rev; [|exact A]. unfold apart. tauto.
Qed.
Lemma compile_sound back t : sound (compile back t).
Proof.
  revert t. apply ty_rect'.
  - intros p. split; [|apply Nat.divide_refl]. destruct p; cbn [compile align prim_size]; [now exists 0|now exists 2|now exists 3|now exists 4|now exists 4|now exists 5|now exists 6|now exists 4].
  - intros u n [E D]. cbn [compile]. cbv zeta. split; [exact E|]. cbn [align size]. now apply Nat.divide_mul_r.
  - intros r fs F. apply Forall_map in F. destruct r; cbn [compile].
    + now apply c_sound.
    + destruct (map (compile back) fs) as [|l [|]] eqn:E; [now apply place_rules| |now apply place_rules]. apply Forall_cons_iff in F as [F _]. exact F.
    + now apply place_rules.
Qed.
Lemma compile_follows back : follows_the_reference (compile back).
Proof.
  split.
  - intros t. destruct (compile_sound back t) as [E D]. split; [exact E|]. split; [exact D|].
    assert (F : forall fs, Forall sound (map (compile back) fs)) by (intros fs; apply Forall_map, Forall_forall; intros; apply compile_sound).
    destruct t as [p|u n|[e| |] fs]; try reflexivity.
    + split; reflexivity.
    + destruct fs as [|f [|g fs]]; [|reflexivity|]; cbn [compile map]; apply place_rules; [constructor|exact (F (f :: g :: fs))].
    + destruct fs as [|f [|g fs]]; cbn [compile]; apply place_rules, F.
  - repeat constructor; cbn; lia.
Qed.
