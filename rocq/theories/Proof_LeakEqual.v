(** is_zero and == of the block types: what they compute and what the branches of == show. *)
From Coq Require Import Lia Arith String.
From Coq Require Import List.
From Verif Require Import Word Interface Fips197 Spec_Api Spec_Leak Spec_LeakBlock Model_Bitslice Model_Leak Model_LeakBlock.
From Verif Require Import Proof_Shape Proof_Word Proof_Shift Proof_Fips Proof_Ok Proof_Sem Proof_X86 Proof_Bitslice Proof_Leak Proof_KeySpec Proof_LeakRun Proof_LeakEngine Proof_LeakBlock.
Open Scope string_scope.
Open Scope list_scope.
Open Scope N_scope.

(** ** is_zero *)
Lemma of_le_zero l : bytes_ok l -> (of_le l = 0 <-> Forall (eq 0) l).
Proof.
  intros B. split.
  - intros E. assert (l = repeat 0 (length l)) as ->.
    { apply of_le_inj; [exact B|now apply bytes_ok_repeat|now rewrite repeat_length|]. rewrite E. symmetry. apply (of_le_app_zeros []). }
    clear. induction (length l); cbn; constructor; auto.
  - intros H. assert (l = repeat 0 (length l)) as ->.
    { clear B. induction H as [|x l <- H IH]; [reflexivity|]. cbn. now rewrite <- IH. }
    apply (of_le_app_zeros []).
Qed.
Lemma of_ne_zero be l : bytes_ok l -> (of_ne be l = 0 <-> Forall (eq 0) l).
Proof.
  intros B. destruct be; cbn [of_ne]; [|now apply of_le_zero]. unfold of_be. rewrite of_le_zero by now apply Forall_rev.
  split; intros H; [rewrite <- (rev_involutive l)|]; now apply Forall_rev.
Qed.
Lemma zeros_forall n l : length l = n -> (l = repeat 0 n <-> Forall (eq 0) l).
Proof.
  intros <-. split.
  - intros ->. clear. induction (length l); cbn; constructor; auto.
  - intros H. induction H as [|x l <- H IH]; [reflexivity|]. cbn. now rewrite <- IH.
Qed.
Section Zero.
Context (be : bool) (n m : nat) (Hm : m = 1%nat \/ m = 2%nat \/ m = 4%nat).
Notation F := (of_ne be).
Notation W := (16 * n)%nat.
Lemma m4 : (m <= 4)%nat. Proof. lia. Qed.
Lemma zeros_pieces msg : is_bytes (W * m) msg -> (msg = repeat 0 (W * m) <-> forallb (fun j => F (piece W j msg) =? 0) (seq 0 m) = true).
Proof.
  intros Hb. rewrite (zeros_forall _ _ (proj1 Hb)). rewrite <- (pieces_concat W m msg) at 1 by apply Hb. rewrite forallb_forall.
  assert (Q : forall j, In j (seq 0 m) -> (F (piece W j msg) =? 0) = true <-> Forall (eq 0) (piece W j msg)).
  { intros j Hj. apply in_seq in Hj. rewrite N.eqb_eq. apply of_ne_zero. apply (piece_bytes W m j msg Hb). lia. }
  rewrite Forall_concat, Forall_map, Forall_forall. split; intros H j Hj; apply Q; auto.
Qed.
Lemma is_zero_run key msg : is_bytes (W * m) msg ->
  arrs (final (is_zero_program be n m) (start key msg)) "out" = bool_byte (if list_eq_dec N.eq_dec msg (repeat 0 (W * m)) then true else false).
Proof.
  intros Hb. unfold is_zero_program. rewrite !final_block_cons. change (w n) with W.
  destruct (input_xs be n m m4 msg (start key msg) eq_refl (proj1 Hb)) as [A X]. set (st1 := final (s_input be W m) _) in *. clearbody st1.
  assert (E : value st1 (x_is_zero m) = if forallb (fun j => F (piece W j msg) =? 0) (seq 0 m) then 1 else 0).
  { destruct Hm as [H|[H|H]]; revert X; rewrite H; intros X; unfold x_is_zero; repeat rewrite val_bin; unfold value; cbn [Spec_Leak.val val1 val2 seq forallb].
    - pose proof (X 0%nat ltac:(lia)) as X0. cbn [x_ nth lane_names] in X0. rewrite X0. rewrite andb_true_r. reflexivity.
    - pose proof (X 0%nat ltac:(lia)) as X0. pose proof (X 1%nat ltac:(lia)) as X1. cbn [x_ nth lane_names] in X0, X1. rewrite X0, X1. repeat destruct (_ =? 0); reflexivity.
    - pose proof (X 0%nat ltac:(lia)) as X0. pose proof (X 1%nat ltac:(lia)) as X1. pose proof (X 2%nat ltac:(lia)) as X2. pose proof (X 3%nat ltac:(lia)) as X3. cbn [x_ nth lane_names] in X0, X1, X2, X3. rewrite X0, X1, X2, X3. repeat destruct (_ =? 0); reflexivity. }
  change (final (block []) ?x) with x. rewrite final_assign, E. set (b := if forallb _ _ then 1 else 0) in *. rewrite final_store, value_lit. cbn [set_arr arrs]. rewrite upd_same.
  change (value ?s (Var "r")) with (vars s "r"). change (write _ _ (vars _ "r")) with [upd (vars st1) "r" b "r"]. rewrite upd_same. unfold b. clear b E. destruct (list_eq_dec N.eq_dec msg (repeat 0 (W * m))) as [Z|Z].
  - rewrite (proj1 (zeros_pieces msg Hb) Z). reflexivity.
  - destruct (forallb _ _) eqn:Q; [|reflexivity]. exfalso. apply Z. now apply zeros_pieces.
Qed.
End Zero.

(** ** Trees of comparisons *)
Fixpoint flat (c : comparison) : list exp := match c with Field e => [e] | All a b => flat a ++ flat b end.
Definition leaves (c : comparison) : nat := length (flat c).
Fixpoint lead (l : list bool) : nat := match l with true :: l => S (lead l) | _ => O end.
Fixpoint tree_trace (c : comparison) (k : nat) : list event :=
  match c with
  | Field _ => []
  | All a b => tree_trace a k ++ if Nat.ltb k (leaves a) then [Branch false] else Branch true :: tree_trace b (k - leaves a)
  end.
Lemma lead_le l : (lead l <= length l)%nat. Proof. induction l as [|[] l IH]; cbn; lia. Qed.
Lemma lead_app a b : lead (a ++ b) = if Nat.ltb (lead a) (length a) then lead a else (length a + lead b)%nat.
Proof.
  induction a as [|[] a IH]; [reflexivity| |reflexivity]. cbn [app lead length]. rewrite IH.
  destruct (Nat.ltb_spec (lead a) (length a)), (Nat.ltb_spec (S (lead a)) (S (length a))); lia.
Qed.
Lemma lead_all l : lead l = length l <-> Forall (eq true) l.
Proof.
  induction l as [|[] l IH]; cbn; split; intros H; try constructor; auto; try discriminate; try (injection H as H; now apply IH); try (inversion H; discriminate).
  inversion H; subst. f_equal. now apply IH.
Qed.
Lemma leaves_pos c : (0 < leaves c)%nat.
Proof. unfold leaves. induction c; cbn; [lia|]. rewrite app_length. lia. Qed.
Lemma leaves_all a b : leaves (All a b) = (leaves a + leaves b)%nat. Proof. apply app_length. Qed.
(** Beyond the last but one comparison nothing more is shown ... *)
Lemma tree_cap c k k' : (leaves c - 1 <= k)%nat -> (leaves c - 1 <= k')%nat -> tree_trace c k = tree_trace c k'.
Proof.
  revert k k'. induction c as [e|a IHa b IHb]; intros k k' H H'; [reflexivity|]. rewrite leaves_all in *. pose proof (leaves_pos a). pose proof (leaves_pos b).
  cbn [tree_trace]. destruct (Nat.ltb_spec k (leaves a)); [lia|]. destruct (Nat.ltb_spec k' (leaves a)); [lia|].
  rewrite (IHa k k') by lia. do 2 f_equal. apply IHb; lia.
Qed.
(** ... and before it, everything. *)
Lemma tree_sep c : forall k k' r r', (k < leaves c)%nat -> (k' < leaves c)%nat -> tree_trace c k ++ r = tree_trace c k' ++ r' -> k = k' /\ r = r'.
Proof.
  induction c as [e|a IHa b IHb]; intros k k' r r' H H' E; [cbn in *; split; [unfold leaves in *; cbn in *; lia|exact E]|].
  rewrite leaves_all in *. pose proof (leaves_pos a). cbn [tree_trace] in E. rewrite <- !app_assoc in E.
  destruct (Nat.ltb_spec k (leaves a)) as [L|L], (Nat.ltb_spec k' (leaves a)) as [L'|L'].
  - destruct (IHa k k' _ _ L L' E) as [-> Q]. split; [reflexivity|]. now injection Q.
  - rewrite (tree_cap a k' (leaves a - 1)) in E by lia. destruct (IHa k (leaves a - 1)%nat _ _ L ltac:(lia) E) as [_ Q]. discriminate Q.
  - rewrite (tree_cap a k (leaves a - 1)) in E by lia. destruct (IHa (leaves a - 1)%nat k' _ _ ltac:(lia) L' E) as [_ Q]. discriminate Q.
  - rewrite (tree_cap a k k') in E by lia. apply app_inv_head in E. cbn [app] in E. injection E as E.
    destruct (IHb (k - leaves a)%nat (k' - leaves a)%nat r r' ltac:(lia) ltac:(lia) E) as [Q1 Q2]. split; [lia|exact Q2].
Qed.
Lemma tree_iff c k k' : (k <= leaves c)%nat -> (k' <= leaves c)%nat ->
  (tree_trace c k = tree_trace c k' <-> Nat.min k (leaves c - 1) = Nat.min k' (leaves c - 1)).
Proof.
  intros H H'. pose proof (leaves_pos c) as P.
  assert (C : forall q, tree_trace c q = tree_trace c (Nat.min q (leaves c - 1))).
  { intros q. destruct (Nat.le_gt_cases q (leaves c - 1)); [now rewrite Nat.min_l by assumption|]. apply tree_cap; lia. }
  rewrite (C k), (C k'). split; [|now intros ->]. intros E. apply (tree_sep c _ _ [] []); rewrite ?app_nil_r; [lia|lia|exact E].
Qed.

(** ** Running a tree *)
Definition but_r (st st' : state) : Prop := arrs st' = arrs st /\ ctrs st' = ctrs st /\ forall x, x <> "r" -> vars st' x = vars st x.
Lemma but_r_refl st : but_r st st. Proof. now split; [|split]. Qed.
Lemma but_r_trans a b c : but_r a b -> but_r b c -> but_r a c.
Proof. intros (A1 & A2 & A3) (B1 & B2 & B3). split; [congruence|]. split; [congruence|]. intros x H. rewrite B3, A3 by assumption. reflexivity. Qed.
Lemma trace_seq s t st : trace (Seq s t) st = trace s st ++ trace t (final s st).
Proof. unfold trace, final. cbn [exec]. destruct (exec s st) as [a l]. cbn [fst]. now destruct (exec t a). Qed.
Lemma trace_if c s t st : trace (If c s t) st = leak st c ++ Branch (negb (value st c =? 0)) :: trace (if negb (value st c =? 0) then s else t) st.
Proof. unfold trace. cbn [exec]. cbv zeta. destruct (negb _); [destruct (exec s st)|destruct (exec t st)]; reflexivity. Qed.
Lemma final_if c s t st : final (If c s t) st = final (if negb (value st c =? 0) then s else t) st.
Proof. unfold final. cbn [exec]. cbv zeta. destruct (negb _); [destruct (exec s st)|destruct (exec t st)]; reflexivity. Qed.
Lemma compare_ok (B : exp -> bool) c : forall st,
  (forall e st', In e (flat c) -> but_r st st' -> value st' e = (if B e then 1 else 0) /\ leak st' e = []) ->
  let k := lead (map B (flat c)) in
  trace (s_compare c) st = tree_trace c k /\ but_r st (final (s_compare c) st) /\ vars (final (s_compare c) st) "r" = if Nat.eqb k (leaves c) then 1 else 0.
Proof.
  induction c as [e|a IHa b IHb]; intros st H k; subst k.
  - destruct (H e st (or_introl eq_refl) (but_r_refl st)) as [V L]. cbn [s_compare flat map]. split; [exact L|]. split.
    + split; [reflexivity|]. split; [reflexivity|]. intros x Hx. rewrite final_assign. apply upd_other. congruence.
    + rewrite final_assign. cbn [set_var vars]. rewrite upd_same, V. cbn [lead leaves flat length]. destruct (B e); reflexivity.
  - destruct (IHa st) as (Ta & Ba & Ra); [intros e st' He; apply H, in_or_app; now left|].
    cbn [s_compare flat]. rewrite map_app, lead_app, map_length. fold (leaves a). rewrite trace_seq, final_seq, trace_if, final_if.
    set (st1 := final (s_compare a) st) in *. clearbody st1. change (value st1 (Var "r")) with (vars st1 "r"). change (leak st1 (Var "r")) with (@nil event). rewrite Ra, Ta.
    assert (La : (lead (map B (flat a)) <= leaves a)%nat) by (unfold leaves; rewrite <- (map_length B); apply lead_le).
    rewrite leaves_all. cbn [tree_trace]. destruct (Nat.ltb_spec (lead (map B (flat a))) (leaves a)) as [L|L].
    + destruct (Nat.eqb_spec (lead (map B (flat a))) (leaves a)); [lia|]. cbn [N.eqb negb app]. destruct (Nat.ltb_spec (lead (map B (flat a))) (leaves a)); [|lia].
      split; [reflexivity|]. split; [exact Ba|]. change (final Skip st1) with st1. rewrite Ra. destruct (Nat.eqb_spec (lead (map B (flat a))) (leaves a)); [lia|].
      destruct (Nat.eqb_spec (lead (map B (flat a))) (leaves a + leaves b)); [lia|]. reflexivity.
    + assert (E : lead (map B (flat a)) = leaves a) by lia. rewrite E. rewrite Nat.eqb_refl. cbn [N.eqb negb app].
      destruct (IHb st1) as (Tb & Bb & Rb); [intros e st' He Hs; apply H; [apply in_or_app; now right|now apply (but_r_trans st st1)]|].
      destruct (Nat.ltb_spec (leaves a + lead (map B (flat b))) (leaves a)); [lia|].
      replace (leaves a + lead (map B (flat b)) - leaves a)%nat with (lead (map B (flat b))) by lia.
      change (negb (1 =? 0)) with true. cbv iota. split; [|split].
      * rewrite Tb. rewrite (tree_cap a (leaves a) (leaves a + lead (map B (flat b)))) by lia. reflexivity.
      * now apply (but_r_trans st st1).
      * rewrite Rb. destruct (Nat.eqb_spec (lead (map B (flat b))) (leaves b)), (Nat.eqb_spec (leaves a + lead (map B (flat b))) (leaves a + leaves b)); try lia; reflexivity.
Qed.

(** ** The fields *)
Definition same_piece (sz q : nat) (a b : list N) : bool := if list_eq_dec N.eq_dec (piece sz q a) (piece sz q b) then true else false.
Lemma piece_skip sz q l : piece sz (S q) l = piece sz q (skipn sz l).
Proof. unfold piece. rewrite skipn_skipn'. f_equal. f_equal. lia. Qed.
Lemma agreeing_lead sz count a b : agreeing sz count a b = lead (map (fun q => same_piece sz q a b) (seq 0 count)).
Proof.
  revert a b. induction count as [|c IH]; intros a b; [reflexivity|]. cbn [agreeing seq map]. unfold same_piece at 1. unfold piece. rewrite Nat.mul_0_r. cbn [skipn].
  destruct (list_eq_dec N.eq_dec (firstn sz a) (firstn sz b)); [|reflexivity]. cbn [lead]. f_equal. rewrite IH, <- seq_shift, map_map. f_equal. apply map_ext. intros q.
  unfold same_piece. now rewrite !piece_skip.
Qed.
Lemma lead_firstn c l : lead (firstn c l) = Nat.min c (lead l).
Proof. revert l. induction c as [|c IH]; intros [|[] l]; cbn; auto. Qed.
Lemma agreeing_min sz c c' a b : (c <= c')%nat -> agreeing sz c a b = Nat.min (agreeing sz c' a b) c.
Proof.
  intros H. rewrite !agreeing_lead. replace (seq 0 c) with (firstn c (seq 0 c')); [now rewrite <- firstn_map, lead_firstn, Nat.min_comm|].
  replace c' with (c + (c' - c))%nat by lia. rewrite seq_app, firstn_app, seq_length, Nat.sub_diag, firstn_all2 by (rewrite seq_length; lia). cbn [firstn]. now rewrite app_nil_r.
Qed.
Lemma agreeing_all sz count a b : length a = (sz * count)%nat -> length b = (sz * count)%nat -> (agreeing sz count a b = count <-> a = b).
Proof.
  intros La Lb. rewrite agreeing_lead. rewrite <- (seq_length count 0) at 2. rewrite <- (map_length (fun q => same_piece sz q a b) (seq 0 count)), lead_all, Forall_map, Forall_forall. split.
  - intros H. rewrite <- (pieces_concat sz count a), <- (pieces_concat sz count b) by assumption. f_equal. apply map_ext_in. intros q Hq. specialize (H q Hq). unfold same_piece in H.
    destruct (list_eq_dec N.eq_dec (piece sz q a) (piece sz q b)); [assumption|discriminate].
  - intros <- q _. unfold same_piece. destruct (list_eq_dec N.eq_dec (piece sz q a) (piece sz q a)); congruence.
Qed.

Section Equal.
Context (be : bool) (n m fields sz : nat) (Hm : m = 1%nat \/ m = 2%nat \/ m = 4%nat).
Context (Hf : (0 < fields)%nat) (Hs : (16 * n = sz * fields)%nat).
Notation F := (of_ne be).
Notation W := (16 * n)%nat.
Let bits := 8 * N.of_nat (w n) / N.of_nat fields.
Lemma bits_is : bits = 8 * N.of_nat sz.
Proof. unfold bits, w. rewrite Hs. replace (8 * N.of_nat (sz * fields)) with (8 * N.of_nat sz * N.of_nat fields) by lia. apply N.div_mul. lia. Qed.
Notation slot k := (N.of_nat (if be then fields - 1 - k else k)).
Lemma piece_rev (v : list N) k : length v = (sz * fields)%nat -> (k < fields)%nat -> piece sz (fields - 1 - k) (rev v) = rev (piece sz k v).
Proof.
  intros L Hk. unfold piece. rewrite skipn_rev, firstn_rev, firstn_length, L, skipn_firstn_comm. f_equal.
  assert (X : (sz * fields = sz * k + sz + sz * (fields - 1 - k))%nat) by (replace fields with (k + 1 + (fields - 1 - k))%nat at 1 by lia; lia).
  f_equal; [|f_equal]; lia.
Qed.
Lemma field_value v k : is_bytes W v -> (k < fields)%nat -> val1 (As bits) (val1 (Shr (slot k * bits)) (F v)) = F (piece sz k v).
Proof.
  intros [L B] Hk. rewrite bits_is. cbn [val1].
  assert (X : forall l q, bytes_ok l -> trunc (8 * N.of_nat sz) (shr (of_le l) (N.of_nat q * (8 * N.of_nat sz))) = of_le (piece sz q l)).
  { intros l q Bl. replace (N.of_nat q * (8 * N.of_nat sz)) with (8 * N.of_nat (sz * q)) by lia. rewrite of_le_skipn by assumption. apply of_le_firstn. now apply bytes_ok_skipn. }
  destruct be; cbn [of_ne]; [|now apply X]. unfold of_be. rewrite X by now apply bytes_ok_rev. rewrite piece_rev; [reflexivity|now rewrite L|assumption].
Qed.
Lemma same_value v u k : is_bytes W v -> is_bytes W u -> (k < fields)%nat ->
  val1 IsZero (N.lxor (val1 (As bits) (val1 (Shr (slot k * bits)) (F v))) (val1 (As bits) (val1 (Shr (slot k * bits)) (F u)))) = if same_piece sz k v u then 1 else 0.
Proof.
  intros Hv Hu Hk. rewrite !field_value by assumption. cbn [val1]. unfold same_piece.
  assert (P : forall l, is_bytes W l -> is_bytes sz (piece sz k l)) by (intros l Hl; apply (piece_bytes sz fields); [now rewrite <- Hs|assumption]).
  destruct (list_eq_dec N.eq_dec (piece sz k v) (piece sz k u)) as [->|D]; [now rewrite N.lxor_nilpotent|].
  destruct (N.eqb_spec (N.lxor (F (piece sz k v)) (F (piece sz k u))) 0) as [E|]; [|reflexivity]. exfalso. apply D. apply N.lxor_eq in E.
  apply (of_ne_inj be) in E; auto; [apply P|apply P|]; auto. now rewrite (proj1 (P v Hv)), (proj1 (P u Hu)).
Qed.
Definition same_field (k j : nat) : exp := x_same be fields bits k (x_ j) (k_ j).
Lemma flat_vector j : flat (vector_compare be n fields (x_ j) (k_ j)) = map (fun k => same_field k j) (seq 0 fields).
Proof.
  unfold vector_compare. fold bits. replace (seq 0 fields) with (0%nat :: seq 1 (fields - 1)) by (clear - Hf; destruct fields as [|f]; [lia|]; cbn [seq]; now rewrite Nat.sub_succ, Nat.sub_0_r).
  cbn [map]. change (same_field 0 j) with (x_same be fields bits 0 (x_ j) (k_ j)).
  assert (G : forall l acc, flat (fold_left (fun acc k => All acc (Field (x_same be fields bits k (x_ j) (k_ j)))) l acc) = flat acc ++ map (fun k => same_field k j) l).
  { induction l as [|k l IH]; intros acc; cbn [fold_left map]; [now rewrite app_nil_r|]. rewrite IH. cbn [flat]. now rewrite <- app_assoc. }
  apply (G (seq 1 (fields - 1)) (Field (x_same be fields bits 0 (x_ j) (k_ j)))).
Qed.
Lemma flat_compare : flat (compare be n m fields) = concat (map (fun j => map (fun k => same_field k j) (seq 0 fields)) (seq 0 m)).
Proof.
  unfold compare. destruct Hm as [E|[E|E]]; rewrite E; cbn [seq map concat flat]; rewrite ?app_nil_r, <- ?app_assoc; rewrite <- !flat_vector; reflexivity.
Qed.
Lemma leaves_compare : leaves (compare be n m fields) = (m * fields)%nat.
Proof.
  unfold leaves. rewrite flat_compare. clear. generalize 0%nat at 2. induction m as [|k IH]; intros s; [reflexivity|]. cbn [seq map concat]. rewrite app_length, IH, map_length, seq_length. lia.
Qed.
Lemma piece_piece j k l : is_bytes (W * m) l -> (j < m)%nat -> (k < fields)%nat -> piece sz k (piece W j l) = piece sz (j * fields + k) l.
Proof.
  intros _ Hj Hk. unfold piece. rewrite skipn_firstn_comm, firstn_firstn, skipn_skipn'. rewrite Hs. rewrite Nat.min_l; [f_equal; f_equal; lia|].
  assert (sz * (k + 1) <= sz * fields)%nat by (apply Nat.mul_le_mono_l; lia). lia.
Qed.
Lemma grid {A} (f : nat -> A) p q : map f (seq 0 (p * q)) = concat (map (fun j => map (fun k => f (j * q + k)%nat) (seq 0 q)) (seq 0 p)).
Proof.
  assert (G : forall s, map f (seq (s * q) (p * q)) = concat (map (fun j => map (fun k => f (j * q + k)%nat) (seq 0 q)) (seq s p))).
  { induction p as [|p IH]; intros s; [reflexivity|]. cbn [seq map concat Nat.mul]. rewrite seq_app, map_app. f_equal.
    - rewrite <- (seq_shift' (s * q) q), map_map. reflexivity.
    - rewrite <- IH. f_equal. f_equal. lia. }
  exact (G 0%nat).
Qed.
Lemma equal_ok key msg st : is_bytes (W * m) msg -> is_bytes (W * m) key -> xs be n m st msg -> ks be n m st key ->
  let k := agreeing sz (m * fields) msg key in
  trace (s_compare (compare be n m fields)) st = tree_trace (compare be n m fields) k /\
  vars (final (s_compare (compare be n m fields)) st) "r" = if list_eq_dec N.eq_dec msg key then 1 else 0.
Proof.
  intros Ha Hb X K k. set (B := fun e => value st e =? 1).
  assert (V : forall j q st', (j < m)%nat -> (q < fields)%nat -> but_r st st' ->
     value st' (same_field q j) = (if same_piece sz (j * fields + q) msg key then 1 else 0) /\ leak st' (same_field q j) = []).
  { intros j q st' Hj Hq (_ & _ & S). split; [|reflexivity].
    change (val1 IsZero (N.lxor (val1 (As bits) (val1 (Shr (slot q * bits)) (vars st' (x_ j)))) (val1 (As bits) (val1 (Shr (slot q * bits)) (vars st' (k_ j))))) = if same_piece sz (j * fields + q) msg key then 1 else 0).
    assert (Hj4 : (j < 4)%nat) by lia. rewrite (S (x_ j)), (S (k_ j)) by (apply not_r; assumption). rewrite (X j Hj), (K j Hj), same_value; [|now apply (piece_bytes W m)|now apply (piece_bytes W m)|assumption].
    unfold same_piece. now rewrite !piece_piece. }
  assert (BV : forall j q, (j < m)%nat -> (q < fields)%nat -> B (same_field q j) = same_piece sz (j * fields + q) msg key).
  { intros j q Hj Hq. unfold B. rewrite (proj1 (V j q st Hj Hq (but_r_refl st))). now destruct (same_piece _ _ _ _). }
  assert (E : map B (flat (compare be n m fields)) = map (fun q => same_piece sz q msg key) (seq 0 (m * fields))).
  { rewrite flat_compare, grid, concat_map, map_map. f_equal. apply map_ext_in. intros j Hj. rewrite map_map. apply map_ext_in. intros q Hq. apply in_seq in Hj, Hq. apply BV; lia. }
  destruct (compare_ok B (compare be n m fields) st) as (T & _ & R).
  { intros e st' He Hst. rewrite flat_compare in He. apply in_concat in He as (l & Hl & He). apply in_map_iff in Hl as (j & <- & Hj). apply in_map_iff in He as (q & <- & Hq).
    apply in_seq in Hj, Hq. rewrite BV by lia. apply V; [lia|lia|assumption]. }
  rewrite E, <- agreeing_lead in T, R. split; [exact T|]. rewrite R, leaves_compare. pose proof (agreeing_all sz (m * fields) msg key) as Q.
  assert (L : (W * m = sz * (m * fields))%nat) by (rewrite Hs; lia).
  destruct (list_eq_dec N.eq_dec msg key) as [D|D], (Nat.eqb_spec (agreeing sz (m * fields) msg key) (m * fields)) as [D'|D']; try reflexivity; exfalso.
  - apply D', Q; [now rewrite <- L; apply Ha|now rewrite <- L; apply Hb|assumption].
  - apply D, Q; [now rewrite <- L; apply Ha|now rewrite <- L; apply Hb|assumption].
Qed.
Lemma trace_block_cons s l st : trace (block (s :: l)) st = trace s st ++ trace (block l) (final s st).
Proof. apply trace_seq. Qed.
Lemma equal_run key msg : is_bytes (W * m) msg -> is_bytes (W * m) key ->
  trace (equal_program be n m fields) (start key msg) =
    (trace (Seq (s_input be W m) (s_operand be W m (Lit 0))) (start key msg) ++ tree_trace (compare be n m fields) (agreeing sz (m * fields) msg key)) ++ [Access "out" 0] /\
  arrs (final (equal_program be n m fields) (start key msg)) "out" = bool_byte (if list_eq_dec N.eq_dec msg key then true else false).
Proof.
  intros Ha Hb. unfold equal_program. rewrite !final_block_cons, !trace_block_cons, trace_seq. change (w n) with W.
  assert (M4 : (m <= 4)%nat) by lia.
  destruct (input_xs be n m M4 msg (start key msg) eq_refl (proj1 Ha)) as [A1 X1]. set (st1 := final (s_input be W m) _) in *. set (t1 := trace (s_input be W m) _). clearbody st1 t1.
  destruct (operand_ks be n m M4 key (Lit 0) 0 st1 msg) as (A2 & C2 & X2 & K2).
  { rewrite A1. reflexivity. } { reflexivity. } { destruct Hb as [Lb _]. rewrite Lb. lia. } { exact X1. }
  set (t2 := trace (s_operand be W m (Lit 0)) st1). set (st2 := final (s_operand be W m (Lit 0)) _) in *. clearbody st2 t2. cbn [skipn] in K2. rewrite firstn_all2 in K2 by (destruct Hb as [Lb _]; rewrite Lb; lia).
  destruct (equal_ok key msg st2 Ha Hb X2 K2) as [T R]. rewrite T. set (st3 := final (s_compare _) st2) in *. clearbody st3. split.
  - rewrite <- !app_assoc. reflexivity.
  - change (final (block []) ?x) with x. rewrite final_store, value_lit. cbn [set_arr arrs]. rewrite upd_same. change (value ?s (Var "r")) with (vars s "r").
    change (vars (final (Zeroed "out" 1) st3) "r") with (vars st3 "r"). rewrite R. cbn. destruct (list_eq_dec N.eq_dec msg key); reflexivity.
Qed.
End Equal.
