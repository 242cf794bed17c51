(** Counting executed instructions: a static count is right for programs whose branches depend on array lengths only. *)
From Coq Require Import Lia Arith String List.
From Verif Require Import Word Fips197 Spec_Leak Spec_Insn Spec_Cost Proof_Word Proof_Leak Proof_LeakCount.
Open Scope list_scope.
Open Scope nat_scope.

(** ** Bills *)
Lemma on_bill_app a b c : on_bill a (b ++ c) = on_bill a b + on_bill a c.
Proof. unfold on_bill. now rewrite map_app, list_sum_app. Qed.
Lemma on_bill_cons a x n b : on_bill a ((x, n) :: b) = (if aes_eq_dec x a then n else 0) + on_bill a b. Proof. reflexivity. Qed.
Lemma on_bill_scale a n b : on_bill a (scale n b) = n * on_bill a b.
Proof. induction b as [|[x m] b IH]; [cbn; lia|]. change (scale n ((x, m) :: b)) with ((x, n * m) :: scale n b). rewrite !on_bill_cons, IH. destruct (aes_eq_dec x a); lia. Qed.
Fixpoint add (a : aes) (n : nat) (b : bill) : bill :=
  match b with [] => [(a, n)] | (x, m) :: b => if aes_eq_dec x a then (x, m + n) :: b else (x, m) :: add a n b end.
Lemma on_bill_add a n x b : on_bill a (add x n b) = (if aes_eq_dec x a then n else 0) + on_bill a b.
Proof.
  induction b as [|[y m] b IH]; [reflexivity|]. cbn [add]. destruct (aes_eq_dec y x) as [->|]; rewrite !on_bill_cons.
  - destruct (aes_eq_dec x a); lia.
  - rewrite IH. destruct (aes_eq_dec y a), (aes_eq_dec x a); lia.
Qed.
Definition adds (b c : bill) : bill := fold_right (fun x acc => add (fst x) (snd x) acc) c b.
Lemma on_bill_adds a b c : on_bill a (adds b c) = on_bill a b + on_bill a c.
Proof. induction b as [|[x n] b IH]; [reflexivity|]. cbn [adds fold_right fst snd]. rewrite on_bill_add. fold (adds b c). rewrite IH, on_bill_cons. lia. Qed.
Lemma bill_total_app b c : bill_total (b ++ c) = bill_total b + bill_total c. Proof. unfold bill_total. now rewrite map_app, list_sum_app. Qed.
Lemma bill_total_cons x n b : bill_total ((x, n) :: b) = n + bill_total b. Proof. reflexivity. Qed.
Lemma bill_total_scale n b : bill_total (scale n b) = n * bill_total b.
Proof. induction b as [|[x m] b IH]; [cbn; lia|]. change (scale n ((x, m) :: b)) with ((x, n * m) :: scale n b). rewrite !bill_total_cons, IH. lia. Qed.
Lemma bill_total_add n x b : bill_total (add x n b) = n + bill_total b.
Proof. induction b as [|[y m] b IH]; [reflexivity|]. cbn [add]. destruct (aes_eq_dec y x); rewrite !bill_total_cons, ?IH; lia. Qed.
Lemma bill_total_adds b c : bill_total (adds b c) = bill_total b + bill_total c.
Proof. induction b as [|[x n] b IH]; [reflexivity|]. cbn [adds fold_right fst snd]. rewrite bill_total_add. fold (adds b c). rewrite IH, bill_total_cons. lia. Qed.
Definition same_bill (b c : bill) : bool := forallb (fun x => Nat.eqb (on_bill (fst x) b) (on_bill (fst x) c)) (b ++ c).
Lemma not_on_bill a b : ~ In a (map fst b) -> on_bill a b = 0.
Proof. induction b as [|[x n] b IH]; [reflexivity|]. cbn [map fst In]. intros H. rewrite on_bill_cons. destruct (aes_eq_dec x a) as [->|]; [tauto|]. now rewrite IH by tauto. Qed.
Lemma same_bill_ok b c : same_bill b c = true -> forall a, on_bill a b = on_bill a c.
Proof.
  intros H a. unfold same_bill in H. rewrite forallb_forall in H. destruct (in_dec aes_eq_dec a (map fst (b ++ c))) as [I|I].
  - apply in_map_iff in I as ((x & n) & <- & I). apply Nat.eqb_eq, (H _ I).
  - rewrite map_app in I. rewrite !not_on_bill; [reflexivity|intros X; apply I, in_or_app; now right|intros X; apply I, in_or_app; now left].
Qed.

(** ** The static count *)
Definition charge (l : list insn) : bill := fold_right (fun i acc => match aes_of i with Some a => add a 1 acc | None => acc end) [] l.
Lemma aes_run_app l l' : aes_run (l ++ l') = aes_run l ++ aes_run l'. Proof. unfold aes_run. apply flat_map_app. Qed.
Lemma times_app a l l' : times a (l ++ l') = times a l + times a l'. Proof. apply count_occ_app. Qed.
Lemma charge_ok a l : times a (aes_run l) = on_bill a (charge l).
Proof.
  induction l as [|i l IH]; [reflexivity|]. cbn [charge fold_right]. change (aes_run (i :: l)) with (match aes_of i with Some a => [a] | None => [] end ++ aes_run l).
  rewrite times_app. destruct (aes_of i) as [x|]; [|exact IH]. rewrite on_bill_add, IH. unfold times. cbn. now destruct (aes_eq_dec x a).
Qed.
Lemma charge_total l : length (aes_run l) = bill_total (charge l).
Proof.
  induction l as [|i l IH]; [reflexivity|]. cbn [charge fold_right]. change (aes_run (i :: l)) with (match aes_of i with Some a => [a] | None => [] end ++ aes_run l).
  rewrite app_length. destruct (aes_of i) as [x|]; [|exact IH]. now rewrite bill_total_add, IH.
Qed.
(** An execution that matches a bill. *)
Definition matches (l : list aes) (b : bill) : Prop := (forall a, times a l = on_bill a b) /\ length l = bill_total b.
Lemma matches_nil : matches [] []. Proof. now split. Qed.
Lemma matches_app l l' b b' : matches l b -> matches l' b' -> matches (l ++ l') (b ++ b').
Proof. intros [H1 L1] [H2 L2]. split; [intros a; rewrite times_app, on_bill_app; now rewrite H1, H2|rewrite app_length, bill_total_app; now rewrite L1, L2]. Qed.
Lemma matches_charge l : matches (aes_run l) (charge l). Proof. split; [intros a; apply charge_ok|apply charge_total]. Qed.
Lemma matches_same l b c : (forall a, on_bill a b = on_bill a c) -> bill_total b = bill_total c -> matches l b -> matches l c.
Proof. intros H L [H1 L1]. split; [intros a; now rewrite H1|now rewrite L1]. Qed.
Fixpoint tally (lens : string -> nat) (s : stmt) : option (bill * (string -> nat)) :=
  match s with
  | Skip => Some ([], lens)
  | Zeroed a n | View a _ n _ => Some ([], upd lens a n)
  | Seq s t => match tally lens s with Some (a, lens) => match tally lens t with Some (b, lens) => Some (adds a b, lens) | _ => None end | None => None end
  | Assign _ e => Some (charge (ran e), lens)
  | Store _ i e => Some (charge (ran i ++ ran e), lens)
  | If (Len a) s t => tally lens (if Nat.eqb (lens a) 0 then t else s)
  | If _ _ _ => None
  | For _ _ _ n b => if same_lengths b then match tally lens b with Some (a, _) => Some (scale n a, lens) | None => None end else None
  end.
Lemma tally_ok s : forall lens b lens', tally lens s = Some (b, lens') -> forall st, sized lens st ->
  matches (aes_run (executed s st)) b /\ sized lens' (final s st).
Proof.
  induction s as [|s IHs t IHt|x e|ar i e|ar z|d be z ar|e s IHs t IHt|i start step m body IH]; cbn [tally]; intros lens b lens' H st Hs.
  - injection H as <- <-. split; [apply matches_nil|exact Hs].
  - destruct (tally lens s) as [[a lens1]|] eqn:E1; [|discriminate]. destruct (tally lens1 t) as [[b' lens2]|] eqn:E2; [|discriminate]. injection H as <- <-.
    destruct (IHs lens a lens1 E1 st Hs) as [L1 S1]. destruct (IHt lens1 b' lens2 E2 _ S1) as [L2 S2]. split.
    + cbn [executed]. rewrite aes_run_app. apply (matches_same _ (a ++ b')); [intros x; now rewrite on_bill_adds, on_bill_app|now rewrite bill_total_adds, bill_total_app|now apply matches_app].
    + unfold final in *. cbn [exec]. destruct (exec s st) as [st1 l1]. cbn [fst] in *. destruct (exec t st1) as [st2 l2]. exact S2.
  - injection H as <- <-. split; [apply matches_charge|exact Hs].
  - injection H as <- <-. split; [apply matches_charge|]. unfold final. now apply (same_lengths_ok (Store ar i e)).
  - injection H as <- <-. split; [apply matches_nil|]. intros y. cbn. unfold upd. destruct (String.eqb_spec ar y); [apply repeat_length|apply Hs].
  - injection H as <- <-. split; [apply matches_nil|]. intros y. cbn. unfold upd. destruct (String.eqb_spec d y); [unfold view; now rewrite map_length, chunks_length|apply Hs].
  - destruct e; try discriminate. assert (E : (value st (Len arr) =? 0)%N = Nat.eqb (lens arr) 0) by (unfold value; cbn [val]; rewrite (Hs arr); destruct (lens arr); reflexivity).
    unfold final. cbn [executed ran app exec]. rewrite E. clear E. destruct (Nat.eqb (lens arr) 0); cbn [negb].
    + specialize (IHt lens b lens' H st Hs). unfold final in IHt. destruct (exec t st) as [st1 l1]. exact IHt.
    + specialize (IHs lens b lens' H st Hs). unfold final in IHs. destruct (exec s st) as [st1 l1]. exact IHs.
  - destruct (same_lengths body) eqn:SL; [|discriminate]. destruct (tally lens body) as [[b' lens1]|] eqn:E; [|discriminate]. injection H as <- <-. unfold final. cbn [executed exec]. revert start st Hs. induction m as [|m IHm]; intros start st Hs.
    + split; [|exact Hs]. split; [intros a; now rewrite on_bill_scale|now rewrite bill_total_scale].
    + assert (Hs1 : sized lens (set_ctr st i start)) by exact Hs. destruct (IH lens b' lens1 E _ Hs1) as [L1 _]. pose proof (same_lengths_ok body SL lens _ Hs1) as S1. unfold final in *.
      destruct (exec body (set_ctr st i start)) as [st1 l1]. cbn [fst snd] in *. specialize (IHm (start + step)%N st1 S1). destruct IHm as [L2 S2].
      destruct ((fix loop (n : nat) (start : N) (st : state) : state * list event := _) m (start + step)%N st1) as [st2 l2]. cbn [fst snd] in *. split; [|exact S2].
      rewrite aes_run_app. apply (matches_same _ (b' ++ scale m b')); [intros a; rewrite on_bill_app, !on_bill_scale; lia|rewrite bill_total_app, !bill_total_scale; lia|now apply matches_app].
Qed.

(** ** Programs with public branches execute the same instructions whatever the data *)
Lemma executed_low tables s : quiet_stmt tables s = true -> forall a b, low_equal a b -> executed s a = executed s b.
Proof.
  induction s as [|s IHs t IHt|x e|ar i e|ar n|d be n ar|e s IHs t IHt|i st step n body IH]; cbn [quiet_stmt]; intros Q a b H; try reflexivity.
  - apply andb_true_iff in Q as [Q1 Q2]. cbn [executed]. f_equal; [now apply IHs|]. apply IHt; [exact Q2|]. now apply (exec_low tables s Q1 a b H).
  - apply andb_true_iff in Q as [Q Q2]. apply andb_true_iff in Q as [Q Q1]. apply andb_true_iff in Q as [Qa Qb]. cbn [executed]. f_equal.
    replace (value b e) with (value a e); [destruct (N.eqb _ _); [now apply IHt|now apply IHs]|]. now apply value_low.
  - cbn [executed]. revert st a b H. induction n as [|n IHn]; intros st a b H; [reflexivity|].
    assert (H1 : low_equal (set_ctr a i st) (set_ctr b i st)) by now apply low_set_ctr.
    f_equal; [now apply IH|]. apply IHn. now apply (exec_low tables body Q _ _ H1).
Qed.
