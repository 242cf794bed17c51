(** The number of look-ups in constant tables of a program without secret-dependent branches is fixed; and their range. *)
From Coq Require Import Lia Arith String.
From Coq Require Import List.
From Verif Require Import Word Fips197 Spec_Leak Spec_LeakSoft Proof_Word Proof_Leak.
Open Scope list_scope.
Open Scope N_scope.

Fixpoint count (e : exp) : nat :=
  match e with
  | Var _ | Ctr _ | Lit _ | Len _ => 0
  | Un _ a | Index _ a => count a
  | Static _ _ a => count a + 1
  | Bin _ a b | Let _ a b | Call _ a b => count a + count b
  | Call2 _ a _ b c => count a + (count b + count c)
  end.
(** With the lengths of the arrays before: the number and the lengths after. *)
Fixpoint same_lengths (s : stmt) : bool :=
  match s with Skip | Assign _ _ | Store _ _ _ => true | Seq s t => same_lengths s && same_lengths t | _ => false end.
Fixpoint counts (lens : string -> nat) (s : stmt) : option (nat * (string -> nat)) :=
  match s with
  | Skip => Some (0%nat, lens)
  | Zeroed a n | View a _ n _ => Some (0%nat, upd lens a n)
  | Seq s t => match counts lens s with Some (a, lens) => match counts lens t with Some (b, lens) => Some ((a + b)%nat, lens) | _ => None end | None => None end
  | Assign _ e => Some (count e, lens)
  | Store _ i e => Some ((count i + count e)%nat, lens)
  | If (Len a) s t => counts lens (if Nat.eqb (lens a) 0 then t else s)
  | If _ _ _ => None
  | For _ _ _ n b => if same_lengths b then match counts lens b with Some (a, _) => Some ((n * a)%nat, lens) | None => None end else None
  end.
Lemma lookups_app a b : lookups (a ++ b) = (lookups a + lookups b)%nat.
Proof. unfold lookups. now rewrite filter_app, app_length. Qed.
Lemma count_ok c a e : forall v, lookups (seen c a v e) = count e.
Proof.
  induction e; intros v; cbn [seen count]; rewrite ?lookups_app, ?IHe, ?IHe1, ?IHe2, ?IHe3; auto.
  - destruct (slow o); cbn; lia.
Qed.
Definition sized (lens : string -> nat) (st : state) : Prop := forall x, length (arrs st x) = lens x.
Lemma same_lengths_ok s : same_lengths s = true -> forall lens st, sized lens st -> sized lens (fst (exec s st)).
Proof.
  induction s as [|s IHs t IHt|x e|ar i e|ar z|d be z ar|e s IHs t IHt|i start step m body IH]; cbn [same_lengths]; intros H lens st Hs; try discriminate; try exact Hs.
  - apply andb_true_iff in H as [H1 H2]. cbn [exec]. specialize (IHs H1 lens st Hs). destruct (exec s st) as [st1 l1]. specialize (IHt H2 lens st1 IHs). destruct (exec t st1) as [st2 l2]. exact IHt.
  - intros x. cbn. unfold upd. destruct (String.eqb_spec ar x) as [<-|]; [|apply Hs]. rewrite write_length. apply Hs.
Qed.
Lemma counts_ok s : forall lens n lens', counts lens s = Some (n, lens') -> forall st, sized lens st -> lookups (snd (exec s st)) = n /\ sized lens' (fst (exec s st)).
Proof.
  induction s as [|s IHs t IHt|x e|ar i e|ar z|d be z ar|e s IHs t IHt|i start step m body IH]; cbn [counts]; intros lens n lens' H st Hs.
  - injection H as <- <-. now split.
  - destruct (counts lens s) as [[a lens1]|] eqn:E1; [|discriminate]. destruct (counts lens1 t) as [[b lens2]|] eqn:E2; [|discriminate]. injection H as <- <-. cbn [exec].
    destruct (IHs lens a lens1 E1 st Hs) as [L1 S1]. destruct (exec s st) as [st1 l1]. destruct (IHt lens1 b lens2 E2 st1 S1) as [L2 S2]. destruct (exec t st1) as [st2 l2]. cbn [fst snd] in *. split; [now rewrite lookups_app, L1, L2|exact S2].
  - injection H as <- <-. cbn [exec snd]. split; [apply count_ok|exact Hs].
  - injection H as <- <-. split; [cbn [exec snd]; unfold leak; rewrite !lookups_app, !count_ok; cbn; lia|]. now apply (same_lengths_ok (Store ar i e)).
  - injection H as <- <-. split; [reflexivity|]. intros y. cbn. unfold upd. destruct (String.eqb_spec ar y); [apply repeat_length|apply Hs].
  - injection H as <- <-. split; [reflexivity|]. intros y. cbn. unfold upd. destruct (String.eqb_spec d y); [unfold view; now rewrite map_length, chunks_length|apply Hs].
  - destruct e; try discriminate. cbn [exec]. assert (E : negb (value st (Len arr) =? 0) = negb (Nat.eqb (lens arr) 0)) by (unfold value; cbn [val]; rewrite (Hs arr); destruct (lens arr); reflexivity).
    rewrite E. clear E. destruct (Nat.eqb (lens arr) 0); cbn [negb].
    + specialize (IHt lens n lens' H st Hs). destruct (exec t st) as [st1 l1]. exact IHt.
    + specialize (IHs lens n lens' H st Hs). destruct (exec s st) as [st1 l1]. exact IHs.
  - destruct (same_lengths body) eqn:SL; [|discriminate]. destruct (counts lens body) as [[a lens1]|] eqn:E; [|discriminate]. injection H as <- <-. cbn [exec]. revert start st Hs. induction m as [|m IHm]; intros start st Hs; [now split|].
    assert (Hs1 : sized lens (set_ctr st i start)) by exact Hs. destruct (IH lens a lens1 E _ Hs1) as [L1 _]. pose proof (same_lengths_ok body SL lens _ Hs1) as S1.
    destruct (exec body (set_ctr st i start)) as [st1 l1]. cbn [fst snd] in *. specialize (IHm (start + step) st1 S1).
    destruct ((fix loop (n : nat) (start : N) (st : state) : state * list event := _) m (start + step) st1) as [st2 l2]. cbn [fst snd] in *. destruct IHm as [L2 S2]. split; [|exact S2].
    change (Branch true :: l1 ++ l2) with ([Branch true] ++ l1 ++ l2). rewrite !lookups_app, L1, L2. reflexivity.
Qed.

(** Every table index is a cast to u8. *)
Fixpoint narrow (e : exp) : bool :=
  match e with
  | Var _ | Ctr _ | Lit _ | Len _ => true
  | Un _ a | Index _ a => narrow a
  | Static _ _ a => narrow a && match a with Un (As w) _ => w =? 8 | _ => false end
  | Bin _ a b | Let _ a b | Call _ a b => narrow a && narrow b
  | Call2 _ a _ b c => narrow a && (narrow b && narrow c)
  end.
Fixpoint narrows (s : stmt) : bool :=
  match s with
  | Skip | Zeroed _ _ | View _ _ _ _ => true
  | Seq s t => narrows s && narrows t
  | Assign _ e => narrow e
  | Store _ i e => narrow i && narrow e
  | If c s t => narrow c && (narrows s && narrows t)
  | For _ _ _ _ b => narrows b
  end.
Lemma below_app n a b : lookups_below n a -> lookups_below n b -> lookups_below n (a ++ b).
Proof. intros H1 H2 x i H. apply in_app_iff in H as [H|H]; eauto. Qed.
Lemma below_one n e : match e with Lookup _ i => i < n | _ => True end -> lookups_below n [e].
Proof. intros H x i [->|[]]. exact H. Qed.
Lemma below_nil n : lookups_below n []. Proof. intros x i []. Qed.
Lemma narrow_ok c a e : narrow e = true -> forall v, lookups_below 256 (seen c a v e).
Proof.
  induction e; cbn [narrow]; intros H v; cbn [seen]; rewrite ?andb_true_iff in H; try apply below_nil; auto.
  - destruct H. repeat apply below_app; auto. destruct (slow o); [now apply below_one|apply below_nil].
  - apply below_app; [auto|now apply below_one].
  - destruct H as [H1 H2]. apply below_app; [auto|]. apply below_one. destruct e; try discriminate. destruct o; try discriminate. cbn [val val1].
    apply N.eqb_eq in H2. subst w. apply (trunc_lt 8).
  - destruct H. apply below_app; auto.
  - destruct H. apply below_app; auto.
  - destruct H as [H1 [H2 H3]]. repeat apply below_app; auto.
Qed.
Lemma narrows_ok s : narrows s = true -> forall st, lookups_below 256 (snd (exec s st)).
Proof.
  induction s as [|s IHs t IHt|x e|ar i e|ar z|d be z ar|e s IHs t IHt|i start step m body IH]; cbn [narrows]; intros H st; rewrite ?andb_true_iff in H; cbn [exec]; try apply below_nil.
  - destruct H as [H1 H2]. specialize (IHs H1 st). destruct (exec s st) as [st1 l1]. specialize (IHt H2 st1). destruct (exec t st1) as [st2 l2]. cbn [snd] in *. now apply below_app.
  - now apply narrow_ok.
  - destruct H. cbn [snd]. unfold leak. repeat apply below_app; try now apply narrow_ok. now apply below_one.
  - destruct H as [H1 [H2 H3]]. specialize (IHs H2 st). specialize (IHt H3 st). destruct (negb _).
    + destruct (exec s st) as [st1 l1]. cbn [snd] in *. apply below_app; [now apply narrow_ok|]. apply (below_app _ [_]); [now apply below_one|assumption].
    + destruct (exec t st) as [st1 l1]. cbn [snd] in *. apply below_app; [now apply narrow_ok|]. apply (below_app _ [_]); [now apply below_one|assumption].
  - revert start st. induction m as [|m IHm]; intros start st; [now apply below_one|].
    specialize (IH H (set_ctr st i start)). destruct (exec body (set_ctr st i start)) as [st1 l1]. specialize (IHm (start + step) st1). cbn [snd] in IH.
    destruct ((fix loop (n : nat) (start : N) (st : state) : state * list event := _) m (start + step) st1) as [st2 l2]. cbn [snd] in IHm. cbn [snd].
    apply (below_app _ [_]); [now apply below_one|]. now apply below_app.
Qed.
