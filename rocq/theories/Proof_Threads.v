(** Threads that share values do not disturb each other. *)
From Coq Require Import Lia Arith.
From Verif Require Import Word Spec_Client Spec_Threads.
Open Scope list_scope.

Lemma assign_length {A} (l : list A) x v : (x < length l)%nat -> length (assign l x v) = length l.
Proof. intros H. unfold assign. rewrite app_length, firstn_length. cbn [length]. rewrite skipn_length. lia. Qed.
Lemma assign_same {A} (l : list A) x v : (x < length l)%nat -> nth_error (assign l x v) x = Some v.
Proof.
  intros H. unfold assign. assert (L : length (firstn x l) = x) by (rewrite firstn_length; lia).
  rewrite nth_error_app2 by lia. now rewrite L, Nat.sub_diag.
Qed.
Lemma nth_error_skipn {A} (l : list A) n k : nth_error (skipn n l) k = nth_error l (n + k).
Proof. revert l. induction n as [|n IH]; intros [|a l]; cbn; auto. now destruct k. Qed.
Lemma nth_error_firstn {A} (l : list A) n k : (k < n)%nat -> nth_error (firstn n l) k = nth_error l k.
Proof. revert l k. induction n as [|n IH]; intros [|a l] [|k] H; cbn; auto; try lia. apply IH. lia. Qed.
Lemma assign_other {A} (l : list A) x y v : (x < length l)%nat -> y <> x -> nth_error (assign l x v) y = nth_error l y.
Proof.
  intros H N. unfold assign. assert (L : length (firstn x l) = x) by (rewrite firstn_length; lia).
  destruct (Nat.lt_ge_cases y x) as [Hy|Hy].
  - rewrite nth_error_app1 by lia. now apply nth_error_firstn.
  - rewrite nth_error_app2 by lia. rewrite L. destruct (y - x)%nat as [|k] eqn:E; [lia|]. cbn [nth_error].
    rewrite nth_error_skipn. f_equal. lia.
Qed.
(** Looking up the cells of a thread. *)
Definition reads {A} (m : list A) (cells : list nat) (vs : list A) : Prop := map (nth_error m) cells = map Some vs.
Lemma reads_length {A} (m : list A) cells vs : reads m cells vs -> length cells = length vs.
Proof. intros H. apply (f_equal (@length _)) in H. now rewrite !map_length in H. Qed.
Lemma reads_nth {A} (m : list A) cells vs j c : reads m cells vs -> nth_error cells j = Some c -> nth_error m c = nth_error vs j.
Proof.
  intros H Hc. assert (Q : nth_error (map (nth_error m) cells) j = nth_error (map Some vs) j) by (now rewrite H).
  rewrite !nth_error_map, Hc in Q. cbn in Q. destruct (nth_error vs j); cbn in Q; congruence.
Qed.
Lemma reads_intro {A} (m : list A) cells vs : length cells = length vs -> (forall j c, nth_error cells j = Some c -> nth_error m c = nth_error vs j) -> reads m cells vs.
Proof.
  unfold reads. revert vs. induction cells as [|c cells IH]; intros [|v vs] L H; cbn in *; try lia; [reflexivity|].
  f_equal; [exact (H 0%nat c eq_refl)|]. apply IH; [lia|]. intros j c' Hj. exact (H (S j) c' Hj).
Qed.

(** Writing to cells. *)
Definition writes {A} (m : list A) (cv : list (nat * A)) : list A := fold_left (fun m cv => assign m (fst cv) (snd cv)) cv m.
Lemma writes_length {A} (cv : list (nat * A)) : forall m, Forall (fun p => (fst p < length m)%nat) cv -> length (writes m cv) = length m.
Proof.
  induction cv as [|[c v] cv IH]; intros m H; [reflexivity|]. inversion H as [|? ? Hc Hr]; subst. cbn [writes fold_left]. fold (writes (assign m (fst (c, v)) (snd (c, v))) cv).
  cbn [fst snd] in *. rewrite IH; [now apply assign_length|]. now rewrite assign_length.
Qed.
Lemma writes_other {A} (cv : list (nat * A)) : forall m y, Forall (fun p => (fst p < length m)%nat) cv -> ~ In y (map fst cv) -> nth_error (writes m cv) y = nth_error m y.
Proof.
  induction cv as [|[c v] cv IH]; intros m y H N; [reflexivity|]. inversion H as [|? ? Hc Hr]; subst. cbn [writes fold_left map In fst snd] in *. fold (writes (assign m c v) cv).
  rewrite IH; [apply assign_other; [assumption|intuition]|now rewrite assign_length|intuition].
Qed.
Lemma writes_in {A} (cv : list (nat * A)) : forall m c v, NoDup (map fst cv) -> Forall (fun p => (fst p < length m)%nat) cv -> In (c, v) cv -> nth_error (writes m cv) c = Some v.
Proof.
  induction cv as [|[c0 v0] cv IH]; intros m c v ND H I; [easy|]. inversion H as [|? ? Hc Hr]; subst. inversion ND as [|? ? N1 N2]; subst. cbn [writes fold_left fst snd map] in *.
  fold (writes (assign m c0 v0) cv). destruct I as [I|I].
  - injection I as <- <-. rewrite writes_other; [now apply assign_same|now rewrite assign_length|assumption].
  - apply IH; [assumption|now rewrite assign_length|assumption].
Qed.
Lemma combine_fst {A B} (l : list A) (r : list B) : (length l <= length r)%nat -> map fst (combine l r) = l.
Proof. revert r. induction l as [|a l IH]; intros [|b r] H; cbn in *; try lia; [reflexivity|reflexivity|]. f_equal. apply IH. lia. Qed.
Lemma combine_nth_in {A B} (l : list A) (r : list B) j a b : nth_error l j = Some a -> nth_error r j = Some b -> In (a, b) (combine l r).
Proof. revert l r. induction j as [|j IH]; intros [|x l] [|y r] H H'; cbn in *; try discriminate; [left; congruence|right; now apply IH]. Qed.

Section Sched.
Context {S : Type} (step : list S -> call -> option (answer * list S)).
(** A call changes no variable but the one it assigns to, and adds variables at the end. *)
Definition frame : Prop := forall vars c a vars', step vars c = Some (a, vars') ->
  (length vars <= length vars')%nat /\ forall j, (j < length vars)%nat -> assigns c <> Some j -> nth_error vars' j = nth_error vars j.
Context (F : frame) (shared : list S).
Notation n := (length shared).
Notation alone := (sharing step n).

(** Steps a client needs when it runs alone. *)
Fixpoint cost (vars : list S) (p : client) : nat :=
  match p with
  | Stop => 0
  | Do c next =>
      match (if typed c then alone vars c else None) with
      | Some (a, vars') => 2 + length vars + cost vars' (next a)
      | None => 2 + length vars + cost vars (next Ill_typed)
      end
  end.
Definition spent (g : option (list S)) : nat := match g with None => 0 | Some l => 1 + length l end.

(** What is true of every thread at every moment. *)
Record thread_ok (m : list S) (p : client) (th : thread) (moves : nat) : Prop := {
  to_names : exists own, names th = seq 0 n ++ own /\ NoDup own /\ Forall (fun c => n <= c < length m)%nat own;
  to_rest : exists vs, reads m (names th) vs /\ (match got th with None => True | Some l => exists r, vs = l ++ r end) /\
      play alone shared p = seen th ++ play alone vs (todo th) /\
      (todo th = Stop \/ moves + (cost vs (todo th) - spent (got th)) = cost shared p)%nat /\ (todo th = Stop -> got th = None)
}.
Definition own_cells (th : thread) : list nat := skipn n (names (S:=S) th).
Record world_ok (clients : list client) (w : world) (done : nat -> nat) : Prop := {
  wo_shared : forall j, (j < n)%nat -> nth_error (memory w) j = nth_error shared j;
  wo_length : (n <= length (memory w))%nat;
  wo_threads : length (threads w) = length clients;
  wo_thread : forall t th p, nth_error (threads w) t = Some th -> nth_error clients t = Some p -> thread_ok (memory w) p th (done t);
  wo_apart : forall t t' th th' c, t <> t' -> nth_error (threads w) t = Some th -> nth_error (threads w) t' = Some th' -> In c (own_cells th) -> ~ In c (own_cells th')
}.

Lemma alone_frame vars c a vars' : alone vars c = Some (a, vars') -> (n <= length vars)%nat ->
  (length vars <= length vars')%nat /\ forall j, (j < n)%nat -> nth_error vars' j = nth_error vars j.
Proof.
  unfold sharing. intros H L. destruct (assigns c) as [x|] eqn:E.
  - destruct (Nat.ltb_spec x n) as [|Hx]; [discriminate|]. destruct (F _ _ _ _ H) as [Q1 Q2]. split; [assumption|]. intros j Hj. apply Q2; [lia|]. rewrite E. intros X. injection X as ->. lia.
  - destruct (F _ _ _ _ H) as [Q1 Q2]. split; [assumption|]. intros j Hj. apply Q2; [lia|]. now rewrite E.
Qed.

Lemma launch_ok clients : world_ok clients (launch shared clients) (fun _ => 0%nat).
Proof.
  constructor; cbn [launch memory threads].
  - auto.
  - lia.
  - apply map_length.
  - intros t th p Ht Hp. rewrite nth_error_map, Hp in Ht. cbn in Ht. injection Ht as <-. constructor; cbn [names todo got seen].
    + exists []. rewrite app_nil_r. repeat split; constructor.
    + exists shared. split; [|split; [exact I|split; [reflexivity|split; [right; cbn [spent]; lia|reflexivity]]]].
      apply reads_intro; [apply seq_length|]. intros j c Hj. assert (Hlt : (j < n)%nat) by (rewrite <- (seq_length n 0); apply nth_error_Some; congruence).
      pose proof (nth_error_nth _ _ 0%nat Hj) as Q. rewrite seq_nth in Q by assumption. now subst c.
  - intros t t' th th' c _ Ht _. rewrite nth_error_map in Ht. destruct (nth_error clients t) as [p|]; [|discriminate]. cbn in Ht. injection Ht as <-.
    unfold own_cells. cbn [names]. intros I. rewrite <- (seq_length n 0) in I at 1. now rewrite skipn_all in I.
Qed.

Lemma own_of th own : names (S:=S) th = seq 0 n ++ own -> own_cells th = own.
Proof. intros H. unfold own_cells. rewrite H. rewrite <- (seq_length n 0) at 1. now rewrite skipn_app, skipn_all, Nat.sub_diag. Qed.
Lemma NoDup_names own m : NoDup own -> Forall (fun c => n <= c < length (m : list S))%nat own -> NoDup (seq 0 n ++ own).
Proof.
  intros H B. rewrite Forall_forall in B. assert (D : forall c, In c (seq 0 n) -> ~ In c own) by (intros c I1 I2; apply in_seq in I1; apply B in I2; lia).
  revert H D. generalize own (seq_NoDup n 0). intros o N H D. induction N as [|c l Hc N IH]; [exact H|]. cbn. constructor.
  - rewrite in_app_iff. intros [I|I]; [now apply Hc|]. apply (D c); [now left|assumption].
  - apply IH. intros x I. apply D. now right.
Qed.

Section Write.
Context (m : list S) (cells : list nat) (vs : list S) (L : (length cells <= length vs)%nat) (B : Forall (fun c => c < length m)%nat cells) (ND : NoDup cells).
Lemma write_bound : Forall (fun p => (fst p < length m)%nat) (combine cells vs).
Proof.
  rewrite Forall_forall in *. intros [c v] I. apply B. cbn. apply (in_map fst) in I. now rewrite combine_fst in I.
Qed.
Lemma write_length : length (write m cells vs) = (length m + (length vs - length cells))%nat.
Proof. unfold write. rewrite app_length, skipn_length. fold (writes m (combine cells vs)). now rewrite writes_length by apply write_bound. Qed.
Lemma write_other y : (y < length m)%nat -> ~ In y cells -> nth_error (write m cells vs) y = nth_error m y.
Proof.
  intros H N. unfold write. fold (writes m (combine cells vs)). rewrite nth_error_app1 by (now rewrite writes_length by apply write_bound).
  apply writes_other; [apply write_bound|]. now rewrite combine_fst.
Qed.
Lemma write_at j c : nth_error cells j = Some c -> nth_error (write m cells vs) c = nth_error vs j.
Proof.
  intros H. assert (Hc : (c < length m)%nat) by (rewrite Forall_forall in B; apply B; eapply nth_error_In; eassumption).
  unfold write. fold (writes m (combine cells vs)). rewrite nth_error_app1 by (now rewrite writes_length by apply write_bound).
  assert (Hj : (j < length vs)%nat) by (assert (j < length cells)%nat by (apply nth_error_Some; congruence); lia).
  destruct (nth_error vs j) as [v|] eqn:E; [|apply nth_error_None in E; lia].
  apply writes_in; [now rewrite combine_fst|apply write_bound|]. eapply combine_nth_in; eassumption.
Qed.
Lemma write_new k : nth_error (write m cells vs) (length m + k) = nth_error vs (length cells + k).
Proof.
  unfold write. fold (writes m (combine cells vs)). rewrite nth_error_app2 by (rewrite writes_length by apply write_bound; lia).
  rewrite writes_length by apply write_bound. replace (length m + k - length m)%nat with k by lia. apply nth_error_skipn.
Qed.
End Write.

Lemma other_ok m m' p th k : thread_ok m p th k -> (forall c, In c (names th) -> nth_error m' c = nth_error m c) -> (length m <= length m')%nat -> thread_ok m' p th k.
Proof.
  intros [(own & N1 & N2 & N3) (vs & R & G & P & C & Q)] H L. constructor.
  - exists own. split; [assumption|]. split; [assumption|]. eapply Forall_impl; [|exact N3]. cbn. intros; lia.
  - exists vs. split; [|auto]. unfold reads in *. rewrite <- R. apply map_ext_in. exact H.
Qed.

Lemma names_bound th own (m : list S) : names th = seq 0 n ++ own -> Forall (fun c => n <= c < length m)%nat own -> (n <= length m)%nat -> Forall (fun c => c < length m)%nat (names (S:=S) th).
Proof.
  intros -> H L. apply Forall_app. split; [|eapply Forall_impl; [|exact H]; cbn; intros; lia]. apply Forall_forall. intros c I. apply in_seq in I. lia.
Qed.

Lemma names_shared th own j : names (S:=S) th = seq 0 n ++ own -> (j < n)%nat -> nth_error (names th) j = Some j.
Proof.
  intros -> H. rewrite nth_error_app1 by (now rewrite seq_length). rewrite (nth_error_nth' _ 0%nat) by (now rewrite seq_length). now rewrite seq_nth.
Qed.

Lemma play_alone_do vars c next : play alone vars (Do c next) =
  match (if typed c then alone vars c else None) with
  | Some (a, vars') => (c, a) :: play alone vars' (next a)
  | None => (c, Ill_typed) :: play alone vars (next Ill_typed)
  end.
Proof. reflexivity. Qed.

(** One move of a thread. *)
Lemma move_ok m p th k m' th' :
  (n <= length m)%nat -> (forall j, (j < n)%nat -> nth_error m j = nth_error shared j) ->
  thread_ok m p th k -> move step n m th = (m', th') ->
  thread_ok m' p th' (Datatypes.S k) /\ (length m <= length m')%nat /\
  (forall c, (c < length m)%nat -> ~ In c (own_cells th) -> nth_error m' c = nth_error m c) /\
  (forall c, In c (own_cells th') -> In c (own_cells th) \/ (length m <= c < length m')%nat).
Proof.
  intros Ln Sh [(own & N1 & N2 & N3) (vs & R & G & P & C & Q)] E. unfold move in E.
  assert (Same : forall q, thread_ok m p q (Datatypes.S k) -> names q = names th -> thread_ok m p q (Datatypes.S k) /\ (length m <= length m)%nat /\
    (forall c, (c < length m)%nat -> ~ In c (own_cells th) -> nth_error m c = nth_error m c) /\ (forall c, In c (own_cells q) -> In c (own_cells th) \/ (length m <= c < length m)%nat)).
  { intros q Hq Hn. split; [assumption|]. split; [lia|]. split; [reflexivity|]. unfold own_cells. rewrite Hn. auto. }
  destruct (todo th) as [|c next] eqn:Et.
  { injection E as <- <-. apply Same; [|reflexivity]. constructor; [eauto|]. exists vs. rewrite Et. auto 10. }
  destruct C as [C|C]; [discriminate|].
  destruct (got th) as [l|] eqn:Eg.
  2:{ injection E as <- <-. apply Same; [|reflexivity]. constructor; cbn [names todo got seen]; [eauto|]. exists vs. split; [assumption|]. split; [now exists vs|].
      split; [assumption|]. split; [|discriminate]. right. cbn [spent length] in *. cbn [cost] in *. destruct (if typed c then alone vs c else None) as [[a v']|]; lia. }
  destruct G as [r ->]. pose proof (reads_length _ _ _ R) as RL. rewrite app_length in RL.
  destruct (nth_error (names th) (length l)) as [cell|] eqn:En.
  - pose proof (reads_nth _ _ _ _ _ R En) as X. rewrite nth_error_app2, Nat.sub_diag in X by lia.
    assert (Lt : (length l < length (names th))%nat) by (apply nth_error_Some; congruence).
    destruct r as [|v r]; [cbn in RL; lia|]. cbn in X. rewrite X in E. injection E as <- <-. apply Same; [|reflexivity].
    constructor; cbn [names todo got seen]; [eauto|]. exists (l ++ v :: r). split; [assumption|]. split; [exists r; now rewrite <- app_assoc|]. split; [assumption|].
    split; [|discriminate]. right. cbn [spent] in *. rewrite app_length in *. cbn [length] in *. cbn [cost] in *.
    rewrite app_length in *. cbn [length] in *. destruct (if typed c then alone (l ++ v :: r) c else None) as [[a v']|]; lia.
  - apply nth_error_None in En. assert (r = []) as -> by (destruct r; [reflexivity|cbn in RL; lia]). rewrite app_nil_r in *. cbn [length] in RL.
    rewrite play_alone_do in P. cbn [cost] in C. cbn [spent] in C.
    destruct (if typed c then alone l c else None) as [[a l']|] eqn:Es.
    + injection E as <- <-. assert (Es' : alone l c = Some (a, l')) by (destruct (typed c); [assumption|discriminate]).
      pose proof (names_bound th own m N1 N3 Ln) as NB. pose proof (NoDup_names _ _ N2 N3) as ND. rewrite <- N1 in ND.
      assert (Lnl : (n <= length l)%nat) by (rewrite N1, app_length, seq_length in RL; lia).
      destruct (alone_frame l c a l' Es' Lnl) as [F1 F2].
      assert (Ll : (length (names th) <= length l')%nat) by lia.
      pose proof (write_length m (names th) l' Ll NB) as WL. pose proof (own_of th own N1) as OW.
      set (fresh := seq (length m) (length l' - length l)) in *.
      assert (N1' : names th ++ fresh = seq 0 n ++ (own ++ fresh)) by (now rewrite N1, app_assoc).
      split; [constructor; cbn [names todo got seen]|split; [lia|split]].
      * exists (own ++ fresh). split; [assumption|]. split.
        -- clear - N2 N3. rewrite Forall_forall in N3. induction N2 as [|x o Hx N2 IH]; [apply seq_NoDup|]. cbn. constructor.
           ++ rewrite in_app_iff. intros [I|I]; [now apply Hx|]. unfold fresh in I. apply in_seq in I. specialize (N3 x (or_introl eq_refl)). lia.
           ++ apply IH. intros y I. apply N3. now right.
        -- apply Forall_app. split; [eapply Forall_impl; [|exact N3]; cbn; intros; lia|]. apply Forall_forall. intros x I. unfold fresh in I. apply in_seq in I. lia.
      * exists l'. split; [|split; [exact I|split; [|split; [|reflexivity]]]].
        -- apply reads_intro; [rewrite app_length; unfold fresh; rewrite seq_length; lia|]. intros j cc Hj.
           destruct (Nat.lt_ge_cases j (length (names th))) as [Hl|Hl].
           ++ rewrite nth_error_app1 in Hj by assumption. now apply (write_at m (names th) l' Ll NB ND).
           ++ rewrite nth_error_app2 in Hj by assumption. unfold fresh in Hj.
              assert (Hk : (j - length (names th) < length l' - length l)%nat) by (rewrite <- (seq_length (length l' - length l) (length m)); apply nth_error_Some; congruence).
              pose proof (nth_error_nth _ _ 0%nat Hj) as X. rewrite seq_nth in X by assumption. subst cc. rewrite (write_new m (names th) l' Ll NB). f_equal. lia.
        -- rewrite P, <- app_assoc. reflexivity.
        -- right. cbn [spent]. rewrite Nat.sub_0_r. lia.
      * intros y Hy Ny. destruct (in_dec Nat.eq_dec y (names th)) as [I|I]; [|now apply (write_other m (names th) l' Ll NB)].
        rewrite N1, in_app_iff in I. destruct I as [I|I]; [|now rewrite OW in Ny]. apply in_seq in I.
        rewrite (write_at m (names th) l' Ll NB ND y y) by (apply (names_shared th own); [assumption|lia]). rewrite F2 by lia.
        symmetry. apply (reads_nth _ _ _ _ _ R). apply (names_shared th own); [assumption|lia].
      * intros y I. rewrite (own_of _ (own ++ fresh)) in I by exact N1'. rewrite in_app_iff in I. rewrite OW. destruct I as [I|I]; [now left|]. unfold fresh in I. apply in_seq in I. right. lia.
    + injection E as <- <-. apply Same; [|reflexivity]. constructor; cbn [names todo got seen]; [eauto|]. exists l. split; [assumption|]. split; [exact I|].
      split; [rewrite P, <- app_assoc; reflexivity|]. split; [|reflexivity]. right. cbn [spent]. rewrite Nat.sub_0_r. lia.
Qed.
Lemma nth_assign {A} (l : list A) x v y a : nth_error (assign l x v) y = Some a -> (x < length l)%nat -> (y = x /\ a = v) \/ (y <> x /\ nth_error l y = Some a).
Proof.
  intros H Hx. destruct (Nat.eq_dec y x) as [->|N]; [left|right].
  - rewrite assign_same in H by assumption. split; congruence.
  - rewrite assign_other in H by assumption. auto.
Qed.
Lemma turn_ok clients w done t : world_ok clients w done -> world_ok clients (turn step n w t) (fun u => if Nat.eqb u t then Datatypes.S (done u) else done u).
Proof.
  intros [W1 W2 W3 W4 W5]. unfold turn. destruct (nth_error (threads w) t) as [th|] eqn:Et.
  2:{ constructor; auto. intros u th p Hu Hp. destruct (Nat.eqb_spec u t) as [->|]; [congruence|]. now apply W4. }
  assert (Lt : (t < length (threads w))%nat) by (apply nth_error_Some; congruence).
  destruct (nth_error clients t) as [p|] eqn:Ep; [|apply nth_error_None in Ep; lia].
  pose proof (W4 t th p Et Ep) as T. destruct (move step n (memory w) th) as [m' th'] eqn:Em.
  destruct (move_ok _ _ _ _ _ _ W2 W1 T Em) as (T' & Lm & K & O).
  destruct (to_names _ _ _ _ T) as (own & N1 & N2 & N3). pose proof (own_of th own N1) as OW. rewrite Forall_forall in N3.
  constructor; cbn [memory threads].
  - intros j Hj. rewrite K; [now apply W1|lia|]. rewrite OW. intros I. apply N3 in I. lia.
  - lia.
  - now rewrite assign_length.
  - intros u thu pu Hu Hp. destruct (nth_assign _ _ _ _ _ Hu Lt) as [[-> ->]|[Nu Hu']].
    + rewrite Nat.eqb_refl. rewrite Ep in Hp. injection Hp as <-. exact T'.
    + destruct (Nat.eqb_spec u t) as [|_]; [contradiction|]. apply (other_ok (memory w)); [now apply W4| |assumption].
      intros c I. destruct (to_names _ _ _ _ (W4 u thu pu Hu' Hp)) as (ownu & M1 & M2 & M3). rewrite Forall_forall in M3. pose proof (own_of thu ownu M1) as OU.
      rewrite M1, in_app_iff in I. apply K; destruct I as [I|I].
      * apply in_seq in I. lia.
      * apply M3 in I. lia.
      * apply in_seq in I. rewrite OW. intros I'. apply N3 in I'. lia.
      * apply (W5 u t thu th); auto. now rewrite OU.
  - assert (P : forall u thu c, u <> t -> nth_error (threads w) u = Some thu -> In c (own_cells thu) -> ~ In c (own_cells th')).
    { intros u thu c Nu Hu I I'. assert (Lu : (u < length (threads w))%nat) by (apply nth_error_Some; congruence).
      destruct (nth_error clients u) as [pu|] eqn:Epu; [|apply nth_error_None in Epu; lia].
      destruct (to_names _ _ _ _ (W4 u thu pu Hu Epu)) as (ownu & M1 & M2 & M3). rewrite Forall_forall in M3. pose proof (own_of thu ownu M1) as OU.
      apply O in I'. destruct I' as [I'|I'].
      - now apply (W5 u t thu th c Nu Hu Et).
      - rewrite OU in I. apply M3 in I. lia. }
    intros u u' thu thu' c Nu Hu Hu' I I'.
    destruct (nth_assign _ _ _ _ _ Hu Lt) as [[-> ->]|[Nu1 Hu1]], (nth_assign _ _ _ _ _ Hu' Lt) as [[-> ->]|[Nu2 Hu2]].
    + now apply Nu.
    + now apply (P u' thu' c).
    + now apply (P u thu c).
    + now apply (W5 u u' thu thu' c).
Qed.
Lemma interleave_ok clients schedule : forall w done, world_ok clients w done ->
  world_ok clients (interleave step n w schedule) (fun u => (done u + count_occ Nat.eq_dec schedule u)%nat).
Proof.
  induction schedule as [|t sch IH]; intros w done W; cbn [interleave fold_left].
  - destruct W as [W1 W2 W3 W4 W5]. constructor; auto. intros u th p Hu Hp. cbn [count_occ]. rewrite Nat.add_0_r. now apply W4.
  - pose proof (IH _ _ (turn_ok clients w done t W)) as Q. fold (interleave step n (turn step n w t) sch) in *.
    destruct Q as [W1 W2 W3 W4 W5]. constructor; auto. intros u th p Hu Hp. specialize (W4 u th p Hu Hp). cbn beta in W4. cbn [count_occ].
    destruct (Nat.eqb_spec u t) as [Eu|Nu], (Nat.eq_dec t u) as [Et|Nt]; try congruence.
    rewrite Nat.add_succ_r. exact W4.
Qed.

(** Every thread sees what it would see alone, however the threads are scheduled ... *)
Lemma threads_alone clients schedule t th : nth_error (threads (interleave step n (launch shared clients) schedule)) t = Some th ->
  exists p rest, nth_error clients t = Some p /\ play alone shared p = seen th ++ rest /\ (todo th = Stop -> rest = []).
Proof.
  intros Ht. pose proof (interleave_ok clients schedule _ _ (launch_ok clients)) as W.
  assert (L : (t < length clients)%nat) by (rewrite <- (wo_threads _ _ _ W); apply nth_error_Some; congruence).
  destruct (nth_error clients t) as [p|] eqn:Ep; [|apply nth_error_None in Ep; lia].
  destruct (to_rest _ _ _ _ (wo_thread _ _ _ W t th p Ht Ep)) as (vs & _ & _ & P & _). exists p, (play alone vs (todo th)).
  split; [reflexivity|]. split; [assumption|]. now intros ->.
Qed.
(** ... finishes after a number of its own turns that depends on it alone ... *)
Lemma threads_finish clients schedule t th p : nth_error clients t = Some p -> nth_error (threads (interleave step n (launch shared clients) schedule)) t = Some th ->
  (cost shared p <= count_occ Nat.eq_dec schedule t)%nat -> todo th = Stop.
Proof.
  intros Ep Ht H. pose proof (interleave_ok clients schedule _ _ (launch_ok clients)) as W.
  destruct (to_rest _ _ _ _ (wo_thread _ _ _ W t th p Ht Ep)) as (vs & R & G & _ & [C|C] & _); [assumption|].
  assert (Z : (cost vs (todo th) - spent (got th) = 0)%nat) by lia. destruct (todo th) as [|c next]; [reflexivity|exfalso].
  cbn [cost] in Z. destruct (got th) as [l|]; cbn [spent] in Z.
  - destruct G as [r ->]. rewrite app_length in Z. destruct (if typed c then alone (l ++ r) c else None) as [[a v']|]; lia.
  - destruct (if typed c then alone vs c else None) as [[a v']|]; lia.
Qed.
(** ... and the shared values never change. *)
Lemma threads_shared clients schedule : firstn n (memory (interleave step n (launch shared clients) schedule)) = shared.
Proof.
  pose proof (interleave_ok clients schedule _ _ (launch_ok clients)) as [W1 W2 _ _ _]. revert W1 W2. generalize (memory (interleave step n (launch shared clients) schedule)).
  clear. induction shared as [|a s IH]; intros m H L; [reflexivity|]. destruct m as [|b m]; [cbn in L; lia|]. cbn [length firstn] in *. f_equal.
  - specialize (H 0%nat ltac:(lia)). cbn in H. congruence.
  - apply IH; [|lia]. intros j Hj. apply (H (Datatypes.S j)). lia.
Qed.
Lemma threads_all clients schedule : length (threads (interleave step n (launch shared clients) schedule)) = length clients.
Proof. apply (interleave_ok clients schedule _ _ (launch_ok clients)). Qed.
End Sched.
