(** What the calls as programs (Model_LeakClient.v) show does not depend on the bytes in the variables. *)
From Coq Require Import Lia Arith String.
From Coq Require Import List.
From Verif Require Import Word Interface Fips197 Spec_Api Spec_Cfg Spec_User Spec_Fmt Spec_Client Spec_Leak Spec_LeakBlock Spec_LeakClient Model_Cfg Model_Leak Model_LeakAccel Model_LeakBlock Model_Running Model_LeakClient.
From Verif Require Import Proof_Leak Props_Leak Props_LeakBlock Proof_LeakClient.
Open Scope string_scope.
Open Scope list_scope.
Open Scope N_scope.

(** Same type, same length. *)
Inductive alike1 : tvalue -> tvalue -> Prop :=
| al_block g b b' : length b = length b' -> alike1 (TBlock g b) (TBlock g b')
| al_enc k r r' : length r = length r' -> alike1 (TEnc k r) (TEnc k r')
| al_dec k r r' : length r = length r' -> alike1 (TDec k r) (TDec k r').
Definition alike : list tvalue -> list tvalue -> Prop := Forall2 alike1.
Definition alike_res {E} (same : list E -> list E -> Prop) (r r' : option (answer * list tvalue * list E)) : Prop :=
  match r, r' with Some (_, v, t), Some (_, v', t') => same t t' /\ alike v v' | None, None => True | _, _ => False end.
Lemma alike_nth v w x : alike v w -> match nth_error v x, nth_error w x with Some a, Some b => alike1 a b | None, None => True | _, _ => False end.
Proof. intros H. revert x. induction H; intros [|n]; cbn; auto. apply IHForall2. Qed.
Lemma alike_app v w a b : alike v w -> alike a b -> alike (v ++ a) (w ++ b). Proof. apply Forall2_app. Qed.
Lemma alike_assign v w x a b : alike v w -> alike1 a b -> alike (assign v x a) (assign w x b).
Proof.
  intros H Hab. unfold assign. apply Forall2_app.
  - revert x. induction H; intros [|n]; cbn; constructor; auto.
  - constructor; [assumption|]. revert x. induction H; intros n; cbn; [constructor|]. destruct n; [assumption|apply IHForall2].
Qed.
Lemma one a b : alike1 a b -> alike [a] [b]. Proof. intros H. constructor; [exact H|constructor]. Qed.
Lemma alike_lanes n b b' : length b = length b' -> Forall2 (fun x y : list N => length x = length y) (lanes n b) (lanes n b').
Proof.
  unfold lanes. revert b b'. induction n as [|n IH]; intros b b' H; cbn [chunks]; constructor.
  - rewrite !firstn_length. congruence.
  - apply IH. rewrite !skipn_length. congruence.
Qed.

(** ** The programs pass the checker *)
Lemma quiet_binary tables p be g o : In o [And; Or; Xor] -> quiet_stmt tables (binary_program (block_be p be) (vec_n p g) (vec_m p g) (Bin o)) = true.
Proof. intros [<-|[<-|[<-|[]]]]; destruct p, g, be, tables; vm_compute; reflexivity. Qed.
Lemma quiet_not tables p be g : quiet_stmt tables (unary_program (block_be p be) (vec_n p g) (vec_m p g) (x_not (vec_n p g))) = true.
Proof. destruct p, g, be, tables; vm_compute; reflexivity. Qed.
Lemma quiet_is_zero tables p be g : quiet_stmt tables (is_zero_program (block_be p be) (vec_n p g) (vec_m p g)) = true.
Proof. destruct p, g, be, tables; vm_compute; reflexivity. Qed.
Lemma quiet_equal tables p be g : compares_at_once p g = true -> quiet_stmt tables (equal_program (block_be p be) (vec_n p g) (vec_m p g) (eq_fields p)) = true.
Proof. destruct p, g; try discriminate; intros _; destruct be, tables; vm_compute; reflexivity. Qed.
Lemma quiet_round tables p be e g : engine_of p be = Some e -> computes_aes_quietly tables p = true -> forall f, In f [g_enc; g_enc_last; g_dec; g_dec_last] -> quiet_stmt tables (binary_program (g_be e) (vec_n p g) (vec_m p g) (f e (vec_n p g))) = true.
Proof. intros E Q f [<-|[<-|[<-|[<-|[]]]]]; destruct p; try discriminate Q; injection E as <-; destruct g; try destruct be; destruct tables; try discriminate Q; vm_compute; reflexivity. Qed.
Lemma quiet_chain tables p be e g (dec : bool) keys : engine_of p be = Some e -> computes_aes_quietly tables p = true ->
  quiet_stmt tables (chain_program (g_be e) (vec_n p g) (vec_m p g) (option_map (if dec then snd else fst) (g_pre e)) (if dec then g_dec e (vec_n p g) else g_enc e (vec_n p g)) keys) = true.
Proof. intros E Q. destruct dec, p; try discriminate Q; injection E as <-; destruct g; try destruct be; destruct tables; try discriminate Q; vm_compute; reflexivity. Qed.
Lemma quiet_mix tables p be e f : engine_of p be = Some e -> computes_aes_quietly tables p = true -> In f [g_mc; g_imc] -> quiet_stmt tables (unary_program (g_be e) 1 1 (f e)) = true.
Proof. intros E Q [<-|[<-|[]]]; destruct p; try discriminate Q; injection E as <-; try destruct be; destruct tables; try discriminate Q; vm_compute; reflexivity. Qed.
Lemma quiet_crypt tables p be e g k dec : engine_of p be = Some e -> computes_aes_quietly tables p = true -> quiet_stmt tables (s_crypt e k (vec_n p g) (vec_m p g) dec "keys") = true.
Proof. intros E Q. destruct dec, k, p; try discriminate Q; injection E as <-; destruct g; try destruct be; destruct tables; try discriminate Q; vm_compute; reflexivity. Qed.
Lemma quiet_keygen tables p be e k : engine_of p be = Some e -> computes_aes_quietly tables p = true -> quiet_stmt tables (g_keygen e k) = true.
Proof. intros E Q. destruct k, p; try discriminate Q; injection E as <-; try destruct be; destruct tables; try discriminate Q; vm_compute; reflexivity. Qed.
Lemma quiet_swap tables p be e k f : engine_of p be = Some e -> computes_aes_quietly tables p = true -> In f [g_mc; g_imc] -> quiet_stmt tables (s_swap_keys (f e) "keys" "drk" (nr_of k + 1)) = true.
Proof. intros E Q [<-|[<-|[]]]; destruct k, p; try discriminate Q; injection E as <-; try destruct be; destruct tables; try discriminate Q; vm_compute; reflexivity. Qed.
Lemma quiet_copy_to tables dst l : quiet_stmt tables (s_copy_to dst l) = true.
Proof. unfold s_copy_to. generalize (combine (seq 0 (length l)) l) as q. induction q as [|[j [a i]] q IH]; [reflexivity|]. cbn [map fst snd block fold_right quiet_stmt]. exact IH. Qed.
Lemma quiet_copy tables l : quiet_stmt tables (copy_program l) = true.
Proof. apply (quiet_copy_to tables "out"). Qed.
Lemma quiet_try tables n : quiet_stmt tables (try_from_program n) = true.
Proof. unfold try_from_program. cbn [quiet_stmt]. rewrite quiet_copy. reflexivity. Qed.
Lemma quiet_store tables n : quiet_stmt tables (store_program n) = true.
Proof. unfold store_program. cbn [quiet_stmt]. rewrite quiet_copy_to. reflexivity. Qed.

(** ** Calls of the same shape *)
Lemma blank_length b b' : blank b = blank b' -> length b = length b'.
Proof. intros H. rewrite <- (repeat_length 0 (length b)), <- (repeat_length 0 (length b')). exact (f_equal (@length N) H). Qed.
Inductive same_shape_on : wcall -> wcall -> Prop :=
| so_same c : same_shape_on c c
| so_new b b' : length b = length b' -> same_shape_on (New b) (New b')
| so_from_array b b' : length b = length b' -> same_shape_on (From_array b) (From_array b')
| so_from_ref b b' : length b = length b' -> same_shape_on (From_ref b) (From_ref b')
| so_try b b' : length b = length b' -> same_shape_on (Try_from b) (Try_from b')
| so_store x b b' : length b = length b' -> same_shape_on (Store_to x b) (Store_to x b').
Inductive same_shape : call -> call -> Prop :=
| sh_same c : same_shape c c
| sh_on g c c' : same_shape_on c c' -> same_shape (On g c) (On g c')
| sh_u128 n n' : same_shape (From_u128 n) (From_u128 n')
| sh_enc k b b' : length b = length b' -> same_shape (Enc_from k b) (Enc_from k b')
| sh_dec k b b' : length b = length b' -> same_shape (Dec_from k b) (Dec_from k b').
Lemma shape_on_same c c' : shape_on c = shape_on c' -> same_shape_on c c'.
Proof.
  destruct c; cbn [shape_on]; intros H; destruct c'; cbn [shape_on] in H; try discriminate H; try (apply so_same); try (rewrite H; apply so_same);
    injection H as H; subst; constructor; now apply blank_length.
Qed.
Lemma shape_same c c' : shape c = shape c' -> same_shape c c' /\ typed c = typed c'.
Proof.
  unfold shape. intros E. injection E as H T. split; [|exact T]. clear T.
  destruct c, c'; try discriminate H; try (apply sh_same); try (apply sh_u128); try (rewrite H; apply sh_same); injection H as H; subst;
    try (apply sh_on, shape_on_same; assumption); constructor; now apply blank_length.
Qed.

(** ** Clients of a library whose calls of the same shape show the same; [ok]: those calls *)
Section Any.
Context {Ev : Type} (timed : list tvalue -> call -> option (answer * list tvalue * list Ev)) (same : list Ev -> list Ev -> Prop) (Hnil : same [] []).
Context (ok : call -> bool) (Hok : forall v v' c c', alike v v' -> same_shape c c' -> ok c = true -> alike_res same (timed v c) (timed v' c')).
Lemma watch_any cl : forall cl' v v', Forall (fun ca => ok (fst ca) = true) (play (heard timed) v cl) -> alike v v' ->
  map (fun ca => shape (fst ca)) (play (heard timed) v cl) = map (fun ca => shape (fst ca)) (play (heard timed) v' cl') ->
  Forall2 same (watch timed v cl) (watch timed v' cl').
Proof.
  induction cl as [|c next IH]; intros cl' v v' Hm Hv H.
  - destruct cl' as [|c' next']; [constructor|]. cbn [play map] in H. destruct (if typed c' then _ else _) as [[a w]|]; discriminate H.
  - cbn [play] in H, Hm. assert (Hq : ok c = true) by (destruct (if typed c then _ else _) as [[a w]|]; now inversion Hm). destruct cl' as [|c' next'].
    { destruct (if typed c then _ else _) as [[a w]|]; discriminate H. }
    cbn [play] in H. cbn [watch].
    assert (X : shape c = shape c').
    { destruct (if typed c then _ else _) as [[a w]|], (if typed c' then _ else _) as [[a' w']|]; exact (f_equal (hd (shape c)) H). }
    destruct (shape_same c c' X) as [S T]. rewrite <- T in *. clear X. destruct (typed c).
    + pose proof (Hok v v' c c' Hv S Hq) as Q. change (heard timed v c) with (option_map fst (timed v c)) in H, Hm. change (heard timed v' c') with (option_map fst (timed v' c')) in H. destruct (timed v c) as [[[a w] t]|], (timed v' c') as [[[a' w'] t']|]; try contradiction; cbn [option_map fst] in H, Hm; inversion Hm; subst.
      * destruct Q as [Qt Q]. constructor; [exact Qt|]. apply IH; [assumption|exact Q|]. exact (f_equal (@tl _) H).
      * constructor; [exact Hnil|]. apply IH; [assumption|exact Hv|]. exact (f_equal (@tl _) H).
    + inversion Hm; subst. constructor; [exact Hnil|]. apply IH; [assumption|exact Hv|]. exact (f_equal (@tl _) H).
Qed.
End Any.

(** ** An observer of each run, and when two observations are the same to it *)
Section Observer.
Context {Ev : Type} (obs : stmt -> state -> list Ev) (same : list Ev -> list Ev -> Prop) (tables : bool).
Context (Hobs : forall prog s s', quiet_stmt tables prog = true -> low_equal s s' -> same (obs prog s) (obs prog s')).
Notation alike_res := (alike_res same).
Section Watch.
Lemma ran_alike {s s' : state} prog (k k' : state -> answer * list tvalue) : quiet_stmt tables prog = true -> low_equal s s' ->
  (forall u u', low_equal u u' -> u = final prog s -> u' = final prog s' -> alike (snd (k u)) (snd (k' u'))) -> alike_res (ran_with obs prog s k) (ran_with obs prog s' k').
Proof.
  intros Q L H. destruct (exec_low tables prog Q s s' L) as [_ X]. specialize (H _ _ X eq_refl eq_refl). unfold ran_with, Proof_LeakWatch.alike_res.
  change (fst (exec prog s)) with (final prog s) in H. change (fst (exec prog s')) with (final prog s') in H.
  destruct (k (final prog s)), (k' (final prog s')). split; [now apply Hobs|exact H].
Qed.
Context (v v' : list tvalue) (Hv : alike v v').
Lemma targ_alike g x : (exists b b', length b = length b' /\ tblock_at v g x = Some b /\ tblock_at v' g x = Some b') \/ (tblock_at v g x = None /\ tblock_at v' g x = None).
Proof.
  pose proof (alike_nth v v' x Hv) as H. unfold tblock_at. destruct (nth_error v x) as [a|], (nth_error v' x) as [b|]; try contradiction; [|now right].
  destruct H as [h b b' B|k rks G|k rks G]; [|now right|now right]. destruct (group_eqb g h) eqn:E; [|now right]. left. now exists b, b'.
Qed.
Lemma targs_alike g xs : (exists l l', Forall2 (fun b b' : list N => length b = length b') l l' /\ oall (map (tblock_at v g) xs) = Some l /\ oall (map (tblock_at v' g) xs) = Some l') \/
  (oall (map (tblock_at v g) xs) = None /\ oall (map (tblock_at v' g) xs) = None).
Proof.
  induction xs as [|x xs IH]; [left; exists [], []; repeat split; constructor|]. cbn [map oall fold_right].
  destruct (targ_alike g x) as [(b & b' & B & -> & ->)|[-> ->]]; [|now right]. cbn [obind].
  destruct IH as [(l & l' & Fb & E1 & E2)|[E1 E2]]; unfold oall in E1, E2; rewrite E1, E2; [left|now right].
  exists (b :: l), (b' :: l'). split; [now constructor|]. now split.
Qed.
Lemma made_alike g (prog : stmt) s s' : quiet_stmt tables prog = true -> low_equal s s' ->
  alike_res (ran_with obs prog s (fun s => (Made 1, v ++ [TBlock g (arrs s "out")]))) (ran_with obs prog s' (fun s => (Made 1, v' ++ [TBlock g (arrs s "out")]))).
Proof. intros Q L. apply (ran_alike prog _ _ Q L). intros u u' H _ _. cbn [snd]. apply alike_app; [exact Hv|]. apply one. constructor. apply H. Qed.
Lemma mades_alike (prog : stmt) s s' (f f' : state -> list tvalue) : quiet_stmt tables prog = true -> low_equal s s' -> (forall u u', low_equal u u' -> alike (f u) (f' u')) ->
  alike_res (ran_with obs prog s (fun s => let l := f s in (Made (length l), v ++ l))) (ran_with obs prog s' (fun s => let l := f' s in (Made (length l), v' ++ l))).
Proof. intros Q L F. apply (ran_alike prog _ _ Q L). intros u u' H _ _. cbn [snd]. apply alike_app; [exact Hv|]. now apply F. Qed.
Lemma says_alike (prog : stmt) s s' (f f' : state -> answer) : quiet_stmt tables prog = true -> low_equal s s' ->
  alike_res (ran_with obs prog s (fun s => (f s, v))) (ran_with obs prog s' (fun s => (f' s, v'))).
Proof. intros Q L. apply (ran_alike prog _ _ Q L). intros u u' H _ _. exact Hv. Qed.
Lemma with_low x l l' s s' : length l = length l' -> low_equal s s' -> low_equal (with_arr x l s) (with_arr x l' s').
Proof. apply low_set_arr. Qed.
End Watch.

(** ** One call *)
Section Step.
Context (p : promised) (be : bool).
Notation timed_on := (timed_on_with obs p be).
Notation timed := (timed_with obs p be).
Ltac arg H g x := let b := fresh "b" in let b' := fresh "b'" in let B := fresh "B" in destruct (targ_alike _ _ H g x) as [(b & b' & B & -> & ->)|[-> ->]]; [cbn [obind]|exact I].
Ltac eng E := destruct (engine_of p be) as [en|] eqn:E; [cbn [obind]|exact I].
Ltac low := repeat first [apply with_low | apply start_low]; try reflexivity; try assumption.
Lemma step_on_alike v v' g c c' : alike v v' -> same_shape_on c c' -> silent_on tables p g c = true -> alike_res (timed_on v g c) (timed_on v' g c').
Proof.
  intros Hv Hs Hq. destruct Hs as [c|b b' L|b b' L|b b' L|b b' L|x b b' L]; cbn [timed_on_with].
  - destruct c; cbn [timed_on_with silent_on] in *; try discriminate Hq.
    + apply made_alike; [exact Hv|apply quiet_copy|low].
    + apply made_alike; [exact Hv|apply quiet_copy|low].
    + apply made_alike; [exact Hv|apply quiet_copy|low].
    + apply ran_alike; [apply quiet_try|low|]. intros u u' H E E'. destruct (try_from_run (group_len g) s ltac:(destruct g; cbn; lia)) as [R _]. subst u u'. rewrite R.
      destruct (Nat.ltb (length s) (group_len g)); cbn [snd]; [exact Hv|]. apply alike_app; [exact Hv|]. apply one. constructor. apply H.
    + apply made_alike; [exact Hv|reflexivity|low].
    + apply made_alike; [exact Hv|reflexivity|low].
    + arg Hv g x. arg Hv g y. apply made_alike; [exact Hv|apply quiet_binary; cbn; auto|low].
    + arg Hv g x. arg Hv g y. apply made_alike; [exact Hv|apply quiet_binary; cbn; auto|low].
    + arg Hv g x. arg Hv g y. apply made_alike; [exact Hv|apply quiet_binary; cbn; auto|low].
    + arg Hv g x. apply made_alike; [exact Hv|apply quiet_not|low].
    + arg Hv g x. arg Hv g y. apply ran_alike; [apply quiet_binary; cbn; auto|low|]. intros u u' H _ _. cbn [snd]. apply alike_assign; [exact Hv|]. constructor. apply H.
    + arg Hv g x. arg Hv g y. apply ran_alike; [apply quiet_binary; cbn; auto|low|]. intros u u' H _ _. cbn [snd]. apply alike_assign; [exact Hv|]. constructor. apply H.
    + arg Hv g x. arg Hv g y. apply ran_alike; [apply quiet_binary; cbn; auto|low|]. intros u u' H _ _. cbn [snd]. apply alike_assign; [exact Hv|]. constructor. apply H.
    + eng E. arg Hv g x. arg Hv g k. apply made_alike; [exact Hv|apply (quiet_round tables p be en g E Hq g_enc); cbn; auto|low].
    + eng E. arg Hv g x. arg Hv g k. apply made_alike; [exact Hv|apply (quiet_round tables p be en g E Hq g_dec); cbn; auto|low].
    + eng E. arg Hv g x. arg Hv g k. apply made_alike; [exact Hv|apply (quiet_round tables p be en g E Hq g_enc_last); cbn; auto|low].
    + eng E. arg Hv g x. arg Hv g k. apply made_alike; [exact Hv|apply (quiet_round tables p be en g E Hq g_dec_last); cbn; auto|low].
    + eng E. arg Hv g x. destruct (targs_alike _ _ Hv g ks) as [(l & l' & F & -> & ->)|[-> ->]]; [cbn [obind]|exact I].
      assert (Ll : length l = length l') by (clear - F; induction F; cbn; congruence). assert (Lc : length (concat l) = length (concat l')) by (clear - F; induction F; cbn; rewrite ?app_length; congruence).
      rewrite <- Ll. apply ran_alike; [now apply (quiet_chain tables p be en g false)|low|]. intros u u' H _ _. destruct F; cbn [snd]; [exact Hv|]. apply alike_app; [exact Hv|]. apply one. constructor. apply H.
    + eng E. arg Hv g x. destruct (targs_alike _ _ Hv g ks) as [(l & l' & F & -> & ->)|[-> ->]]; [cbn [obind]|exact I].
      assert (Ll : length l = length l') by (clear - F; induction F; cbn; congruence). assert (Lc : length (concat l) = length (concat l')) by (clear - F; induction F; cbn; rewrite ?app_length; congruence).
      rewrite <- Ll. apply ran_alike; [now apply (quiet_chain tables p be en g true)|low|]. intros u u' H _ _. destruct F; cbn [snd]; [exact Hv|]. apply alike_app; [exact Hv|]. apply one. constructor. apply H.
    + arg Hv g x. apply says_alike; [exact Hv|apply quiet_copy|low].
    + arg Hv g x. apply says_alike; [exact Hv|apply quiet_store|low].
    + arg Hv g x. apply says_alike; [exact Hv|apply quiet_is_zero|low].
    + arg Hv g x. arg Hv g y. apply says_alike; [exact Hv|now apply quiet_equal|low].
    + eng E. pose proof (alike_nth v v' e Hv) as Q. destruct (nth_error v e) as [ve|], (nth_error v' e) as [ve'|]; try contradiction; [|exact I]. destruct Q as [h b b' B|k r r' B|k r r' B]; try exact I.
      arg Hv g x. apply made_alike; [exact Hv|now apply (quiet_crypt tables p be)|low].
    + eng E. pose proof (alike_nth v v' d Hv) as Q. destruct (nth_error v d) as [ve|], (nth_error v' d) as [ve'|]; try contradiction; [|exact I]. destruct Q as [h b b' B|k r r' B|k r r' B]; try exact I.
      arg Hv g x. apply made_alike; [exact Hv|now apply (quiet_crypt tables p be)|low].
  - apply made_alike; [exact Hv|apply quiet_copy|low].
  - apply made_alike; [exact Hv|apply quiet_copy|low].
  - apply made_alike; [exact Hv|apply quiet_copy|low].
  - apply ran_alike; [apply quiet_try|low|]. intros u u' H E E'. subst u u'.
    destruct (try_from_run (group_len g) b ltac:(destruct g; cbn; lia)) as [R _], (try_from_run (group_len g) b' ltac:(destruct g; cbn; lia)) as [R' _]. rewrite R, R', <- L.
    destruct (Nat.ltb (length b) (group_len g)); cbn [snd]; [exact Hv|]. apply alike_app; [exact Hv|]. apply one. constructor. apply H.
  - arg Hv g x. apply says_alike; [exact Hv|apply quiet_store|low].
Qed.
Lemma to_be_len n u u' : length (to_be n u) = length (to_be n u').
Proof. unfold to_be. rewrite !rev_length. revert u u'. induction n; intros; cbn; auto. Qed.
Lemma step_alike v v' c c' : alike v v' -> same_shape c c' -> silent tables p c = true -> alike_res (timed v c) (timed v' c').
Proof.
  intros Hv Hs Hq. destruct Hs as [c|g c c' H|n n'|k b b' L|k b b' L]; cbn [timed_with].
  - destruct c; cbn [timed_with silent] in *; try discriminate Hq.
    + apply step_on_alike; [exact Hv|constructor|exact Hq].
    + apply mades_alike; [exact Hv|apply quiet_copy|low|]. intros u u' H. apply one. constructor. apply H.
    + arg Hv One x. apply says_alike; [exact Hv|apply quiet_copy|low].
    + eng E. arg Hv One x. apply mades_alike; [exact Hv|apply (quiet_mix tables p be en g_mc E Hq); cbn; auto|low|]. intros u u' H. apply one. constructor. apply H.
    + eng E. arg Hv One x. apply mades_alike; [exact Hv|apply (quiet_mix tables p be en g_imc E Hq); cbn; auto|low|]. intros u u' H. apply one. constructor. apply H.
    + arg Hv One a. arg Hv One b. apply mades_alike; [exact Hv|apply quiet_copy|low|]. intros u u' H. apply one. constructor. apply H.
    + arg Hv One a. apply mades_alike; [exact Hv|apply quiet_copy|low|]. intros u u' H. apply one. constructor. apply H.
    + arg Hv Two x. apply mades_alike; [exact Hv|apply quiet_copy|low|]. intros u u' H.
      pose proof (alike_lanes 2 (arrs u "out") (arrs u' "out") (proj2 H "out")) as Q. clear - Q. induction Q; cbn [map]; constructor; [now constructor|assumption].
    + arg Hv One a. arg Hv One b. arg Hv One c. arg Hv One d. apply mades_alike; [exact Hv|apply quiet_copy|low|]. intros u u' H. apply one. constructor. apply H.
    + arg Hv Two a. arg Hv Two b. apply mades_alike; [exact Hv|apply quiet_copy|low|]. intros u u' H. apply one. constructor. apply H.
    + arg Hv One a. apply mades_alike; [exact Hv|apply quiet_copy|low|]. intros u u' H. apply one. constructor. apply H.
    + arg Hv Two a. apply mades_alike; [exact Hv|apply quiet_copy|low|]. intros u u' H. apply one. constructor. apply H.
    + arg Hv Four x. apply mades_alike; [exact Hv|apply quiet_copy|low|]. intros u u' H.
      pose proof (alike_lanes 4 (arrs u "out") (arrs u' "out") (proj2 H "out")) as Q. clear - Q. induction Q; cbn [map]; constructor; [now constructor|assumption].
    + arg Hv Four x. apply mades_alike; [exact Hv|apply quiet_copy|low|]. intros u u' H. pose proof (proj2 H "out") as Q.
      constructor; [|apply one]; constructor; [rewrite !firstn_length|rewrite !skipn_length]; now rewrite Q.
    + eng E. apply mades_alike; [exact Hv|now apply (quiet_keygen tables p be)|low|]. intros u u' H. apply one. constructor. apply H.
    + eng E. apply mades_alike; [exact Hv| |low|].
      * cbn [quiet_stmt]. rewrite (quiet_keygen tables p be en k E Hq), (quiet_swap tables p be en k g_imc E Hq) by (cbn; auto). reflexivity.
      * intros u u' H. apply one. constructor. apply H.
    + eng E. pose proof (alike_nth v v' e Hv) as Q. destruct (nth_error v e) as [ve|], (nth_error v' e) as [ve'|]; try contradiction; [|exact I]. destruct Q as [h b b' B|k r r' B|k r r' B]; try exact I.
      apply mades_alike; [exact Hv|apply (quiet_swap tables p be en k g_imc E Hq); cbn; auto|low|]. intros u u' H. apply one. constructor. apply H.
    + eng E. pose proof (alike_nth v v' d Hv) as Q. destruct (nth_error v d) as [ve|], (nth_error v' d) as [ve'|]; try contradiction; [|exact I]. destruct Q as [h b b' B|k r r' B|k r r' B]; try exact I.
      apply mades_alike; [exact Hv|apply (quiet_swap tables p be en k g_mc E Hq); cbn; auto|low|]. intros u u' H. apply one. constructor. apply H.
    + pose proof (alike_nth v v' x Hv) as Q. destruct (nth_error v x) as [ve|], (nth_error v' x) as [ve'|]; try contradiction; [|exact I]. cbn [obind].
      destruct Q as [h b b' B|k r r' B|k r r' B]; (apply mades_alike; [exact Hv|apply quiet_copy|low|]; intros u u' H; apply one; constructor; apply H).
  - now apply step_on_alike.
  - apply mades_alike; [exact Hv|apply quiet_copy|low; apply to_be_len|]. intros u u' H. apply one. constructor. apply H.
  - eng E. apply mades_alike; [exact Hv|now apply (quiet_keygen tables p be)|low|]. intros u u' H. apply one. constructor. apply H.
  - eng E. apply mades_alike; [exact Hv| |low|].
    + cbn [quiet_stmt]. rewrite (quiet_keygen tables p be en k E Hq), (quiet_swap tables p be en k g_imc E Hq) by (cbn; auto). reflexivity.
    + intros u u' H. apply one. constructor. apply H.
Qed.
End Step.
End Observer.

(** ** Timing and memory *)
Section Timing.
Context (tables : bool) (p : promised) (be : bool).
Lemma trace_same prog s s' : quiet_stmt tables prog = true -> low_equal s s' -> map (veil tables) (trace prog s) = map (veil tables) (trace prog s').
Proof. intros Q L. exact (proj1 (exec_low tables prog Q s s' L)). Qed.
Lemma watch_alike cl cl' v v' : all_silent tables p (play (heard (timed p be)) v cl) -> alike v v' ->
  map (fun ca => shape (fst ca)) (play (heard (timed p be)) v cl) = map (fun ca => shape (fst ca)) (play (heard (timed p be)) v' cl') ->
  map (map (veil tables)) (watch (timed p be) v cl) = map (map (veil tables)) (watch (timed p be) v' cl').
Proof.
  intros Hm Hv H.
  pose proof (watch_any (timed p be) (fun t t' => map (veil tables) t = map (veil tables) t') eq_refl (silent tables p)
    (step_alike trace _ tables trace_same p be) cl cl' v v' Hm Hv H) as Q.
  induction Q as [|x y l l' X Q IH]; [reflexivity|]. cbn [map]. now rewrite X, IH.
Qed.
Lemma silent_on_shape g c c' : same_shape_on c c' -> silent_on tables p g c = silent_on tables p g c'.
Proof. now intros []. Qed.
Lemma silent_shape c c' : same_shape c c' -> silent tables p c = silent tables p c'.
Proof. intros []; try reflexivity. now apply silent_on_shape. Qed.
Lemma all_silent_shapes l l' : map (fun ca : call * answer => shape (fst ca)) l = map (fun ca => shape (fst ca)) l' -> all_silent tables p l -> all_silent tables p l'.
Proof.
  revert l'. induction l as [|x l IH]; intros [|x' l'] H Hl; try discriminate H; [constructor|]. cbn [map] in H.
  pose proof (f_equal (hd (shape (fst x))) H) as H1. pose proof (f_equal (@tl _) H) as H2. cbn [hd tl] in H1, H2. inversion Hl; subst. constructor; [|now apply IH].
  rewrite <- (silent_shape (fst x) (fst x')); [assumption|now apply shape_same].
Qed.
End Timing.
