(** C49 for whole clients: the AES instructions of every call of every client are those of the price list. *)
From Coq Require Import Lia Arith String.
From Coq Require Import List.
From Verif Require Import Word Interface Fips197 Spec_Api Spec_User Spec_Cfg Spec_Client Spec_ClientActual Spec_Leak Spec_LeakSoft Spec_LeakClient Spec_Insn Spec_Cost Spec_CostClient Model_Cfg Model_Leak Model_LeakAccel Model_LeakSoft Model_LeakBlock Model_Running Model_Client Model_LeakClient Model_InsnClient.
From Verif Require Import Proof_Leak Proof_LeakCount Proof_Cost Proof_Lib Proof_LeakClient Proof_LeakWatch Props_Cfg Props_Cost Props_ClientActual Props_LeakClient Props_Insn Props_InsnClient.
From Verif Require Import Samples.
Open Scope string_scope.
Open Scope list_scope.
Open Scope nat_scope.

(** ** Programs, from any state *)
Definition lens_of (st : state) (x : string) : nat := length (arrs st x).
Lemma sized_self st : sized (lens_of st) st. Proof. intros x. reflexivity. Qed.
Lemma any_billed prog b : (forall lens, billed (tally lens prog) b = true) -> forall st, matches (aes_run (executed prog st)) b.
Proof. intros H st. exact (billed_ok _ _ _ _ (H (lens_of st)) (sized_self st)). Qed.
Lemma known_billed x n prog b : (forall lens, billed (tally (upd lens x n) prog) b = true) -> forall st, length (arrs st x) = n -> matches (aes_run (executed prog st)) b.
Proof.
  intros H st L. apply (billed_ok _ _ _ _ (H (lens_of st))). intros y. unfold upd. destruct (String.eqb_spec x y) as [<-|]; [exact L|reflexivity].
Qed.
Lemma free_program prog : insns prog = [] -> forall st, matches (aes_run (executed prog st)) [].
Proof. intros H st. rewrite (executed_plain prog H st). apply matches_nil. Qed.
Lemma plain_binary p be g o : In o [And; Or; Xor] -> insns (binary_program (block_be p be) (vec_n p g) (vec_m p g) (Bin o)) = [].
Proof. intros [<-|[<-|[<-|[]]]]; destruct p, g, be; vm_compute; reflexivity. Qed.
Lemma plain_not p be g : insns (unary_program (block_be p be) (vec_n p g) (vec_m p g) (x_not (vec_n p g))) = [].
Proof. destruct p, g, be; vm_compute; reflexivity. Qed.
Lemma plain_is_zero p be g : insns (is_zero_program (block_be p be) (vec_n p g) (vec_m p g)) = [].
Proof. destruct p, g, be; vm_compute; reflexivity. Qed.
Lemma plain_copy_to dst l : insns (s_copy_to dst l) = [].
Proof. unfold s_copy_to. generalize (combine (seq 0 (length l)) l) as q. induction q as [|[j [a i]] q IH]; [reflexivity|]. cbn [map fst snd block fold_right insns insns_exp app]. exact IH. Qed.
Lemma plain_copy l : insns (copy_program l) = []. Proof. apply plain_copy_to. Qed.
Lemma plain_try n : insns (try_from_program n) = [].
Proof. unfold try_from_program. cbn [insns insns_exp app]. rewrite app_nil_r. apply plain_copy. Qed.
Lemma plain_store n : insns (store_program n) = [].
Proof. unfold store_program. cbn [insns insns_exp app]. rewrite app_nil_r. apply plain_copy_to. Qed.
Lemma round_matches p be e g : engine_of p be = Some e -> forall st, let n := vec_n p g in let run f := aes_run (executed (binary_program (g_be e) n (vec_m p g) (f e n)) st) in
  matches (run g_enc) (rounds_price p false g 1) /\ matches (run g_dec) (rounds_price p true g 1) /\
  matches (run g_enc_last) (last_price p false g) /\ matches (run g_dec_last) (last_price p true g).
Proof. intros E st n run. subst n run. repeat split; apply any_billed; intros lens; destruct p; injection E as <-; destruct g; try destruct be; vm_compute; reflexivity. Qed.
Lemma mix_matches p be e : engine_of p be = Some e -> forall st, let run f := aes_run (executed (unary_program (g_be e) 1 1 (f e)) st) in
  matches (run g_mc) (mc_bill p) /\ matches (run g_imc) (imc_bill p).
Proof. intros E st run. subst run. repeat split; apply any_billed; intros lens; destruct p; injection E as <-; try destruct be; vm_compute; reflexivity. Qed.
Lemma keygen_matches p be e k : engine_of p be = Some e -> forall st, matches (aes_run (executed (g_keygen e k) st)) (setup_bill p k).
Proof. intros E. apply any_billed. intros lens. destruct k, p; injection E as <-; try destruct be; vm_compute; reflexivity. Qed.
Lemma swap_matches p be e k : engine_of p be = Some e -> forall st, let run f := aes_run (executed (s_swap_keys (f e) "keys" "drk" (nr_of k + 1)) st) in
  matches (run g_mc) (scale (nr_of k - 1) (mc_bill p)) /\ matches (run g_imc) (scale (nr_of k - 1) (imc_bill p)).
Proof. intros E st run. subst run. repeat split; apply any_billed; intros lens; destruct k, p; injection E as <-; try destruct be; vm_compute; reflexivity. Qed.
Lemma crypt_matches p be e g k dec st : engine_of p be = Some e -> length (arrs st "keys") = nr_of k + 1 ->
  matches (aes_run (executed (s_crypt e k (vec_n p g) (vec_m p g) dec "keys") st)) (crypt_bill p dec k g).
Proof. intros E L. apply (known_billed "keys" (nr_of k + 1)); [|exact L]. clear L. intros lens. destruct dec, k, p; injection E as <-; destruct g; try destruct be; vm_compute; reflexivity. Qed.
Lemma no_chain p be e g (dec : bool) a : engine_of p be = Some e ->
  matches (aes_run (executed (chain_program (g_be e) (vec_n p g) (vec_m p g) (option_map (if dec then snd else fst) (g_pre e)) (if dec then g_dec e (vec_n p g) else g_enc e (vec_n p g)) 0) (start [] a))) [].
Proof.
  intros E. apply (known_billed "key" 0); [|reflexivity]. intros lens. destruct dec, p; injection E as <-; destruct g; try destruct be; vm_compute; reflexivity.
Qed.

(** ** One call *)
Definition size_of (v : tvalue) : option key_size := match v with TBlock _ _ => None | TEnc k _ | TDec k _ => Some k end.
Definition sized_v (v : tvalue) : Prop := match v with TBlock g b => length b = group_len g | TEnc k r | TDec k r => length r = nr_of k + 1 end.
Section Step.
Context (p : promised) (be : bool) (v : list tvalue) (Hv : Forall sized_v v).
Notation ks := (map size_of v).
Definition priced (c : call) (r : option (answer * list tvalue * list insn)) : Prop :=
  match r with Some (a, v', l) => matches (aes_run l) (price p ks c a) /\ map size_of v' = sizes_after ks c a | None => True end.
Lemma ran_priced c prog st k : matches (aes_run (executed prog st)) (price p ks c (fst (k (final prog st)))) -> map size_of (snd (k (final prog st))) = sizes_after ks c (fst (k (final prog st))) ->
  priced c (ran_with executed prog st k).
Proof. intros H1 H2. unfold priced, ran_with. destruct (k (final prog st)) as [a v']. now split. Qed.
Lemma made_priced c g prog st : matches (aes_run (executed prog st)) (price p ks c (Made 1)) -> sizes_after ks c (Made 1) = ks ++ [None] ->
  priced c (ran_with executed prog st (fun s => (Made 1, v ++ [TBlock g (arrs s "out")]))).
Proof. intros H1 H2. apply ran_priced; [exact H1|]. cbn [fst snd]. rewrite H2, map_app. reflexivity. Qed.
Lemma mades_priced c prog st f : (forall s, matches (aes_run (executed prog st)) (price p ks c (Made (length (f s))))) -> (forall s, map size_of (v ++ f s) = sizes_after ks c (Made (length (f s)))) ->
  priced c (ran_with executed prog st (fun s => let l := f s in (Made (length l), v ++ l))).
Proof. intros H1 H2. apply ran_priced; [apply H1|apply H2]. Qed.
Lemma block_sized g x b : tblock_at v g x = Some b -> length b = group_len g.
Proof.
  unfold tblock_at. destruct (nth_error v x) as [[h b'| |]|] eqn:E; try discriminate. destruct (group_eqb g h) eqn:G; [|discriminate]. intros H. injection H as <-.
  apply nth_error_In in E. rewrite Forall_forall in Hv. specialize (Hv _ E). cbn in Hv. rewrite Hv. destruct g, h; (reflexivity || discriminate G).
Qed.
Lemma blocks_sized g xs l : oall (map (tblock_at v g) xs) = Some l -> Forall (fun b => length b = group_len g) l /\ length l = length xs.
Proof.
  revert l. induction xs as [|x xs IH]; intros l H.
  - injection H as <-. split; [constructor|reflexivity].
  - unfold oall in *. cbn [map fold_right] in H. destruct (tblock_at v g x) as [b|] eqn:E; [|discriminate]. cbn [obind] in H.
    destruct (fold_right _ _ _) as [q|] eqn:Q; [|discriminate]. cbn [obind] in H. injection H as <-. destruct (IH q eq_refl) as [F L]. split; [constructor; [now apply (block_sized g x)|exact F]|cbn; now rewrite L].
Qed.
Lemma size_at_nth x t : nth_error v x = Some t -> size_at ks x = size_of t.
Proof. intros H. unfold size_at. apply (nth_error_nth _ _ None). rewrite nth_error_map, H. reflexivity. Qed.
Lemma assign_sizes g x b b' : tblock_at v g x = Some b -> map size_of (assign v x (TBlock g b')) = ks.
Proof.
  unfold tblock_at. intros H. destruct (nth_error v x) as [[h c| |]|] eqn:E; try discriminate. clear H.
  destruct (nth_error_split v x E) as (l1 & l2 & -> & L). unfold assign. subst x. rewrite firstn_app, firstn_all, Nat.sub_diag, firstn_O, app_nil_r.
  rewrite skipn_app, skipn_all2 by lia. replace (S (length l1) - length l1) with 1 by lia. cbn [skipn app]. now rewrite !map_app.
Qed.
Ltac arg := match goal with |- priced _ (obind ?o _) => destruct o eqn:?; [cbn [obind]|exact I] end.
Lemma chain_priced g (dec : bool) e x xs a l : engine_of p be = Some e -> oall (map (tblock_at v g) xs) = Some l ->
  priced (On g (if dec then Chain_dec x xs else Chain_enc x xs))
    (ran_with executed (chain_program (g_be e) (vec_n p g) (vec_m p g) (option_map (if dec then snd else fst) (g_pre e)) (if dec then g_dec e (vec_n p g) else g_enc e (vec_n p g)) (length l)) (start (concat l) a)
      (fun s => match l with [] => (Panics, v) | _ => (Made 1, v ++ [TBlock g (arrs s "out")]) end)).
Proof.
  intros E H. destruct (blocks_sized g xs l H) as [F L]. apply ran_priced; destruct l as [|b0 l].
  - exact (no_chain p be e g dec a E).
  - cbn [fst]. pose proof (chain_costs p be e g dec a (b0 :: l) E F ltac:(discriminate)) as M. cbv zeta in M. rewrite L in M at 2. destruct dec; exact M.
  - reflexivity.
  - cbn [fst snd]. rewrite map_app. destruct dec; reflexivity.
Qed.
Lemma assigned_priced c g x b f prog st : tblock_at v g x = Some b -> matches (aes_run (executed prog st)) [] -> price p ks c (Made 0) = [] -> sizes_after ks c (Made 0) = ks ++ [] ->
  priced c (ran_with executed prog st (fun s => (Made 0, assign v x (TBlock g (f s))))).
Proof. intros H M P1 P2. apply ran_priced; cbn [fst snd]; [now rewrite P1|]. rewrite P2, app_nil_r. now apply (assign_sizes g x b). Qed.
Lemma says_priced c prog st f : matches (aes_run (executed prog st)) [] -> (forall s, price p ks c (f s) = [] /\ sizes_after ks c (f s) = ks) -> priced c (ran_with executed prog st (fun s => (f s, v))).
Proof. intros M H. destruct (H (final prog st)) as [H1 H2]. apply ran_priced; cbn [fst snd]; [now rewrite H1|now rewrite H2]. Qed.
Lemma step_on_priced g c : priced (On g c) (timed_on_with executed p be v g c).
Proof.
  destruct c; cbn [timed_on_with].
  - apply made_priced; [apply free_program, plain_copy|reflexivity].
  - apply made_priced; [apply free_program, plain_copy|reflexivity].
  - apply made_priced; [apply free_program, plain_copy|reflexivity].
  - apply ran_priced; destruct (N.eqb _ _); cbn [fst snd]; try (apply free_program, plain_try); [reflexivity|now rewrite map_app].
  - apply made_priced; [apply free_program|]; reflexivity.
  - apply made_priced; [apply free_program|]; reflexivity.
  - arg. arg. apply made_priced; [apply free_program, plain_binary; cbn; auto|reflexivity].
  - arg. arg. apply made_priced; [apply free_program, plain_binary; cbn; auto|reflexivity].
  - arg. arg. apply made_priced; [apply free_program, plain_binary; cbn; auto|reflexivity].
  - arg. apply made_priced; [apply free_program, plain_not|reflexivity].
  - arg. arg. eapply assigned_priced; [eassumption|apply free_program, plain_binary; cbn; auto|reflexivity|reflexivity].
  - arg. arg. eapply assigned_priced; [eassumption|apply free_program, plain_binary; cbn; auto|reflexivity|reflexivity].
  - arg. arg. eapply assigned_priced; [eassumption|apply free_program, plain_binary; cbn; auto|reflexivity|reflexivity].
  - arg. arg. arg. apply made_priced; [|reflexivity]. match goal with H : engine_of p be = Some ?e |- matches (aes_run (executed _ ?st)) _ => exact (proj1 (round_matches p be e g H st)) end.
  - arg. arg. arg. apply made_priced; [|reflexivity]. match goal with H : engine_of p be = Some ?e |- matches (aes_run (executed _ ?st)) _ => exact (proj1 (proj2 (round_matches p be e g H st))) end.
  - arg. arg. arg. apply made_priced; [|reflexivity]. match goal with H : engine_of p be = Some ?e |- matches (aes_run (executed _ ?st)) _ => exact (proj1 (proj2 (proj2 (round_matches p be e g H st)))) end.
  - arg. arg. arg. apply made_priced; [|reflexivity]. match goal with H : engine_of p be = Some ?e |- matches (aes_run (executed _ ?st)) _ => exact (proj2 (proj2 (proj2 (round_matches p be e g H st)))) end.
  - arg. arg. arg. now apply (chain_priced g false).
  - arg. arg. arg. now apply (chain_priced g true).
  - arg. apply says_priced; [apply free_program, plain_copy|]. now split.
  - arg. apply says_priced; [apply free_program, plain_store|]. now split.
  - arg. apply says_priced; [apply free_program, plain_is_zero|]. now split.
  - arg. arg. apply says_priced; [apply free_program, plain_equal|]. now split.
  - exact I.
  - arg. destruct (nth_error v e) as [[| k rk|]|] eqn:N; try exact I. arg. apply made_priced; [|reflexivity]. cbn [price]. rewrite (size_at_nth e _ N). cbn [size_of with_size].
    apply (crypt_matches p be); [assumption|]. apply nth_error_In in N. rewrite Forall_forall in Hv. exact (Hv _ N).
  - arg. destruct (nth_error v d) as [[| |k rk]|] eqn:N; try exact I. arg. apply made_priced; [|reflexivity]. cbn [price]. rewrite (size_at_nth d _ N). cbn [size_of with_size].
    apply (crypt_matches p be); [assumption|]. apply nth_error_In in N. rewrite Forall_forall in Hv. exact (Hv _ N).
Qed.
Lemma step_priced c : priced c (timed_with executed p be v c).
Proof.
  assert (CP : forall c l st f, (forall s, price p ks c (Made (length (f s))) = []) -> (forall s, map size_of (f s) = repeat None (length (f s))) -> (forall n, sizes_after ks c (Made n) = ks ++ repeat None n) ->
    priced c (ran_with executed (copy_program l) st (fun s => let l := f s in (Made (length l), v ++ l)))).
  { intros q l st f H1 H2 H3. apply mades_priced; intros s; [rewrite H1; apply free_program, plain_copy|]. now rewrite H3, map_app, H2. }
  destruct c; cbn [timed_with]; try exact I.
  - apply step_on_priced.
  - apply CP; reflexivity.
  - arg. apply says_priced; [apply free_program, plain_copy|]. now split.
  - arg. arg. apply mades_priced; intros s; [match goal with H : engine_of p be = Some ?e |- matches (aes_run (executed _ ?st)) _ => exact (proj1 (mix_matches p be e H st)) end|]. now rewrite map_app.
  - arg. arg. apply mades_priced; intros s; [match goal with H : engine_of p be = Some ?e |- matches (aes_run (executed _ ?st)) _ => exact (proj2 (mix_matches p be e H st)) end|]. now rewrite map_app.
  - arg. arg. apply CP; reflexivity.
  - arg. apply CP; reflexivity.
  - arg. apply CP; reflexivity.
  - arg. arg. arg. arg. apply CP; reflexivity.
  - arg. arg. apply CP; reflexivity.
  - arg. apply CP; reflexivity.
  - arg. apply CP; reflexivity.
  - arg. apply CP; reflexivity.
  - arg. apply CP; reflexivity.
  - arg. apply mades_priced; intros s; [now apply (keygen_matches p be)|]. now rewrite map_app.
  - arg. apply mades_priced; intros s; [|now rewrite map_app]. cbn [executed price]. rewrite aes_run_app. apply matches_app; [now apply (keygen_matches p be)|]. match goal with H : engine_of p be = Some ?e |- matches (aes_run (executed _ ?st)) _ => exact (proj2 (swap_matches p be e k H st)) end.
  - arg. destruct (nth_error v e) as [[| k rk|]|] eqn:N; try exact I. apply mades_priced; intros s; cbn [price sizes_after length]; rewrite (size_at_nth e _ N); [match goal with H : engine_of p be = Some ?e |- matches (aes_run (executed _ ?st)) _ => exact (proj2 (swap_matches p be e k H st)) end|now rewrite map_app].
  - arg. destruct (nth_error v d) as [[| |k rk]|] eqn:N; try exact I. apply mades_priced; intros s; cbn [price sizes_after length]; rewrite (size_at_nth d _ N); [match goal with H : engine_of p be = Some ?e |- matches (aes_run (executed _ ?st)) _ => exact (proj1 (swap_matches p be e k H st)) end|now rewrite map_app].
  - arg. destruct t; apply mades_priced; intros s; try (apply free_program, plain_copy); cbn [sizes_after length]; rewrite map_app; f_equal; cbn [map size_of]; f_equal; symmetry;
    match goal with H : nth_error v x = Some _ |- _ => exact (size_at_nth x _ H) end.
Qed.
End Step.

(** ** Clients *)
Lemma tsim_sized p be v w : tsim p be v w -> Forall sized_v v.
Proof. intros H. induction H as [|a b v w R H IH]; constructor; [|exact IH]. destruct R as [g b B|k rks G|k rks G]; cbn; [apply B|rewrite map_length; apply G|rewrite map_length; apply G]. Qed.
Lemma any_priced p be v w c : tsim p be v w -> priced p v c (instructed p be v c).
Proof.
  intros Hs. unfold instructed. destruct (formats c) eqn:Hf; [|exact (step_priced p be v (tsim_sized p be v w Hs) c)].
  destruct (library standard (map (bytes_of p be) v) c) as [[a w']|] eqn:E; [|exact I]. cbn [option_map fst snd priced].
  assert (Q : exists s, a = Text s).
  { clear - E Hf. destruct c as [g c| | | | | | | | | | | | | | | | | | | |]; try discriminate; [destruct c; try discriminate| |]; cbn [library library_on] in E.
    - destruct (ablock_at _ g x); [|discriminate E]. cbn [obind] in E. injection E as <- _. eauto.
    - destruct (ablock_at _ One x); [|discriminate E]. cbn [obind] in E. injection E as <- _. eauto.
    - destruct (nth_error _ x) as [[| |]|]; try discriminate E; injection E as <- _; eauto. }
  destruct Q as [s ->]. split; [|reflexivity]. replace (price p (map size_of v) c (Text s)) with (@nil (aes * nat)); [apply matches_nil|].
  clear - Hf. destruct c as [g c| | | | | | | | | | | | | | | | | | | |]; try discriminate; [destruct c; try discriminate| |]; reflexivity.
Qed.
Lemma client_priced p be fl cl : engine_fits p be fl -> forall v w, tsim p be v w ->
  Forall2 (fun l b => matches (aes_run l) b) (watch (instructed p be) v cl) (invoice p (map size_of v) (play (library fl) w cl)).
Proof.
  intros EF. induction cl as [|c next IH]; intros v w Hs; [constructor|]. cbn [play watch]. destruct (typed c) eqn:Ht.
  - pose proof (instructed_ok p be fl v w c EF Hs Ht) as Q. unfold heard in Q. pose proof (any_priced p be v w c Hs) as P.
    destruct (instructed p be v c) as [[[a v'] l]|], (library fl w c) as [[a' w']|]; try contradiction; cbn [option_map fst] in Q; cbn [invoice].
    + destruct Q as [<- Q]. destruct P as [P1 P2]. constructor; [exact P1|]. rewrite <- P2. now apply IH.
    + constructor; [apply matches_nil|]. now apply IH.
  - cbn [invoice]. constructor; [apply matches_nil|]. now apply IH.
Qed.
(** Every call of every client executes exactly the AES instructions on the price list. *)
Theorem C49_every_call_of_every_client : forall c p i cl, rustc_ok c = true -> impl_of c = Some i -> running c = Some p ->
  Forall2 (fun l b => (forall a, times a (aes_run l) = on_bill a b) /\ length (aes_run l) = bill_total b)
    (watch (instructed p (c_be c)) [] cl) (invoice p [] (play (crate i) [] cl)).
Proof.
  intros c p i cl Hc Ei Hr. rewrite (C41_every_client_on_every_build c i cl Hc Ei).
  exact (client_priced p (c_be c) (flavour_of c) cl (build_engine_fits c p Hc Hr) [] [] ltac:(constructor)).
Qed.
Print Assumptions C49_every_call_of_every_client.

(** In all: a client's total. *)
Theorem C49_total : forall c p i cl, rustc_ok c = true -> impl_of c = Some i -> running c = Some p ->
  length (aes_run (concat (watch (instructed p (c_be c)) [] cl))) = list_sum (map bill_total (invoice p [] (play (crate i) [] cl))).
Proof.
  intros c p i cl Hc Ei Hr. pose proof (C49_every_call_of_every_client c p i cl Hc Ei Hr) as H. clear - H. induction H as [|l b ls bs [_ H] _ IH]; [reflexivity|].
  cbn [concat map list_sum fold_right]. rewrite aes_run_app, app_length, H. f_equal. exact IH.
Qed.
Print Assumptions C49_total.
(** ** Cases *)
(** The CBC client on five builds: the price of each call, and the total. *)
Example C49_invoice_case : forall c total, In (c, total) [(c_x86, 49); (c_vaes512, 49); (c_neon, 76); (c_rv64, 108); (c_rv32, 808); (c_soft, 0)] -> exists p i, rustc_ok c = true /\ impl_of c = Some i /\ running c = Some p /\
  list_sum (map bill_total (invoice p [] (play (crate i) [] (straight cbc1)))) = total.
Proof.
  intros c total H. assert (X : exists p i, rustc_ok c = true /\ impl_of c = Some i /\ running c = Some p /\ list_sum (map bill_total (invoice p [] (play (library (flavour_of c)) [] (straight cbc1)))) = total).
  { repeat (destruct H as [H|H]; [injection H as <- <-; do 2 eexists; split; [reflexivity|split; [reflexivity|split; [reflexivity|vm_compute; reflexivity]]]|]). destruct H. }
  destruct X as (p & i & X1 & X2 & X3 & X4). exists p, i. split; [exact X1|]. split; [exact X2|]. split; [exact X3|]. rewrite (C41_every_client_on_every_build c i _ X1 X2). exact X4.
Qed.
