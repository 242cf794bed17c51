(** The crate has the frame property of Proof_Threads, and what shared values look like in the ideal library. *)
From Coq Require Import Lia Arith String.
From Verif Require Import Word Interface Fips197 Spec_Api Spec_User Spec_Client Spec_ClientActual Spec_Threads Model_Lib Model_Fmt Model_Client.
From Verif Require Import Proof_Sem Proof_Threads.
From Verif Require Proof_Client Proof_ClientActual.
Open Scope list_scope.

Section Frame.
Context (i : impl).
(** Results that only add variables. *)
Definition adds (vars : list (var i)) (r : option (answer * list (var i))) : Prop :=
  match r with Some (_, vars') => exists new, vars' = vars ++ new | None => True end.
Lemma adds_same vars a : adds vars (Some (a, vars)). Proof. exists []. now rewrite app_nil_r. Qed.
Lemma adds_result {A} vars (r : outcome A) f : (forall a, adds vars (Some (f a))) -> adds vars (result_of i vars r f).
Proof. intros H. destruct r; [apply H|apply adds_same|apply adds_same]. Qed.
Lemma adds_bind {A} vars (m : option A) k : (forall a, adds vars (k a)) -> adds vars (obind m k).
Proof. intros H. destruct m; [apply H|exact I]. Qed.
Lemma adds_new vars a new : adds vars (Some (a, vars ++ new)). Proof. now exists new. Qed.
Ltac adds := repeat match goal with
  | |- adds _ (result_of _ _ _ _) => apply adds_result; intros
  | |- adds _ (obind _ _) => apply adds_bind; intros
  | |- adds _ (Some (_, _ ++ _)) => apply adds_new
  | |- adds _ (Some (_, _)) => apply adds_same
  | |- adds _ None => exact I
  | |- adds _ (match ?x with _ => _ end) => destruct x
  | |- adds _ (Some (match ?x with _ => _ end)) => destruct x
  | |- adds _ (Some (let (_, _) := ?x in _)) => destruct x
  end.
Lemma crate_on_adds vars K c : (forall g, assigns (On g c) = None) -> adds vars (crate_on i vars K c).
Proof. intros H. destruct c; cbn [crate_on]; try (specialize (H One); discriminate H); adds. Qed.
Lemma crate_adds vars c : assigns c = None -> adds vars (crate i vars c).
Proof.
  intros H. destruct c; cbn [crate]; try (adds; fail).
  destruct g; apply crate_on_adds; intros g'; destruct c; (reflexivity || discriminate H).
Qed.
Lemma at_lt {A B} (vars : list A) x (k : A -> option B) b : obind (nth_error vars x) k = Some b -> (x < List.length vars)%nat.
Proof. intros H. apply nth_error_Some. intros E. rewrite E in H. discriminate. Qed.
Lemma set_frame vars K x y v c a vars' g : assigns (On g c) = Some x ->
  obind (obind (nth_error vars x) (k_get i K)) (fun a => obind (obind (nth_error vars y) (k_get i K)) (fun b => Some (Made 0, assign vars x (k_put i K (v a b))))) = Some (a, vars') ->
  (List.length vars <= List.length vars')%nat /\ forall j, (j < List.length vars)%nat -> assigns (On g c) <> Some j -> nth_error vars' j = nth_error vars j.
Proof.
  intros Hc H. destruct (obind (nth_error vars x) (k_get i K)) as [a0|] eqn:E1; [|discriminate]. apply at_lt in E1. cbn [obind] in H.
  destruct (obind (nth_error vars y) (k_get i K)) as [b0|]; [|discriminate]. cbn [obind] in H. injection H as _ <-.
  split; [now rewrite assign_length|]. intros j Hj N. apply assign_other; [assumption|]. congruence.
Qed.
Lemma crate_frame : frame (crate i).
Proof.
  intros vars c a vars' H. destruct (assigns c) as [x|] eqn:E.
  - destruct c as [g c| | | | | | | | | | | | | | | | | | | | ]; try discriminate E.
    rewrite <- E. destruct c; try discriminate E; destruct g; cbn [crate crate_on] in H; eapply set_frame; try exact H; reflexivity.
  - pose proof (crate_adds vars c E) as Q. rewrite H in Q. destruct Q as [new ->]. split; [rewrite app_length; lia|]. intros j Hj _. now apply nth_error_app1.
Qed.
End Frame.

Section Sim.
Context (i : impl) (f1 : list N -> T1 i) (f2 : list N -> T2 i) (f4 : list N -> T4 i) (s : sem) (R : refines i f1 f2 f4 s) (S0 : sem_ok s).
Context (fl : flavour) (FT : Proof_ClientActual.fits s fl).
Notation sim := (Proof_ClientActual.sim i f1 f2 f4).
Lemma final_sim p : forall v w, sim v w -> sim (final (crate i) v p) (final (library fl) w p).
Proof.
  induction p as [|c next IH]; intros v w Hs; [assumption|]. cbn [final]. destruct (typed c) eqn:Ht; [|now apply IH].
  pose proof (Proof_ClientActual.step_ok i f1 f2 f4 s R S0 fl FT v w c Hs Ht) as Q.
  destruct (crate i v c) as [[a v']|], (library fl w c) as [[a' w']|]; try contradiction.
  - destruct Q as [<- Q]. now apply IH.
  - now apply IH.
Qed.
Lemma sharing_sim n p : forall v w, sim v w -> play (sharing (crate i) n) v p = play (sharing (library fl) n) w p.
Proof.
  induction p as [|c next IH]; intros v w Hs; [reflexivity|]. cbn [play].
  destruct (typed c) eqn:Ht; [|f_equal; now apply IH].
  pose proof (Proof_ClientActual.step_ok i f1 f2 f4 s R S0 fl FT v w c Hs Ht) as Q.
  assert (G : forall r r', Proof_ClientActual.res_ok i f1 f2 f4 r r' ->
    match r with Some (a, vars') => (c, a) :: play (sharing (crate i) n) vars' (next a) | None => (c, Ill_typed) :: play (sharing (crate i) n) v (next Ill_typed) end =
    match r' with Some (a, vars') => (c, a) :: play (sharing (library fl) n) vars' (next a) | None => (c, Ill_typed) :: play (sharing (library fl) n) w (next Ill_typed) end).
  { intros [[a v']|] [[a' w']|]; cbn; try contradiction; [intros [<- X]; f_equal; now apply IH|intros _; f_equal; now apply IH]. }
  apply G. unfold sharing. destruct (assigns c) as [x|]; [destruct (Nat.ltb x n)|]; try exact Q. exact I.
Qed.
End Sim.
