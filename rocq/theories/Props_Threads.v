(** C42: threads that share key objects and blocks, under every schedule (Spec_Threads). *)
From Coq Require Import Lia Arith String.
From Verif Require Import Word Interface Fips197 Spec_Api Spec_Reach Spec_Cfg Spec_User Spec_Fmt Spec_Actual Spec_Client Spec_ClientActual Spec_Threads Model_Lib Model_Cfg Model_Fmt Model_Client.
From Verif Require Import Proof_Shape Proof_Sem Proof_Threads Proof_CrateThreads.
From Verif Require Proof_Client Proof_ClientActual Proof_Main.
From Verif Require Import Samples Props_Client.
Open Scope N_scope.
Open Scope list_scope.

(** [setup] makes the shared values; then the [clients] run, in the order the schedule says.  Each thread's transcript is, as
    far as it has come, the one it would have alone with the library of the build's flavour; a thread that has finished has seen
    all of it. *)
Theorem C42_every_schedule : forall c i setup clients schedule t th,
  rustc_ok c = true -> impl_of c = Some i ->
  let shared := final (crate i) [] setup in
  let w := interleave (crate i) (List.length shared) (launch shared clients) schedule in
  let ideal_shared := final (library (flavour_of c)) [] setup in
  nth_error (threads w) t = Some th ->
  exists p rest, nth_error clients t = Some p /\
    play (sharing (library (flavour_of c)) (List.length ideal_shared)) ideal_shared p = seen th ++ rest /\
    (todo th = Stop -> rest = []).
Proof.
  intros c i setup clients schedule t th RO E shared w ishared Ht.
  destruct (threads_alone (crate i) (crate_frame i) shared clients schedule t th Ht) as (p & rest & Hp & P & Q).
  exists p, rest. split; [assumption|]. split; [|assumption].
  destruct (Proof_ClientActual.every_build c i RO E) as (f1 & f2 & f4 & s & R & S0 & FT).
  assert (Hs : Proof_ClientActual.sim i f1 f2 f4 shared ishared) by (apply (final_sim i f1 f2 f4 s R S0 _ FT); constructor).
  rewrite <- (Proof_ClientActual.sim_length _ _ _ _ _ _ Hs). rewrite <- P. symmetry. now apply (sharing_sim i f1 f2 f4 s R S0 _ FT).
Qed.
Print Assumptions C42_every_schedule.

(** In a conforming build every thread sees FIPS 197. *)
Lemma final_ideal c i : impl_of c = Some i -> conforming c = true -> forall setup p,
  play (sharing (crate i) (List.length (final (crate i) [] setup))) (final (crate i) [] setup) p = play (sharing ideal (List.length (final ideal [] setup))) (final ideal [] setup) p.
Proof.
  intros E C setup p. destruct (Proof_Main.inst c i E (Proof_Main.conforming_rv c C)) as (pre & keys & f1 & f2 & f4 & P & K & S0 & R).
  set (sim := Proof_Client.sim i f1 f2 f4).
  assert (ST : forall v w cl, sim v w -> typed cl = true -> Proof_Client.res_ok i f1 f2 f4 (crate i v cl) (ideal w cl)).
  { intros v w cl Hs Ht. apply (Proof_Client.step_ok i f1 f2 f4 (Proof_Inst.fips_sem pre keys) R S0 Full eq_refl eq_refl); [|intros _; cbn; now apply K|assumption|assumption|reflexivity].
    intros _. now exists pre, keys. }
  assert (FS : forall q v w, sim v w -> sim (final (crate i) v q) (final ideal w q)).
  { induction q as [|cl next IH]; intros v w Hs; [assumption|]. cbn [final]. destruct (typed cl) eqn:Ht; [|now apply IH].
    pose proof (ST v w cl Hs Ht) as Q. destruct (crate i v cl) as [[a v']|], (ideal w cl) as [[a' w']|]; try contradiction; [destruct Q as [<- Q]; now apply IH|now apply IH]. }
  assert (Hs : sim (final (crate i) [] setup) (final ideal [] setup)) by (apply FS; constructor).
  rewrite (Proof_Client.sim_length _ _ _ _ _ _ Hs). generalize (List.length (final ideal [] setup)) as n. intros n. revert Hs. generalize (final (crate i) [] setup), (final ideal [] setup).
  induction p as [|cl next IH]; intros v w Hs; [reflexivity|]. cbn [play]. destruct (typed cl) eqn:Ht; [|f_equal; now apply IH].
  pose proof (ST v w cl Hs Ht) as Q.
  assert (Q' : Proof_Client.res_ok i f1 f2 f4 (sharing (crate i) n v cl) (sharing ideal n w cl)) by (unfold sharing; destruct (assigns cl) as [x|]; [destruct (Nat.ltb x n)|]; try exact Q; exact I).
  revert Q'. destruct (sharing (crate i) n v cl) as [[a v']|], (sharing ideal n w cl) as [[a' w']|]; cbn; try contradiction; [intros [<- X]; f_equal; now apply IH|intros _; f_equal; now apply IH].
Qed.
Theorem C42_threads_see_fips197 : forall c i setup clients schedule t th,
  impl_of c = Some i -> conforming c = true ->
  let shared := final (crate i) [] setup in
  let w := interleave (crate i) (List.length shared) (launch shared clients) schedule in
  nth_error (threads w) t = Some th ->
  exists p rest, nth_error clients t = Some p /\
    play (sharing ideal (List.length (final ideal [] setup))) (final ideal [] setup) p = seen th ++ rest /\
    (todo th = Stop -> rest = []).
Proof.
  intros c i setup clients schedule t th E C shared w Ht.
  destruct (threads_alone (crate i) (crate_frame i) shared clients schedule t th Ht) as (p & rest & Hp & P & Q).
  exists p, rest. split; [assumption|]. split; [|assumption]. rewrite <- P. symmetry. now apply (final_ideal c).
Qed.
Print Assumptions C42_threads_see_fips197.

(** Every thread finishes after a number of its own turns that depends only on the shared values and on itself, whatever the others do. *)
Theorem C42_no_thread_waits : forall i shared p, exists turns,
  forall clients schedule t th, nth_error clients t = Some p ->
  nth_error (threads (interleave (crate i) (List.length shared) (launch shared clients) schedule)) t = Some th ->
  (turns <= count_occ Nat.eq_dec schedule t)%nat -> todo th = Stop.
Proof. intros i shared p. exists (cost (crate i) shared shared p). intros. now apply (threads_finish (crate i) (crate_frame i) shared clients schedule t th p). Qed.
Print Assumptions C42_no_thread_waits.

(** The shared values are never changed, and no thread is lost. *)
Theorem C42_shared_values_stay : forall i shared clients schedule,
  let w := interleave (crate i) (List.length shared) (launch shared clients) schedule in
  firstn (List.length shared) (memory w) = shared /\ List.length (threads w) = List.length clients.
Proof. intros i shared clients schedule w. split; [apply (threads_shared (crate i) (crate_frame i))|apply (threads_all (crate i) (crate_frame i))]. Qed.
Print Assumptions C42_shared_values_stay.

(** ** A case: an encryption object and a block shared by two threads *)
Definition maker : client := Do (Enc_from K128 (fips_key K128)) (fun _ => Do (On One (New fips_block)) (fun _ => Stop)).
(** The first encrypts the shared block, works on its own copy, and tries to assign to the shared one; the second decrypts what it encrypted. *)
Definition worker1 : client :=
  Do (On One (Encrypt 0 1)) (fun _ => Do (On One (Xor_assign 1 2)) (fun _ => Do (Copy 1) (fun _ => Do (On One (Xor_assign 3 2)) (fun _ => Do (On One (To_array 2)) (fun _ => Stop))))).
Definition worker2 : client :=
  Do (Decrypter 0) (fun _ => Do (On One (Encrypt 0 1)) (fun _ => Do (On One (Decrypt 2 3)) (fun _ => Do (On One (Equal 1 4)) (fun _ => Stop)))).
Definition solo (p : client) : list answer := map snd (play (sharing ideal 2) (final ideal [] maker) p).
Example C42_workers_see : solo worker1 = [Made 1; Ill_typed; Made 1; Made 0; Bytes (aes_encrypt K128 (fips_key K128) fips_block)] /\ solo worker2 = [Made 1; Made 1; Made 1; Truth true].
Proof. vm_compute. split; reflexivity. Qed.
Example C42_every_schedule_case : forall c, In c conforming_samples -> exists i, impl_of c = Some i /\
  forall schedule t th, let shared := final (crate i) [] maker in
  nth_error (threads (interleave (crate i) (List.length shared) (launch shared [worker1; worker2]) schedule)) t = Some th -> todo th = Stop ->
  exists p, nth_error [worker1; worker2] t = Some p /\ map snd (seen th) = solo p.
Proof.
  intros c H. destruct (sample_impl c) as [i E]; [apply in_app_iff; now left|]. exists i. split; [exact E|]. intros schedule t th shared Ht St.
  destruct (C42_threads_see_fips197 c i maker [worker1; worker2] schedule t th E (sample_conforming c H) Ht) as (p & rest & Hp & P & Q).
  exists p. split; [exact Hp|]. unfold solo. change 2%nat with (List.length (final ideal [] maker)). rewrite P, (Q St), app_nil_r. reflexivity.
Qed.
(** Schedules in which both finish exist: taking turns, 30 each. *)
Definition stopped {S} (th : @thread S) : bool := match todo th with Stop => true | _ => false end.
Example C42_both_finish : exists i, impl_of c_soft = Some i /\ let shared := final (crate i) [] maker in
  let w := interleave (crate i) (List.length shared) (launch shared [worker1; worker2]) (List.concat (repeat [0; 1]%nat 30)) in
  map stopped (threads w) = [true; true] /\ map (fun th => map snd (seen th)) (threads w) = [solo worker1; solo worker2].
Proof. eexists. split; [reflexivity|]. vm_compute. split; reflexivity. Qed.
(** ... and they have indeed interleaved: after four turns each both are inside their second call. *)
Example C42_interleaved : exists i, impl_of c_soft = Some i /\ let shared := final (crate i) [] maker in
  let w := interleave (crate i) (List.length shared) (launch shared [worker1; worker2]) (List.concat (repeat [0; 1]%nat 6)) in
  map (fun th => (List.length (seen th), option_map (@List.length _) (got th))) (threads w) = [(1, Some 1); (1, Some 1)]%nat.
Proof. eexists. split; [reflexivity|]. vm_compute. reflexivity. Qed.
