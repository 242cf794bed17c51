(** C44: an observer of timing and memory accesses learns nothing from a client of the crate but the calls it makes. *)
From Coq Require Import Lia Arith String.
From Coq Require Import List.
From Verif Require Import Word Interface Fips197 Spec_Api Spec_Cfg Spec_User Spec_Client Spec_ClientActual Spec_Leak Spec_LeakClient Model_Cfg Model_Running Model_Client Model_LeakClient.
From Verif Require Import Proof_Leak Proof_LeakClient Proof_LeakWatch Props_ClientActual.
From Verif Require Import Samples.
Open Scope list_scope.
Open Scope N_scope.

(** The programs whose execution is observed are the crate: a client gets the same answers from either. *)
Theorem C44_timed_is_the_crate : forall c p i cl, rustc_ok c = true -> impl_of c = Some i -> running c = Some p ->
  no_formatting (play (crate i) [] cl) ->
  play (heard (timed p (c_be c))) [] cl = play (crate i) [] cl.
Proof.
  intros c p i cl Hc Ei Hr Hq. rewrite (C41_every_client_on_every_build c i cl Hc Ei) in *. now apply timed_is_library.
Qed.
Print Assumptions C44_timed_is_the_crate.

Lemma silent_no_formatting tables p l : all_silent tables p l -> no_formatting l.
Proof. intros H. eapply Forall_impl; [|exact H]. intros [q ans]. cbn [fst]. destruct q as [g q| | | | | | | | | | | | | | | | | | | |]; cbn [silent formats]; try reflexivity; try discriminate.
  destruct q; cbn [silent_on]; (reflexivity || discriminate).
Qed.
Lemma same_seen tables c p i cl cl' : rustc_ok c = true -> impl_of c = Some i -> running c = Some p ->
  all_silent tables p (play (crate i) [] cl) ->
  shapes (play (crate i) [] cl) = shapes (play (crate i) [] cl') ->
  map (map (veil tables)) (watch (timed p (c_be c)) [] cl) = map (map (veil tables)) (watch (timed p (c_be c)) [] cl').
Proof.
  intros Hc Ei Hr Hq Hs. pose proof (all_silent_shapes tables p _ _ Hs Hq) as Hq'.
  pose proof (C44_timed_is_the_crate c p i cl Hc Ei Hr (silent_no_formatting _ _ _ Hq)) as E. pose proof (C44_timed_is_the_crate c p i cl' Hc Ei Hr (silent_no_formatting _ _ _ Hq')) as E'.
  apply watch_alike; [now rewrite E|constructor|]. rewrite E, E'. exact Hs.
Qed.
(** Two clients, adaptive or not, that make calls of the same shapes - same functions, same variables, literals of the same lengths -
    show the observer the same, whatever the keys, plaintexts and other bytes. *)
Theorem C44_clients_constant_time : forall c p i cl cl', rustc_ok c = true -> impl_of c = Some i -> running c = Some p ->
  all_silent true p (play (crate i) [] cl) ->
  shapes (play (crate i) [] cl) = shapes (play (crate i) [] cl') ->
  watch (timed p (c_be c)) [] cl = watch (timed p (c_be c)) [] cl'.
Proof.
  intros c p i cl cl' Hc Ei Hr Hq Hs. pose proof (same_seen true c p i cl cl' Hc Ei Hr Hq Hs) as E.
  assert (I : forall l : list (list event), map (map (veil true)) l = l) by (intros l; rewrite (map_ext _ (fun t => t) veil_true); apply map_id).
  now rewrite !I in E.
Qed.
Print Assumptions C44_clients_constant_time.

(** In particular for a fixed list of calls with other bytes in it. *)
Lemma straight_calls {S} (step : list S -> call -> option (answer * list S)) l : forall v, map fst (play step v (straight l)) = l.
Proof.
  induction l as [|c l IH]; intros v; [reflexivity|]. cbn [straight play]. destruct (if typed c then _ else _) as [[a w]|]; cbn [map fst]; now rewrite IH.
Qed.
Lemma shapes_straight {S} (step : list S -> call -> option (answer * list S)) l : shapes (play step [] (straight l)) = map shape l.
Proof. unfold shapes. rewrite <- (map_map fst shape). now rewrite straight_calls. Qed.
Theorem C44_straight_line : forall c p i l l', rustc_ok c = true -> impl_of c = Some i -> running c = Some p ->
  Forall (fun q => silent true p q = true) l -> map shape l = map shape l' ->
  watch (timed p (c_be c)) [] (straight l) = watch (timed p (c_be c)) [] (straight l').
Proof.
  intros c p i l l' Hc Ei Hr Hq Hs. apply (C44_clients_constant_time c p i); auto; [|now rewrite !shapes_straight].
  unfold all_silent. rewrite <- Forall_map with (f := fst) (P := fun q => silent true p q = true). now rewrite straight_calls.
Qed.
Print Assumptions C44_straight_line.

(** Which calls: with the feature "constant-time", or an accelerated backend, all but formatting and some comparisons. *)
Theorem C44_what_is_silent : forall p q, p <> P_software ->
  silent true p q = false <->
  match q with
  | Print _ _ _ _ | Debug_key _ _ _ | On _ (Debug _ _ _) => True
  | On g (Equal _ _) => compares_at_once p g = false
  | _ => False
  end.
Proof.
  intros p q Hp. assert (Q : computes_aes_quietly true p = true) by (destruct p; reflexivity || congruence).
  destruct q as [g q| | | | | | | | | | | | | | | | | | | |]; cbn [silent]; try (rewrite Q); try (split; [discriminate|contradiction]); try (split; [auto|reflexivity]).
  destruct q; cbn [silent_on]; try rewrite Q; try (split; [discriminate|contradiction]); try (split; [auto|reflexivity]). reflexivity.
Qed.
Print Assumptions C44_what_is_silent.

(** ** Cases *)
(** CBC over two blocks, comparing the result with an expected tag: two keys, plaintexts and tags. *)
Definition cbc (key iv m1 m2 : list N) : list call :=
  [Enc_from K128 key; On One (New iv); On One (New m1); On One (Spec_Client.Xor 1 2); On One (Encrypt 0 3);
   On One (Try_from m2); On One (Xor_assign 4 5); On One (Encrypt 0 4); On One (To_array 6); Decrypter 0; On One (Decrypt 7 6); On One (Is_zero 8)].
Definition cbc1 := cbc fips_block other_block (repeat 7 16) (repeat 9 20).
Definition cbc2 := cbc other_block (repeat 0 16) fips_block (repeat 200 20).
Lemma cbc_silent p : p <> P_software -> forall a b c d, Forall (fun q => silent true p q = true) (cbc a b c d).
Proof. intros H a b c d. unfold cbc. assert (Q : computes_aes_quietly true p = true) by (destruct p; reflexivity || congruence). repeat constructor; exact Q. Qed.
Example C44_cbc_case : forall c, In c [c_x86; c_vaes512; c_neon; c_rv64; c_rv32; c_ct_le; c_ct_be] -> exists p, running c = Some p /\
  watch (timed p (c_be c)) [] (straight cbc1) = watch (timed p (c_be c)) [] (straight cbc2).
Proof.
  intros c H. assert (X : exists p i, rustc_ok c = true /\ impl_of c = Some i /\ running c = Some p /\ p <> P_software).
  { repeat (destruct H as [<-|H]; [do 2 eexists; split; [reflexivity|split; [reflexivity|split; [reflexivity|discriminate]]]|]). destruct H. }
  destruct X as (p & i & X1 & X2 & X3 & X4). exists p. split; [exact X3|]. apply (C44_straight_line c p i); auto. now apply cbc_silent.
Qed.
(** The observer does see something: how many events in each of the 12 calls. *)
Example C44_cbc_seen : map (@List.length event) (watch (timed P_aesni false) [] (straight cbc1)) = [27; 32; 32; 48; 54; 34; 48; 54; 32; 32; 54; 17]%nat.
Proof. vm_compute. reflexivity. Qed.
(** A client that looks at an answer: it compares a secret with a guess and goes on only if they are equal.  Two secrets, two wrong
    guesses: the same is seen, with a register comparison.  A right guess is seen, of course: the client makes another call. *)
Definition guarded (secret guess : list N) : client :=
  Do (On One (New secret)) (fun _ => Do (On One (From_ref guess)) (fun _ => Do (On One (Equal 0 1)) (fun a =>
    match a with Truth true => Do (On One (Spec_Client.Not 0)) (fun _ => Stop) | _ => Stop end))).
Example C44_guarded_case :
  watch (timed P_aesni false) [] (guarded fips_block other_block) = watch (timed P_aesni false) [] (guarded (repeat 1 16) (repeat 2 16)) /\
  List.length (watch (timed P_aesni false) [] (guarded fips_block other_block)) = 3%nat /\ List.length (watch (timed P_aesni false) [] (guarded fips_block fips_block)) = 4%nat.
Proof.
  split.
  - assert (E : exists i, impl_of c_x86 = Some i) by (eexists; reflexivity). destruct E as [i E].
    apply (C44_clients_constant_time c_x86 P_aesni i); [reflexivity|exact E|reflexivity| |]; rewrite !(C41_every_client_on_every_build c_x86 i _ eq_refl E).
    + unfold all_silent. assert (E0 : map fst (play (library (flavour_of c_x86)) [] (guarded fips_block other_block)) = [On One (New fips_block); On One (From_ref other_block); On One (Equal 0 1)]) by (vm_compute; reflexivity).
      rewrite <- Forall_map with (f := fst) (P := fun q => silent true P_aesni q = true). rewrite E0. repeat constructor.
    + vm_compute. reflexivity.
  - split; vm_compute; reflexivity.
Qed.
