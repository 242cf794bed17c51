(** C45: what the default software implementation (src/aes_table_based.rs) shows an observer of timing and memory accesses: nothing
    but which entries of the constant tables it reads. *)
From Coq Require Import Lia Arith String.
From Coq Require Import List.
From Verif Require Import Word Interface Fips197 Spec_Api Spec_Cfg Spec_User Spec_Client Spec_Leak Spec_LeakClient Spec_LeakSoft Tables Model_Cfg Model_Leak Model_LeakAccel Model_LeakSoft Model_LeakBlock Model_Running Model_Client Model_LeakClient.
From Verif Require Import Model_Columns Proof_Word Proof_Leak Proof_LeakCount Props_Cfg Props_Leak Props_LeakAccel Props_LeakBlock Props_LeakClient.
From Verif Require Import Samples.
Open Scope string_scope.
Open Scope list_scope.
Open Scope N_scope.

(** The programs below are what a build with the default implementation runs: they return what the API calls return. *)
Theorem C45_programs_are_the_api : forall c i k g key msg,
  rustc_ok c = true -> impl_of c = Some i -> readme c = P_software ->
  is_bytes (key_len k) key -> is_bytes (group_len g) msg ->
  let run program := Ret (arrs (final (program table_engine k 1%nat (group_size g)) (start key msg)) "out") in
  encrypt_message i k key [g] msg = run encrypt_program /\
  decrypt_message i k key [g] msg = run decrypt_program /\
  encrypt_message_via_dec i k key [g] msg = run convert_program.
Proof.
  intros c i k g key msg Hc E Hr Hk Hm. pose proof (running_readme c Hc) as Q. rewrite Hr in Q.
  pose proof (C36_programs_are_the_api c P_software i table_engine k g key msg Hc E Q eq_refl Hk Hm) as X.
  assert (V : vec_n P_software g = 1%nat /\ vec_m P_software g = group_size g) by (destruct g; split; reflexivity). destruct V as [V1 V2]. rewrite V1, V2 in X. exact X.
Qed.
Print Assumptions C45_programs_are_the_api.
Example C45_programs_case : exists i, impl_of c_soft = Some i /\
  encrypt_message i K128 (fips_key K128) [One] fips_block = Ret (arrs (final (encrypt_program table_engine K128 1 (group_size One)) (start (fips_key K128) fips_block)) "out") /\
  arrs (final (encrypt_program table_engine K128 1 1) (start (fips_key K128) fips_block)) "out" = fips_ct K128.
Proof.
  assert (X : exists i, impl_of c_soft = Some i) by (eexists; reflexivity). destruct X as [i E]. exists i. split; [exact E|]. split; [|vm_compute; reflexivity].
  assert (Hk : is_bytes 16 (fips_key K128)) by (apply is_bytesb_correct; vm_compute; reflexivity). assert (Hm : is_bytes 16 fips_block) by (apply is_bytesb_correct; vm_compute; reflexivity).
  destruct (C45_programs_are_the_api c_soft i K128 One (fips_key K128) fips_block eq_refl E eq_refl Hk Hm) as [X _]. exact X.
Qed.

(** Key set-up, encryption, decryption, conversion: but for the entries read from the tables, the trace does not depend on key or message. *)
Theorem C45_software_constant_time_but_lookups : forall k g program, In program [encrypt_program; decrypt_program; convert_program] ->
  constant_time_but_lookups (program table_engine k 1%nat (group_size g)).
Proof. intros k g program H. apply veiled_checker_sound. destruct H as [<-|[<-|[<-|[]]]]; destruct k, g; vm_compute; reflexivity. Qed.
Print Assumptions C45_software_constant_time_but_lookups.
(** Not without that exception, and what the exception covers is not nothing: the entries read differ. *)
Example C45_but_lookups_case : let prog := encrypt_program table_engine K128 1 1 in let s1 := start (fips_key K128) fips_block in let s2 := start (fips_key K128) other_block in
  map hide (trace prog s1) = map hide (trace prog s2) /\ trace prog s1 <> trace prog s2.
Proof.
  intros prog s1 s2. split; [apply (C45_software_constant_time_but_lookups K128 One); [now left|now apply start_low]|].
  intros E. assert (X : existsb (fun ab => match ab with (Lookup _ a, Lookup _ b) => negb (a =? b) | _ => false end) (combine (trace prog s1) (trace prog s1)) = true) by (rewrite E at 2; vm_compute; reflexivity).
  vm_compute in X. discriminate X.
Qed.

(** Single rounds, mixing and chains. *)
Theorem C45_rounds_and_chains_constant_time_but_lookups : forall g, let m := vec_m P_software g in let e := table_engine in
  (forall round, In round [g_enc e 1; g_enc_last e 1; g_dec e 1; g_dec_last e 1]%nat -> constant_time_but_lookups (binary_program true 1 m round)) /\
  (forall mix, In mix [g_mc e; g_imc e] -> constant_time_but_lookups (unary_program true 1 1 mix)) /\
  (forall (dec : bool) keys, constant_time_but_lookups (chain_program true 1 m None (if dec then g_dec e 1 else g_enc e 1)%nat keys)).
Proof.
  intros g m e. subst m e. split; [|split].
  - intros round H. apply veiled_checker_sound. repeat (destruct H as [<-|H]; [destruct g; vm_compute; reflexivity|]); destruct H.
  - intros mix H. apply veiled_checker_sound. repeat (destruct H as [<-|H]; [vm_compute; reflexivity|]); destruct H.
  - intros dec keys. apply veiled_checker_sound. destruct dec, g; vm_compute; reflexivity.
Qed.
Print Assumptions C45_rounds_and_chains_constant_time_but_lookups.

(** ** How many entries are read *)
(** 4 for each SubWord of the key set-up, 16 for each round of each block; 32 for each of the Nr - 1 round keys mixed for decryption (16
    entries of the s-box, 16 of the tables); [convert]: the key object for decryption is made first, and converted back. *)
Theorem C45_lookup_count : forall k g key msg, length key = key_len k -> length msg = group_len g ->
  let count program := lookups (trace (program table_engine k 1%nat (group_size g)) (start key msg)) in
  let crypt := (16 * nr_of k * group_size g)%nat in let mixed := (32 * (nr_of k - 1))%nat in
  count encrypt_program = (4 * subwords k + crypt)%nat /\
  count decrypt_program = (4 * subwords k + mixed + crypt)%nat /\
  count convert_program = (4 * subwords k + mixed + mixed + crypt)%nat.
Proof.
  intros k g key msg Lk Lm count crypt mixed.
  set (lens := fun a => if String.eqb a "key" then key_len k else if String.eqb a "in" then group_len g else if String.eqb a "RCON" then length RCON else 0%nat).
  assert (S : sized lens (start key msg)) by (intros x; unfold lens; cbn [start arrs]; destruct (String.eqb x "key"), (String.eqb x "in"), (String.eqb x "RCON"); auto).
  assert (X : forall program n, option_map fst (counts lens (program table_engine k 1%nat (group_size g))) = Some n -> count program = n).
  { intros program n H. unfold count, trace. destruct (counts lens (program table_engine k 1%nat (group_size g))) as [[a lens']|] eqn:E; [|discriminate]. injection H as <-. now apply (counts_ok _ lens _ lens'). }
  clear S. subst crypt mixed lens. clear Lk Lm. split; [|split]; apply X; clear X; destruct k, g; vm_compute; reflexivity.
Qed.
Print Assumptions C45_lookup_count.
Example C45_lookup_count_case : lookups (trace (decrypt_program table_engine K192 1 2) (start (fips_key K192) (fips_block ++ other_block))) = 768%nat.
Proof. apply (C45_lookup_count K192 Two (fips_key K192) (fips_block ++ other_block) eq_refl eq_refl). Qed.

(** Whatever is looked up exists: the bounds check of [TABLE[x as u8 as usize]] never fails. *)
Theorem C45_lookups_exist : 
  (forall k g key msg program, In program [encrypt_program; decrypt_program; convert_program] ->
    lookups_below 256 (trace (program table_engine k 1%nat (group_size g)) (start key msg))) /\
  Forall (fun t => length t = 256%nat) [TE0; TE1; TE2; TE3; TE4; TD0; TD1; TD2; TD3; TD4].
Proof.
  split; [|repeat constructor]. intros k g key msg program H. unfold trace. apply narrows_ok. destruct H as [<-|[<-|[<-|[]]]]; destruct k, g; vm_compute; reflexivity.
Qed.
Print Assumptions C45_lookups_exist.
(** The first entries of the tables for the rounds that one encryption reads. *)
Example C45_lookups_exist_case : firstn 4 (skipn 40 (filter is_lookup (trace (encrypt_program table_engine K128 1 1) (start (fips_key K128) fips_block)))) =
  [Lookup "TE0" 0x00; Lookup "TE1" 0x50; Lookup "TE2" 0xa0; Lookup "TE3" 0xf0].
Proof. vm_compute. reflexivity. Qed.

(** ** Whole clients *)
(** On every build, the default software one included: two clients that make calls of the same shapes show the same to an observer
    who does not see which entries of constant tables are read. *)
Theorem C45_clients_constant_time_but_lookups : forall c p i cl cl', rustc_ok c = true -> impl_of c = Some i -> running c = Some p ->
  all_silent false p (play (crate i) [] cl) ->
  shapes (play (crate i) [] cl) = shapes (play (crate i) [] cl') ->
  map (map hide) (watch (timed p (c_be c)) [] cl) = map (map hide) (watch (timed p (c_be c)) [] cl').
Proof. intros c p i cl cl' Hc Ei Hr Hq Hs. exact (same_seen false c p i cl cl' Hc Ei Hr Hq Hs). Qed.
Print Assumptions C45_clients_constant_time_but_lookups.
Theorem C45_straight_line : forall c p i l l', rustc_ok c = true -> impl_of c = Some i -> running c = Some p ->
  Forall (fun q => silent false p q = true) l -> map shape l = map shape l' ->
  map (map hide) (watch (timed p (c_be c)) [] (straight l)) = map (map hide) (watch (timed p (c_be c)) [] (straight l')).
Proof.
  intros c p i l l' Hc Ei Hr Hq Hs. apply (C45_clients_constant_time_but_lookups c p i); auto; [|now rewrite !shapes_straight].
  unfold all_silent. rewrite <- Forall_map with (f := fst) (P := fun q => silent false p q = true). now rewrite straight_calls.
Qed.
Print Assumptions C45_straight_line.
(** Which calls: all but formatting and some comparisons, on every build. *)
Theorem C45_what_is_silent : forall p q,
  silent false p q = false <->
  match q with
  | Print _ _ _ _ | Debug_key _ _ _ | On _ (Debug _ _ _) => True
  | On g (Equal _ _) => compares_at_once p g = false
  | _ => False
  end.
Proof.
  intros p q. assert (Q : computes_aes_quietly false p = true) by (destruct p; reflexivity).
  destruct q as [g q| | | | | | | | | | | | | | | | | | | |]; cbn [silent]; try (rewrite Q); try (split; [discriminate|contradiction]); try (split; [auto|reflexivity]).
  destruct q; cbn [silent_on]; try rewrite Q; try (split; [discriminate|contradiction]); try (split; [auto|reflexivity]). reflexivity.
Qed.
Print Assumptions C45_what_is_silent.
(** The client of C44, on the default software build of a little- and a big-endian target. *)
Example C45_cbc_case : forall c, In c [c_soft; c_soft_be] ->
  map (map hide) (watch (timed P_software (c_be c)) [] (straight cbc1)) = map (map hide) (watch (timed P_software (c_be c)) [] (straight cbc2)).
Proof.
  intros c H. assert (X : exists i, rustc_ok c = true /\ impl_of c = Some i /\ running c = Some P_software).
  { repeat (destruct H as [<-|H]; [eexists; split; [reflexivity|split; reflexivity]|]). destruct H. }
  destruct X as (i & X1 & X2 & X3). apply (C45_straight_line c P_software i); auto. unfold cbc1, cbc. repeat constructor.
Qed.
(** How many table entries in each of its 12 calls: 40 for the key, 160 for each block, 288 to turn the key around. *)
Example C45_cbc_seen : map lookups (watch (timed P_software false) [] (straight cbc1)) = [40; 0; 0; 0; 160; 0; 0; 160; 0; 288; 160; 0]%nat.
Proof. vm_compute. reflexivity. Qed.
