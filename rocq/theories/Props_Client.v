(** C40: no client, however it mixes calls and however it reacts to what it sees, can tell the crate from the ideal library
    of Spec_Client (which answers with FIPS 197); so it cannot tell two builds apart either. *)
From Coq Require Import Lia Arith String.
From Verif Require Import Word Interface Fips197 Spec_Api Spec_Reach Spec_Cfg Spec_User Spec_Fmt Spec_Client Model_Lib Model_Cfg Model_Fmt Model_Client.
From Verif Require Import Proof_Shape Proof_Word Proof_Fips Proof_Ok Proof_Sem Proof_Lib Proof_Reach Proof_Inst Proof_Cipher Proof_Main Proof_Client Proof_ClientSafe.
From Verif Require Import Samples.
Open Scope N_scope.
Open Scope list_scope.

(** The two non-conforming groups of builds (C30, C31) still serve clients that keep to what works there. *)
Definition level_of (c : cfg) : level :=
  if rv32_zk c then Encrypt_rounds_only else if be_constant_time c then No_keys else Full.
Lemma conforming_full c : conforming c = true -> level_of c = Full.
Proof. unfold conforming, level_of. destruct (rv32_zk c), (be_constant_time c); try discriminate; reflexivity. Qed.
Lemma full_conforming c : level_of c = Full -> conforming c = true.
Proof. unfold conforming, level_of. destruct (rv32_zk c), (be_constant_time c); try discriminate; reflexivity. Qed.
Lemma anything_goes p : makes_only (permits Full) p.
Proof. induction p as [|c next IH]; [exact I|]. now split. Qed.

Theorem C40_any_client : forall c i p, impl_of c = Some i -> makes_only (permits (level_of c)) p ->
  play (crate i) [] p = play ideal [] p.
Proof.
  intros c i p E H. destruct (rv32_zk c) eqn:C.
  - destruct (inst_any c i E) as (s & f1 & f2 & f4 & He & Hl & S1 & R). unfold level_of in H. rewrite C in H.
    apply (play_ok i f1 f2 f4 s R S1 Encrypt_rounds_only He Hl); [congruence|discriminate|constructor|exact H].
  - destruct (inst c i E C) as (pre & keys & f1 & f2 & f4 & Hp & K & S1 & R).
    apply (play_ok i f1 f2 f4 (fips_sem pre keys) R S1 (level_of c) eq_refl eq_refl); [|intros L; cbn; now apply K, full_conforming|constructor|exact H].
    intros _. now exists pre, keys.
Qed.
Print Assumptions C40_any_client.

(** In a conforming build that is every client there is. *)
Theorem C40_clients_see_fips197 : forall c i p, impl_of c = Some i -> conforming c = true ->
  play (crate i) [] p = play ideal [] p.
Proof. intros c i p E C. apply (C40_any_client c); [exact E|]. rewrite conforming_full by exact C. apply anything_goes. Qed.
Print Assumptions C40_clients_see_fips197.

(** Two builds (two machines, two sets of target features or crate features, debug or release) give the same transcript. *)
Theorem C40_builds_indistinguishable : forall c i c' i' p, impl_of c = Some i -> impl_of c' = Some i' ->
  makes_only (permits (level_of c)) p -> makes_only (permits (level_of c')) p ->
  play (crate i) [] p = play (crate i') [] p.
Proof. intros c i c' i' p E E' H H'. now rewrite (C40_any_client c i p), (C40_any_client c' i' p). Qed.
Print Assumptions C40_builds_indistinguishable.

(** In every build (RV32 and big-endian constant-time included), whatever a client does: no call is undefined behaviour; the only
    calls that panic are a chain without keys and a store_to into too short a buffer, which is left as it was. *)
Theorem C40_no_client_breaks_it : forall c i p call a, impl_of c = Some i -> In (call, a) (play (crate i) [] p) ->
  a <> Undefined /\
  (a = Panics -> exists g x, call = On g (Chain_enc x []) \/ call = On g (Chain_dec x [])) /\
  (forall b, a = Buffer true b -> exists g x, call = On g (Store_to x b) /\ (List.length b < group_len g)%nat).
Proof.
  intros c i p call a E H. pose proof (play_safe c i E p [] (Forall_nil _)) as F. rewrite Forall_forall in F. exact (F _ H).
Qed.
Print Assumptions C40_no_client_breaks_it.

(** ** A client *)
(** It encrypts two blocks at once and looks at the bytes; if the first ciphertext byte is even it goes on with the decrypter
    made from its encryption object, else with a chain; it formats, compares, converts and provokes both panics on the way. *)
Definition first_even (a : answer) : bool := match a with Bytes (b :: _) => N.even b | _ => false end.
Definition busy : client :=
  Do (Enc_from K192 (fips_key K192)) (fun _ =>                                (* 0 *)
  Do (On Two (New (fips_block ++ other_block))) (fun _ =>                     (* 1 *)
  Do (On Two (Encrypt 0 1)) (fun _ =>                                         (* 2 *)
  Do (On Two (To_array 2)) (fun a =>
  if first_even a then Do (On Two (To_array 1)) (fun _ => Stop) else
  Do (Decrypter 0) (fun _ =>                                                  (* 3 *)
  Do (On Two (Decrypt 3 2)) (fun _ =>                                         (* 4 *)
  Do (On Two (Equal 1 4)) (fun a => match a with Truth false => Stop | _ =>
  Do (X2_into_pair 2) (fun _ =>                                               (* 5, 6 *)
  Do (On One (Chain_dec 5 [])) (fun _ =>
  Do (On One (Chain_dec 5 [6; 5; 6]%nat)) (fun _ =>                           (* 7 *)
  Do (On One (Xor_assign 5 7)) (fun _ =>
  Do (On One (Store_to 5 [1; 2; 3])) (fun _ =>
  Do (On One (Decrypt 3 6)) (fun _ =>                                         (* 8 *)
  Do (Print LowerHex true None 8) (fun _ =>
  Do (On Four (Equal 5 5)) (fun _ => Stop)))))))) end))))))).
(** What it sees, with the ideal library: *)
Example C40_busy_sees :
  map snd (play ideal [] busy) =
  [Made 1; Made 1; Made 1; Bytes (each_block (aes_encrypt K192 (fips_key K192)) (fips_block ++ other_block)); Made 1; Made 1; Truth true; Made 2; Panics; Made 1; Made 0;
   Buffer true [1; 2; 3]; Made 1; Text "0x3243f6a8885a308d313198a2e0370734"; Ill_typed].
Proof. vm_compute. reflexivity. Qed.
(** and therefore with every conforming build: *)
Example C40_any_client_case : forall c, In c conforming_samples -> exists i, impl_of c = Some i /\ play (crate i) [] busy = play ideal [] busy.
Proof. intros c H. destruct (sample_impl c) as [i E]; [apply in_app_iff; now left|]. exists i. split; [exact E|]. apply (C40_clients_see_fips197 c i busy E). now apply sample_conforming. Qed.
Example C40_builds_case : exists i i', impl_of c_vaes512 = Some i /\ impl_of c_soft_be = Some i' /\ play (crate i) [] busy = play (crate i') [] busy.
Proof. eexists _, _. split; [reflexivity|]. split; [reflexivity|]. apply (C40_builds_indistinguishable c_vaes512 _ c_soft_be _ busy eq_refl eq_refl); apply anything_goes. Qed.

(** A client for the two non-conforming groups. *)
Definition rounds_client : client :=
  Do (On Four (New (fips_block ++ other_block ++ fips_block ++ fips_block))) (fun _ =>
  Do (On Four Zero) (fun _ => Do (On Four (Enc 0 1)) (fun _ => Do (On Four (Enc_last 2 0)) (fun _ => Do (On Four (Debug false None 3)) (fun _ => Stop))))).
Example C40_any_client_case_rv32 : exists i, impl_of c_rv32 = Some i /\ play (crate i) [] rounds_client = play ideal [] rounds_client.
Proof. eexists. split; [reflexivity|]. apply (C40_any_client c_rv32); [reflexivity|]. cbn. intuition. Qed.
Example C40_any_client_case_ct_be : exists i, impl_of c_ct_be = Some i /\ play (crate i) [] rounds_client = play ideal [] rounds_client.
Proof. eexists. split; [reflexivity|]. apply (C40_any_client c_ct_be); [reflexivity|]. cbn. intuition. Qed.
(** The restrictions are needed: these clients do tell. *)
Definition key_client : client := Do (Enc_from K128 (fips_key K128)) (fun _ => Do (Debug_key false None 0) (fun _ => Stop)).
Definition dec_client : client := Do (On One (New fips_block)) (fun _ => Do (On One (Dec 0 0)) (fun _ => Do (On One (To_array 1)) (fun _ => Stop))).
Example C40_restrictions_needed :
  (exists i, impl_of c_ct_be = Some i /\ play (crate i) [] key_client <> play ideal [] key_client) /\
  (exists i, impl_of c_rv32 = Some i /\ play (crate i) [] dec_client <> play ideal [] dec_client).
Proof.
  split; eexists; (split; [reflexivity|]).
  - intros H. apply (f_equal (fun t => map snd t)) in H. vm_compute in H. discriminate.
  - intros H. apply (f_equal (fun t => map snd t)) in H. vm_compute in H. discriminate.
Qed.
