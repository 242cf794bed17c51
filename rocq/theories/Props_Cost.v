(** C49: how many AES instructions of the CPU the calls of the API execute on each kind of build: a number that depends on the key size
    and the number of blocks only, and with vector AES not even on that. *)
From Coq Require Import Lia Arith String List.
From Verif Require Import Word Interface Fips197 Spec_Cfg Spec_User Spec_Leak Spec_LeakSoft Spec_Insn Spec_Cost Model_Columns Model_Cfg Model_Leak Model_LeakAccel Model_LeakSoft Model_LeakBlock Model_Running.
From Verif Require Import Proof_Word Proof_Leak Proof_LeakCount Proof_Cost Props_Cfg Props_Leak Props_LeakAccel Props_LeakBlock.
From Verif Require Import Samples.
Open Scope string_scope.
Open Scope list_scope.
Open Scope nat_scope.

Definition start_lens (key msg : nat) (x : string) : nat :=
  if String.eqb x "key" then key else if String.eqb x "in" then msg else if String.eqb x "RCON" then length RCON else 0.
Lemma start_sized key msg nk nm : length key = nk -> length msg = nm -> sized (start_lens nk nm) (start key msg).
Proof. intros <- <- x. unfold start_lens, start. cbn [arrs]. now destruct (String.eqb x "key"), (String.eqb x "in"), (String.eqb x "RCON"). Qed.
Definition billed (o : option (bill * (string -> nat))) (b : bill) : bool :=
  match o with Some (b', _) => same_bill b' b && Nat.eqb (bill_total b') (bill_total b) | None => false end.
Lemma billed_ok lens s b st : billed (tally lens s) b = true -> sized lens st -> matches (aes_run (executed s st)) b.
Proof.
  intros H Hs. destruct (tally lens s) as [[b' lens']|] eqn:E; [|discriminate]. cbn [billed] in H. apply andb_true_iff in H as [H1 H2]. apply Nat.eqb_eq in H2.
  destruct (tally_ok s lens b' lens' E st Hs) as [M _]. now apply (matches_same _ b' b (same_bill_ok _ _ H1) H2).
Qed.

(** ** The bills of the three kinds of calls *)
(** A new key object from a key, one call; through a decryption object; through both. *)
Definition encrypt_bill p k g := setup_bill p k ++ crypt_bill p false k g.
Definition decrypt_bill p k g := setup_bill p k ++ scale (nr_of k - 1) (imc_bill p) ++ crypt_bill p true k g.
Definition convert_bill p k g := setup_bill p k ++ scale (nr_of k - 1) (imc_bill p) ++ scale (nr_of k - 1) (mc_bill p) ++ crypt_bill p false k g.
Lemma programs_billed p be e k g : engine_of p be = Some e -> let lens := start_lens (key_len k) (group_len g) in
  billed (tally lens (encrypt_program e k (vec_n p g) (vec_m p g))) (encrypt_bill p k g) = true /\
  billed (tally lens (decrypt_program e k (vec_n p g) (vec_m p g))) (decrypt_bill p k g) = true /\
  billed (tally lens (convert_program e k (vec_n p g) (vec_m p g))) (convert_bill p k g) = true.
Proof. intros E. destruct p; injection E as <-; try (destruct be); destruct k, g; repeat split; vm_compute; reflexivity. Qed.

(** Building the key object and encrypting, or decrypting, or encrypting through [.encrypter()]: exactly these AES instructions,
    whatever the key and the message (the programs return what the API calls return: C36, C45). *)
Theorem C49_calls_cost : forall c p e k g key msg,
  rustc_ok c = true -> running c = Some p -> engine_of p (c_be c) = Some e -> length key = key_len k -> length msg = group_len g ->
  let instructions program := aes_run (executed (program e k (vec_n p g) (vec_m p g)) (start key msg)) in
  let rounds := nr_of k - 1 in
  (forall a, times a (instructions encrypt_program) = on_bill a (setup_bill p k ++ crypt_bill p false k g)) /\
  (forall a, times a (instructions decrypt_program) = on_bill a (setup_bill p k ++ scale rounds (imc_bill p) ++ crypt_bill p true k g)) /\
  (forall a, times a (instructions convert_program) =
             on_bill a (setup_bill p k ++ scale rounds (imc_bill p) ++ scale rounds (mc_bill p) ++ crypt_bill p false k g)).
Proof.
  intros c p e k g key msg _ _ He Lk Lm instructions rounds. destruct (programs_billed p (c_be c) e k g He) as (B1 & B2 & B3).
  pose proof (start_sized key msg _ _ Lk Lm) as S0. split; [|split]; intros a.
  - exact (proj1 (billed_ok _ _ _ _ B1 S0) a).
  - exact (proj1 (billed_ok _ _ _ _ B2 S0) a).
  - exact (proj1 (billed_ok _ _ _ _ B3 S0) a).
Qed.
Print Assumptions C49_calls_cost.
(** AES-256 of four blocks, six builds: the executed instructions listed by running the program on the FIPS-197 key. *)
Definition cost_cases : list (cfg * aes * nat) :=
  [(c_vaes512, AESENC 4, 13); (c_vaes512, AESENCLAST 4, 1); (c_vaes512, AESENC 1, 0); (c_vaes256, AESENC 2, 26); (c_vaes256, AESENC 4, 0); (c_x86, AESENC 1, 52);
   (c_x86, AESKEYGENASSIST, 13); (c_neon, AESE, 69); (c_neon, AESMC, 52); (c_rv64, AES64ESM, 104); (c_rv64, AES64KS2, 26); (c_rv32, AES32ESMI, 832); (c_soft, AESENC 1, 0)].
Example C49_calls_case : forall c a n, In (c, a, n) cost_cases -> rustc_ok c = true /\ exists p e, running c = Some p /\ engine_of p (c_be c) = Some e /\
  length (fips_key K256) = key_len K256 /\ length (group_message Four) = group_len Four /\
  on_bill a (setup_bill p K256 ++ crypt_bill p false K256 Four) = n /\
  times a (aes_run (executed (encrypt_program e K256 (vec_n p Four) (vec_m p Four)) (start (fips_key K256) (group_message Four)))) = n.
Proof.
  intros c a n H. unfold cost_cases in H. repeat (destruct H as [H|H]; [injection H as <- <- <-; split; [reflexivity|]; do 2 eexists; split; [reflexivity|split; [reflexivity|split; [reflexivity|split; [reflexivity|split; [reflexivity|]]]]];
    match goal with |- context [engine_of] => fail 1 | |- times ?a (aes_run (executed (encrypt_program ?e ?k (vec_n ?p ?g) (vec_m ?p ?g)) ?st)) = _ =>
      rewrite (proj1 (billed_ok _ _ _ st (proj1 (programs_billed p false e k g eq_refl)) (start_sized _ _ _ _ eq_refl eq_refl)) a); reflexivity end|]). destruct H.
Qed.
(** The same by running the program itself, where that is cheap. *)
Example C49_executed_case : aes_run (executed (encrypt_program x86_engine K128 4 1) (start (fips_key K128) (group_message Four)))
  = repeat AESKEYGENASSIST 10 ++ repeat (AESENC 4) 9 ++ [AESENCLAST 4].
Proof. lazy. reflexivity. Qed.

(** The whole sequence of special instructions, data movement included, is the same for all keys and messages on every build - the one
    whose table look-ups are not constant time too. *)
Theorem C49_same_instructions_for_all_data : forall c p e k g program key msg key' msg',
  rustc_ok c = true -> running c = Some p -> engine_of p (c_be c) = Some e -> In program [encrypt_program; decrypt_program; convert_program] ->
  length key = length key' -> length msg = length msg' ->
  executed (program e k (vec_n p g) (vec_m p g)) (start key msg) = executed (program e k (vec_n p g) (vec_m p g)) (start key' msg').
Proof.
  intros c p e k g program key msg key' msg' _ _ He Hp L1 L2. apply (executed_low false); [|now apply start_low].
  destruct p; injection He as <-; try (destruct (c_be c)); destruct Hp as [<-|[<-|[<-|[]]]]; destruct k, g; vm_compute; reflexivity.
Qed.
Print Assumptions C49_same_instructions_for_all_data.
Example C49_same_case : In encrypt_program [encrypt_program; decrypt_program; convert_program] /\ fips_block <> other_block /\
  executed (encrypt_program x86_engine K128 1 1) (start (fips_key K128) fips_block) = executed (encrypt_program x86_engine K128 1 1) (start (rev (fips_key K128)) other_block) /\
  executed (encrypt_program x86_engine K128 1 1) (start (fips_key K128) fips_block) <> [].
Proof.
  split; [now left|]. split; [intros H; vm_compute in H; discriminate H|]. split.
  - apply (C49_same_instructions_for_all_data c_x86 P_aesni x86_engine K128 One encrypt_program); [reflexivity|reflexivity|reflexivity|now left|reflexivity|reflexivity].
  - intros H. apply (f_equal (@length insn)) in H. vm_compute in H. discriminate H.
Qed.

(** ** What more blocks cost *)
Definition aes_count (program : engine -> key_size -> nat -> nat -> stmt) (p : promised) (e : engine) k g key msg : nat :=
  length (aes_run (executed (program e k (vec_n p g) (vec_m p g)) (start key msg))).
(** With VAES and AVX-512 a call on four blocks (or two) executes as many AES instructions as a call on one. *)
Theorem C49_vaes512_four_for_one : forall c e k g program key msg key' msg',
  rustc_ok c = true -> running c = Some P_aesni_vaes4 -> engine_of P_aesni_vaes4 (c_be c) = Some e ->
  In program [encrypt_program; decrypt_program; convert_program] ->
  length key = key_len k -> length msg = group_len g -> length key' = key_len k -> length msg' = group_len One ->
  aes_count program P_aesni_vaes4 e k g key msg = aes_count program P_aesni_vaes4 e k One key' msg'.
Proof.
  intros c e k g program key msg key' msg' _ _ He Hp Lk Lm Lk' Lm'. unfold aes_count.
  destruct (programs_billed P_aesni_vaes4 (c_be c) e k g He) as (B1 & B2 & B3). destruct (programs_billed P_aesni_vaes4 (c_be c) e k One He) as (B1' & B2' & B3').
  pose proof (start_sized key msg _ _ Lk Lm) as S0. pose proof (start_sized key' msg' _ _ Lk' Lm') as S1.
  destruct Hp as [<-|[<-|[<-|[]]]].
  - rewrite (proj2 (billed_ok _ _ _ _ B1 S0)), (proj2 (billed_ok _ _ _ _ B1' S1)). destruct k, g; reflexivity.
  - rewrite (proj2 (billed_ok _ _ _ _ B2 S0)), (proj2 (billed_ok _ _ _ _ B2' S1)). destruct k, g; reflexivity.
  - rewrite (proj2 (billed_ok _ _ _ _ B3 S0)), (proj2 (billed_ok _ _ _ _ B3' S1)). destruct k, g; reflexivity.
Qed.
Print Assumptions C49_vaes512_four_for_one.
Example C49_four_for_one_case : rustc_ok c_vaes512 = true /\ running c_vaes512 = Some P_aesni_vaes4 /\
  aes_count encrypt_program P_aesni_vaes4 x86_engine K128 Four (fips_key K128) (group_message Four) = 20 /\
  aes_count encrypt_program P_aesni_vaes4 x86_engine K128 One (fips_key K128) fips_block = 20.
Proof. repeat split; lazy; reflexivity. Qed.

(** The other builds with AES instructions pay for each block (with VAES alone for each pair of blocks), and for the key once. *)
Theorem C49_others_pay_per_block : forall c p e k g key msg,
  rustc_ok c = true -> running c = Some p -> engine_of p (c_be c) = Some e -> length key = key_len k -> length msg = group_len g ->
  let units := match p with P_aesni_vaes4 => 1 | P_aesni_vaes2 => (group_size g + 1) / 2 | _ => group_size g end in
  let setup := bill_total (setup_bill p k) in
  let swap := (nr_of k - 1) * bill_total (imc_bill p) in
  let once dec := (nr_of k - 1) * bill_total (round_bill p dec 1) + bill_total (last_bill p dec 1) in
  aes_count encrypt_program p e k g key msg = setup + units * once false /\
  aes_count decrypt_program p e k g key msg = setup + swap + units * once true.
Proof.
  intros c p e k g key msg _ _ He Lk Lm units setup swap once. unfold aes_count. destruct (programs_billed p (c_be c) e k g He) as (B1 & B2 & _).
  pose proof (start_sized key msg _ _ Lk Lm) as S0. rewrite (proj2 (billed_ok _ _ _ _ B1 S0)), (proj2 (billed_ok _ _ _ _ B2 S0)).
  unfold encrypt_bill, decrypt_bill, crypt_bill. rewrite !bill_total_app, !bill_total_scale, !bill_total_app, !bill_total_scale.
  assert (U : vec_m p g = units) by (destruct p, g; reflexivity). rewrite U.
  assert (R : forall dec, bill_total (round_bill p dec (vec_n p g)) = bill_total (round_bill p dec 1)) by (intros dec; destruct p; reflexivity).
  assert (L : forall dec, bill_total (last_bill p dec (vec_n p g)) = bill_total (last_bill p dec 1)) by (intros dec; destruct p; reflexivity).
  rewrite !R, !L. unfold setup, swap, once. split; lia.
Qed.
Print Assumptions C49_others_pay_per_block.
(** AES-128, encryption: four blocks without vector instructions 10 + 4 * 10; NEON 10 + 4 * 19; RV64 30 + 4 * 20; RV32 40 + 4 * 160; software none. *)
Example C49_per_block_case : forall c n, In (c, n) [(c_x86, 50); (c_vaes256, 30); (c_vaes512, 20); (c_neon, 86); (c_rv64, 110); (c_rv32, 680); (c_soft, 0); (c_ct_be, 0)] ->
  rustc_ok c = true /\ exists p e, running c = Some p /\ engine_of p (c_be c) = Some e /\ aes_count encrypt_program p e K128 Four (fips_key K128) (group_message Four) = n.
Proof.
  intros c n H.
  assert (X : rustc_ok c = true /\ exists p e, running c = Some p /\ engine_of p (c_be c) = Some e /\ bill_total (setup_bill p K128) + vec_m p Four * (9 * bill_total (round_bill p false 1) + bill_total (last_bill p false 1)) = n).
  { repeat (destruct H as [H|H]; [injection H as <- <-; split; [reflexivity|do 2 eexists; split; [reflexivity|split; reflexivity]]|]). destruct H. }
  destruct X as (X1 & p & e & X2 & X3 & X4). split; [exact X1|]. exists p, e. split; [exact X2|split; [exact X3|]].
  rewrite (proj1 (C49_others_pay_per_block c p e K128 Four (fips_key K128) (group_message Four) X1 X2 X3 eq_refl eq_refl)). rewrite <- X4. destruct p; reflexivity.
Qed.

(** ** Single rounds, mixing, chains *)
Theorem C49_rounds_cost : forall c p e g a b, rustc_ok c = true -> running c = Some p -> engine_of p (c_be c) = Some e ->
  let n := vec_n p g in let m := vec_m p g in
  let instructions f := aes_run (executed (binary_program (g_be e) n m f) (start b a)) in
  (forall x, times x (instructions (g_enc e n)) = on_bill x (scale m (round_bill p false n))) /\
  (forall x, times x (instructions (g_dec e n)) = on_bill x (scale m (round_bill p true n))) /\
  (forall x, times x (instructions (g_enc_last e n)) = on_bill x (scale m (last_bill p false n))) /\
  (forall x, times x (instructions (g_dec_last e n)) = on_bill x (scale m (last_bill p true n))).
Proof.
  intros c p e g a b _ _ He n m instructions. pose proof (start_sized b a _ _ eq_refl eq_refl) as S0.
  assert (X : forall f bl, billed (tally (start_lens (length b) (length a)) (binary_program (g_be e) n m f)) bl = true -> forall x, times x (instructions f) = on_bill x bl).
  { intros f bl B x. exact (proj1 (billed_ok _ _ _ _ B S0) x). }
  repeat split; apply X; subst n m; destruct p; injection He as <-; try (destruct (c_be c)); destruct g; vm_compute; reflexivity.
Qed.
Print Assumptions C49_rounds_cost.
(** One instruction for a round of four blocks; one each with VAES alone on two. *)
Example C49_rounds_case : aes_run (executed (binary_program false 4 1 (g_enc x86_engine 4)) (start (rev (group_message Four)) (group_message Four))) = [AESENC 4] /\
  aes_run (executed (binary_program false 2 2 (g_enc x86_engine 2)) (start (rev (group_message Four)) (group_message Four))) = [AESENC 2; AESENC 2] /\
  aes_run (executed (binary_program false 1 1 (g_dec arm_engine 1)) (start fips_block other_block)) = [AESD; AESIMC_ARM].
Proof. repeat split; lazy; reflexivity. Qed.

Theorem C49_mixing_costs : forall c p e a unused, rustc_ok c = true -> running c = Some p -> engine_of p (c_be c) = Some e ->
  let instructions f := aes_run (executed (unary_program (g_be e) 1 1 f) (start unused a)) in
  (forall x, times x (instructions (g_mc e)) = on_bill x (mc_bill p)) /\ (forall x, times x (instructions (g_imc e)) = on_bill x (imc_bill p)).
Proof.
  intros c p e a unused _ _ He instructions. pose proof (start_sized unused a _ _ eq_refl eq_refl) as S0.
  assert (X : forall f bl, billed (tally (start_lens (length unused) (length a)) (unary_program (g_be e) 1 1 f)) bl = true -> forall x, times x (instructions f) = on_bill x bl).
  { intros f bl B x. exact (proj1 (billed_ok _ _ _ _ B S0) x). }
  split; apply X; destruct p; injection He as <-; try (destruct (c_be c)); vm_compute; reflexivity.
Qed.
Print Assumptions C49_mixing_costs.
Example C49_mixing_case : aes_run (executed (unary_program false 1 1 (g_mc x86_engine)) (start [] fips_block)) = [AESDECLAST 1; AESENC 1] /\
  aes_run (executed (unary_program false 1 1 (g_imc rv64_engine)) (start [] fips_block)) = [AES64IM; AES64IM].
Proof. split; lazy; reflexivity. Qed.

(** The same count for a loop with any number of turns. *)
Definition costs (lens : string -> nat) (s : stmt) (b : bill) : Prop := forall st, sized lens st -> matches (aes_run (executed s st)) b.
Definition keeps (lens : string -> nat) (s : stmt) : Prop := forall st, sized lens st -> sized lens (final s st).
Lemma costs_billed lens s b : billed (tally lens s) b = true -> costs lens s b. Proof. intros B st Hs. now apply (billed_ok lens). Qed.
Lemma keeps_same lens s : same_lengths s = true -> keeps lens s. Proof. intros H st Hs. now apply same_lengths_ok. Qed.
Lemma costs_seq lens s t b c : keeps lens s -> costs lens s b -> costs lens t c -> costs lens (Seq s t) (b ++ c).
Proof. intros K Hs Ht st S0. cbn [executed]. rewrite aes_run_app. apply matches_app; [now apply Hs|]. apply Ht. now apply K. Qed.
Lemma keeps_seq lens s t : keeps lens s -> keeps lens t -> keeps lens (Seq s t).
Proof. intros K1 K2 st S0. specialize (K2 _ (K1 st S0)). unfold final in *. cbn [exec]. destruct (exec s st) as [st1 l1]. cbn [fst] in *. now destruct (exec t st1). Qed.
Lemma keeps_skip lens : keeps lens Skip. Proof. intros st S0. exact S0. Qed.
Lemma costs_skip lens : costs lens Skip []. Proof. intros st _. apply matches_nil. Qed.
Lemma loop_costs lens i start step q body b : keeps lens body -> costs lens body b -> costs lens (For i start step q body) (scale q b) /\ keeps lens (For i start step q body).
Proof.
  intros K H. enough (X : forall start st, sized lens st -> matches (aes_run (executed (For i start step q body) st)) (scale q b) /\ sized lens (final (For i start step q body) st)).
  { split; intros st S0; now apply (X start st). }
  clear start. induction q as [|q IH]; intros start st S0.
  - split; [split; [intros a; rewrite on_bill_scale; reflexivity|rewrite bill_total_scale; reflexivity]|exact S0].
  - assert (S1 : sized lens (set_ctr st i start)) by exact S0. specialize (K _ S1). specialize (H _ S1). specialize (IH (start + step)%N _ K). destruct IH as [M F]. split.
    + change (executed (For i start step (S q) body) st) with (executed body (set_ctr st i start) ++ executed (For i (start + step) step q body) (final body (set_ctr st i start))).
      rewrite aes_run_app. apply (matches_same _ (b ++ scale q b)); [intros a; rewrite on_bill_app, !on_bill_scale; lia|rewrite bill_total_app, !bill_total_scale; lia|now apply matches_app].
    + unfold final in *. cbn [exec] in *. destruct (exec body (set_ctr st i start)) as [st1 l1]. cbn [fst] in *.
      destruct ((fix loop (n : nat) (start : N) (st : state) : state * list event := _) q (start + step)%N st1) as [st2 l2]. exact F.
Qed.
Lemma costs_if lens x s t b z : lens x = S z -> costs lens s b -> costs lens (If (Len x) s t) b.
Proof.
  intros L H st S0. cbn [executed ran app]. replace (N.eqb (value st (Len x)) 0) with false; [now apply H|]. unfold value. cbn [val]. rewrite (S0 x), L. reflexivity.
Qed.
Lemma keeps_if lens x s t : keeps lens s -> keeps lens t -> keeps lens (If (Len x) s t).
Proof.
  intros K1 K2 st S0. unfold final. cbn [exec]. specialize (K1 st S0). specialize (K2 st S0). unfold final in *. destruct (negb (value st (Len x) =? 0)%N); [destruct (exec s st)|destruct (exec t st)]; assumption.
Qed.
Lemma costs_same lens s b c : (forall a, on_bill a b = on_bill a c) -> bill_total b = bill_total c -> costs lens s b -> costs lens s c.
Proof. intros H1 H2 H st S0. exact (matches_same _ b c H1 H2 (H st S0)). Qed.

(** The static parts of a chain, whatever the number of keys and their contents. *)
Fixpoint same_step (s : stmt) : bool := match s with Skip | Assign _ _ => true | Seq s t => same_step s && same_step t | _ => false end.
Fixpoint text (s : stmt) : list insn := match s with Seq s t => text s ++ text t | Assign _ e => ran e | _ => [] end.
Lemma step_costs lens s b : same_step s = true -> same_bill (charge (text s)) b && Nat.eqb (bill_total (charge (text s))) (bill_total b) = true -> costs lens s b /\ keeps lens s.
Proof.
  intros H B. apply andb_true_iff in B as [B1 B2]. apply Nat.eqb_eq in B2. enough (X : forall st, executed s st = text s /\ arrs (final s st) = arrs st).
  { split; intros st S0; destruct (X st) as [X1 X2]; [rewrite X1; apply (matches_same _ _ _ (same_bill_ok _ _ B1) B2), matches_charge|intros y; rewrite X2; apply S0]. }
  clear b B1 B2. induction s as [|s IHs t IHt|x e|ar i e|ar z|d be z ar|e s IHs t IHt|i start step m body IH]; cbn [same_step] in H; try discriminate; intros st; try (now split).
  apply andb_true_iff in H as [H1 H2]. destruct (IHs H1 st) as [X1 X2]. destruct (IHt H2 (final s st)) as [Y1 Y2]. split; [cbn [executed text]; now rewrite X1, Y1|].
  rewrite <- X2, <- Y2. unfold final. cbn [exec]. destruct (exec s st) as [st1 l1]. cbn [fst]. now destruct (exec t st1).
Qed.
Definition free (s : stmt) : bool := same_step s && same_bill (charge (text s)) [] && Nat.eqb (bill_total (charge (text s))) 0.
Lemma free_ok lens s : free s = true -> costs lens s [] /\ keeps lens s.
Proof. intros H. unfold free in H. apply andb_true_iff in H as [H H2]. apply andb_true_iff in H as [H0 H1]. apply step_costs; [exact H0|]. rewrite H1. exact H2. Qed.
Definition round_step_ok p be (e : engine) g (dec : bool) : bool :=
  let f := match option_map (if dec then snd else fst) (g_pre e) with Some pre => pre | None => if dec then g_dec e (vec_n p g) else g_enc e (vec_n p g) end in
  let s := s_step be (vec_n p g) (vec_m p g) (Ctr "i") f in let b := scale (vec_m p g) (round_bill p dec (vec_n p g)) in
  same_step s && (same_bill (charge (text s)) b && Nat.eqb (bill_total (charge (text s))) (bill_total b)) &&
  free (s_input be (w (vec_n p g)) (vec_m p g)).
Lemma round_steps p be e g dec : engine_of p be = Some e -> round_step_ok p (g_be e) e g dec = true.
Proof. intros He. destruct p; injection He as <-; try (destruct be); destruct g, dec; vm_compute; reflexivity. Qed.
Lemma xor_step p be g r : free (s_step be (vec_n p g) (vec_m p g) (Lit r) (Bin Xor)) = true.
Proof. destruct p, g, be; vm_compute; reflexivity. Qed.
Lemma costs_end lens s b : costs lens s b -> costs lens (Seq s Skip) b.
Proof. intros H st S0. cbn [executed]. rewrite app_nil_r. now apply H. Qed.
Lemma chain_costs p be e g (dec : bool) a keys : engine_of p be = Some e ->
  Forall (fun k => length k = group_len g) keys -> keys <> [] ->
  let n := vec_n p g in let m := vec_m p g in
  matches (aes_run (executed (chain_program (g_be e) n m (option_map (if dec then snd else fst) (g_pre e)) (if dec then g_dec e n else g_enc e n) (length keys)) (start (List.concat keys) a)))
          (scale (length keys - 1) (scale m (round_bill p dec n))).
Proof.
  intros He Hk Ne n m.
  assert (L : exists z, length (List.concat keys) = S z).
  { destruct keys as [|k0 keys]; [congruence|]. apply Forall_cons_iff in Hk as [Hk _]. cbn [List.concat]. rewrite app_length, Hk. destruct g; cbn [group_len]; eexists; reflexivity. }
  destruct L as [z Lz]. pose proof (start_sized (List.concat keys) a _ _ Lz eq_refl) as S0.
  pose proof (round_steps p be e g dec He) as R. unfold round_step_ok in R. cbv zeta in R. fold n m in R.
  apply andb_true_iff in R as [R R3]. apply andb_true_iff in R as [R1 R2]. set (lens := start_lens (S z) (length a)) in *.
  destruct (free_ok lens _ R3) as [C3 K3]. destruct (step_costs lens _ _ R1 R2) as [C1 K1].
  assert (F : forall r, costs lens (s_step (g_be e) n m (Lit r) (Bin Xor)) [] /\ keeps lens (s_step (g_be e) n m (Lit r) (Bin Xor))) by (intros r; apply free_ok, xor_step).
  assert (O : costs lens (s_output (g_be e) (w n) m) []).
  { apply costs_billed. subst lens n m. clear. destruct (g_be e), p, g; vm_compute; reflexivity. }
  set (rb := scale m (round_bill p dec n)) in *.
  enough (X : costs lens (chain_program (g_be e) n m (option_map (if dec then snd else fst) (g_pre e)) (if dec then g_dec e n else g_enc e n) (length keys)) (scale (length keys - 1) rb)).
  { exact (X _ S0). }
  unfold chain_program. cbn [block fold_right].
  apply (costs_same _ _ ([] ++ (scale (length keys - 1) rb ++ []))); [intros y; now rewrite !app_nil_r|now rewrite !app_nil_r|].
  apply costs_seq; [exact K3|exact C3|].
  destruct (loop_costs lens "i" 1 1 (length keys - 1) _ _ K1 C1) as [Cl Kl]. destruct (loop_costs lens "i" 0 1 (length keys - 1) _ _ K1 C1) as [Cl' Kl']. clear K1 C1 R1 R2.
  set (turns := (length keys - 1)%nat) in *. destruct (F 0%N) as [F0 G0]. destruct (F (N.of_nat turns)) as [F1 G1].
  apply costs_seq; [| |now apply costs_end].
  - apply keeps_if; [|apply keeps_skip]. destruct (option_map _ (g_pre e)) as [pre|].
    + apply keeps_seq; [exact Kl'|]. apply keeps_seq; [exact G1|apply keeps_skip].
    + apply keeps_seq; [exact G0|]. apply keeps_seq; [exact Kl|apply keeps_skip].
  - apply (costs_if lens "key" _ _ _ z eq_refl). destruct (option_map _ (g_pre e)) as [pre|].
    + apply (costs_same _ _ (scale turns rb ++ [])); [intros y; now rewrite app_nil_r|now rewrite app_nil_r|]. apply costs_seq; [exact Kl'|exact Cl'|]. now apply costs_end.
    + apply (costs_same _ _ ([] ++ scale turns rb)); [reflexivity|reflexivity|]. apply costs_seq; [exact G0|exact F0|]. now apply costs_end.
Qed.
(** chain_enc, chain_dec with [keys] keys: one round for each but one. *)
Theorem C49_chains_cost : forall c p e g (dec : bool) a keys, rustc_ok c = true -> running c = Some p -> engine_of p (c_be c) = Some e ->
  Forall (fun k => length k = group_len g) keys -> keys <> [] ->
  let n := vec_n p g in let m := vec_m p g in
  forall x, times x (aes_run (executed (chain_program (g_be e) n m (option_map (if dec then snd else fst) (g_pre e)) (if dec then g_dec e n else g_enc e n) (length keys)) (start (List.concat keys) a)))
            = (length keys - 1) * (m * on_bill x (round_bill p dec n)).
Proof.
  intros c p e g dec a keys _ _ He Hk Ne n m x. subst n m. rewrite (proj1 (chain_costs p (c_be c) e g dec a keys He Hk Ne) x). now rewrite !on_bill_scale.
Qed.
Print Assumptions C49_chains_cost.
(** Three keys, four blocks, VAES-512: two instructions; NEON: eight AESE, eight AESMC. *)
Example C49_chains_case : let keys := [rev (group_message Four); group_message Four; repeat 77%N 64] in Forall (fun k => length k = group_len Four) keys /\ keys <> [] /\
  aes_run (executed (chain_program false 4 1 None (g_enc x86_engine 4) 3) (start (List.concat keys) (group_message Four))) = [AESENC 4; AESENC 4] /\
  length (aes_run (executed (chain_program false 1 4 (option_map fst (g_pre arm_engine)) (g_enc arm_engine 1) 3) (start (List.concat keys) (group_message Four)))) = 16.
Proof. intros keys. split; [repeat constructor|]. split; [discriminate|]. split; lazy; reflexivity. Qed.

(** ** The selection is the cheapest *)
(** README: "it automatically decides the best (most performant)".  The requirements of an accelerated implementation, one by one: *)
Definition meets (c : cfg) (q : promised) : bool :=
  match q with
  | P_aesni_vaes4 => readme_vaes_4 c | P_aesni_vaes2 => readme_vaes_2 c | P_aesni => readme_aesni c
  | P_neon => readme_neon c | P_rv64 => readme_rv64 c | P_rv32 => readme_rv32 c
  | P_constant_time | P_software => false
  end.
Definition at_most (p q : promised) : bool :=
  match p, q with
  | P_aesni_vaes4, (P_aesni_vaes4 | P_aesni_vaes2 | P_aesni) | P_aesni_vaes2, (P_aesni_vaes2 | P_aesni) | P_aesni, P_aesni
  | P_neon, P_neon | P_rv64, P_rv64 | P_rv32, P_rv32 => true
  | _, _ => false
  end.
Lemma at_most_ok c q : meets c q = true -> at_most (readme c) q = true.
Proof.
  unfold meets, readme, readme_vaes_4, readme_vaes_2, readme_aesni, readme_neon, readme_rv64, readme_rv32, little, is_x86, is_arch.
  destruct (c_arch c); destruct (c_nightly c), (c_avx512f c), (c_vaes c), (c_sse41 c), (c_aes c); cbn [andb orb negb];
    destruct q; try discriminate; try reflexivity; destruct (c_be c); cbn [andb orb negb]; try discriminate; try reflexivity;
    destruct (c_v8 c), (c_zkne c), (c_zknd c); cbn [andb orb negb]; try discriminate; reflexivity.
Qed.
(** Whichever accelerated implementation a build meets the requirements of, the one that runs executes at most as many AES
    instructions, in every kind of call. *)
Theorem C49_the_selected_one_is_cheapest : forall c p e q e' k g program key msg,
  rustc_ok c = true -> running c = Some p -> engine_of p (c_be c) = Some e -> meets c q = true -> engine_of q (c_be c) = Some e' ->
  In program [encrypt_program; decrypt_program; convert_program] -> length key = key_len k -> length msg = group_len g ->
  aes_count program p e k g key msg <= aes_count program q e' k g key msg.
Proof.
  intros c p e q e' k g program key msg Hc Hr He Hq He' Hp Lk Lm. apply (running_is c p Hc) in Hr. subst p. pose proof (at_most_ok c q Hq) as A. unfold aes_count.
  destruct (programs_billed _ (c_be c) e k g He) as (B1 & B2 & B3). destruct (programs_billed q (c_be c) e' k g He') as (B1' & B2' & B3').
  pose proof (start_sized key msg _ _ Lk Lm) as S0.
  destruct Hp as [<-|[<-|[<-|[]]]].
  - rewrite (proj2 (billed_ok _ _ _ _ B1 S0)), (proj2 (billed_ok _ _ _ _ B1' S0)). destruct (readme c), q; try discriminate A; destruct k, g; apply Nat.leb_le; reflexivity.
  - rewrite (proj2 (billed_ok _ _ _ _ B2 S0)), (proj2 (billed_ok _ _ _ _ B2' S0)). destruct (readme c), q; try discriminate A; destruct k, g; apply Nat.leb_le; reflexivity.
  - rewrite (proj2 (billed_ok _ _ _ _ B3 S0)), (proj2 (billed_ok _ _ _ _ B3' S0)). destruct (readme c), q; try discriminate A; destruct k, g; apply Nat.leb_le; reflexivity.
Qed.
Print Assumptions C49_the_selected_one_is_cheapest.
(** A build that meets three, and the best of them is strictly better. *)
Example C49_cheapest_case : rustc_ok c_vaes512 = true /\ running c_vaes512 = Some P_aesni_vaes4 /\ forallb (meets c_vaes512) [P_aesni; P_aesni_vaes2; P_aesni_vaes4] = true /\
  aes_count encrypt_program P_aesni_vaes4 x86_engine K128 Four (fips_key K128) (group_message Four) < aes_count encrypt_program P_aesni x86_engine K128 Four (fips_key K128) (group_message Four).
Proof. repeat split. apply Nat.ltb_lt. lazy. reflexivity. Qed.
