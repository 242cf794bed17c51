(** C37 and C49 for whole clients: whatever calls a program makes - any functions, in any order, choosing by the answers -, the crate
    executes only instructions the CPU promised by the target features has; and which ones, in which order, depends on the calls
    only, not on keys and data. *)
From Coq Require Import Lia Arith String.
From Coq Require Import List.
From Verif Require Import Word Interface Fips197 Spec_Api Spec_User Spec_Cfg Spec_Client Spec_ClientActual Spec_Leak Spec_LeakClient Spec_Insn Spec_Cost Model_Cfg Model_Leak Model_LeakAccel Model_LeakBlock Model_Running Model_Client Model_LeakClient Model_InsnClient.
From Verif Require Import Proof_Leak Proof_Inst Proof_Lib Proof_Cost Proof_LeakClient Proof_LeakWatch Props_Cfg Props_LeakAccel Props_ClientActual Props_LeakClient Props_Insn.
From Verif Require Import Samples.
Open Scope string_scope.
Open Scope list_scope.
Open Scope N_scope.

(** ** What is executed is in the text of the program *)
Definition clean (ok : insn -> bool) (s : stmt) : bool := forallb ok (insns s).
Definition clean_exp (ok : insn -> bool) (e : exp) : bool := forallb ok (insns_exp e).
Lemma ran_clean ok e : clean_exp ok e = true -> Forall (fun i => ok i = true) (ran e).
Proof.
  unfold clean_exp. induction e; cbn [insns_exp ran]; rewrite ?forallb_app, ?andb_true_iff; intros H; try constructor; repeat rewrite Forall_app; intuition.
  - destruct o; cbn [forallb] in *; constructor; try constructor. now apply andb_true_iff in H0.
  - destruct o; cbn [forallb] in *; constructor; try constructor. now apply andb_true_iff in H0.
Qed.
Lemma executed_clean ok s : clean ok s = true -> forall st, Forall (fun i => ok i = true) (executed s st).
Proof.
  unfold clean. induction s as [|s IHs t IHt|x e|ar i e|ar n|d be n ar|e s IHs t IHt|i start step n body IH]; cbn [insns executed]; rewrite ?forallb_app, ?andb_true_iff; intros H st; try constructor.
  - rewrite Forall_app. split; [now apply IHs|now apply IHt].
  - now apply ran_clean.
  - rewrite Forall_app. split; now apply ran_clean.
  - destruct H as (H1 & H2 & H3). rewrite Forall_app. split; [now apply ran_clean|]. destruct (value st e =? 0); [now apply IHt|now apply IHs].
  - revert start st. induction n as [|n IHn]; intros start st; [constructor|]. rewrite Forall_app. split; [now apply IH|apply IHn].
Qed.

(** ** The programs of every build *)
Definition good (p : promised) (i : insn) : bool := covered p (needs i) && encodable i.
Notation fine p := (clean (good p)).
Lemma fine_binary p be g o : In o [And; Or; Xor] -> fine p (binary_program (block_be p be) (vec_n p g) (vec_m p g) (Bin o)) = true.
Proof. intros [<-|[<-|[<-|[]]]]; destruct p, g, be; vm_compute; reflexivity. Qed.
Lemma fine_not p be g : fine p (unary_program (block_be p be) (vec_n p g) (vec_m p g) (x_not (vec_n p g))) = true.
Proof. destruct p, g, be; vm_compute; reflexivity. Qed.
Lemma fine_is_zero p be g : fine p (is_zero_program (block_be p be) (vec_n p g) (vec_m p g)) = true.
Proof. destruct p, g, be; vm_compute; reflexivity. Qed.
Lemma plain_equal p be g : insns (equal_program (block_be p be) (vec_n p g) (vec_m p g) (eq_fields p)) = [].
Proof. destruct p, g, be; vm_compute; reflexivity. Qed.
Lemma fine_equal p be g : fine p (equal_program (block_be p be) (vec_n p g) (vec_m p g) (eq_fields p)) = true.
Proof. unfold clean. now rewrite plain_equal. Qed.
Lemma fine_round p be e g : engine_of p be = Some e -> forall f, In f [g_enc; g_enc_last; g_dec; g_dec_last] -> fine p (binary_program (g_be e) (vec_n p g) (vec_m p g) (f e (vec_n p g))) = true.
Proof. intros E f [<-|[<-|[<-|[<-|[]]]]]; destruct p; injection E as <-; destruct g; try destruct be; vm_compute; reflexivity. Qed.
Lemma fine_chain p be e g (dec : bool) keys : engine_of p be = Some e ->
  fine p (chain_program (g_be e) (vec_n p g) (vec_m p g) (option_map (if dec then snd else fst) (g_pre e)) (if dec then g_dec e (vec_n p g) else g_enc e (vec_n p g)) keys) = true.
Proof. intros E. destruct dec, p; injection E as <-; destruct g; try destruct be; vm_compute; reflexivity. Qed.
Lemma fine_mix p be e f : engine_of p be = Some e -> In f [g_mc; g_imc] -> fine p (unary_program (g_be e) 1 1 (f e)) = true.
Proof. intros E [<-|[<-|[]]]; destruct p; injection E as <-; try destruct be; vm_compute; reflexivity. Qed.
Lemma fine_crypt p be e g k dec : engine_of p be = Some e -> fine p (s_crypt e k (vec_n p g) (vec_m p g) dec "keys") = true.
Proof. intros E. destruct dec, k, p; injection E as <-; destruct g; try destruct be; vm_compute; reflexivity. Qed.
Lemma fine_keygen p be e k : engine_of p be = Some e -> fine p (g_keygen e k) = true.
Proof. intros E. destruct k, p; injection E as <-; try destruct be; vm_compute; reflexivity. Qed.
Lemma fine_swap p be e k f : engine_of p be = Some e -> In f [g_mc; g_imc] -> fine p (s_swap_keys (f e) "keys" "drk" (nr_of k + 1)) = true.
Proof. intros E [<-|[<-|[]]]; destruct k, p; injection E as <-; try destruct be; vm_compute; reflexivity. Qed.
Lemma fine_copy_to p dst l : fine p (s_copy_to dst l) = true.
Proof. unfold s_copy_to, clean. generalize (combine (seq 0 (length l)) l) as q. induction q as [|[j [a i]] q IH]; [reflexivity|]. cbn [map fst snd block fold_right insns insns_exp app]. exact IH. Qed.
Lemma fine_copy p l : fine p (copy_program l) = true. Proof. apply (fine_copy_to p "out"). Qed.
Lemma fine_try p n : fine p (try_from_program n) = true.
Proof. unfold try_from_program, clean. cbn [insns insns_exp app]. rewrite app_nil_r. apply fine_copy. Qed.
Lemma fine_store p n : fine p (store_program n) = true.
Proof. unfold store_program, clean. cbn [insns insns_exp app]. rewrite app_nil_r. apply fine_copy_to. Qed.

(** ** One call *)
Section Step.
Context (p : promised) (be : bool).
Definition fine_res (r : option (answer * list tvalue * list insn)) : Prop := match r with Some (_, _, l) => Forall (fun i => good p i = true) l | None => True end.
Lemma ran_fine prog st k : fine p prog = true -> fine_res (ran_with executed prog st k).
Proof. intros H. unfold fine_res, ran_with. destruct (k (final prog st)). now apply executed_clean. Qed.
Ltac arg := match goal with |- fine_res (obind ?o _) => destruct o eqn:?; [cbn [obind]|exact I] end.
Lemma step_on_fine v g c : fine_res (timed_on_with executed p be v g c).
Proof.
  destruct c; cbn [timed_on_with]; repeat arg; try exact I;
    try (match goal with |- fine_res (match ?o with _ => _ end) => destruct o as [[]|]; try exact I end; repeat arg); apply ran_fine;
    try apply fine_copy; try apply fine_try; try apply fine_store; try (apply fine_binary; cbn; tauto); try apply fine_not; try apply fine_is_zero; try apply fine_equal;
    try (now apply (fine_crypt p be)).
  all: match goal with H : engine_of p be = Some ?e |- context [g_pre] => first [exact (fine_chain p be e g false _ H) | exact (fine_chain p be e g true _ H)] | _ => idtac end.
  all: match goal with H : engine_of p be = Some ?e |- context [g_enc ?e ?n] => exact (fine_round p be e g H g_enc ltac:(cbn; tauto)) | _ => idtac end.
  all: match goal with H : engine_of p be = Some ?e |- context [g_dec ?e ?n] => exact (fine_round p be e g H g_dec ltac:(cbn; tauto)) | _ => idtac end.
  all: match goal with H : engine_of p be = Some ?e |- context [g_enc_last ?e ?n] => exact (fine_round p be e g H g_enc_last ltac:(cbn; tauto)) | _ => idtac end.
  all: match goal with H : engine_of p be = Some ?e |- context [g_dec_last ?e ?n] => exact (fine_round p be e g H g_dec_last ltac:(cbn; tauto)) | _ => idtac end.
  all: reflexivity.
Qed.
Lemma step_fine v c : fine_res (timed_with executed p be v c).
Proof.
  destruct c; cbn [timed_with]; try apply step_on_fine; repeat arg; try exact I;
    try (match goal with |- fine_res (match ?o with _ => _ end) => destruct o as [[]|]; try exact I end; repeat arg);
    try (match goal with |- fine_res (match ?o with _ => _ end) => destruct o; try exact I end); try (apply ran_fine; apply fine_copy).
  all: match goal with H : engine_of p be = Some ?e |- _ => apply ran_fine;
    first [exact (fine_mix p be e g_mc H ltac:(cbn; tauto)) | exact (fine_mix p be e g_imc H ltac:(cbn; tauto)) | exact (fine_keygen p be e _ H)
          | exact (fine_swap p be e _ g_mc H ltac:(cbn; tauto)) | exact (fine_swap p be e _ g_imc H ltac:(cbn; tauto)) | idtac] end.
  unfold clean. cbn [insns]. rewrite forallb_app. apply andb_true_iff. split; [now apply (fine_keygen p be)|]. apply (fine_swap p be); [assumption|cbn; tauto].
Qed.
Lemma any_fine v c : fine_res (instructed p be v c).
Proof. unfold instructed. destruct (formats c); [|apply step_fine]. destruct (library _ _ _) as [[a w]|]; [constructor|exact I]. Qed.
Lemma watch_fine cl : forall v, Forall (Forall (fun i => good p i = true)) (watch (instructed p be) v cl).
Proof.
  induction cl as [|c next IH]; intros v; cbn [watch]; [constructor|]. destruct (typed c); [|constructor; [constructor|apply IH]].
  pose proof (any_fine v c) as H. destruct (instructed p be v c) as [[[a w] l]|]; (constructor; [first [exact H|constructor]|apply IH]).
Qed.
End Step.
Lemma good_available c i : rustc_ok c = true -> good (readme c) i = true -> available c i = true /\ encodable i = true.
Proof.
  intros Hc H. apply andb_true_iff in H as [H1 H2]. split; [|exact H2]. unfold available. apply forallb_forall. intros f Hf.
  pose proof (all_cfgs_ok _ promise_checked c) as Q. unfold promise_check in Q. rewrite Hc in Q. cbn [implb] in Q.
  rewrite forallb_forall in Q. apply Q. exact (covered_ok _ _ H1 f Hf).
Qed.

(** ** C37 *)
(** Whatever a client does on a build, each instruction executed in each of its calls is one the target features promise, with an
    immediate the instruction set allows. *)
Theorem C37_whatever_a_client_does : forall c p cl, rustc_ok c = true -> running c = Some p ->
  Forall (Forall (fun i => available c i = true /\ encodable i = true)) (watch (instructed p (c_be c)) [] cl).
Proof.
  intros c p cl Hc Hr. apply (running_is c p Hc) in Hr. subst p. eapply Forall_impl; [|apply watch_fine]. intros l H. eapply Forall_impl; [|exact H].
  intros i Hi. now apply good_available.
Qed.
Print Assumptions C37_whatever_a_client_does.
(** On a build without acceleration nothing but ordinary instructions is executed, whatever a client does. *)
Theorem C37_software_client : forall c p cl, rustc_ok c = true -> running c = Some p -> p = P_constant_time \/ p = P_software ->
  Forall (fun l => l = []) (watch (instructed p (c_be c)) [] cl).
Proof.
  intros c p cl Hc Hr Hp. eapply Forall_impl; [|apply watch_fine]. intros [|i l] H; [reflexivity|]. exfalso. inversion H as [|? ? Hi ?]; subst. apply andb_true_iff in Hi as [Hi _].
  destruct Hp as [->| ->]; destruct i as [[]|[]]; try discriminate Hi; destruct n as [|[|[|n]]]; discriminate Hi.
Qed.
Print Assumptions C37_software_client.

(** ** The observed library is the crate *)
(** What a client is answered does not depend on what is observed. *)
Lemma heard_obs {E F} (obs : stmt -> state -> list E) (obs' : stmt -> state -> list F) p be v c :
  heard (timed_with obs p be) v c = heard (timed_with obs' p be) v c.
Proof.
  destruct c as [g c| | | | | | | | | | | | | | | | | | | |]; [destruct c| | | | | | | | | | | | | | | | | | | |]; unfold heard; cbn [timed_with timed_on_with]; unfold obind;
  repeat first [reflexivity | match goal with |- option_map fst (match ?o with _ => _ end) = _ => destruct o end].
Qed.
Lemma tsim_bytes p be v w : tsim p be v w -> map (bytes_of p be) v = w.
Proof.
  assert (K : forall k rks, good_keys k rks -> map (to_ne (block_be p be) 16) (map (of_ne (block_be p be)) rks) = rks).
  { intros k rks [_ F]. rewrite map_map. rewrite <- (map_id rks) at 2. apply map_ext_in. intros b Hb. rewrite Forall_forall in F. now apply of_ne_bytes, F. }
  intros H. induction H as [|a b v w R H IH]; [reflexivity|]. cbn [map]. rewrite IH. f_equal. destruct R; cbn [bytes_of]; [reflexivity| |]; f_equal; eapply K; eassumption.
Qed.
Lemma formats_any fl w c : formats c = true -> library standard w c = library fl w c.
Proof. destruct c as [g c| | | | | | | | | | | | | | | | | | | |]; try discriminate; [destruct c; try discriminate| |]; intros _; reflexivity. Qed.
Lemma formats_keeps fl w c a w' : formats c = true -> library fl w c = Some (a, w') -> w' = w.
Proof.
  destruct c as [g c| | | | | | | | | | | | | | | | | | | |]; try discriminate; [destruct c; try discriminate| |]; intros _; cbn [library library_on].
  - destruct (ablock_at w g x); cbn [obind]; intros H; [now injection H|discriminate].
  - destruct (ablock_at w One x); cbn [obind]; intros H; [now injection H|discriminate].
  - destruct (nth_error w x) as [[| |]|]; intros H; try discriminate; now injection H.
Qed.
Lemma instructed_ok p be fl v w c : engine_fits p be fl -> tsim p be v w -> typed c = true -> tres p be (heard (instructed p be) v c) (library fl w c).
Proof.
  intros EF Hs Ht. unfold heard, instructed. destruct (formats c) eqn:Hf.
  - rewrite (tsim_bytes p be v w Hs), (formats_any fl w c Hf). destruct (library fl w c) as [[a w']|] eqn:E; [|exact I]. cbn [option_map fst tres]. split; [reflexivity|].
    now rewrite (formats_keeps fl w c a w' Hf E).
  - pose proof (timed_ok p be fl EF v w c Hs Ht Hf) as Q. rewrite (heard_obs trace executed) in Q. exact Q.
Qed.
Lemma instructed_play p be fl cl : engine_fits p be fl -> forall v w, tsim p be v w -> play (heard (instructed p be)) v cl = play (library fl) w cl.
Proof.
  intros EF. induction cl as [|c next IH]; intros v w Hs; [reflexivity|]. cbn [play]. destruct (typed c) eqn:Ht; [|f_equal; now apply IH].
  pose proof (instructed_ok p be fl v w c EF Hs Ht) as Q. destruct (heard (instructed p be) v c) as [[a v']|], (library fl w c) as [[a' w']|]; try contradiction.
  - destruct Q as [<- Q]. f_equal. now apply IH.
  - f_equal. now apply IH.
Qed.
Theorem C37_observed_is_the_crate : forall c p i cl, rustc_ok c = true -> impl_of c = Some i -> running c = Some p ->
  play (heard (instructed p (c_be c))) [] cl = play (crate i) [] cl.
Proof.
  intros c p i cl Hc Ei Hr. rewrite (C41_every_client_on_every_build c i cl Hc Ei). apply instructed_play; [now apply build_engine_fits|constructor].
Qed.
Print Assumptions C37_observed_is_the_crate.

(** ** C49 *)
Section Same.
Context (p : promised) (be : bool).
Lemma executed_same prog s s' : quiet_stmt false prog = true -> low_equal s s' -> executed prog s = executed prog s'.
Proof. intros Q L. exact (executed_low false prog Q s s' L). Qed.
Lemma unsilent c : formats c = false -> silent false p c = true \/ exists g x y, c = On g (Equal x y).
Proof.
  destruct c as [g c| | | | | | | | | | | | | | | | | | | |]; cbn [formats silent]; try discriminate; intros H; try (left; destruct p; reflexivity).
  destruct c; try discriminate H; try (left; destruct p; reflexivity). right. eauto.
Qed.
Lemma executed_plain s : insns s = [] -> forall st, executed s st = [].
Proof.
  intros H st. assert (C : clean (fun _ => false) s = true) by (unfold clean; now rewrite H). pose proof (executed_clean _ s C st) as F.
  destruct (executed s st) as [|i l]; [reflexivity|]. inversion F; discriminate.
Qed.
Lemma step_insns v v' c c' : alike v v' -> same_shape c c' -> formats c = false -> alike_res eq (timed_with executed p be v c) (timed_with executed p be v' c').
Proof.
  intros Hv Hs Hf. destruct (unsilent c Hf) as [Hq|(g & x & y & ->)].
  - now apply (step_alike executed eq false executed_same p be v v' c c').
  - assert (E : c' = On g (Equal x y)) by (inversion Hs; subst; [reflexivity|]; match goal with H : same_shape_on _ _ |- _ => now inversion H end). subst c'. cbn [timed_with timed_on_with].
    destruct (targ_alike v v' Hv g x) as [(b & b' & B & -> & ->)|[-> ->]]; [cbn [obind]|exact I].
    destruct (targ_alike v v' Hv g y) as [(d & d' & D & -> & ->)|[-> ->]]; [cbn [obind]|exact I].
    unfold ran_with, alike_res. split; [|exact Hv]. now rewrite !(executed_plain _ (plain_equal p be g)).
Qed.
Lemma alike_kind v v' x : alike v v' -> match nth_error (map (bytes_of p be) v) x, nth_error (map (bytes_of p be) v') x with
  | Some (ABlock g _), Some (ABlock g' _) => g = g' | Some (AEnc k _), Some (AEnc k' _) => k = k' | Some (ADec k _), Some (ADec k' _) => k = k' | None, None => True | _, _ => False end.
Proof.
  intros Hv. rewrite !nth_error_map. pose proof (alike_nth v v' x Hv) as H. destruct (nth_error v x) as [a|], (nth_error v' x) as [b|]; try contradiction; [|exact I].
  destruct H; reflexivity.
Qed.
Lemma format_alike v v' c : alike v v' -> formats c = true ->
  (exists a a', option_map fst (library standard (map (bytes_of p be) v) c) = Some a /\ option_map fst (library standard (map (bytes_of p be) v') c) = Some a') \/
  (library standard (map (bytes_of p be) v) c = None /\ library standard (map (bytes_of p be) v') c = None).
Proof.
  intros Hv. destruct c as [g c| | | | | | | | | | | | | | | | | | | |]; try discriminate; [destruct c; try discriminate| |]; intros _; cbn [library library_on]; pose proof (alike_kind v v' x Hv) as H; unfold ablock_at;
    destruct (nth_error (map (bytes_of p be) v) x) as [[h b|h b|h b]|], (nth_error (map (bytes_of p be) v') x) as [[h' b'|h' b'|h' b']|]; try contradiction; subst; cbn [obind];
    repeat match goal with |- context [group_eqb ?a ?b] => destruct (group_eqb a b); cbn [obind] end; first [right; split; reflexivity|left; do 2 eexists; split; reflexivity].
Qed.
Lemma same_shape_formats c c' : same_shape c c' -> formats c = true -> c' = c.
Proof. intros [q|g q q' S|n n'|k b b' L|k b b' L]; intros F; try discriminate F; [reflexivity|]. destruct S; try discriminate F. reflexivity. Qed.
Lemma formats_shape c c' : same_shape c c' -> formats c = formats c'.
Proof. intros [q|g q q' S|n n'|k b b' L|k b b' L]; try reflexivity. now destruct S. Qed.
Lemma any_insns v v' c c' : alike v v' -> same_shape c c' -> true = true -> alike_res eq (instructed p be v c) (instructed p be v' c').
Proof.
  intros Hv Hs _. unfold instructed. rewrite <- (formats_shape c c' Hs). destruct (formats c) eqn:Hf; [|now apply step_insns].
  rewrite (same_shape_formats c c' Hs Hf). destruct (format_alike v v' c Hv Hf) as [(a & a' & E & E')|[-> ->]]; [|exact I].
  destruct (library standard (map (bytes_of p be) v) c) as [[b w]|]; [|discriminate E]. destruct (library standard (map (bytes_of p be) v') c) as [[b' w']|]; [|discriminate E']. now split.
Qed.
End Same.
(** Two clients, adaptive or not, whose calls have the same shapes - same functions, same variables, literals of the same lengths -
    make the crate execute the same instructions, in the same order, call by call: nothing about keys or data decides what is
    executed, comparisons and the table-based implementation included. *)
Theorem C49_clients : forall c p i cl cl', rustc_ok c = true -> impl_of c = Some i -> running c = Some p ->
  shapes (play (crate i) [] cl) = shapes (play (crate i) [] cl') ->
  watch (instructed p (c_be c)) [] cl = watch (instructed p (c_be c)) [] cl'.
Proof.
  intros c p i cl cl' Hc Ei Hr Hs. pose proof (C37_observed_is_the_crate c p i cl Hc Ei Hr) as E. pose proof (C37_observed_is_the_crate c p i cl' Hc Ei Hr) as E'.
  assert (Q : Forall2 eq (watch (instructed p (c_be c)) [] cl) (watch (instructed p (c_be c)) [] cl')).
  { apply (watch_any (instructed p (c_be c)) eq eq_refl (fun _ => true) (any_insns p (c_be c))); [apply Forall_forall; reflexivity|constructor|]. rewrite E, E'. exact Hs. }
  clear - Q. induction Q as [|x y l l' X Q IH]; [reflexivity|]. now rewrite X, IH.
Qed.
Print Assumptions C49_clients.

(** ** Cases *)
(** Clients of Props_LeakClient.v: CBC with two keys and sets of data; and one that chooses by an answer. *)
Example C37_client_case : rustc_ok c_x86 = true /\ running c_x86 = Some P_aesni /\
  map aes_run (watch (instructed P_aesni (c_be c_x86)) [] (straight cbc1)) =
    let encrypt := repeat (AESENC 1) 9 ++ [AESENCLAST 1] in
    [repeat AESKEYGENASSIST 10; []; []; []; encrypt; []; []; encrypt; []; repeat AESIMC 9; repeat (AESDEC 1) 9 ++ [AESDECLAST 1]; []].
Proof. repeat split; vm_compute; reflexivity. Qed.
Example C37_software_client_case : rustc_ok c_soft = true /\ running c_soft = Some P_software /\
  map (@List.length event) (watch (timed P_software (c_be c_soft)) [] (straight [Enc_from K256 (repeat 1 32); On Four (New (repeat 2 64)); On Four (Encrypt 0 1)])) <> [0; 0; 0]%nat /\
  watch (instructed P_software (c_be c_soft)) [] (straight [Enc_from K256 (repeat 1 32); On Four (New (repeat 2 64)); On Four (Encrypt 0 1)]) = [[]; []; []].
Proof. repeat split; vm_compute; congruence. Qed.
Example C49_clients_case : forall c, In c [c_x86; c_vaes512; c_neon; c_rv64; c_rv32; c_ct_le; c_ct_be; c_soft] -> exists p i, rustc_ok c = true /\ impl_of c = Some i /\ running c = Some p /\
  shapes (play (crate i) [] (straight cbc1)) = shapes (play (crate i) [] (straight cbc2)) /\ cbc1 <> cbc2.
Proof.
  intros c H. assert (X : exists p i, rustc_ok c = true /\ impl_of c = Some i /\ running c = Some p).
  { repeat (destruct H as [<-|H]; [do 2 eexists; split; [reflexivity|split; reflexivity]|]). destruct H. }
  destruct X as (p & i & X1 & X2 & X3). exists p, i. split; [exact X1|]. split; [exact X2|]. split; [exact X3|]. split; [now rewrite !shapes_straight|discriminate].
Qed.
(** Comparing a key-dependent block with ==, on a build where the time it takes differs (C43): the special instructions executed are
    the same. *)
Example C49_compare_case : let cl b := straight [Enc_from K128 fips_block; On One (New fips_block); On One (New b); On One (Equal 1 2)] in
  watch (timed P_rv64 false) [] (cl other_block) <> watch (timed P_rv64 false) [] (cl fips_block) /\
  watch (instructed P_rv64 false) [] (cl other_block) = watch (instructed P_rv64 false) [] (cl fips_block) /\
  hd [] (watch (instructed P_rv64 false) [] (cl other_block)) <> [].
Proof. split; [vm_compute; discriminate|]. split; [vm_compute; reflexivity|vm_compute; discriminate]. Qed.
(** Printing a key object and a block in between. *)
Example C37_print_case : map aes_run (watch (instructed P_aesni false) [] (straight [Enc_from K128 fips_block; Debug_key false None 0; On One Zero; On One (Encrypt 0 1); Print LowerHex false None 2])) =
    [repeat AESKEYGENASSIST 10; []; []; repeat (AESENC 1) 9 ++ [AESENCLAST 1]; []].
Proof. vm_compute. reflexivity. Qed.
Goal nth 4 (map snd (play (heard (instructed P_aesni false)) [] (straight [Enc_from K128 (repeat 0 16); Debug_key false None 0; On One Zero; On One (Encrypt 0 1); Print LowerHex false None 2]))) Panics = Text "66e94bd4ef8a2c3b884cfa59ca342b2e".
Proof. vm_compute. reflexivity. Abort.
