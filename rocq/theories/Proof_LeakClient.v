(** The calls as programs (Model_LeakClient.v) answer what the library of the build's flavour (Spec_ClientActual.v) answers. *)
From Coq Require Import Lia Arith String.
From Coq Require Import List.
From Verif Require Import Word Interface Fips197 Spec_Api Spec_Cfg Spec_User Spec_Fmt Spec_Actual Spec_Client Spec_ClientActual Spec_Leak Spec_LeakBlock Spec_LeakClient Model_Lib Model_Cfg Model_Bitslice Model_Leak Model_LeakAccel Model_LeakBlock Model_Running Model_LeakClient.
From Verif Require Import Proof_Shape Proof_Word Proof_Shift Proof_Fips Proof_Ok Proof_Sem Proof_Lib Proof_Reach Proof_Inst Proof_Main Proof_Bitslice Proof_KeySpec Proof_Leak Proof_LeakRun Proof_LeakEngine Proof_LeakAccel Proof_LeakKeys Proof_LeakSoft Proof_Actual Proof_Client Proof_ClientActual Proof_LeakBlock Proof_LeakEqual Proof_KeyGen Proof_Columns Proof_X86 Proof_Arm Proof_Rv64 Proof_LeakOps Props_Cfg Props_Leak Props_LeakAccel Props_LeakBlock.
Open Scope string_scope.
Open Scope list_scope.
Open Scope N_scope.

(** ** Copies *)
Definition read (st : state) (p : string * nat) : N := nth (snd p) (arrs st (fst p)) 0.
Lemma copies_ok dst l : Forall (fun p => fst p <> dst) l -> forall s st pre rest,
  arrs st dst = pre ++ rest -> length pre = s -> (length l <= length rest)%nat ->
  let st' := final (block (map (fun jp => Store dst (Lit (N.of_nat (fst jp))) (Index (fst (snd jp)) (Lit (N.of_nat (snd (snd jp)))))) (combine (seq s (length l)) l))) st in
  vars st' = vars st /\ arrs st' dst = pre ++ map (read st) l ++ skipn (length l) rest.
Proof.
  induction 1 as [|[a i] l Hne Hl IH]; intros s st pre rest Hd Lp Ln; cbn zeta.
  - split; [reflexivity|exact Hd].
  - cbn [length seq combine map fst snd]. rewrite final_block_cons, final_store, value_lit, Nat2N.id, Hd. destruct rest as [|q rest]; [cbn in Ln; lia|].
    rewrite (value_index st a _ i) by apply value_lit. rewrite <- Lp, write_at. change (nth i (arrs st a) 0) with (read st (a, i)).
    set (st1 := set_arr st dst _). assert (R1 : map (read st1) l = map (read st) l).
    { apply map_ext_in. intros [a' i'] Hin. rewrite Forall_forall in Hl. pose proof (Hl _ Hin) as Hn. cbn in Hn. unfold read, st1. cbn. now rewrite upd_other by congruence. }
    destruct (IH (S (length pre)) st1 (pre ++ [read st (a, i)]) rest) as [V O].
    + unfold st1. cbn. rewrite upd_same, <- app_assoc. reflexivity.
    + rewrite app_length. cbn. lia.
    + cbn in Ln. lia.
    + split; [exact V|]. rewrite O, R1, <- app_assoc. reflexivity.
Qed.
Lemma copy_to_ok dst l st : Forall (fun p => fst p <> dst) l -> (length l <= length (arrs st dst))%nat ->
  vars (final (s_copy_to dst l) st) = vars st /\ arrs (final (s_copy_to dst l) st) dst = map (read st) l ++ skipn (length l) (arrs st dst).
Proof. intros H L. exact (copies_ok dst l H 0 st [] (arrs st dst) eq_refl eq_refl L). Qed.
Definition not_out (l : list (string * nat * nat)) : bool := forallb (fun a => negb (String.eqb (fst (fst a)) "out")) l.
Lemma places_not l : not_out l = true -> Forall (fun p => fst p <> "out") (places l).
Proof.
  intros H. unfold not_out in H. rewrite forallb_forall in H. apply Forall_forall. intros p Hp. unfold places in Hp. apply in_flat_map in Hp as (a & Ha & Hp).
  apply in_map_iff in Hp as (t & <- & _). cbn. specialize (H a Ha). destruct (String.eqb_spec (fst (fst a)) "out"); [discriminate|assumption].
Qed.
Definition segment (st : state) (a : string * nat * nat) : list N := firstn (snd a) (skipn (snd (fst a)) (arrs st (fst (fst a)))).
Lemma places_read st l : Forall (fun a => (snd (fst a) + snd a <= length (arrs st (fst (fst a))))%nat) l -> map (read st) (places l) = concat (map (segment st) l).
Proof.
  induction 1 as [|[[a o] n] l H _ IH]; [reflexivity|]. unfold places in *. cbn [flat_map map concat fst snd] in *. rewrite map_app, IH. f_equal.
  rewrite map_map. unfold segment, read. cbn [fst snd]. rewrite (firstn_seq_nth 0) by lia. 
  rewrite <- (seq_shift' o n), map_map. reflexivity.
Qed.
Lemma copy_run l st : not_out l = true -> Forall (fun a => (snd (fst a) + snd a <= length (arrs st (fst (fst a))))%nat) l ->
  vars (final (copy_program l) st) = vars st /\ arrs (final (copy_program l) st) "out" = concat (map (segment st) l).
Proof.
  intros Hn Hl. unfold copy_program. rewrite final_seq. set (st1 := final (Zeroed "out" _) st). pose proof (places_not l Hn) as P.
  assert (E : arrs st1 "out" = repeat 0 (length (places l))) by reflexivity.
  destruct (copy_to_ok "out" (places l) st1 P) as [V A]; [rewrite E, repeat_length; lia|]. split; [exact V|]. rewrite A, E.
  assert (R1 : map (read st1) (places l) = map (read st) (places l)).
  { apply map_ext_in. intros [a' i'] Hin. rewrite Forall_forall in P. pose proof (P _ Hin) as Hne. cbn in Hne. unfold read, st1, final. cbn. now rewrite upd_other by congruence. }
  rewrite R1, places_read by assumption. rewrite skipn_all2 by now rewrite repeat_length. now rewrite app_nil_r.
Qed.
Lemma copy_whole n st b : arrs st "in" = b -> length b = n -> arrs (final (copy_program [("in", 0, n)%nat]) st) "out" = b.
Proof.
  intros Hb L. destruct (copy_run [("in", 0, n)%nat] st eq_refl) as [_ ->]; [constructor; [cbn [fst snd]; rewrite Hb; lia|constructor]|].
  cbn [map concat]. unfold segment. cbn [fst snd skipn]. rewrite Hb, app_nil_r. apply firstn_all2. lia.
Qed.
Lemma final_if' c s t st : final (If c s t) st = final (if negb (value st c =? 0) then s else t) st.
Proof. apply final_if. Qed.
Lemma div_test (l n : nat) : (0 < n)%nat -> (N.of_nat l / N.of_nat n =? 0) = Nat.ltb l n.
Proof.
  intros H. rewrite <- Nat2N.inj_div. destruct (Nat.ltb_spec l n) as [L|L].
  - rewrite Nat.div_small by assumption. reflexivity.
  - apply N.eqb_neq. intros E. assert (0 < l / n)%nat by (apply Nat.div_str_pos; lia). lia.
Qed.
Lemma try_from_run n b : (0 < n)%nat -> let st := final (try_from_program n) (start [] b) in
  (vars st "r" =? 0) = Nat.ltb (length b) n /\ (Nat.ltb (length b) n = false -> arrs st "out" = firstn n b).
Proof.
  intros Hn st. unfold st, try_from_program. rewrite final_if'. change (value (start [] b) _) with (N.of_nat (length b) / N.of_nat n).
  rewrite div_test by assumption. destruct (Nat.ltb_spec (length b) n) as [L|L]; cbn [negb].
  - split; [reflexivity|discriminate].
  - rewrite final_seq. set (st1 := final (Assign "r" (Lit 1)) (start [] b)).
    destruct (copy_run [("in", 0, n)%nat] st1 eq_refl) as [V A]; [constructor; [exact L|constructor]|]. rewrite V, A. split; [reflexivity|]. intros _.
    cbn [map concat]. unfold segment. cbn [fst snd skipn]. rewrite app_nil_r. reflexivity.
Qed.
Lemma store_run n a dst : length a = n -> (0 < n)%nat -> let st := final (store_program n) (with_arr "dst" dst (start [] a)) in
  (vars st "r" =? 0) = Nat.ltb (length dst) n /\ arrs st "dst" = if Nat.ltb (length dst) n then dst else a ++ skipn n dst.
Proof.
  intros La Hn st. unfold st, store_program. rewrite final_if'. set (st0 := with_arr "dst" dst (start [] a)).
  change (value st0 _) with (N.of_nat (length dst) / N.of_nat n). rewrite div_test by assumption. destruct (Nat.ltb_spec (length dst) n) as [L|L]; cbn [negb].
  - split; reflexivity.
  - rewrite final_seq. set (st1 := final (Assign "r" (Lit 1)) st0). assert (Ed : arrs st1 "dst" = dst) by reflexivity. assert (Ea : arrs st1 "in" = a) by reflexivity.
    assert (Pl : length (places [("in", 0, n)%nat]) = n) by (unfold places; cbn [flat_map fst snd]; now rewrite app_nil_r, map_length, seq_length).
    destruct (copy_to_ok "dst" (places [("in", 0, n)%nat]) st1) as [V A].
    + unfold places. cbn [flat_map fst snd]. rewrite app_nil_r. apply Forall_forall. intros p Hp. apply in_map_iff in Hp as (t & <- & _). discriminate.
    + rewrite Pl, Ed. exact L.
    + rewrite V, A, Ed, Pl. split; [reflexivity|]. f_equal. rewrite places_read by (constructor; [cbn [fst snd]; rewrite Ea; lia|constructor]).
      cbn [map concat]. unfold segment. cbn [fst snd skipn]. rewrite Ea, app_nil_r. apply firstn_all2. lia.
Qed.

(** ** Simulation *)
(** What a build's engine computes, in terms of its flavour. *)
Definition engine_fits (p : promised) (be : bool) (fl : flavour) : Prop :=
  forall e, engine_of p be = Some e -> exists s, sem_ok s /\ fits s fl /\ (forall g, vec_ok e s (vec_n p g)) /\ uop e (g_mc e) (s_mc s) /\ uop e (g_imc e) (s_imc s) /\ keyed_ok e s.

Section Sim.
Context (p : promised) (be : bool) (fl : flavour) (EF : engine_fits p be fl).
Notation F := (of_ne (block_be p be)).
Inductive trel : tvalue -> avalue -> Prop :=
| t_block g b : is_bytes (group_len g) b -> trel (TBlock g b) (ABlock g b)
| t_enc k rks : good_keys k rks -> trel (TEnc k (map F rks)) (AEnc k rks)
| t_dec k rks : good_keys k rks -> trel (TDec k (map F rks)) (ADec k rks).
Definition tsim : list tvalue -> list avalue -> Prop := Forall2 trel.
Definition tres (r : option (answer * list tvalue)) (r' : option (answer * list avalue)) : Prop :=
  match r, r' with Some (a, v), Some (a', v') => a = a' /\ tsim v v' | None, None => True | _, _ => False end.
Lemma tsim_nth v w x : tsim v w -> match nth_error v x, nth_error w x with Some a, Some b => trel a b | None, None => True | _, _ => False end.
Proof. intros H. revert x. induction H; intros [|n]; cbn; auto. apply IHForall2. Qed.
Lemma tsim_app v w a b : tsim v w -> tsim a b -> tsim (v ++ a) (w ++ b). Proof. apply Forall2_app. Qed.
Lemma tsim_assign v w x a b : tsim v w -> trel a b -> tsim (assign v x a) (assign w x b).
Proof.
  intros H Hab. unfold assign. apply Forall2_app.
  - revert x. induction H; intros [|n]; cbn; constructor; auto.
  - constructor; [assumption|]. revert x. induction H; intros n; cbn; [constructor|]. destruct n; [assumption|apply IHForall2].
Qed.
Lemma tsim_length v w : tsim v w -> length v = length w.
Proof. intros H. induction H; cbn; congruence. Qed.

Section Vars.
Context (v : list tvalue) (w : list avalue) (Hs : tsim v w).
Lemma targ g x : (exists b, is_bytes (group_len g) b /\ tblock_at v g x = Some b /\ ablock_at w g x = Some b) \/ (tblock_at v g x = None /\ ablock_at w g x = None).
Proof.
  pose proof (tsim_nth v w x Hs) as H. unfold tblock_at, ablock_at. destruct (nth_error v x) as [a|], (nth_error w x) as [b|]; try contradiction; [|now right].
  destruct H as [h b B|k rks G|k rks G]; [|now right|now right]. destruct (group_eqb g h) eqn:E; [|now right]. left. exists b.
  assert (g = h) as -> by (destruct g, h; (reflexivity || discriminate E)). auto.
Qed.
Lemma targs g xs : (exists bs, Forall (is_bytes (group_len g)) bs /\ oall (map (tblock_at v g) xs) = Some bs /\ oall (map (ablock_at w g) xs) = Some bs) \/
  (oall (map (tblock_at v g) xs) = None /\ oall (map (ablock_at w g) xs) = None).
Proof.
  induction xs as [|x xs IH]; [left; exists []; now repeat split|]. cbn [map oall fold_right].
  destruct (targ g x) as [(b & B & -> & ->)|[-> ->]]; [|now right]. cbn [obind].
  destruct IH as [(bs & Fb & E1 & E2)|[E1 E2]]; unfold oall in E1, E2; rewrite E1, E2; [left|now right].
  exists (b :: bs). split; [now constructor|]. now split.
Qed.
Lemma tmade g (b b' : list N) : b = b' -> is_bytes (group_len g) b' -> tsim (v ++ [TBlock g b]) (w ++ [ABlock g b']).
Proof. intros -> B. apply tsim_app; [exact Hs|]. repeat constructor. apply B. apply B. Qed.
Lemma tmades l l' : tsim l l' -> Made (length l) = Made (length l') /\ tsim (v ++ l) (w ++ l').
Proof. intros H. split; [now rewrite (tsim_length l l' H)|now apply tsim_app]. Qed.
Lemma tone a b : trel a b -> tsim [a] [b]. Proof. intros H. constructor; [exact H|constructor]. Qed.
Lemma tassign g x (b b' : list N) : b = b' -> is_bytes (group_len g) b' -> tsim (assign v x (TBlock g b)) (assign w x (ABlock g b')).
Proof. intros -> B. apply tsim_assign; [exact Hs|now constructor]. Qed.
End Vars.

Ltac arg H g x := let b := fresh "b" in let B := fresh "B" in destruct (targ _ _ H g x) as [(b & B & -> & ->)|[-> ->]]; [cbn [obind]|exact I].
Ltac eng Q E := match goal with |- context [engine_of p be] => destruct (engine_of p be) as [en|] eqn:E; [cbn [obind]|exfalso; revert E; destruct p; discriminate] end.

Lemma binary_value g f h a b : vec2 (block_be p be) (vec_n p g) f (map2 h) -> (forall x y, x < 256 -> y < 256 -> h x y < 256) ->
  is_bytes (group_len g) a -> is_bytes (group_len g) b ->
  arrs (final (binary_program (block_be p be) (vec_n p g) (vec_m p g) f) (start b a)) "out" = map2 h a b /\ is_bytes (group_len g) (map2 h a b).
Proof.
  intros V Hh Ha Hb. rewrite (group_vec p g) in *. split.
  - apply (binary_run _ _ _ (vec_m_le p g) f (map2 h) (map2 h)); auto using map2_vectorwise.
  - apply (map2_vectorwise _ _ h Hh a b Ha Hb).
Qed.
Lemma round_value e g f G a b : engine_of p be = Some e -> bop_ok G -> vop e f (vec_n p g) G -> is_bytes (group_len g) a -> is_bytes (group_len g) b ->
  arrs (final (binary_program (g_be e) (vec_n p g) (vec_m p g) f) (start b a)) "out" = on_lanes (blocks_in g) G a b /\ is_bytes (group_len g) (on_lanes (blocks_in g) G a b).
Proof.
  intros He HG Hf Ha Hb. assert (E : blocks_in g = (vec_n p g * vec_m p g)%nat) by (rewrite (vec_size p g); reflexivity). rewrite E. rewrite (group_vec p g) in *. split.
  - apply (binary_run _ _ _ (vec_m_le p g) f (on_lanes (vec_n p g) G) (on_lanes (vec_n p g * vec_m p g) G)); [exact Hf|now apply on_lanes_vectorwise|exact Ha|exact Hb].
  - apply (on_lanes_vectorwise _ _ G HG a b Ha Hb).
Qed.
Lemma crypt_value e s g (dec : bool) k rks a : engine_of p be = Some e -> sem_ok s -> fits s fl -> vec_ok e s (vec_n p g) -> good_keys k rks -> is_bytes (group_len g) a ->
  let r := each_block ((if dec then fl_decrypt fl else fl_encrypt fl) k rks) a in
  arrs (final (s_crypt e k (vec_n p g) (vec_m p g) dec "keys") (with_arr "keys" (map F rks) (start [] a))) "out" = r /\ is_bytes (group_len g) r.
Proof.
  intros He S0 FT V G Ha r. assert (E : blocks_in g = (vec_n p g * vec_m p g)%nat) by (rewrite (vec_size p g); reflexivity).
  assert (X : concat (map (if dec then b_decrypt s k rks else b_encrypt s k rks) (lanes (blocks_in g) a)) = r).
  { unfold r. rewrite (each_block_lanes' (blocks_in g)) by (rewrite <- group_len_16; apply Ha). f_equal. apply map_ext_Forall. rewrite group_len_16 in Ha.
    eapply Forall_impl; [|apply lanes_bytes, Ha]. intros y Hy. destruct dec; [now apply (ft_decrypt _ _ FT)|now apply (ft_encrypt _ _ FT)]. }
  split.
  - rewrite (crypt_run e s S0 dec "keys" k (vec_n p g) (vec_m p g) rks a); [now rewrite <- E|apply vec_m_le|exact V|exact G|now rewrite <- (group_vec p g)|reflexivity|].
    unfold with_arr. cbn [set_arr arrs]. now rewrite upd_same, (engine_be p be e He).
  - rewrite <- X. rewrite group_len_16 in *. 
    assert (Z : Forall (is_bytes 16) (map (if dec then b_decrypt s k rks else b_encrypt s k rks) (lanes (blocks_in g) a))).
    { apply Forall_map. eapply Forall_impl; [|apply lanes_bytes, Ha]. intros y Hy. destruct dec; apply b_run_bytes; try assumption; try apply S0; now apply pre1_ok. }
    apply concat_bytes in Z. now rewrite map_length, lanes_length in Z.
Qed.
Lemma chain_value e s g (dec : bool) a keys : engine_of p be = Some e -> sem_ok s -> fits s fl -> vec_ok e s (vec_n p g) ->
  keys <> [] -> Forall (is_bytes (group_len g)) keys -> is_bytes (group_len g) a ->
  let r := fl_chain fl (on_lanes (blocks_in g) (if dec then fl_dec fl else spec_enc)) a keys in let n := vec_n p g in
  arrs (final (chain_program (g_be e) n (vec_m p g) (option_map (if dec then snd else fst) (g_pre e)) (if dec then g_dec e n else g_enc e n) (length keys)) (start (concat keys) a)) "out" = r
  /\ is_bytes (group_len g) r.
Proof.
  intros He S0 FT V Ne Hk Ha r n. assert (E : blocks_in g = (n * vec_m p g)%nat) by (unfold n; rewrite (vec_size p g); reflexivity).
  pose proof Hk as Hk1. pose proof Ha as Ha1. rewrite group_len_16 in Hk1, Ha1. destruct (ft_chain _ _ FT dec (blocks_in g) a keys Ha1 Hk1 Ne) as [Q1 Q2]. fold r in Q1, Q2.
  split; [|now rewrite group_len_16]. rewrite (group_vec p g) in Ha, Hk. destruct (vec_pos p g) as [Pn Pm].
  set (m := vec_m p g) in *. set (G := if dec then s_dec s else s_enc s) in *. fold n in Ha, Hk, Pn, V.
  assert (HG : bop_ok G) by (unfold G; destruct dec; apply S0).
  assert (VG : vop e (if dec then g_dec e n else g_enc e n) n G) by (unfold G; destruct dec; apply V).
  transitivity (n_chain (option_map (on_lanes (n * m)) (s_pre1 s dec)) (on_lanes (n * m) G) (map2 N.lxor) a keys).
  - apply (chain_run (g_be e) n m (vec_m_le p g) _ _ (option_map (on_lanes (n * m)) (s_pre1 s dec)) (on_lanes n G) (on_lanes (n * m) G) (map2 N.lxor) (map2 N.lxor)); auto using on_lanes_vectorwise, xor_vec2, map2_vectorwise, lxor_byte.
    unfold vec_opt, s_pre1. pose proof (v_pre _ _ _ V) as Vp. pose proof (so_pre s S0) as Sp.
    destruct (g_pre e) as [[q q']|], (s_pre s) as [[sq sr]|]; cbn [option_map]; try contradiction; [|exact I]. destruct Vp as [Vq Vr], Sp as [Sq Sr].
    destruct dec; cbn [fst snd]; [exists (on_lanes n sr)|exists (on_lanes n sq)]; auto using on_lanes_vectorwise.
  - assert (Z : forall x, s_chain (n * m) (s_pre1 s dec) G a keys = Ret x -> n_chain (option_map (on_lanes (n * m)) (s_pre1 s dec)) (on_lanes (n * m) G) (map2 N.lxor) a keys = x).
    { intros x. unfold s_chain, n_chain. destruct (s_pre1 s dec), keys; cbn; congruence. }
    apply Z. rewrite <- E. exact Q1.
Qed.

Lemma timed_on_ok v w g c : tsim v w -> typed_on g c = true -> formats (On g c) = false ->
  tres (option_map fst (timed_on p be v g c)) (library_on fl w g c).
Proof.
  intros Hs Ht Hq. assert (G0 : (0 < group_len g)%nat) by (destruct g; cbn; lia).
  assert (W : forall (x y : list N), x = y -> is_bytes (group_len g) y -> tres (Some (Made 1, v ++ [TBlock g x])) (Some (Made 1, w ++ [ABlock g y])))
    by (intros x y H B; split; [reflexivity|now apply tmade]).
  assert (WA : forall k (x y : list N), x = y -> is_bytes (group_len g) y -> tres (Some (Made 0, assign v k (TBlock g x))) (Some (Made 0, assign w k (ABlock g y))))
    by (intros k x y H B; split; [reflexivity|now apply tassign]).
  destruct c; cbn [timed_on_with library_on typed_on formats] in *; unfold ran_with; try discriminate Hq.
  - apply is_bytesb_correct in Ht. cbn [option_map fst]. apply W; [|exact Ht]. apply copy_whole; [reflexivity|apply Ht].
  - apply is_bytesb_correct in Ht. cbn [option_map fst]. apply W; [|exact Ht]. apply copy_whole; [reflexivity|apply Ht].
  - apply is_bytesb_correct in Ht. cbn [option_map fst]. apply W; [|exact Ht]. apply copy_whole; [reflexivity|apply Ht].
  - apply is_bytesb_correct in Ht. cbn [option_map fst]. destruct (try_from_run (group_len g) s G0) as [-> A]. destruct (Nat.ltb_spec (length s) (group_len g)) as [L|L].
    + now split.
    + apply W; [now apply A|]. destruct Ht as [_ B]. split; [rewrite firstn_length; lia|now apply Forall_firstn'].
  - cbn [option_map fst]. apply W; [reflexivity|apply zeros_bytes].
  - cbn [option_map fst]. apply W; [reflexivity|apply zeros_bytes].
  - arg Hs g x. arg Hs g y. cbn [option_map fst]. destruct (binary_value g _ N.land b b0 (and_vec2 _ _) land_byte B B0) as [Q1 Q2]. now apply W.
  - arg Hs g x. arg Hs g y. cbn [option_map fst]. destruct (binary_value g _ N.lor b b0 (or_vec2 _ _) lor_byte B B0) as [Q1 Q2]. now apply W.
  - arg Hs g x. arg Hs g y. cbn [option_map fst]. destruct (binary_value g _ N.lxor b b0 (xor_vec2 _ _) lxor_byte B B0) as [Q1 Q2]. now apply W.
  - arg Hs g x. cbn [option_map fst]. assert (N8 : forall x, x < 256 -> bnot 8 x < 256) by (intros z; apply (bnot_lt 8)). rewrite <- (not_255 b) by apply B. rewrite (group_vec p g) in B.
    apply W; [|rewrite (group_vec p g); now apply (map_vectorwise (vec_n p g) (vec_m p g) _ N8)].
    apply (unary_run _ _ _ (vec_m_le p g) _ (map (bnot 8)) (map (bnot 8))); auto using not_vec1, map_vectorwise.
  - arg Hs g x. arg Hs g y. cbn [option_map fst]. destruct (binary_value g _ N.land b b0 (and_vec2 _ _) land_byte B B0) as [Q1 Q2]. now apply WA.
  - arg Hs g x. arg Hs g y. cbn [option_map fst]. destruct (binary_value g _ N.lor b b0 (or_vec2 _ _) lor_byte B B0) as [Q1 Q2]. now apply WA.
  - arg Hs g x. arg Hs g y. cbn [option_map fst]. destruct (binary_value g _ N.lxor b b0 (xor_vec2 _ _) lxor_byte B B0) as [Q1 Q2]. now apply WA.
  - eng Hq E. arg Hs g x. arg Hs g k. cbn [option_map fst]. destruct (EF en E) as (s & S0 & FT & V & _). rewrite <- (ft_enc _ _ FT).
    destruct (round_value en g (g_enc en (vec_n p g)) (s_enc s) b b0 E) as [Q1 Q2]; [apply S0|apply V|exact B|exact B0|]. now apply W.
  - eng Hq E. arg Hs g x. arg Hs g k. cbn [option_map fst]. destruct (EF en E) as (s & S0 & FT & V & _). rewrite <- (ft_dec _ _ FT).
    destruct (round_value en g (g_dec en (vec_n p g)) (s_dec s) b b0 E) as [Q1 Q2]; [apply S0|apply V|exact B|exact B0|]. now apply W.
  - eng Hq E. arg Hs g x. arg Hs g k. cbn [option_map fst]. destruct (EF en E) as (s & S0 & FT & V & _). rewrite <- (ft_enc_last _ _ FT).
    destruct (round_value en g (g_enc_last en (vec_n p g)) (s_enc_last s) b b0 E) as [Q1 Q2]; [apply S0|apply V|exact B|exact B0|]. now apply W.
  - eng Hq E. arg Hs g x. arg Hs g k. cbn [option_map fst]. destruct (EF en E) as (s & S0 & FT & V & _). rewrite <- (ft_dec_last _ _ FT).
    destruct (round_value en g (g_dec_last en (vec_n p g)) (s_dec_last s) b b0 E) as [Q1 Q2]; [apply S0|apply V|exact B|exact B0|]. now apply W.
  - eng Hq E. arg Hs g x. destruct (targs _ _ Hs g ks) as [(bs & Fb & -> & ->)|[-> ->]]; [cbn [obind option_map fst]|exact I]. destruct bs as [|k0 r]; [now split|].
    destruct (EF en E) as (s & S0 & FT & V & _). destruct (chain_value en s g false b (k0 :: r) E S0 FT (V g) ltac:(discriminate) Fb B) as [Q1 Q2]. now apply W.
  - eng Hq E. arg Hs g x. destruct (targs _ _ Hs g ks) as [(bs & Fb & -> & ->)|[-> ->]]; [cbn [obind option_map fst]|exact I]. destruct bs as [|k0 r]; [now split|].
    destruct (EF en E) as (s & S0 & FT & V & _). destruct (chain_value en s g true b (k0 :: r) E S0 FT (V g) ltac:(discriminate) Fb B) as [Q1 Q2]. now apply W.
  - arg Hs g x. cbn [option_map fst]. split; [f_equal; apply copy_whole; [reflexivity|apply B]|exact Hs].
  - arg Hs g x. cbn [option_map fst]. destruct (store_run (group_len g) b dst (proj1 B) G0) as [-> ->]. destruct (Nat.ltb (length dst) (group_len g)); now split.
  - arg Hs g x. cbn [option_map fst]. pose proof B as B1. rewrite (group_vec p g) in B1. split; [|exact Hs].
    rewrite (is_zero_run _ _ _ (vec_m_is p g) [] b B1). rewrite <- (group_vec p g). f_equal. destruct (list_eq_dec N.eq_dec b _); reflexivity.
  - arg Hs g x. arg Hs g y. cbn [option_map fst]. split; [|exact Hs]. rewrite (group_vec p g) in B, B0.
    assert (X : arrs (final (equal_program (block_be p be) (vec_n p g) (vec_m p g) (eq_fields p)) (start b0 b)) "out" = bool_byte (if list_eq_dec N.eq_dec b b0 then true else false)).
    { apply (equal_run _ (vec_n p g) (vec_m p g) (eq_fields p) (16 * vec_n p g / eq_fields p) (vec_m_is p g)); [destruct p; cbn; lia|destruct p, g; reflexivity|exact B|exact B0]. }
    rewrite X. f_equal. destruct (list_eq_dec N.eq_dec b b0); reflexivity.
  - eng Hq E. 
    match goal with |- context [nth_error v ?d] => pose proof (tsim_nth v w d Hs) as Q'; destruct (nth_error v d) as [ve|], (nth_error w d) as [we|]; try contradiction; [|exact I] end.
    destruct Q' as [h b B|k rks G|k rks G]; try exact I. arg Hs g x. cbn [option_map fst]. destruct (EF en E) as (s & S0 & FT & V & _).
    destruct (crypt_value en s g false k rks b E S0 FT (V g) G B) as [Q1 Q2]. now apply W.
  - eng Hq E. match goal with |- context [nth_error v ?d] => pose proof (tsim_nth v w d Hs) as Q'; destruct (nth_error v d) as [ve|], (nth_error w d) as [we|]; try contradiction; [|exact I] end.
    destruct Q' as [h b B|k rks G|k rks G]; try exact I. arg Hs g x. cbn [option_map fst]. destruct (EF en E) as (s & S0 & FT & V & _).
    destruct (crypt_value en s g true k rks b E S0 FT (V g) G B) as [Q1 Q2]. now apply W.
Qed.

Lemma copy_segments l st r : not_out l = true -> Forall (fun a => (snd (fst a) + snd a <= length (arrs st (fst (fst a))))%nat) l -> concat (map (segment st) l) = r ->
  arrs (final (copy_program l) st) "out" = r.
Proof. intros H1 H2 <-. now apply copy_run. Qed.
Lemma segment_all st a n b : arrs st a = b -> length b = n -> segment st (a, 0, n)%nat = b.
Proof. intros <- <-. unfold segment. cbn [fst snd skipn]. apply firstn_all. Qed.
Lemma keyed_start e s k key : engine_of p be = Some e -> keyed_ok e s -> is_bytes (key_len k) key -> arrs (final (g_keygen e k) (start key [])) "keys" = map F (s_keys s k key).
Proof. intros He K Hk. rewrite <- (engine_be p be e He). apply (K k key [] Hk). Qed.
Lemma swapped e s f G k rks st : engine_of p be = Some e -> sem_ok s -> uop e f G -> good_keys k rks -> arrs st "keys" = map F rks ->
  arrs (final (s_swap_keys f "keys" "drk" (nr_of k + 1)) st) "drk" = map F (b_swap G rks).
Proof.
  intros He S0 U Gk Hk. rewrite <- (engine_be p be e He) in *.
  exact (holds_arr _ _ _ _ (swap_keys_run e f G "keys" "drk" k rks st U ltac:(discriminate) Gk Hk)).
Qed.

Lemma timed_ok v w c : tsim v w -> typed c = true -> formats c = false -> tres (heard (timed p be) v c) (library fl w c).
Proof.
  intros Hs Ht Hq. unfold heard. pose proof (tmades v w Hs) as M.
  assert (W : forall g (x y : list N), x = y -> is_bytes (group_len g) y -> tres (Some (Made 1, v ++ [TBlock g x])) (Some (Made 1, w ++ [ABlock g y])))
    by (intros g x y H B; split; [reflexivity|now apply tmade]).
  destruct c; cbn [timed_with library typed formats] in *; unfold ran_with; try discriminate Hq.
  - now apply timed_on_ok.
  - cbn [option_map fst length]. assert (B : is_bytes 16 (to_be 16 v0)) by (split; [unfold to_be; rewrite rev_length; apply to_le_length|unfold to_be; apply bytes_ok_rev, to_le_ok]).
    apply (W One); [apply copy_whole; [reflexivity|apply B]|exact B].
  - arg Hs One x. cbn [option_map fst]. split; [|exact Hs]. f_equal. f_equal. apply copy_whole; [reflexivity|apply B].
  - eng Hq E. arg Hs One x. cbn [option_map fst length]. destruct (EF en E) as (s & S0 & FT & V & U1 & U2 & K). rewrite <- (ft_mc _ _ FT). apply (W One); [|now apply S0].
    apply (unary_run (g_be en) 1 1 ltac:(lia) _ (s_mc s) (s_mc s)); [exact U1| |exact B].
    intros y Hy. split; [now apply S0|]. intros j Hj. assert (j = 0)%nat as -> by lia. unfold piece. rewrite Nat.mul_0_r. cbn [skipn]. rewrite !firstn_all2; [reflexivity|rewrite (proj1 Hy); reflexivity|rewrite (proj1 (so_mc s S0 y Hy)); reflexivity].
  - eng Hq E. arg Hs One x. cbn [option_map fst length]. destruct (EF en E) as (s & S0 & FT & V & U1 & U2 & K). rewrite <- (ft_imc _ _ FT). apply (W One); [|now apply S0].
    apply (unary_run (g_be en) 1 1 ltac:(lia) _ (s_imc s) (s_imc s)); [exact U2| |exact B].
    intros y Hy. split; [now apply S0|]. intros j Hj. assert (j = 0)%nat as -> by lia. unfold piece. rewrite Nat.mul_0_r. cbn [skipn]. rewrite !firstn_all2; [reflexivity|rewrite (proj1 Hy); reflexivity|rewrite (proj1 (so_imc s S0 y Hy)); reflexivity].
  - arg Hs One a. arg Hs One b. cbn [option_map fst length]. apply (W Two); [|now apply (is_bytes_app 16 16)]. cbn [group_len] in *.
    apply copy_segments; [reflexivity|repeat constructor; cbn; rewrite ?(proj1 B), ?(proj1 B0); lia|]. cbn [map concat].
    rewrite (segment_all _ "in" 16 b0), (segment_all _ "in1" 16 b1) by (reflexivity || apply B || apply B0). now rewrite app_nil_r.
  - arg Hs One a. cbn [option_map fst length]. apply (W Two); [|now apply (is_bytes_app 16 16)]. cbn [group_len] in *.
    apply copy_segments; [reflexivity|repeat constructor; cbn; rewrite ?(proj1 B); lia|]. cbn [map concat].
    rewrite (segment_all _ "in" 16 b) by (reflexivity || apply B). now rewrite app_nil_r.
  - arg Hs Two x. cbn [option_map fst]. destruct (split2 _ B) as (a & q & P & Q & ->). rewrite (copy_whole 32 _ (a ++ q)) by (reflexivity || apply B). rewrite lanes2 by assumption.
    apply M. repeat (apply Forall2_cons; [constructor; assumption|]); apply Forall2_nil.
  - arg Hs One a. arg Hs One b. arg Hs One c. arg Hs One d. cbn [option_map fst length]. apply (W Four); [|repeat apply (is_bytes_app 16); assumption]. cbn [group_len] in *.
    apply copy_segments; [reflexivity|repeat constructor; cbn; rewrite ?(proj1 B), ?(proj1 B0), ?(proj1 B1), ?(proj1 B2); lia|]. cbn [map concat].
    rewrite (segment_all _ "in" 16 b0), (segment_all _ "in1" 16 b1), (segment_all _ "in2" 16 b2), (segment_all _ "in3" 16 b3) by (reflexivity || apply B || apply B0 || apply B1 || apply B2). now rewrite app_nil_r.
  - arg Hs Two a. arg Hs Two b. cbn [option_map fst length]. apply (W Four); [|now apply (is_bytes_app 32 32)]. cbn [group_len] in *.
    apply copy_segments; [reflexivity|repeat constructor; cbn; rewrite ?(proj1 B), ?(proj1 B0); lia|]. cbn [map concat].
    rewrite (segment_all _ "in" 32 b0), (segment_all _ "in1" 32 b1) by (reflexivity || apply B || apply B0). now rewrite app_nil_r.
  - arg Hs One a. cbn [option_map fst length]. apply (W Four); [|repeat apply (is_bytes_app 16); assumption]. cbn [group_len] in *.
    apply copy_segments; [reflexivity|repeat constructor; cbn; rewrite ?(proj1 B); lia|]. cbn [map concat].
    rewrite (segment_all _ "in" 16 b) by (reflexivity || apply B). now rewrite app_nil_r.
  - arg Hs Two a. cbn [option_map fst length]. apply (W Four); [|now apply (is_bytes_app 32 32)]. cbn [group_len] in *.
    apply copy_segments; [reflexivity|repeat constructor; cbn; rewrite ?(proj1 B); lia|]. cbn [map concat].
    rewrite (segment_all _ "in" 32 b) by (reflexivity || apply B). now rewrite app_nil_r.
  - arg Hs Four x. cbn [option_map fst]. destruct (split4 _ B) as (a & q & r & t & P & Q & U & V & ->). rewrite (copy_whole 64 _ (a ++ q ++ r ++ t)) by (reflexivity || apply B). rewrite lanes4 by assumption.
    apply M. repeat (apply Forall2_cons; [constructor; assumption|]); apply Forall2_nil.
  - arg Hs Four x. cbn [option_map fst]. destruct (split22 _ B) as (a & q & P & Q & ->). rewrite (copy_whole 64 _ (a ++ q)) by (reflexivity || apply B).
    assert (E32 : List.length a = 32%nat) by apply P. replace (firstn 32 (a ++ q)) with a by (rewrite <- E32; now rewrite firstn_app, firstn_all, Nat.sub_diag, app_nil_r).
    replace (skipn 32 (a ++ q)) with q by (rewrite <- E32; now rewrite skipn_app, skipn_all, Nat.sub_diag).
    apply M. repeat (apply Forall2_cons; [constructor; assumption|]); apply Forall2_nil.
  - eng Hq E. cbn [option_map fst]. apply is_bytesb_correct in Ht. destruct (EF en E) as (s & S0 & FT & V & U1 & U2 & K). rewrite <- (ft_keys _ _ FT) by assumption.
    rewrite (keyed_start en s k key E K Ht). apply M, tone. constructor. exact (so_keys _ S0 k key Ht).
  - eng Hq E. cbn [option_map fst]. apply is_bytesb_correct in Ht. destruct (EF en E) as (s & S0 & FT & V & U1 & U2 & K). rewrite <- (ft_keys _ _ FT), <- (ft_imc _ _ FT) by assumption. rewrite reversed_swap.
    pose proof (so_keys _ S0 k key Ht) as G. rewrite final_seq. rewrite (swapped en s (g_imc en) (s_imc s) k (s_keys s k key) _ E S0 U2 G (keyed_start en s k key E K Ht)).
    apply M, tone. constructor. apply b_swap_good; [apply S0|exact G].
  - eng Hq E. pose proof (tsim_nth v w e Hs) as Q. destruct (nth_error v e) as [ve|], (nth_error w e) as [we|]; try contradiction; [|exact I].
    destruct Q as [h b B|k rks G|k rks G]; try exact I. cbn [option_map fst]. destruct (EF en E) as (s & S0 & FT & V & U1 & U2 & K). rewrite <- (ft_imc _ _ FT), reversed_swap.
    rewrite (swapped en s (g_imc en) (s_imc s) k rks (with_arr "keys" (map F rks) (start [] [])) E S0 U2 G eq_refl). apply M, tone. constructor. apply b_swap_good; [apply S0|exact G].
  - eng Hq E. pose proof (tsim_nth v w d Hs) as Q. destruct (nth_error v d) as [ve|], (nth_error w d) as [we|]; try contradiction; [|exact I].
    destruct Q as [h b B|k rks G|k rks G]; try exact I. cbn [option_map fst]. destruct (EF en E) as (s & S0 & FT & V & U1 & U2 & K). rewrite <- (ft_mc _ _ FT), reversed_swap.
    rewrite (swapped en s (g_mc en) (s_mc s) k rks (with_arr "keys" (map F rks) (start [] [])) E S0 U1 G eq_refl). apply M, tone. constructor. apply b_swap_good; [apply S0|exact G].
  - pose proof (tsim_nth v w x Hs) as Q. destruct (nth_error v x) as [ve|], (nth_error w x) as [we|]; try contradiction; [|exact I]. cbn [obind].
    destruct Q as [g b B|k rks G|k rks G]; cbn [option_map fst].
    + rewrite (copy_whole (group_len g) _ b) by (reflexivity || apply B). apply M, tone. now constructor.
    + rewrite (copy_whole (nr_of k + 1) _ (map F rks)); [|reflexivity|rewrite map_length; apply G]. apply M, tone. now constructor.
    + rewrite (copy_whole (nr_of k + 1) _ (map F rks)); [|reflexivity|rewrite map_length; apply G]. apply M, tone. now constructor.
Qed.
Lemma timed_play cl : forall v w, tsim v w -> no_formatting (play (library fl) w cl) -> play (heard (timed p be)) v cl = play (library fl) w cl.
Proof.
  induction cl as [|c next IH]; intros v w Hs Hm; [reflexivity|]. cbn [play] in *. destruct (typed c) eqn:Ht.
  - assert (Hq : formats c = false) by (destruct (library fl w c) as [[a' w']|]; now inversion Hm).
    pose proof (timed_ok v w c Hs Ht Hq) as Q. destruct (heard (timed p be) v c) as [[a v']|], (library fl w c) as [[a' w']|]; try contradiction; inversion Hm; subst.
    + destruct Q as [<- Q]. f_equal. now apply IH.
    + f_equal. now apply IH.
  - inversion Hm; subst. f_equal. now apply IH.
Qed.
End Sim.

(** ** The engine of every build fits its flavour *)
Lemma bitslice_keys_are be k key : is_bytes (key_len k) key -> bitslice_keys be k key = if be then be_round_keys k key else round_keys k key.
Proof.
  intros H. destruct (keys_from_ok (bitslice_ext be) (of_ne be) (to_ne be 16) (of_ne_bytes be) (bitslice_key_shape be)) as [K1 K2].
  destruct (K1 k key H) as [L1 F1]. specialize (K2 k key H). fold (bitslice_keys be) in K2, F1, L1.
  assert (Q : match k with K128 => e_keygen_128 (bitslice_ext be) key | K192 => e_keygen_192 (bitslice_ext be) key | K256 => e_keygen_256 (bitslice_ext be) key end =
    Ret (map (of_ne be) (if be then be_round_keys k key else round_keys k key))).
  { destruct be.
    - pose proof (be_keygen_ok k key H) as Q. destruct k; exact Q.
    - destruct k; now apply bitslice_key_ok. }
  rewrite K2 in Q. injection Q as Q.
  assert (G : Forall (is_bytes 16) (if be then be_round_keys k key else round_keys k key)).
  { destruct be; [exact (proj2 (so_keys _ be_exact_ok k key H))|exact (proj2 (so_keys _ (fips_rk_ok None (or_introl eq_refl)) k key H))]. }
  clear - F1 G Q. revert G Q. generalize (if be then be_round_keys k key else round_keys k key) as l. revert F1. generalize (bitslice_keys be k key) as l0.
  induction l0 as [|a l0 IH]; intros F1 [|b l] G Q; try discriminate; [reflexivity|]. inversion F1; inversion G; subst. injection Q as Q1 Q2.
  f_equal; [|now apply IH]. rewrite <- (of_ne_bytes be a), <- (of_ne_bytes be b) by assumption. now rewrite Q1.
Qed.
Lemma standard_fits pre : pre_fips pre -> fits (fips_sem pre round_keys) standard.
Proof. intros H. now apply fips_fits. Qed.
Definition flags_check (c : cfg) : bool := implb (rustc_ok c)
  match readme c with
  | P_rv32 => rv32_zk c
  | P_constant_time => negb (rv32_zk c) && Bool.eqb (be_constant_time c) (c_be c)
  | _ => negb (rv32_zk c) && negb (be_constant_time c)
  end.
Lemma flags_checked : all_cfgs flags_check = true. Proof. vm_compute. reflexivity. Qed.
Lemma flavour_flags c : rustc_ok c = true ->
  match readme c with P_rv32 => rv32_zk c = true | P_constant_time => rv32_zk c = false /\ be_constant_time c = c_be c | _ => rv32_zk c = false /\ be_constant_time c = false end.
Proof.
  intros H. pose proof (all_cfgs_ok _ flags_checked c) as Q. unfold flags_check in Q. rewrite H in Q. cbn [implb] in Q.
  destruct (readme c); rewrite ?andb_true_iff, ?negb_true_iff in Q; try exact Q; try exact I. destruct Q as [Q1 Q2]. split; [exact Q1|now apply Bool.eqb_prop].
Qed.
Lemma build_engine_fits c p : rustc_ok c = true -> running c = Some p -> engine_fits p (c_be c) (flavour_of c).
Proof.
  intros Hc Hr e He. apply (running_is c p Hc) in Hr. subst p. pose proof (flavour_flags c Hc) as Q. unfold flavour_of.
  pose proof (fips_rk_ok None (or_introl eq_refl)) as S0. pose proof (fips_rk_ok (Some neon_pre) (or_intror eq_refl)) as S1.
  destruct (readme c) eqn:P; cbn [engine_of] in He; try discriminate; injection He as <-; try (destruct Q as [Q1 Q2]; rewrite Q1, Q2).
  - exists (fips_sem None round_keys). split; [exact S0|]. split; [apply standard_fits; now left|]. split; [intros g; apply x86_vec|]. split; [apply x86_mc_u|]. split; [apply x86_imc_u|apply x86_keyed].
  - exists (fips_sem None round_keys). split; [exact S0|]. split; [apply standard_fits; now left|]. split; [intros g; apply x86_vec|]. split; [apply x86_mc_u|]. split; [apply x86_imc_u|apply x86_keyed].
  - exists (fips_sem None round_keys). split; [exact S0|]. split; [apply standard_fits; now left|]. split; [intros g; apply x86_vec|]. split; [apply x86_mc_u|]. split; [apply x86_imc_u|apply x86_keyed].
  - exists (fips_sem (Some neon_pre) round_keys). split; [exact S1|]. split; [apply standard_fits; now right|]. split; [intros g; exact arm_vec|]. split; [apply arm_mc_u|]. split; [apply arm_imc_u|apply arm_keyed].
  - exists (fips_sem None round_keys). split; [exact S0|]. split; [apply standard_fits; now left|]. split; [intros g; exact rv64_vec|]. split; [apply rv64_mc_u|]. split; [apply rv64_imc_u|apply rv64_keyed].
  - rewrite Q. exists rv32_exact. split; [exact rv32_exact_ok|]. split; [exact rv32_fits|]. split; [intros g; exact rv32_vec|]. split; [apply rv32_mc_u|]. split; [apply rv32_imc_u|apply rv32_keyed].
  - destruct (bitslice_refines (c_dbg c) (c_be c)) as [_ S2]. exists (fips_sem None (bitslice_keys (c_be c))). split; [exact S2|]. split.
    + destruct (c_be c); (apply fips_fits; try reflexivity; [now left|]); intros k key H; now rewrite bitslice_keys_are.
    + split; [intros g; exact (bitslice_vec (c_be c))|]. split; [apply bitslice_mc|]. split; [apply bitslice_imc|apply bitslice_keyed].
  - exists (fips_sem None round_keys). split; [exact S0|]. split; [apply standard_fits; now left|]. split; [intros g; apply table_vec|]. split; [apply table_mc_u|]. split; [apply table_imc_u|apply table_keyed].
Qed.
Lemma timed_is_library c p cl : rustc_ok c = true -> running c = Some p -> no_formatting (play (library (flavour_of c)) [] cl) ->
  play (heard (timed p (c_be c))) [] cl = play (library (flavour_of c)) [] cl.
Proof. intros Hc Hr Hm. apply (timed_play p (c_be c) (flavour_of c)); [now apply build_engine_fits|constructor|exact Hm]. Qed.
