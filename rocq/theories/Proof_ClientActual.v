(** Every build simulates the library of its flavour (Spec_ClientActual). *)
From Coq Require Import Lia Arith String.
From Verif Require Import Word Interface Fips197 Spec_Api Spec_Reach Spec_Cfg Spec_User Spec_Fmt Spec_Actual Spec_Client Spec_ClientActual Model_Lib Model_Cfg Model_Fmt Model_Client.
From Verif Require Import Proof_Shape Proof_Word Proof_Fips Proof_Ok Proof_Sem Proof_Lib Proof_Reach Proof_Inst Proof_Cipher Proof_KeySpec Proof_Main Proof_Fmt Proof_Actual Props_Rounds Props_Fmt Proof_Client.
Open Scope N_scope.
Open Scope list_scope.

(** The byte-level semantics of a build is that of a flavour. *)
Record fits (s : sem) (fl : flavour) : Prop := {
  ft_enc : s_enc s = spec_enc; ft_enc_last : s_enc_last s = spec_enc_last;
  ft_dec : s_dec s = fl_dec fl; ft_dec_last : s_dec_last s = fl_dec_last fl;
  ft_mc : s_mc s = fl_mc fl; ft_imc : s_imc s = fl_imc fl;
  ft_chain : forall (dec : bool) m x keys, is_bytes (16 * m) x -> Forall (is_bytes (16 * m)) keys -> keys <> [] ->
    s_chain m (s_pre1 s dec) (if dec then s_dec s else s_enc s) x keys = Ret (fl_chain fl (on_lanes m (if dec then fl_dec fl else spec_enc)) x keys) /\
    is_bytes (16 * m) (fl_chain fl (on_lanes m (if dec then fl_dec fl else spec_enc)) x keys);
  ft_keys : forall k key, is_bytes (key_len k) key -> s_keys s k key = fl_keys fl k key;
  ft_encrypt : forall k rks x, good_keys k rks -> is_bytes 16 x -> b_encrypt s k rks x = fl_encrypt fl k rks x;
  ft_decrypt : forall k rks x, good_keys k rks -> is_bytes 16 x -> b_decrypt s k rks x = fl_decrypt fl k rks x
}.
Lemma reversed_swap f rks : reversed_keys f rks = b_swap f rks.
Proof. reflexivity. Qed.
Lemma pre1_ok s dec : sem_ok s -> match s_pre1 s dec with None => True | Some p => bop_ok p end.
Proof. intros S0. pose proof (so_pre _ S0) as H. unfold s_pre1. destruct (s_pre s) as [[p q]|]; [|exact I]. destruct dec; apply H. Qed.

Section Sim.
Context (i : impl) (f1 : list N -> T1 i) (f2 : list N -> T2 i) (f4 : list N -> T4 i) (s : sem) (R : refines i f1 f2 f4 s) (S0 : sem_ok s).
Context (fl : flavour) (FT : fits s fl).

Inductive rel : var i -> avalue -> Prop :=
| rel_1 b : is_bytes 16 b -> rel (V1 (f1 b)) (ABlock One b)
| rel_2 b : is_bytes 32 b -> rel (V2 (f2 b)) (ABlock Two b)
| rel_4 b : is_bytes 64 b -> rel (V4 (f4 b)) (ABlock Four b)
| rel_E k rks : good_keys k rks -> rel (VE k (EncObj (map f1 rks))) (AEnc k rks)
| rel_D k rks : good_keys k rks -> rel (VD k (DecObj (map f1 rks))) (ADec k rks).
Definition sim : list (var i) -> list avalue -> Prop := Forall2 rel.
Definition res_ok (r : option (answer * list (var i))) (r' : option (answer * list avalue)) : Prop :=
  match r, r' with Some (a, v), Some (a', v') => a = a' /\ sim v v' | None, None => True | _, _ => False end.

Lemma sim_nth v w x : sim v w -> match nth_error v x, nth_error w x with Some a, Some b => rel a b | None, None => True | _, _ => False end.
Proof. intros H. revert x. induction H; intros [|n]; cbn; auto. apply IHForall2. Qed.
Lemma sim_app v w a b : sim v w -> sim a b -> sim (v ++ a) (w ++ b). Proof. apply Forall2_app. Qed.
Lemma sim_assign v w x a b : sim v w -> rel a b -> sim (assign v x a) (assign w x b).
Proof.
  intros H Hab. unfold assign. apply Forall2_app.
  - revert x. induction H; intros [|n]; cbn; constructor; auto.
  - constructor; [assumption|]. revert x. induction H; intros n; cbn; [constructor|]. destruct n; [assumption|apply IHForall2].
Qed.

(** What is common to the three block types. *)
Record kind_ok (K : kind i) (g : group) (f : list N -> k_type i K) : Prop := {
  ko_data : data_ok (k_ops i K) (group_len g) f;
  ko_put : forall b, is_bytes (group_len g) b -> rel (k_put i K (f b)) (ABlock g b);
  ko_get : forall v w, rel v w -> match k_get i K v, (match w with ABlock h b => if group_eqb g h then Some b else None | _ => None end) with
     | Some x, Some b => x = f b /\ is_bytes (group_len g) b | None, None => True | _, _ => False end;
  ko_rounds : rounds_ok (k_ops i K) (blocks_in g) f s;
  ko_chain_enc : forall x keys, is_bytes (group_len g) x -> Forall (is_bytes (group_len g)) keys ->
     k_chain_enc i K (f x) (map f keys) = omap f (s_chain (blocks_in g) (s_pre1 s false) (s_enc s) x keys);
  ko_chain_dec : forall x keys, is_bytes (group_len g) x -> Forall (is_bytes (group_len g)) keys ->
     k_chain_dec i K (f x) (map f keys) = omap f (s_chain (blocks_in g) (s_pre1 s true) (s_dec s) x keys);
  ko_encrypt : forall k rks x, good_keys k rks -> is_bytes (group_len g) x ->
     k_encrypt i K k (EncObj (map f1 rks)) (f x) = Ret (f (concat (map (b_encrypt s k rks) (lanes (blocks_in g) x))));
  ko_decrypt : forall k rks x, good_keys k rks -> is_bytes (group_len g) x ->
     k_decrypt i K k (DecObj (map f1 rks)) (f x) = Ret (f (concat (map (b_decrypt s k rks) (lanes (blocks_in g) x))));
  ko_debug : forall x alt w, is_bytes (group_len g) x -> k_debug i K (f x) (FOpts alt w) =
     Ret (match g with One => hex_of alt (of_be x) | _ => tuple_text alt (map of_be (lanes (blocks_in g) x)) end)
}.

Lemma kind1_ok : kind_ok (kind1 i) One f1.
Proof.
  constructor; cbn [kind1 k_ops k_put k_get k_chain_enc k_chain_dec k_encrypt k_decrypt k_debug k_type group_len blocks_in].
  - apply R.
  - intros b B. now constructor.
  - intros v w H. destruct H; cbn; auto.
  - apply R.
  - intros x keys Hx Hk. now apply (chain_enc1_ok _ _ _ _ _ R S0).
  - intros x keys Hx Hk. now apply (chain_dec1_ok _ _ _ _ _ R S0).
  - intros k rks x G Hx. rewrite (encrypt_block_ok _ _ _ _ _ R S0) by assumption. rewrite lanes_1 by apply Hx. cbn. now rewrite app_nil_r.
  - intros k rks x G Hx. rewrite (decrypt_block_ok _ _ _ _ _ R S0) by assumption. rewrite lanes_1 by apply Hx. cbn. now rewrite app_nil_r.
  - intros x alt w Hx. now rewrite (debug_f i f1 (R_d1 _ _ _ _ _ R)) by assumption.
Qed.
Lemma kind2_ok : kind_ok (kind2 i) Two f2.
Proof.
  constructor; cbn [kind2 k_ops k_put k_get k_chain_enc k_chain_dec k_encrypt k_decrypt k_debug k_type group_len blocks_in].
  - apply R.
  - intros b B. now constructor.
  - intros v w H. destruct H; cbn; auto.
  - apply R.
  - intros x keys Hx Hk. now apply (chain_enc2_ok _ _ _ _ _ R S0).
  - intros x keys Hx Hk. now apply (chain_dec2_ok _ _ _ _ _ R S0).
  - intros k rks x G Hx. now apply (encrypt_2_ok _ _ _ _ _ R S0).
  - intros k rks x G Hx. now apply (decrypt_2_ok _ _ _ _ _ R S0).
  - intros x alt w Hx. destruct (split2 _ Hx) as (a & b & A & B & ->). unfold fmt_debug_x2. rewrite (R_x2_to_pair _ _ _ _ _ R) by assumption.
    rewrite lanes2 by assumption. apply (debug_tuple_ok i f1 f2 f4 s R alt w [a; b]); [discriminate|auto].
Qed.
Lemma kind4_ok : kind_ok (kind4 i) Four f4.
Proof.
  constructor; cbn [kind4 k_ops k_put k_get k_chain_enc k_chain_dec k_encrypt k_decrypt k_debug k_type group_len blocks_in].
  - apply R.
  - intros b B. now constructor.
  - intros v w H. destruct H; cbn; auto.
  - apply R.
  - intros x keys Hx Hk. now apply (chain_enc4_ok _ _ _ _ _ R S0).
  - intros x keys Hx Hk. now apply (chain_dec4_ok _ _ _ _ _ R S0).
  - intros k rks x G Hx. now apply (encrypt_4_ok _ _ _ _ _ R S0).
  - intros k rks x G Hx. now apply (decrypt_4_ok _ _ _ _ _ R S0).
  - intros x alt w Hx. destruct (split4 _ Hx) as (a & b & c & d & A & B & C & D & ->). unfold fmt_debug_x4. rewrite (R_x4_to_quad _ _ _ _ _ R) by assumption.
    rewrite lanes4 by assumption. apply (debug_tuple_ok i f1 f2 f4 s R alt w [a; b; c; d]); [discriminate|auto].
Qed.

Section OnKind.
Context (K : kind i) (g : group) (f : list N -> k_type i K) (KO : kind_ok K g f).
Context (v : list (var i)) (w : list avalue) (Hs : sim v w).
Lemma arg_ok x : (exists b, is_bytes (group_len g) b /\ obind (nth_error v x) (k_get i K) = Some (f b) /\ ablock_at w g x = Some b) \/
  (obind (nth_error v x) (k_get i K) = None /\ ablock_at w g x = None).
Proof.
  pose proof (sim_nth v w x Hs) as H. unfold ablock_at. destruct (nth_error v x) as [a|], (nth_error w x) as [b|]; cbn [obind]; try contradiction; [|now right].
  pose proof (ko_get _ _ _ KO a b H) as Q. destruct (k_get i K a) as [y|].
  - left. destruct b as [h b|k key|k key]; [|contradiction|contradiction]. destruct (group_eqb g h); [|contradiction]. destruct Q as [-> Q]. now exists b.
  - right. split; [reflexivity|]. destruct b as [h b|k key|k key]; auto. destruct (group_eqb g h); [contradiction|reflexivity].
Qed.
Lemma args_ok xs : (exists bs, Forall (is_bytes (group_len g)) bs /\ oall (map (fun x => obind (nth_error v x) (k_get i K)) xs) = Some (map f bs) /\ oall (map (ablock_at w g) xs) = Some bs) \/
  (oall (map (fun x => obind (nth_error v x) (k_get i K)) xs) = None /\ oall (map (ablock_at w g) xs) = None).
Proof.
  induction xs as [|x xs IH]; [left; exists []; now repeat split|]. cbn [map oall fold_right].
  destruct (arg_ok x) as [(b & B & -> & ->)|[-> ->]]; [|now right]. cbn [obind].
  destruct IH as [(bs & F & E1 & E2)|[E1 E2]]; fold (@oall (k_type i K)) in *; unfold oall in E1, E2; rewrite E1, E2; [left|now right].
  exists (b :: bs). split; [now constructor|]. now split.
Qed.
Lemma made_ok r b : r = Ret (f b) -> is_bytes (group_len g) b ->
  res_ok (result_of i v r (fun x => (Made 1, v ++ [k_put i K x]))) (Some (Made 1, w ++ [ABlock g b])).
Proof. intros -> B. split; [reflexivity|]. apply sim_app; [exact Hs|]. constructor; [|constructor]. now apply (ko_put _ _ _ KO). Qed.
Lemma says_ok {A} (r : outcome A) (h : A -> answer) x a : r = Ret x -> h x = a -> res_ok (result_of i v r (fun a => (h a, v))) (Some (a, w)).
Proof. intros -> <-. now split. Qed.
Lemma sets_ok x r b : r = f b -> is_bytes (group_len g) b -> res_ok (Some (Made 0, assign v x (k_put i K r))) (Some (Made 0, assign w x (ABlock g b))).
Proof. intros -> B. split; [reflexivity|]. apply sim_assign; [exact Hs|]. now apply (ko_put _ _ _ KO). Qed.
End OnKind.

Ltac with_arg L x := let b := fresh "b" in let B := fresh "B" in
  destruct (L x) as [(b & B & -> & ->)|[-> ->]]; [cbn [obind]|exact I].

Lemma on_ok K g f v w c : kind_ok K g f -> sim v w -> typed_on g c = true ->
  res_ok (crate_on i v K c) (library_on fl w g c).
Proof.
  intros KO Hs Ht. pose proof (ko_data _ _ _ KO) as D. pose proof (ko_rounds _ _ _ KO) as RO.
  pose proof (arg_ok K g f KO v w Hs) as A. pose proof (args_ok K g f KO v w Hs) as AS. pose proof (made_ok K g f KO v w Hs) as M.
  pose proof (fun A r h x a => @says_ok v w Hs A r h x a) as Sy. pose proof (sets_ok K g f KO v w Hs) as ST.
  pose proof (group_len_16 g) as G16.
  assert (BL : forall h a b, bop_ok h -> is_bytes (group_len g) a -> is_bytes (group_len g) b -> is_bytes (group_len g) (on_lanes (blocks_in g) h a b)).
  { intros h a b Hh Ha Hb. rewrite G16 in *. now apply on_lanes_bytes. }
  assert (LO : forall op h a b, lane_ok op (blocks_in g) f h -> is_bytes (group_len g) a -> is_bytes (group_len g) b -> op (f a) (f b) = f (on_lanes (blocks_in g) h a b)).
  { intros op h a b H Ha Hb. rewrite G16 in *. now apply H. }
  assert (CH : forall (dec : bool) x ks, let round := if dec then fl_dec fl else spec_enc in
     forall ch, (forall x keys, is_bytes (group_len g) x -> Forall (is_bytes (group_len g)) keys ->
        ch (f x) (map f keys) = omap f (s_chain (blocks_in g) (s_pre1 s dec) (if dec then s_dec s else s_enc s) x keys)) ->
     res_ok (obind (obind (nth_error v x) (k_get i K)) (fun a => obind (oall (map (fun x => obind (nth_error v x) (k_get i K)) ks)) (fun l => result_of i v (ch a l) (fun x => (Made 1, v ++ [k_put i K x])))))
            (obind (ablock_at w g x) (fun a => obind (oall (map (ablock_at w g) ks)) (fun l =>
               match l with [] => Some (Panics, w) | _ => Some (Made 1, w ++ [ABlock g (fl_chain fl (on_lanes (blocks_in g) round) a l)]) end)))).
  { intros dec x ks round ch Hch. destruct (A x) as [(b & B & -> & ->)|[-> ->]]; [cbn [obind]|exact I].
    destruct (AS ks) as [(bs & F & E1 & E2)|[E1 E2]]; rewrite E1, E2; [cbn [obind]|exact I].
    rewrite Hch by assumption. destruct bs as [|k0 r].
    - cbn [s_chain map omap]. destruct (s_pre1 s dec); cbn; now split.
    - rewrite G16 in *. destruct (ft_chain _ _ FT dec (blocks_in g) b (k0 :: r) B F ltac:(discriminate)) as [Q1 Q2].
      subst round. rewrite Q1. cbn [omap bind]. rewrite <- G16 in *. apply M; [reflexivity|exact Q2]. }
  destruct c; cbn [crate_on library_on typed_on] in *.
  - apply is_bytesb_correct in Ht. apply M; [now apply (dk_new _ _ _ D)|assumption].
  - apply is_bytesb_correct in Ht. apply M; [now apply (dk_from _ _ _ D)|assumption].
  - apply is_bytesb_correct in Ht. apply M; [now apply (dk_from _ _ _ D)|assumption].
  - apply is_bytesb_correct in Ht. destruct (try_from_ok (k_ops i K) _ f (i_dbg i) s0 D (proj2 Ht)) as [-> Q].
    destruct (Nat.ltb (length s0) (group_len g)); [now split|]. apply (M (Ret _)); [reflexivity|now apply Q].
  - apply M; [f_equal; apply (dk_zero _ _ _ D)|apply zeros_bytes].
  - apply M; [f_equal; apply (dk_zero _ _ _ D)|apply zeros_bytes].
  - with_arg A x. with_arg A y. apply M; [f_equal; now apply (dk_and _ _ _ D)|now apply bits_bytes; [apply land_256|..]].
  - with_arg A x. with_arg A y. apply M; [f_equal; now apply (dk_or _ _ _ D)|now apply bits_bytes; [apply lor_256|..]].
  - with_arg A x. with_arg A y. apply M; [f_equal; now apply (dk_xor _ _ _ D)|now apply xor_bytes].
  - with_arg A x. rewrite <- (not_255 b) by apply B. apply M; [f_equal; now apply (dk_not _ _ _ D)|]. destruct B as [L F]. split; [now rewrite map_length|]. rewrite (not_255 b F).
    apply Forall_map. eapply Forall_impl; [|exact F]. intros z Hz. now apply lxor_256.
  - with_arg A x. with_arg A y. apply ST; [now apply (dk_and _ _ _ D)|now apply bits_bytes; [apply land_256|..]].
  - with_arg A x. with_arg A y. apply ST; [now apply (dk_or _ _ _ D)|now apply bits_bytes; [apply lor_256|..]].
  - with_arg A x. with_arg A y. apply ST; [now apply (dk_xor _ _ _ D)|now apply xor_bytes].
  - with_arg A x. with_arg A k. apply M; [f_equal; apply LO; [rewrite <- (ft_enc _ _ FT); apply RO|assumption..]|apply BL; [rewrite <- (ft_enc _ _ FT); apply S0|assumption..]].
  - with_arg A x. with_arg A k. apply M; [f_equal; apply LO; [rewrite <- (ft_dec _ _ FT); apply RO|assumption..]|apply BL; [rewrite <- (ft_dec _ _ FT); apply S0|assumption..]].
  - with_arg A x. with_arg A k. apply M; [f_equal; apply LO; [rewrite <- (ft_enc_last _ _ FT); apply RO|assumption..]|apply BL; [rewrite <- (ft_enc_last _ _ FT); apply S0|assumption..]].
  - with_arg A x. with_arg A k. apply M; [f_equal; apply LO; [rewrite <- (ft_dec_last _ _ FT); apply RO|assumption..]|apply BL; [rewrite <- (ft_dec_last _ _ FT); apply S0|assumption..]].
  - apply (CH false). intros y keys. apply (ko_chain_enc _ _ _ KO).
  - apply (CH true). intros y keys. apply (ko_chain_dec _ _ _ KO).
  - with_arg A x. apply (Sy _ _ _ b); [now apply (to_bytes_ok _ (group_len g))|reflexivity].
  - with_arg A x. rewrite (dk_store _ _ _ D) by assumption.
    destruct (Nat.leb_spec (group_len g) (length dst)), (Nat.ltb_spec (length dst) (group_len g)); try lia; now split.
  - with_arg A x. eapply Sy; [reflexivity|]. f_equal. apply bool_iff. now apply (dk_is_zero _ _ _ D).
  - with_arg A x. with_arg A y. eapply Sy; [reflexivity|]. f_equal. apply bool_iff. now apply (dk_eq _ _ _ D).
  - with_arg A x. eapply Sy; [now apply (ko_debug _ _ _ KO)|reflexivity].
  - pose proof (sim_nth v w e Hs) as Q. destruct (nth_error v e) as [ve|], (nth_error w e) as [we|]; try contradiction; [|exact I].
    destruct Q as [? ?|? ?|? ?|k rks G|k rks G]; try exact I. with_arg A x. rewrite (each_block_lanes' (blocks_in g)) by (rewrite <- G16; apply B).
    assert (X : concat (map (b_encrypt s k rks) (lanes (blocks_in g) b)) = concat (map (fl_encrypt fl k rks) (lanes (blocks_in g) b))).
    { f_equal. apply map_ext_Forall. rewrite G16 in B. eapply Forall_impl; [|apply lanes_bytes, B]. intros y Hy. now apply (ft_encrypt _ _ FT). }
    apply M; [rewrite <- X; now apply (ko_encrypt _ _ _ KO)|]. rewrite G16 in *. rewrite <- X.
    assert (Z : Forall (is_bytes 16) (map (b_encrypt s k rks) (lanes (blocks_in g) b))).
    { apply Forall_map. eapply Forall_impl; [|apply lanes_bytes, B]. intros y Hy. apply b_run_bytes; try assumption; try apply S0. now apply pre1_ok. }
    apply concat_bytes in Z. now rewrite map_length, lanes_length in Z.
  - pose proof (sim_nth v w d Hs) as Q. destruct (nth_error v d) as [ve|], (nth_error w d) as [we|]; try contradiction; [|exact I].
    destruct Q as [? ?|? ?|? ?|k rks G|k rks G]; try exact I. with_arg A x. rewrite (each_block_lanes' (blocks_in g)) by (rewrite <- G16; apply B).
    assert (X : concat (map (b_decrypt s k rks) (lanes (blocks_in g) b)) = concat (map (fl_decrypt fl k rks) (lanes (blocks_in g) b))).
    { f_equal. apply map_ext_Forall. rewrite G16 in B. eapply Forall_impl; [|apply lanes_bytes, B]. intros y Hy. now apply (ft_decrypt _ _ FT). }
    apply M; [rewrite <- X; now apply (ko_decrypt _ _ _ KO)|]. rewrite G16 in *. rewrite <- X.
    assert (Z : Forall (is_bytes 16) (map (b_decrypt s k rks) (lanes (blocks_in g) b))).
    { apply Forall_map. eapply Forall_impl; [|apply lanes_bytes, B]. intros y Hy. apply b_run_bytes; try assumption; try apply S0. now apply pre1_ok. }
    apply concat_bytes in Z. now rewrite map_length, lanes_length in Z.
Qed.

Lemma sim_length v w : sim v w -> List.length v = List.length w.
Proof. intros H. induction H; cbn; congruence. Qed.
Lemma made1 {A} v w (r : outcome A) (h : A -> list (var i)) x l' : sim v w -> r = Ret x -> sim (h x) l' ->
  res_ok (result_of i v r (fun a => (Made (List.length (h a)), v ++ h a))) (Some (Made (List.length l'), w ++ l')).
Proof. intros Hs -> H. split; [f_equal; now apply sim_length|]. now apply sim_app. Qed.
Lemma keys_text alt w name rks k : good_keys k rks ->
  debug_struct1 name "round_keys"%string (debug_array (map (fmt_debug i) (map f1 rks))) (FOpts alt w) = Ret (object_text alt name (map of_be rks)).
Proof. intros G. rewrite (debug_object i f1 (R_d1 _ _ _ _ _ R)) by (apply G || now apply (good_ne k)). reflexivity. Qed.

Lemma step_ok v w c : sim v w -> typed c = true -> res_ok (crate i v c) (library fl w c).
Proof.
  intros Hs Ht.
  pose proof (arg_ok _ _ _ kind1_ok v w Hs) as A1. pose proof (arg_ok _ _ _ kind2_ok v w Hs) as A2. pose proof (arg_ok _ _ _ kind4_ok v w Hs) as A4.
  cbn [kind1 kind2 kind4 k_get k_type group_len] in A1, A2, A4. pose proof (R_d1 _ _ _ _ _ R) as D.
  assert (one : forall a b, rel a b -> sim [a] [b]) by (intros; constructor; [assumption|constructor]).
  destruct c; cbn [crate library typed] in *.
  - destruct g; [apply (on_ok (kind1 i) One f1)|apply (on_ok (kind2 i) Two f2)|apply (on_ok (kind4 i) Four f4)]; try assumption; [apply kind1_ok|apply kind2_ok|apply kind4_ok].
  - apply N.ltb_lt in Ht. assert (B : is_bytes 16 (to_be 16 v0)) by (split; [unfold to_be; rewrite rev_length; apply to_le_length|unfold to_be; apply bytes_ok_rev, to_le_ok]).
    apply (made1 v w _ (fun x => [V1 x]) (f1 (to_be 16 v0))); [exact Hs|unfold of_u128; now apply (dk_from _ _ _ D)|]. apply one. now constructor.
  - with_arg A1 x. apply (says_ok v w Hs) with (x := of_be b); [now apply (to_u128_f i f1 D)|reflexivity].
  - with_arg A1 x. rewrite <- (ft_mc _ _ FT). apply (made1 v w _ (fun x => [V1 x]) (f1 (s_mc s b))); [exact Hs|now rewrite (R_mc _ _ _ _ _ R)|].
    apply one. constructor. now apply S0.
  - with_arg A1 x. rewrite <- (ft_imc _ _ FT). apply (made1 v w _ (fun x => [V1 x]) (f1 (s_imc s b))); [exact Hs|now rewrite (R_imc _ _ _ _ _ R)|].
    apply one. constructor. now apply S0.
  - with_arg A1 x. destruct st.
    + eapply (says_ok v w Hs); [now apply (lower_f i f1 D)|reflexivity].
    + eapply (says_ok v w Hs); [now apply (upper_f i f1 D)|reflexivity].
    + eapply (says_ok v w Hs); [now apply (binary_f i f1 D)|reflexivity].
    + eapply (says_ok v w Hs); [now apply (display_f i f1 D)|reflexivity].
  - with_arg A1 a. with_arg A1 b. apply (made1 v w _ (fun x => [V2 x]) (f2 (b0 ++ b1))); [exact Hs|now rewrite (R_x2_of_pair _ _ _ _ _ R)|].
    apply one. constructor. now apply (is_bytes_app 16 16).
  - with_arg A1 a. apply (made1 v w _ (fun x => [V2 x]) (f2 (b ++ b))); [exact Hs|now rewrite (R_x2_of_block _ _ _ _ _ R)|].
    apply one. constructor. now apply (is_bytes_app 16 16).
  - with_arg A2 x. destruct (split2 _ B) as (p & q & P & Q & ->). rewrite lanes2 by assumption.
    apply (made1 v w _ (fun p => let '(a, b) := p in [V1 a; V1 b]) (f1 p, f1 q) [ABlock One p; ABlock One q]); [exact Hs|now rewrite (R_x2_to_pair _ _ _ _ _ R)|].
    repeat (apply Forall2_cons; [constructor; assumption|]); apply Forall2_nil.
  - with_arg A1 a. with_arg A1 b. with_arg A1 c. with_arg A1 d. apply (made1 v w _ (fun x => [V4 x]) (f4 (b0 ++ b1 ++ b2 ++ b3))); [exact Hs|now rewrite (R_x4_of_quad _ _ _ _ _ R)|].
    apply one. constructor. repeat apply (is_bytes_app 16); assumption.
  - with_arg A2 a. with_arg A2 b. apply (made1 v w _ (fun x => [V4 x]) (f4 (b0 ++ b1))); [exact Hs|now rewrite (R_x4_of_pair _ _ _ _ _ R)|].
    apply one. constructor. now apply (is_bytes_app 32 32).
  - with_arg A1 a. apply (made1 v w _ (fun x => [V4 x]) (f4 (b ++ b ++ b ++ b))); [exact Hs|now rewrite (R_x4_of_block _ _ _ _ _ R)|].
    apply one. constructor. repeat apply (is_bytes_app 16); assumption.
  - with_arg A2 a. apply (made1 v w _ (fun x => [V4 x]) (f4 (b ++ b))); [exact Hs|now rewrite (R_x4_of_x2 _ _ _ _ _ R)|].
    apply one. constructor. now apply (is_bytes_app 32 32).
  - with_arg A4 x. destruct (split4 _ B) as (p & q & r & t & P & Q & U & V & ->). rewrite lanes4 by assumption.
    apply (made1 v w _ (fun p => let '(a, b, c, d) := p in [V1 a; V1 b; V1 c; V1 d]) (f1 p, f1 q, f1 r, f1 t) [ABlock One p; ABlock One q; ABlock One r; ABlock One t]);
      [exact Hs|now rewrite (R_x4_to_quad _ _ _ _ _ R)|]. repeat (apply Forall2_cons; [constructor; assumption|]); apply Forall2_nil.
  - with_arg A4 x. destruct (split22 _ B) as (p & q & P & Q & ->). 
    assert (E32 : List.length p = 32%nat) by apply P. replace (firstn 32 (p ++ q)) with p by (rewrite <- E32; now rewrite firstn_app, firstn_all, Nat.sub_diag, app_nil_r).
    replace (skipn 32 (p ++ q)) with q by (rewrite <- E32; now rewrite skipn_app, skipn_all, Nat.sub_diag).
    apply (made1 v w _ (fun p => let '(a, b) := p in [V2 a; V2 b]) (f2 p, f2 q) [ABlock Two p; ABlock Two q]); [exact Hs|now rewrite (R_x4_to_pair _ _ _ _ _ R)|].
    repeat (apply Forall2_cons; [constructor; assumption|]); apply Forall2_nil.
  - apply is_bytesb_correct in Ht. pose proof (so_keys _ S0 k key Ht) as G. rewrite <- (ft_keys _ _ FT) by assumption.
    apply (made1 v w _ (fun e => [VE k e]) (EncObj (map f1 (s_keys s k key)))); [exact Hs|now rewrite (enc_new_ok _ _ _ _ _ R)|].
    apply one. now constructor.
  - apply is_bytesb_correct in Ht. pose proof (so_keys _ S0 k key Ht) as G. rewrite <- (ft_keys _ _ FT), <- (ft_imc _ _ FT) by assumption. rewrite reversed_swap.
    apply (made1 v w _ (fun e => [VD k e]) (DecObj (map f1 (b_swap (s_imc s) (s_keys s k key))))); [exact Hs| |apply one; constructor; apply b_swap_good; [apply S0|exact G]].
    now rewrite (dec_new_ok _ _ _ _ _ R S0).
  - pose proof (sim_nth v w e Hs) as Q. destruct (nth_error v e) as [ve|], (nth_error w e) as [we|]; try contradiction; [|exact I].
    destruct Q as [? ?|? ?|? ?|k rks G|k rks G]; try exact I. rewrite <- (ft_imc _ _ FT), reversed_swap.
    apply (made1 v w _ (fun d => [VD k d]) (DecObj (map f1 (b_swap (s_imc s) rks)))); [exact Hs| |apply one; constructor; apply b_swap_good; [apply S0|exact G]].
    now rewrite (decrypter_ok _ _ _ _ _ R).
  - pose proof (sim_nth v w d Hs) as Q. destruct (nth_error v d) as [ve|], (nth_error w d) as [we|]; try contradiction; [|exact I].
    destruct Q as [? ?|? ?|? ?|k rks G|k rks G]; try exact I. rewrite <- (ft_mc _ _ FT), reversed_swap.
    apply (made1 v w _ (fun d => [VE k d]) (EncObj (map f1 (b_swap (s_mc s) rks)))); [exact Hs| |apply one; constructor; apply b_swap_good; [apply S0|exact G]].
    now rewrite (encrypter_ok _ _ _ _ _ R).
  - pose proof (sim_nth v w x Hs) as Q. destruct (nth_error v x) as [ve|], (nth_error w x) as [we|]; try contradiction; [|exact I].
    destruct Q as [? ?|? ?|? ?|k rks G|k rks G]; try exact I.
    + eapply (says_ok v w Hs); [unfold fmt_debug_enc; cbn [enc_keys]; now apply (keys_text _ _ _ _ k)|]. destruct k; reflexivity.
    + eapply (says_ok v w Hs); [unfold fmt_debug_dec; cbn [dec_keys]; now apply (keys_text _ _ _ _ k)|]. destruct k; reflexivity.
  - pose proof (sim_nth v w x Hs) as Q. destruct (nth_error v x) as [ve|], (nth_error w x) as [we|]; try contradiction; [|exact I].
    cbn [obind]. apply (made1 v w (Ret ve) (fun v => [v]) ve [we]); [exact Hs|reflexivity|]. now apply one.
Qed.

Lemma play_ok p : forall v w, sim v w -> play (crate i) v p = play (library fl) w p.
Proof.
  induction p as [|c next IH]; intros v w Hs; [reflexivity|]. cbn [play].
  destruct (typed c) eqn:Ht.
  - pose proof (step_ok v w c Hs Ht) as Q. destruct (crate i v c) as [[a v']|], (library fl w c) as [[a' w']|]; try contradiction.
    + destruct Q as [<- Q]. f_equal. now apply IH.
    + f_equal. now apply IH.
  - f_equal. now apply IH.
Qed.
End Sim.

(** ** The three flavours *)
Lemma fold_lane_1 m g l x : bop_ok g -> is_bytes (16 * m) x -> Forall (is_bytes (16 * m)) l -> is_bytes (16 * m) (fold_left (on_lanes m g) l x).
Proof. apply fold_bytes. Qed.
Lemma fips_fits pre keys fl : pre_fips pre ->
  fl_dec fl = spec_dec -> fl_dec_last fl = spec_dec_last -> fl_mc fl = mix_columns -> fl_imc fl = inv_mix_columns ->
  fl_chain fl = std_chain -> (forall k key, is_bytes (key_len k) key -> keys k key = fl_keys fl k key) -> fl_encrypt fl = cipher_with -> fl_decrypt fl = eq_inv_cipher ->
  fits (fips_sem pre keys) fl.
Proof.
  intros Hpre H1 H2 H3 H4 H5 H6 H7 H8. constructor; try reflexivity; try (symmetry; assumption).
  - intros dec m x ks Hx Hk Ne. rewrite H5, H1. destruct ks as [|k0 r]; [congruence|]. cbn [std_chain].
    set (round := if dec then spec_dec else spec_enc).
    assert (Hr : bop_ok round) by (unfold round; destruct dec; [apply spec_dec_bop|apply spec_enc_bop]).
    split.
    + transitivity (s_chain m None round x (k0 :: r)); [|reflexivity].
      destruct Hpre as [-> | ->].
      * subst round. destruct dec; reflexivity.
      * refine (eq_trans _ (lanes_pre m dec x (k0 :: r) Hx Hk Ne)). destruct dec; reflexivity.
    + inversion Hk; subst. apply fold_bytes; [assumption|now apply xor_bytes|assumption].
  - exact H6.
  - intros k rks x G Hx. rewrite H7, cipher_with_g by assumption. now apply b_encrypt_cipher.
  - intros k rks x G Hx. rewrite H8. unfold eq_inv_cipher, b_decrypt, b_run, fips_sem, s_pre1. cbn [s_pre s_dec s_dec_last].
    destruct (good_first k rks G) as (F & Ne & Hn). rewrite (b_chain_pre_spec pre spec_dec x _ true) by (assumption || reflexivity). reflexivity.
Qed.
Lemma rv32_fits : fits rv32_exact riscv32.
Proof.
  constructor; try reflexivity.
  - intros dec m x ks Hx Hk Ne. destruct ks as [|k0 r]; [congruence|]. split; [destruct dec; reflexivity|].
    cbn [riscv32 fl_chain fl_dec]. unfold rv32_chain. apply xor_bytes.
    + apply fold_bytes; [destruct dec; [apply rv32_dec_bytes|apply spec_enc_bop]|assumption|]. rewrite removelast_firstn_pred. now apply Forall_firstn'.
    + apply (Forall_last (is_bytes (16 * m))); [assumption|discriminate].
  - intros k rks x G Hx. now apply rv32_b_encrypt.
Qed.
Lemma every_build c i : rustc_ok c = true -> impl_of c = Some i -> exists f1 f2 f4 s, refines i f1 f2 f4 s /\ sem_ok s /\ fits s (flavour_of c).
Proof.
  intros RO E. unfold flavour_of. destruct (rv32_zk c) eqn:C1.
  - destruct (rv32_inst c i E C1) as (f1 & f2 & f4 & R). exists f1, f2, f4, rv32_exact. split; [exact R|]. split; [apply rv32_exact_ok|apply rv32_fits].
  - destruct (be_constant_time c) eqn:C2.
    + destruct (be_inst c i RO E C2) as (f1 & f2 & f4 & R). exists f1, f2, f4, be_exact. split; [exact R|]. split; [apply be_exact_ok|]. apply fips_fits; try reflexivity. now left.
    + destruct (inst c i E C1) as (pre & keys & f1 & f2 & f4 & P & K & S1 & R). exists f1, f2, f4, (fips_sem pre keys). split; [exact R|]. split; [exact S1|].
      apply fips_fits; try reflexivity; [exact P|]. intros k key _. rewrite K; [reflexivity|]. unfold conforming. now rewrite C1, C2.
Qed.
