(** The crate simulates the ideal library of Spec_Client. *)
From Coq Require Import Lia Arith String.
From Verif Require Import Word Interface Fips197 Spec_Api Spec_Reach Spec_Cfg Spec_User Spec_Fmt Spec_Client Model_Lib Model_Cfg Model_Fmt Model_Client.
From Verif Require Import Proof_Shape Proof_Word Proof_Fips Proof_Ok Proof_Sem Proof_Lib Proof_Reach Proof_Inst Proof_Cipher Proof_KeySpec Proof_Main Proof_Fmt Props_Rounds Props_Fmt.
Open Scope N_scope.
Open Scope list_scope.

Lemma group_len_16 g : group_len g = (16 * blocks_in g)%nat. Proof. now destruct g. Qed.
Lemma group_eqb_ok g h : group_eqb g h = true -> h = g. Proof. now destruct g, h. Qed.
Lemma not_255 l : Forall (fun b => b < 256) l -> map (bnot 8) l = map (N.lxor 255) l.
Proof. intros H. apply map_ext_Forall. eapply Forall_impl; [|exact H]. intros b Hb. apply N.lxor_comm. Qed.
Lemma inverse_keys_swap k key : is_bytes (key_len k) key -> inverse_round_keys k key = b_swap inv_mix_columns (round_keys k key).
Proof.
  intros H. destruct (round_keys_good k key H) as [L _]. unfold inverse_round_keys, b_swap. rewrite L. apply map_ext. intros j.
  replace (nr_of k + 1 - 1)%nat with (nr_of k) by lia. reflexivity.
Qed.
Lemma each_block_lanes' m h x : length x = (16 * m)%nat -> each_block h x = concat (map h (lanes m x)).
Proof. intros L. unfold each_block, lanes. rewrite L. rewrite Nat.mul_comm, Nat.div_mul by lia. reflexivity. Qed.

Section Sim.
Context (i : impl) (f1 : list N -> T1 i) (f2 : list N -> T2 i) (f4 : list N -> T4 i) (s : sem) (R : refines i f1 f2 f4 s) (S0 : sem_ok s).
Context (l : level) (Henc : s_enc s = spec_enc) (Henc_last : s_enc_last s = spec_enc_last).
Context (Hfull : l <> Encrypt_rounds_only -> exists pre keys, pre_fips pre /\ s = fips_sem pre keys) (Hkeys : l = Full -> s_keys s = round_keys).

Inductive rel : var i -> value -> Prop :=
| rel_1 b : is_bytes 16 b -> rel (V1 (f1 b)) (Block One b)
| rel_2 b : is_bytes 32 b -> rel (V2 (f2 b)) (Block Two b)
| rel_4 b : is_bytes 64 b -> rel (V4 (f4 b)) (Block Four b)
| rel_E k key : is_bytes (key_len k) key -> rel (VE k (EncObj (map f1 (round_keys k key)))) (EncKey k key)
| rel_D k key : is_bytes (key_len k) key -> rel (VD k (DecObj (map f1 (inverse_round_keys k key)))) (DecKey k key).
Definition sim : list (var i) -> list value -> Prop := Forall2 rel.
Definition res_ok (r : option (answer * list (var i))) (r' : option (answer * list value)) : Prop :=
  match r, r' with Some (a, v), Some (a', v') => a = a' /\ sim v v' | None, None => True | _, _ => False end.

Lemma sim_nth v w x : sim v w -> match nth_error v x, nth_error w x with Some a, Some b => rel a b | None, None => True | _, _ => False end.
Proof. intros H. revert x. induction H; intros [|n]; cbn; auto. apply IHForall2. Qed.
Lemma sim_app v w a b : sim v w -> sim a b -> sim (v ++ a) (w ++ b). Proof. apply Forall2_app. Qed.
Lemma sim_assign v w x a b : sim v w -> rel a b -> sim (assign v x a) (assign w x b).
Proof.
  intros H Hab. unfold assign. apply Forall2_app.
  - revert x. induction H; intros [|n]; cbn; constructor; auto.
  - constructor; [assumption|]. revert x. induction H; intros n; cbn; [constructor|]. destruct n; [assumption|apply IHForall2].
Qed.

(** What is common to the three block types. *)
Record kind_ok (K : kind i) (g : group) (f : list N -> k_type i K) : Prop := {
  ko_data : data_ok (k_ops i K) (group_len g) f;
  ko_put : forall b, is_bytes (group_len g) b -> rel (k_put i K (f b)) (Block g b);
  ko_get : forall v w, rel v w -> match k_get i K v, (match w with Block h b => if group_eqb g h then Some b else None | _ => None end) with
     | Some x, Some b => x = f b /\ is_bytes (group_len g) b | None, None => True | _, _ => False end;
  ko_rounds : rounds_ok (k_ops i K) (blocks_in g) f s;
  ko_chain_enc : forall x keys, is_bytes (group_len g) x -> Forall (is_bytes (group_len g)) keys ->
     k_chain_enc i K (f x) (map f keys) = omap f (s_chain (blocks_in g) (s_pre1 s false) (s_enc s) x keys);
  ko_chain_dec : forall x keys, is_bytes (group_len g) x -> Forall (is_bytes (group_len g)) keys ->
     k_chain_dec i K (f x) (map f keys) = omap f (s_chain (blocks_in g) (s_pre1 s true) (s_dec s) x keys);
  ko_encrypt : forall k rks x, good_keys k rks -> is_bytes (group_len g) x ->
     k_encrypt i K k (EncObj (map f1 rks)) (f x) = Ret (f (concat (map (b_encrypt s k rks) (lanes (blocks_in g) x))));
  ko_decrypt : forall k rks x, good_keys k rks -> is_bytes (group_len g) x ->
     k_decrypt i K k (DecObj (map f1 rks)) (f x) = Ret (f (concat (map (b_decrypt s k rks) (lanes (blocks_in g) x))));
  ko_debug : forall x alt w, is_bytes (group_len g) x -> k_debug i K (f x) (FOpts alt w) =
     Ret (match g with One => hex_of alt (of_be x) | _ => tuple_text alt (map of_be (lanes (blocks_in g) x)) end)
}.

Lemma debug_tuple_ok alt w rks : rks <> [] -> Forall (is_bytes 16) rks ->
  debug_tuple (map (fmt_debug i) (map f1 rks)) (FOpts alt w) = Ret (tuple_text alt (map of_be rks)).
Proof.
  intros Hne F. unfold debug_tuple. rewrite (all_debug i f1 (R_d1 _ _ _ _ _ R)) by assumption. cbn [bind]. f_equal. unfold tuple_text. cbn [f_alternate].
  assert (Hne' : map of_be rks <> []) by (destruct rks; [congruence|discriminate]). destruct alt.
  - rewrite entries_pretty by assumption. rewrite sapp_assoc. reflexivity.
  - now rewrite entries_plain.
Qed.
Lemma lanes2 a b : is_bytes 16 a -> is_bytes 16 b -> lanes 2 (a ++ b) = [a; b].
Proof. intros A B. pose proof (lanes_concat [a; b] ltac:(auto)) as X. cbn [length concat] in X. now rewrite app_nil_r in X. Qed.
Lemma lanes4 a b c d : is_bytes 16 a -> is_bytes 16 b -> is_bytes 16 c -> is_bytes 16 d -> lanes 4 (a ++ b ++ c ++ d) = [a; b; c; d].
Proof. intros A B C D. pose proof (lanes_concat [a; b; c; d] ltac:(auto)) as X. cbn [length concat] in X. now rewrite app_nil_r in X. Qed.

Lemma kind1_ok : kind_ok (kind1 i) One f1.
Proof.
  constructor; cbn [kind1 k_ops k_put k_get k_chain_enc k_chain_dec k_encrypt k_decrypt k_debug k_type group_len blocks_in].
  - apply R.
  - intros b B. now constructor.
  - intros v w H. destruct H; cbn; auto.
  - apply R.
  - intros x keys Hx Hk. now apply (chain_enc1_ok _ _ _ _ _ R S0).
  - intros x keys Hx Hk. now apply (chain_dec1_ok _ _ _ _ _ R S0).
  - intros k rks x G Hx. rewrite (encrypt_block_ok _ _ _ _ _ R S0) by assumption. rewrite lanes_1 by apply Hx. cbn. now rewrite app_nil_r.
  - intros k rks x G Hx. rewrite (decrypt_block_ok _ _ _ _ _ R S0) by assumption. rewrite lanes_1 by apply Hx. cbn. now rewrite app_nil_r.
  - intros x alt w Hx. now rewrite (debug_f i f1 (R_d1 _ _ _ _ _ R)) by assumption.
Qed.
Lemma kind2_ok : kind_ok (kind2 i) Two f2.
Proof.
  constructor; cbn [kind2 k_ops k_put k_get k_chain_enc k_chain_dec k_encrypt k_decrypt k_debug k_type group_len blocks_in].
  - apply R.
  - intros b B. now constructor.
  - intros v w H. destruct H; cbn; auto.
  - apply R.
  - intros x keys Hx Hk. now apply (chain_enc2_ok _ _ _ _ _ R S0).
  - intros x keys Hx Hk. now apply (chain_dec2_ok _ _ _ _ _ R S0).
  - intros k rks x G Hx. now apply (encrypt_2_ok _ _ _ _ _ R S0).
  - intros k rks x G Hx. now apply (decrypt_2_ok _ _ _ _ _ R S0).
  - intros x alt w Hx. destruct (split2 _ Hx) as (a & b & A & B & ->). unfold fmt_debug_x2. rewrite (R_x2_to_pair _ _ _ _ _ R) by assumption.
    rewrite lanes2 by assumption. apply (debug_tuple_ok alt w [a; b]); [discriminate|auto].
Qed.
Lemma kind4_ok : kind_ok (kind4 i) Four f4.
Proof.
  constructor; cbn [kind4 k_ops k_put k_get k_chain_enc k_chain_dec k_encrypt k_decrypt k_debug k_type group_len blocks_in].
  - apply R.
  - intros b B. now constructor.
  - intros v w H. destruct H; cbn; auto.
  - apply R.
  - intros x keys Hx Hk. now apply (chain_enc4_ok _ _ _ _ _ R S0).
  - intros x keys Hx Hk. now apply (chain_dec4_ok _ _ _ _ _ R S0).
  - intros k rks x G Hx. now apply (encrypt_4_ok _ _ _ _ _ R S0).
  - intros k rks x G Hx. now apply (decrypt_4_ok _ _ _ _ _ R S0).
  - intros x alt w Hx. destruct (split4 _ Hx) as (a & b & c & d & A & B & C & D & ->). unfold fmt_debug_x4. rewrite (R_x4_to_quad _ _ _ _ _ R) by assumption.
    rewrite lanes4 by assumption. apply (debug_tuple_ok alt w [a; b; c; d]); [discriminate|auto].
Qed.

Section OnKind.
Context (K : kind i) (g : group) (f : list N -> k_type i K) (KO : kind_ok K g f).
Context (v : list (var i)) (w : list value) (Hs : sim v w).
Lemma arg_ok x : (exists b, is_bytes (group_len g) b /\ obind (nth_error v x) (k_get i K) = Some (f b) /\ block_at w g x = Some b) \/
  (obind (nth_error v x) (k_get i K) = None /\ block_at w g x = None).
Proof.
  pose proof (sim_nth v w x Hs) as H. unfold block_at. destruct (nth_error v x) as [a|], (nth_error w x) as [b|]; cbn [obind]; try contradiction; [|now right].
  pose proof (ko_get _ _ _ KO a b H) as Q. destruct (k_get i K a) as [y|].
  - left. destruct b as [h b|k key|k key]; [|contradiction|contradiction]. destruct (group_eqb g h); [|contradiction]. destruct Q as [-> Q]. now exists b.
  - right. split; [reflexivity|]. destruct b as [h b|k key|k key]; auto. destruct (group_eqb g h); [contradiction|reflexivity].
Qed.
Lemma args_ok xs : (exists bs, Forall (is_bytes (group_len g)) bs /\ oall (map (fun x => obind (nth_error v x) (k_get i K)) xs) = Some (map f bs) /\ oall (map (block_at w g) xs) = Some bs) \/
  (oall (map (fun x => obind (nth_error v x) (k_get i K)) xs) = None /\ oall (map (block_at w g) xs) = None).
Proof.
  induction xs as [|x xs IH]; [left; exists []; now repeat split|]. cbn [map oall fold_right].
  destruct (arg_ok x) as [(b & B & -> & ->)|[-> ->]]; [|now right]. cbn [obind].
  destruct IH as [(bs & F & E1 & E2)|[E1 E2]]; fold (@oall (k_type i K)) in *; unfold oall in E1, E2; rewrite E1, E2; [left|now right].
  exists (b :: bs). split; [now constructor|]. now split.
Qed.
Lemma made_ok r b : r = Ret (f b) -> is_bytes (group_len g) b ->
  res_ok (result_of i v r (fun x => (Made 1, v ++ [k_put i K x]))) (Some (Made 1, w ++ [Block g b])).
Proof. intros -> B. split; [reflexivity|]. apply sim_app; [exact Hs|]. constructor; [|constructor]. now apply (ko_put _ _ _ KO). Qed.
Lemma says_ok {A} (r : outcome A) (h : A -> answer) x a : r = Ret x -> h x = a -> res_ok (result_of i v r (fun a => (h a, v))) (Some (a, w)).
Proof. intros -> <-. now split. Qed.
Lemma sets_ok x r b : r = f b -> is_bytes (group_len g) b -> res_ok (Some (Made 0, assign v x (k_put i K r))) (Some (Made 0, assign w x (Block g b))).
Proof. intros -> B. split; [reflexivity|]. apply sim_assign; [exact Hs|]. now apply (ko_put _ _ _ KO). Qed.
End OnKind.

Ltac with_arg L x := let b := fresh "b" in let B := fresh "B" in
  destruct (L x) as [(b & B & -> & ->)|[-> ->]]; [cbn [obind]|exact I].

Lemma bits_bytes n (h : N -> N -> N) a b : (forall x y, x < 256 -> y < 256 -> h x y < 256) -> is_bytes n a -> is_bytes n b -> is_bytes n (map2 h a b).
Proof.
  intros H [La Fa] [Lb Fb]. split; [rewrite map2_length; lia|]. clear La Lb. revert b Fb. induction Fa; intros [|y b] Fb; cbn; constructor; inversion Fb; subst; auto.
Qed.
Lemma land_256 x y : x < 256 -> y < 256 -> N.land x y < 256.
Proof. intros Hx Hy. change 256 with (2 ^ 8) in *. now apply land_lt. Qed.
Lemma lor_256 x y : x < 256 -> y < 256 -> N.lor x y < 256.
Proof. intros Hx Hy. change 256 with (2 ^ 8) in *. apply lor_lt; assumption. Qed.
Lemma lxor_256 x y : x < 256 -> y < 256 -> N.lxor x y < 256.
Proof. intros Hx Hy. change 256 with (2 ^ 8) in *. apply lxor_lt; assumption. Qed.

Lemma try_from_ok {T} (o : ops T) n (f : list N -> T) dbg t : data_ok o n f -> bytes_ok t ->
  try_from o dbg t = Ret (if Nat.ltb (length t) n then Err (length t) else Ok (f (firstn n t))) /\ (Nat.ltb (length t) n = false -> is_bytes n (firstn n t)).
Proof.
  intros D F.
  assert (B : Nat.ltb (length t) n = false -> is_bytes n (firstn n t)).
  { intros H. apply Nat.ltb_ge in H. split; [rewrite firstn_length; lia|now apply bytes_ok_firstn]. }
  split; [|exact B]. unfold try_from, try_from_slice. rewrite (dk_size _ _ _ D).
  destruct (Nat.ltb (length t) n) eqn:E.
  - apply Nat.ltb_lt in E. destruct (Nat.leb_spec n (length t)); [lia|reflexivity].
  - specialize (B eq_refl). apply Nat.ltb_ge in E. destruct (Nat.leb_spec n (length t)) as [Hl|]; [|lia].
    unfold array_from_slice, raw_read. cbn [Nat.add]. rewrite (proj2 (Nat.leb_le n (length t)) Hl). rewrite andb_false_r. cbn [negb bind skipn].
    rewrite (dk_from _ _ _ D) by exact B. reflexivity.
Qed.
Lemma bool_iff (a : bool) (P : Prop) (d : {P} + {~ P}) : (a = true <-> P) -> a = (if d then true else false).
Proof. destruct a, d; intros H; try reflexivity; [now exfalso; apply n, H|now apply H]. Qed.

Lemma on_ok K g f v w c : kind_ok K g f -> sim v w -> typed_on g c = true -> permits_on l c = true ->
  res_ok (crate_on i v K c) (ideal_on w g c).
Proof.
  intros KO Hs Ht Hp. pose proof (ko_data _ _ _ KO) as D. pose proof (ko_rounds _ _ _ KO) as RO.
  pose proof (arg_ok K g f KO v w Hs) as A. pose proof (args_ok K g f KO v w Hs) as AS. pose proof (made_ok K g f KO v w Hs) as M.
  pose proof (fun A r h x a => @says_ok v w Hs A r h x a) as Sy. pose proof (sets_ok K g f KO v w Hs) as ST.
  pose proof (group_len_16 g) as G16.
  assert (BL : forall h a b, bop_ok h -> is_bytes (group_len g) a -> is_bytes (group_len g) b -> is_bytes (group_len g) (on_lanes (blocks_in g) h a b)).
  { intros h a b Hh Ha Hb. rewrite G16 in *. now apply on_lanes_bytes. }
  assert (LO : forall op h a b, lane_ok op (blocks_in g) f h -> is_bytes (group_len g) a -> is_bytes (group_len g) b -> op (f a) (f b) = f (on_lanes (blocks_in g) h a b)).
  { intros op h a b H Ha Hb. rewrite G16 in *. now apply H. }
  assert (CH : forall (dec : bool) x ks, permits_on l (if dec then Chain_dec 0 ks else Chain_enc 0 ks) = true ->
     let round := if dec then spec_dec else spec_enc in
     forall ch, (forall x keys, is_bytes (group_len g) x -> Forall (is_bytes (group_len g)) keys ->
        ch (f x) (map f keys) = omap f (s_chain (blocks_in g) (s_pre1 s dec) (if dec then s_dec s else s_enc s) x keys)) ->
     res_ok (obind (obind (nth_error v x) (k_get i K)) (fun a => obind (oall (map (fun x => obind (nth_error v x) (k_get i K)) ks)) (fun l => result_of i v (ch a l) (fun x => (Made 1, v ++ [k_put i K x])))))
            (obind (block_at w g x) (fun a => obind (oall (map (block_at w g) ks)) (fun l =>
               match l with [] => Some (Panics, w) | k0 :: r => Some (Made 1, w ++ [Block g (fold_left (on_lanes (blocks_in g) round) r (map2 N.lxor a k0))]) end)))).
  { intros dec x ks Hpk round ch Hch. destruct (A x) as [(b & B & -> & ->)|[-> ->]]; [cbn [obind]|exact I].
    assert (Lks : forall bs, oall (map (block_at w g) ks) = Some bs -> length bs = length ks).
    { clear. induction ks as [|k ks IH]; intros bs H; [injection H as <-; reflexivity|]. cbn [map oall fold_right] in H. destruct (block_at w g k); [|discriminate]. cbn [obind] in H.
      fold (oall (map (block_at w g) ks)) in H. destruct (oall (map (block_at w g) ks)) as [q|]; [|discriminate]. injection H as <-. cbn. f_equal. now apply IH. }
    destruct (AS ks) as [(bs & F & E1 & E2)|[E1 E2]]; rewrite E1, E2; [cbn [obind]|exact I]. specialize (Lks bs E2).
    rewrite Hch by assumption. destruct bs as [|k0 r].
    - cbn [s_chain map omap]. destruct (s_pre1 s dec); cbn; now split.
    - inversion F as [|? ? F0 Fr]; subst.
      assert (Q : s_chain (blocks_in g) (s_pre1 s dec) (if dec then s_dec s else s_enc s) b (k0 :: r) = Ret (fold_left (on_lanes (blocks_in g) round) r (map2 N.lxor b k0))).
      { assert (C : l <> Encrypt_rounds_only \/ r = []).
        { destruct l; [now left; discriminate|now left; discriminate|]. right. destruct r as [|k1 r]; [reflexivity|]. destruct ks as [|? [|? ?]]; cbn in Lks; try discriminate. destruct dec; discriminate Hpk. }
        destruct C as [C|C].
        - destruct (Hfull C) as (pre & keys & Hpre & Es). rewrite Es. rewrite G16 in *. 
          transitivity (s_chain (blocks_in g) None round b (k0 :: r)); [|reflexivity].
          destruct Hpre as [-> | ->].
          + subst round. destruct dec; reflexivity.
          + refine (eq_trans _ (lanes_pre (blocks_in g) dec b (k0 :: r) B F ltac:(discriminate))). destruct dec; reflexivity.
        - subst r. unfold s_chain. destruct (s_pre1 s dec); reflexivity. }
      rewrite Q. cbn [omap bind]. apply M; [reflexivity|].
      assert (Hr : bop_ok round) by (unfold round; destruct dec; [apply spec_dec_bop|apply spec_enc_bop]).
      rewrite G16 in *. apply fold_bytes; [assumption|now apply xor_bytes|assumption]. }
  destruct c; cbn [crate_on ideal_on typed_on] in *.
  - apply is_bytesb_correct in Ht. apply M; [now apply (dk_new _ _ _ D)|assumption].
  - apply is_bytesb_correct in Ht. apply M; [now apply (dk_from _ _ _ D)|assumption].
  - apply is_bytesb_correct in Ht. apply M; [now apply (dk_from _ _ _ D)|assumption].
  - apply is_bytesb_correct in Ht. destruct (try_from_ok (k_ops i K) _ f (i_dbg i) s0 D (proj2 Ht)) as [-> Q].
    destruct (Nat.ltb (length s0) (group_len g)); [now split|]. apply (M (Ret _)); [reflexivity|now apply Q].
  - apply M; [f_equal; apply (dk_zero _ _ _ D)|apply zeros_bytes].
  - apply M; [f_equal; apply (dk_zero _ _ _ D)|apply zeros_bytes].
  - with_arg A x. with_arg A y. apply M; [f_equal; now apply (dk_and _ _ _ D)|now apply bits_bytes; [apply land_256|..]].
  - with_arg A x. with_arg A y. apply M; [f_equal; now apply (dk_or _ _ _ D)|now apply bits_bytes; [apply lor_256|..]].
  - with_arg A x. with_arg A y. apply M; [f_equal; now apply (dk_xor _ _ _ D)|now apply xor_bytes].
  - with_arg A x. rewrite <- (not_255 b) by apply B. apply M; [f_equal; now apply (dk_not _ _ _ D)|]. destruct B as [L F]. split; [now rewrite map_length|]. rewrite (not_255 b F).
    apply Forall_map. eapply Forall_impl; [|exact F]. intros z Hz. now apply lxor_256.
  - with_arg A x. with_arg A y. apply ST; [now apply (dk_and _ _ _ D)|now apply bits_bytes; [apply land_256|..]].
  - with_arg A x. with_arg A y. apply ST; [now apply (dk_or _ _ _ D)|now apply bits_bytes; [apply lor_256|..]].
  - with_arg A x. with_arg A y. apply ST; [now apply (dk_xor _ _ _ D)|now apply xor_bytes].
  - with_arg A x. with_arg A k. apply M; [f_equal; apply LO; [rewrite <- Henc; apply RO|assumption..]|apply BL; [apply spec_enc_bop|assumption..]].
  - assert (C : l <> Encrypt_rounds_only) by (intros ->; discriminate Hp). destruct (Hfull C) as (pre & keys & Hpre & Es).
    with_arg A x. with_arg A k. apply M; [f_equal; apply LO; [change spec_dec with (s_dec (fips_sem pre keys)); rewrite <- Es; apply RO|assumption..]|apply BL; [apply spec_dec_bop|assumption..]].
  - with_arg A x. with_arg A k. apply M; [f_equal; apply LO; [rewrite <- Henc_last; apply RO|assumption..]|apply BL; [apply spec_enc_last_bop|assumption..]].
  - assert (C : l <> Encrypt_rounds_only) by (intros ->; discriminate Hp). destruct (Hfull C) as (pre & keys & Hpre & Es).
    with_arg A x. with_arg A k. apply M; [f_equal; apply LO; [change spec_dec_last with (s_dec_last (fips_sem pre keys)); rewrite <- Es; apply RO|assumption..]|apply BL; [apply spec_dec_last_bop|assumption..]].
  - apply (CH false); [exact Hp|]. intros y keys. apply (ko_chain_enc _ _ _ KO).
  - apply (CH true); [exact Hp|]. intros y keys. apply (ko_chain_dec _ _ _ KO).
  - with_arg A x. apply (Sy _ _ _ b); [now apply (to_bytes_ok _ (group_len g))|reflexivity].
  - with_arg A x. rewrite (dk_store _ _ _ D) by assumption.
    destruct (Nat.leb_spec (group_len g) (length dst)), (Nat.ltb_spec (length dst) (group_len g)); try lia; now split.
  - with_arg A x. eapply Sy; [reflexivity|]. f_equal. apply bool_iff. now apply (dk_is_zero _ _ _ D).
  - with_arg A x. with_arg A y. eapply Sy; [reflexivity|]. f_equal. apply bool_iff. now apply (dk_eq _ _ _ D).
  - with_arg A x. eapply Sy; [now apply (ko_debug _ _ _ KO)|reflexivity].
  - assert (C : l <> Encrypt_rounds_only) by (intros ->; discriminate Hp). destruct (Hfull C) as (pre & keys & Hpre & Es).
    pose proof (sim_nth v w e Hs) as Q. destruct (nth_error v e) as [ve|], (nth_error w e) as [we|]; try contradiction; [|exact I].
    destruct Q as [? ?|? ?|? ?|k key Hk|k key Hk]; try exact I. with_arg A x. rewrite (each_block_lanes' (blocks_in g)) by (rewrite <- G16; apply B).
    pose proof (round_keys_good k key Hk) as GK.
    assert (X : concat (map (b_encrypt s k (round_keys k key)) (lanes (blocks_in g) b)) = concat (map (aes_encrypt k key) (lanes (blocks_in g) b))).
    { f_equal. apply map_ext_Forall. rewrite G16 in B. eapply Forall_impl; [|apply lanes_bytes, B]. intros y Hy. cbv beta. rewrite Es. now apply b_encrypt_fips. }
    apply M; [rewrite <- X; now apply (ko_encrypt _ _ _ KO)|]. rewrite G16 in *.
    assert (Z : Forall (is_bytes 16) (map (aes_encrypt k key) (lanes (blocks_in g) b))).
    { apply Forall_map. eapply Forall_impl; [|apply lanes_bytes, B]. intros y Hy. now apply aes_encrypt_bytes. }
    apply concat_bytes in Z. now rewrite map_length, lanes_length in Z.
  - assert (C : l <> Encrypt_rounds_only) by (intros ->; discriminate Hp). destruct (Hfull C) as (pre & keys & Hpre & Es).
    pose proof (sim_nth v w d Hs) as Q. destruct (nth_error v d) as [ve|], (nth_error w d) as [we|]; try contradiction; [|exact I].
    destruct Q as [? ?|? ?|? ?|k key Hk|k key Hk]; try exact I. with_arg A x. rewrite (each_block_lanes' (blocks_in g)) by (rewrite <- G16; apply B).
    pose proof (round_keys_good k key Hk) as GK. rewrite (inverse_keys_swap k key Hk).
    assert (GS : good_keys k (b_swap inv_mix_columns (round_keys k key))) by (apply b_swap_good; [apply inv_mix_columns_bytes|assumption]).
    assert (X : concat (map (b_decrypt s k (b_swap inv_mix_columns (round_keys k key))) (lanes (blocks_in g) b)) = concat (map (aes_decrypt k key) (lanes (blocks_in g) b))).
    { f_equal. apply map_ext_Forall. rewrite G16 in B. eapply Forall_impl; [|apply lanes_bytes, B]. intros y Hy. cbv beta. rewrite Es. now apply b_decrypt_fips. }
    apply M; [rewrite <- X; now apply (ko_decrypt _ _ _ KO)|]. rewrite G16 in *.
    assert (Z : Forall (is_bytes 16) (map (aes_decrypt k key) (lanes (blocks_in g) b))).
    { apply Forall_map. eapply Forall_impl; [|apply lanes_bytes, B]. intros y Hy. now apply aes_decrypt_bytes. }
    apply concat_bytes in Z. now rewrite map_length, lanes_length in Z.
Qed.

Lemma sim_length v w : sim v w -> List.length v = List.length w.
Proof. intros H. induction H; cbn; congruence. Qed.
Lemma made1 {A} v w (r : outcome A) (h : A -> list (var i)) x l' : sim v w -> r = Ret x -> sim (h x) l' ->
  res_ok (result_of i v r (fun a => (Made (List.length (h a)), v ++ h a))) (Some (Made (List.length l'), w ++ l')).
Proof. intros Hs -> H. split; [f_equal; now apply sim_length|]. now apply sim_app. Qed.
Lemma keys_text alt w name rks k : good_keys k rks ->
  debug_struct1 name "round_keys"%string (debug_array (map (fmt_debug i) (map f1 rks))) (FOpts alt w) = Ret (object_text alt name (map of_be rks)).
Proof. intros G. rewrite (debug_object i f1 (R_d1 _ _ _ _ _ R)) by (apply G || now apply (good_ne k)). reflexivity. Qed.

Lemma step_ok v w c : sim v w -> typed c = true -> permits l c = true -> res_ok (crate i v c) (ideal w c).
Proof.
  intros Hs Ht Hp.
  pose proof (arg_ok _ _ _ kind1_ok v w Hs) as A1. pose proof (arg_ok _ _ _ kind2_ok v w Hs) as A2. pose proof (arg_ok _ _ _ kind4_ok v w Hs) as A4.
  cbn [kind1 kind2 kind4 k_get k_type group_len] in A1, A2, A4. pose proof (R_d1 _ _ _ _ _ R) as D.
  assert (one : forall a b, rel a b -> sim [a] [b]) by (intros; constructor; [assumption|constructor]).
  assert (Pon : forall g c, permits l (On g c) = true -> permits_on l c = true) by (intros g c0; destruct l; cbn; auto; intros _; destruct c0; reflexivity).
  assert (KF : (exists k key, c = Enc_from k key \/ c = Dec_from k key) -> l = Full).
  { intros (k & key & [-> | ->]); destruct l; try discriminate Hp; reflexivity. }
  destruct c; cbn [crate ideal typed] in *.
  - apply Pon in Hp. destruct g; [apply (on_ok (kind1 i) One f1)|apply (on_ok (kind2 i) Two f2)|apply (on_ok (kind4 i) Four f4)]; try assumption; [apply kind1_ok|apply kind2_ok|apply kind4_ok].
  - apply N.ltb_lt in Ht. assert (B : is_bytes 16 (to_be 16 v0)) by (split; [unfold to_be; rewrite rev_length; apply to_le_length|unfold to_be; apply bytes_ok_rev, to_le_ok]).
    apply (made1 v w _ (fun x => [V1 x]) (f1 (to_be 16 v0))); [exact Hs|unfold of_u128; now apply (dk_from _ _ _ D)|]. apply one. now constructor.
  - with_arg A1 x. apply (says_ok v w Hs) with (x := of_be b); [now apply (to_u128_f i f1 D)|reflexivity].
  - assert (C : l <> Encrypt_rounds_only) by (intros ->; discriminate Hp). destruct (Hfull C) as (pre & keys & Hpre & Es).
    with_arg A1 x. apply (made1 v w _ (fun x => [V1 x]) (f1 (mix_columns b))); [exact Hs|rewrite (R_mc _ _ _ _ _ R) by assumption; rewrite Es; reflexivity|].
    apply one. constructor. now apply mix_columns_bytes.
  - assert (C : l <> Encrypt_rounds_only) by (intros ->; discriminate Hp). destruct (Hfull C) as (pre & keys & Hpre & Es).
    with_arg A1 x. apply (made1 v w _ (fun x => [V1 x]) (f1 (inv_mix_columns b))); [exact Hs|rewrite (R_imc _ _ _ _ _ R) by assumption; rewrite Es; reflexivity|].
    apply one. constructor. now apply inv_mix_columns_bytes.
  - with_arg A1 x. destruct st.
    + eapply (says_ok v w Hs); [now apply (lower_f i f1 D)|reflexivity].
    + eapply (says_ok v w Hs); [now apply (upper_f i f1 D)|reflexivity].
    + eapply (says_ok v w Hs); [now apply (binary_f i f1 D)|reflexivity].
    + eapply (says_ok v w Hs); [now apply (display_f i f1 D)|reflexivity].
  - with_arg A1 a. with_arg A1 b. apply (made1 v w _ (fun x => [V2 x]) (f2 (b0 ++ b1))); [exact Hs|now rewrite (R_x2_of_pair _ _ _ _ _ R)|].
    apply one. constructor. now apply (is_bytes_app 16 16).
  - with_arg A1 a. apply (made1 v w _ (fun x => [V2 x]) (f2 (b ++ b))); [exact Hs|now rewrite (R_x2_of_block _ _ _ _ _ R)|].
    apply one. constructor. now apply (is_bytes_app 16 16).
  - with_arg A2 x. destruct (split2 _ B) as (p & q & P & Q & ->). rewrite lanes2 by assumption.
    apply (made1 v w _ (fun p => let '(a, b) := p in [V1 a; V1 b]) (f1 p, f1 q) [Block One p; Block One q]); [exact Hs|now rewrite (R_x2_to_pair _ _ _ _ _ R)|].
    repeat (apply Forall2_cons; [constructor; assumption|]); apply Forall2_nil.
  - with_arg A1 a. with_arg A1 b. with_arg A1 c. with_arg A1 d. apply (made1 v w _ (fun x => [V4 x]) (f4 (b0 ++ b1 ++ b2 ++ b3))); [exact Hs|now rewrite (R_x4_of_quad _ _ _ _ _ R)|].
    apply one. constructor. repeat apply (is_bytes_app 16); assumption.
  - with_arg A2 a. with_arg A2 b. apply (made1 v w _ (fun x => [V4 x]) (f4 (b0 ++ b1))); [exact Hs|now rewrite (R_x4_of_pair _ _ _ _ _ R)|].
    apply one. constructor. now apply (is_bytes_app 32 32).
  - with_arg A1 a. apply (made1 v w _ (fun x => [V4 x]) (f4 (b ++ b ++ b ++ b))); [exact Hs|now rewrite (R_x4_of_block _ _ _ _ _ R)|].
    apply one. constructor. repeat apply (is_bytes_app 16); assumption.
  - with_arg A2 a. apply (made1 v w _ (fun x => [V4 x]) (f4 (b ++ b))); [exact Hs|now rewrite (R_x4_of_x2 _ _ _ _ _ R)|].
    apply one. constructor. now apply (is_bytes_app 32 32).
  - with_arg A4 x. destruct (split4 _ B) as (p & q & r & t & P & Q & U & V & ->). rewrite lanes4 by assumption.
    apply (made1 v w _ (fun p => let '(a, b, c, d) := p in [V1 a; V1 b; V1 c; V1 d]) (f1 p, f1 q, f1 r, f1 t) [Block One p; Block One q; Block One r; Block One t]);
      [exact Hs|now rewrite (R_x4_to_quad _ _ _ _ _ R)|]. repeat (apply Forall2_cons; [constructor; assumption|]); apply Forall2_nil.
  - with_arg A4 x. destruct (split22 _ B) as (p & q & P & Q & ->). 
    assert (E32 : List.length p = 32%nat) by apply P. replace (firstn 32 (p ++ q)) with p by (rewrite <- E32; now rewrite firstn_app, firstn_all, Nat.sub_diag, app_nil_r).
    replace (skipn 32 (p ++ q)) with q by (rewrite <- E32; now rewrite skipn_app, skipn_all, Nat.sub_diag).
    apply (made1 v w _ (fun p => let '(a, b) := p in [V2 a; V2 b]) (f2 p, f2 q) [Block Two p; Block Two q]); [exact Hs|now rewrite (R_x4_to_pair _ _ _ _ _ R)|].
    repeat (apply Forall2_cons; [constructor; assumption|]); apply Forall2_nil.
  - apply is_bytesb_correct in Ht. assert (L : l = Full) by (apply KF; eauto).
    apply (made1 v w _ (fun e => [VE k e]) (EncObj (map f1 (round_keys k key)))); [exact Hs|rewrite (enc_new_ok _ _ _ _ _ R) by assumption; now rewrite (Hkeys L)|].
    apply one. now constructor.
  - apply is_bytesb_correct in Ht. assert (L : l = Full) by (apply KF; eauto).
    assert (C : l <> Encrypt_rounds_only) by congruence. destruct (Hfull C) as (pre & keys & Hpre & Es).
    apply (made1 v w _ (fun e => [VD k e]) (DecObj (map f1 (inverse_round_keys k key)))); [exact Hs| |apply one; now constructor].
    rewrite (dec_new_ok _ _ _ _ _ R S0) by assumption. rewrite (Hkeys L), (inverse_keys_swap k key Ht), Es. reflexivity.
  - assert (C : l <> Encrypt_rounds_only) by (intros ->; discriminate Hp). destruct (Hfull C) as (pre & keys & Hpre & Es).
    pose proof (sim_nth v w e Hs) as Q. destruct (nth_error v e) as [ve|], (nth_error w e) as [we|]; try contradiction; [|exact I].
    destruct Q as [? ?|? ?|? ?|k key Hk|k key Hk]; try exact I. pose proof (round_keys_good k key Hk) as GK.
    apply (made1 v w _ (fun d => [VD k d]) (DecObj (map f1 (inverse_round_keys k key)))); [exact Hs| |apply one; now constructor].
    rewrite (decrypter_ok _ _ _ _ _ R) by assumption. now rewrite (inverse_keys_swap k key Hk), Es.
  - assert (C : l <> Encrypt_rounds_only) by (intros ->; discriminate Hp). destruct (Hfull C) as (pre & keys & Hpre & Es).
    pose proof (sim_nth v w d Hs) as Q. destruct (nth_error v d) as [ve|], (nth_error w d) as [we|]; try contradiction; [|exact I].
    destruct Q as [? ?|? ?|? ?|k key Hk|k key Hk]; try exact I. pose proof (round_keys_good k key Hk) as GK.
    assert (GS : good_keys k (b_swap inv_mix_columns (round_keys k key))) by (apply b_swap_good; [apply inv_mix_columns_bytes|assumption]).
    apply (made1 v w _ (fun d => [VE k d]) (EncObj (map f1 (round_keys k key)))); [exact Hs| |apply one; now constructor].
    rewrite (inverse_keys_swap k key Hk). rewrite (encrypter_ok _ _ _ _ _ R) by assumption. rewrite Es. cbn [fips_sem s_mc].
    rewrite (b_swap_swap _ _ k) by (assumption || apply mix_inv_mix). reflexivity.
  - pose proof (sim_nth v w x Hs) as Q. destruct (nth_error v x) as [ve|], (nth_error w x) as [we|]; try contradiction; [|exact I].
    destruct Q as [? ?|? ?|? ?|k key Hk|k key Hk]; try exact I; pose proof (round_keys_good k key Hk) as GK.
    + eapply (says_ok v w Hs); [unfold fmt_debug_enc; cbn [enc_keys]; now apply (keys_text _ _ _ _ k)|]. destruct k; reflexivity.
    + assert (GS : good_keys k (inverse_round_keys k key)) by (rewrite inverse_keys_swap by assumption; apply b_swap_good; [apply inv_mix_columns_bytes|assumption]).
      eapply (says_ok v w Hs); [unfold fmt_debug_dec; cbn [dec_keys]; now apply (keys_text _ _ _ _ k)|]. destruct k; reflexivity.
  - pose proof (sim_nth v w x Hs) as Q. destruct (nth_error v x) as [ve|], (nth_error w x) as [we|]; try contradiction; [|exact I].
    cbn [obind]. apply (made1 v w (Ret ve) (fun v => [v]) ve [we]); [exact Hs|reflexivity|]. now apply one.
Qed.

Lemma play_ok p : forall v w, sim v w -> makes_only (permits l) p -> play (crate i) v p = play ideal w p.
Proof.
  induction p as [|c next IH]; intros v w Hs Hm; [reflexivity|]. cbn [play makes_only] in *. destruct Hm as [Hc Hn].
  destruct (typed c) eqn:Ht.
  - pose proof (step_ok v w c Hs Ht Hc) as Q. destruct (crate i v c) as [[a v']|], (ideal w c) as [[a' w']|]; try contradiction.
    + destruct Q as [<- Q]. f_equal. now apply IH.
    + f_equal. now apply IH.
  - f_equal. now apply IH.
Qed.
End Sim.
