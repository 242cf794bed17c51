(** C58: every build offers the same interface; a program that compiles with one build compiles with every other - unless it matches on a
    constant block.  C32: why a build compiles: all names it uses are there. *)
From Coq Require Import Lia Arith String.
From Verif Require Import Word Interface Fips197 Spec_User Spec_Cfg Spec_Client Spec_Surface Spec_SurfaceClient Model_Cfg Model_Surface.
From Verif Require Import Proof_Surface Props_Cfg.
Open Scope string_scope.
Open Scope list_scope.

(** ** The interface *)
Lemma compiles c i : rustc_ok c = true -> impl_of c = Some i -> be_arm_aes c = false.
Proof. intros H E. rewrite (C25_readme_is_selection c H) in E. destruct (be_arm_aes c); [discriminate|reflexivity]. Qed.
Ltac the_build c H B :=
  let Q := fresh "Q" in
  pose proof (selected c H) as Q; rewrite ?B in Q; destruct (readme c); cbn [sel_of] in Q; rewrite ?Bool.orb_false_r in Q;
  destruct Q as (-> & -> & -> & ?).
Ltac unfold_build := unfold interface_of, crate_items, decl_of, files, block_file, x2_file, x4_file.

Theorem C58_the_interface : forall c i, rustc_ok c = true -> impl_of c = Some i ->
  forall x, In x (items (interface_of c)) <-> In x documented.
Proof.
  intros c i H E. pose proof (compiles c i H E) as B. apply same_items_ok. unfold_build. cbn [items].
  the_build c H B; match goal with Hp : select_pre_chain c = _ |- _ => rewrite Hp end; lazy; reflexivity.
Qed.
Print Assumptions C58_the_interface.
(** Every trait implementation and function of a build exists once (otherwise it would not compile), and every name a module uses is declared,
    visibly, by a module of the same build; on big-endian Arm with the AES instructions, and there only, one is not. *)
Definition found (c : cfg) (n : need) : Prop :=
  match n with
  | Item x => exists v, v <> Private /\ In (v, x) (crate_items c)
  | Module m => In m (map fst (files c))
  | Field t x => exists f v, In f (map snd (files c)) /\ f_type f = t /\ v <> Private /\ In (v, x) (f_fields f)
  end.
Definition visible (v : visibility * item) : bool := match fst v with Private => false | _ => true end.
Definition foundb (c : cfg) (n : need) : bool :=
  match n with
  | Item x => is_in (map snd (filter visible (crate_items c))) x
  | Module m => existsb (String.eqb m) (map fst (files c))
  | Field t x => existsb (fun f => if ty_dec (f_type f) t then existsb (fun vt => match fst vt with Private => false | _ => if ty_dec (snd vt) x then true else false end) (f_fields f) else false)
                   (map snd (files c))
  end.
Lemma foundb_ok c n : foundb c n = true <-> found c n.
Proof.
  destruct n as [x|m|t x]; cbn [foundb found].
  - unfold is_in. destruct (in_dec item_dec x (map snd (filter visible (crate_items c)))) as [I|I].
    + split; [intros _|reflexivity]. apply in_map_iff in I. destruct I as ([v y] & <- & I). apply filter_In in I. destruct I as [I V]. exists v. split; [|exact I].
      intros ->. discriminate V.
    + split; [discriminate|]. intros (v & V & P). exfalso. apply I. apply in_map_iff. exists (v, x). split; [reflexivity|]. apply filter_In. split; [exact P|].
      destruct v; try reflexivity. now contradiction V.
  - rewrite existsb_exists. split; [intros (y & P & E); apply String.eqb_eq in E; now subst|intros P; exists m; split; [assumption|apply String.eqb_refl]].
  - rewrite existsb_exists. split.
    + intros (f & P & E). destruct (ty_dec (f_type f) t) as [T|]; [|discriminate]. apply existsb_exists in E. destruct E as ([v y] & Q & E). cbn [fst snd] in E.
      exists f, v. split; [assumption|]. split; [assumption|]. destruct v; try discriminate; (destruct (ty_dec y x) as [->|]; [|discriminate]); (split; [discriminate|assumption]).
    + intros (f & v & P & T & V & Q). exists f. split; [assumption|]. destruct (ty_dec (f_type f) t); [|contradiction]. apply existsb_exists. exists (v, x).
      split; [assumption|]. cbn [fst snd]. destruct (ty_dec x x); [|contradiction]. now destruct v.
Qed.
Fixpoint distinct (l : list item) : bool := match l with [] => true | x :: r => negb (is_in r x) && distinct r end.
Lemma distinct_ok l : distinct l = true -> NoDup l.
Proof.
  induction l as [|x r IH]; [constructor|]. cbn [distinct]. rewrite andb_true_iff, negb_true_iff. intros [A B]. constructor; [|now apply IH].
  intros I. unfold is_in in A. now destruct (in_dec item_dec x r).
Qed.
Theorem C32_names_resolve : forall c, rustc_ok c = true ->
  NoDup (map snd (crate_items c)) /\ ((forall n, In n (needs c) -> found c n) <-> impl_of c <> None).
Proof.
  intros c H. rewrite (C25_readme_is_selection c H). split.
  - apply distinct_ok. unfold_build. pose proof (selected c H) as Q. destruct (be_arm_aes c) eqn:B.
    + destruct (be_arm_soft c H B) as [E|E]; rewrite E in Q; cbn [sel_of orb] in Q; destruct Q as (-> & -> & -> & ->); lazy; reflexivity.
    + destruct (readme c); cbn [sel_of] in Q; rewrite ?Bool.orb_false_r in Q; destruct Q as (-> & -> & -> & ->); lazy; reflexivity.
  - destruct (be_arm_aes c) eqn:B.
    + split; [|intros X; now contradiction X]. intros F. exfalso. pose proof (selected c H) as Q.
      assert (X : found c (Item (Fn false (Blk One) "pre_enc" [Blk One; Blk One] (Blk One)))).
      { apply F. unfold needs, lib_needs. apply in_or_app. left. apply in_or_app. right. apply in_or_app. right.
        destruct (be_arm_soft c H B) as [E|E]; rewrite E in Q; cbn [sel_of orb] in Q; destruct Q as (_ & _ & _ & ->); rewrite B; left; reflexivity. }
      apply foundb_ok in X. revert X. cbn [foundb]. unfold_build.
      rewrite B in Q; destruct (be_arm_soft c H B) as [E|E]; rewrite E in Q; cbn [sel_of orb] in Q; destruct Q as (-> & -> & -> & ->); lazy; discriminate.
    + split; [discriminate|intros _]. intros n I. apply foundb_ok. revert n I. apply forallb_forall. unfold foundb. unfold needs, lib_needs, x2_needs, x4_needs. unfold_build.
      pose proof (selected c H) as Q. rewrite B in Q.
      destruct (readme c); cbn [sel_of] in Q; rewrite ?Bool.orb_false_r in Q; destruct Q as (-> & -> & -> & ->); lazy; reflexivity.
Qed.
Print Assumptions C32_names_resolve.

(** ** Source compatibility *)
Lemma transfer base ok i i' : (forall t, types i t = None -> types i' t = None) ->
  (forall t d, types i t = Some d -> everywhere base ok i t -> everywhere base ok i' t) ->
  forall t, everywhere base ok i t -> everywhere base ok i' t.
Proof.
  intros HN HS t E. induction E as [t d T D F IH|t n E IH|a b E1 IH1 E2 IH2|a b x y E1 IH1 E2 IH2 E3 IH3 E4 IH4|t T B].
  - apply (HS t d T). now apply (In_struct _ _ _ t d).
  - now apply In_array.
  - now apply In_tup2.
  - now apply In_tup4.
  - apply In_base; [now apply HN|assumption].
Qed.
Lemma same_types c c' t : types (interface_of c) t = None -> types (interface_of c') t = None.
Proof. destruct t as [g| | | | | | | | | | | | | | | | | | | ]; try destruct g; cbn [interface_of types decl_of]; try discriminate; reflexivity. Qed.
Lemma types_of c t d : types (interface_of c) t = Some d -> (exists g, t = Blk g) \/ exists k, t = EncT k \/ t = DecT k.
Proof. destruct t; cbn [interface_of types decl_of]; try discriminate; eauto. Qed.
(** The builds whose block type derives its equality. *)
Definition derives_equality (p : promised) : bool := match p with P_rv64 | P_rv32 | P_constant_time | P_software => true | _ => false end.
Ltac fields := let f := fresh in let F := fresh in intros f F; cbn in F; repeat destruct F as [<-|F]; try destruct F as [].
Lemma block_everywhere base ok c g : rustc_ok c = true -> be_arm_aes c = false ->
  (forall t, In t [U32; U64; U128] -> base t = true) ->
  (forall d, d_derives_eq d = true -> ok d = true) ->
  (derives_equality (readme c) = true \/ ((forall n, base (Simd n) = true) /\ forall d, ok d = true)) ->
  everywhere base ok (interface_of c) (Blk g).
Proof.
  intros H B N D C.
  assert (Pr : forall t, In t [U32; U64; U128] -> everywhere base ok (interface_of c) t).
  { intros t I. apply In_base; [|now apply N]. cbn in I. now repeat destruct I as [<-|I]. }
  assert (P32 := Pr U32 ltac:(cbn; auto)). assert (P64 := Pr U64 ltac:(cbn; auto)). assert (P128 := Pr U128 ltac:(cbn; auto)).
  assert (Sd : (forall n, base (Simd n) = true) -> forall n, everywhere base ok (interface_of c) (Simd n)).
  { intros X n. apply In_base; [reflexivity|apply X]. }
  pose proof (selected c H) as Q. rewrite B in Q.
  assert (E1 : everywhere base ok (interface_of c) (Blk One)).
  { eapply In_struct; [reflexivity| |]; unfold block_file;
    destruct (readme c); cbn [sel_of] in Q; destruct Q as (-> & _); cbn [derives_equality] in C;
      try (apply D; reflexivity); try (destruct C as [C|[X Y]]; [discriminate C|apply Y]);
      try (fields; assumption); (destruct C as [C|[X Y]]; [discriminate C|]; fields; now apply Sd). }
  assert (E2 : everywhere base ok (interface_of c) (Blk Two)).
  { eapply In_struct; [reflexivity| |]; unfold x2_file;
    destruct (readme c); cbn [sel_of] in Q; destruct Q as (_ & -> & _); cbn [derives_equality] in C;
      try (apply D; reflexivity); try (destruct C as [C|[X Y]]; [discriminate C|apply Y]);
      try (fields; assumption); (destruct C as [C|[X Y]]; [discriminate C|]; fields; now apply Sd). }
  destruct g; [assumption|assumption|].
  eapply In_struct; [reflexivity| |]; unfold x4_file;
    destruct (readme c); cbn [sel_of] in Q; destruct Q as (_ & _ & -> & _); cbn [derives_equality] in C;
      try (apply D; reflexivity); try (destruct C as [C|[X Y]]; [discriminate C|apply Y]);
      try (fields; assumption); (destruct C as [C|[X Y]]; [discriminate C|]; fields; now apply Sd).
Qed.
Lemma not_matchable_block c g : rustc_ok c = true -> be_arm_aes c = false -> derives_equality (readme c) = false -> ~ matchable (interface_of c) (Blk g).
Proof.
  intros H B C. pose proof (selected c H) as Q. rewrite B in Q.
  assert (E1 : ~ matchable (interface_of c) (Blk One)).
  { intros E. inversion E as [t d T D F| | | |t T X]; subst; [|discriminate T]. cbn [interface_of types decl_of] in T. injection T as <-. revert D. unfold block_file.
    destruct (readme c); cbn [sel_of] in Q; destruct Q as (-> & _); try discriminate C; discriminate. }
  assert (E2 : ~ matchable (interface_of c) (Blk Two)).
  { intros E. inversion E as [t d T D F| | | |t T X]; subst; [|discriminate T]. cbn [interface_of types decl_of] in T. injection T as <-. revert D F. unfold x2_file.
    destruct (readme c); cbn [sel_of] in Q; destruct Q as (_ & -> & _); try discriminate C; intros D F; try discriminate D; apply E1, F; left; reflexivity. }
  destruct g; [assumption|assumption|].
  intros E. inversion E as [t d T D F| | | |t T X]; subst; [|discriminate T]. cbn [interface_of types decl_of] in T. injection T as <-. revert D F. unfold x4_file.
  destruct (readme c); cbn [sel_of] in Q; destruct Q as (_ & _ & -> & _); try discriminate C; intros D F; try discriminate D; apply E2, F; left; reflexivity.
Qed.
Lemma not_matchable_key c k t : t = EncT k \/ t = DecT k -> ~ matchable (interface_of c) t.
Proof.
  intros [->| ->] E; inversion E as [u d T D F| | | |u T X]; subst; try discriminate T; cbn [interface_of types decl_of] in T; injection T as <-;
    destruct k; discriminate D.
Qed.

(** A constant block can be a pattern exactly in the builds without vector registers; a key object nowhere. *)
Theorem C58_constant_patterns : forall c i, rustc_ok c = true -> impl_of c = Some i ->
  (forall g, matchable (interface_of c) (Blk g) <-> derives_equality (readme c) = true) /\
  (forall k, ~ matchable (interface_of c) (EncT k) /\ ~ matchable (interface_of c) (DecT k)).
Proof.
  intros c i H E. pose proof (compiles c i H E) as B. split.
  - intros g. split; [|intros D; apply block_everywhere; auto; cbn; now intros t [<-|[<-|[<-|[]]]]].
    intros M. destruct (derives_equality (readme c)) eqn:D; [reflexivity|]. exfalso. now apply (not_matchable_block c g H B D).
  - intros k. split; [apply (not_matchable_key c k); now left|apply (not_matchable_key c k); now right].
Qed.
Print Assumptions C58_constant_patterns.

(** All types can be sent to and shared between threads, in every build. *)
Theorem C58_auto_traits : forall c i, rustc_ok c = true -> impl_of c = Some i ->
  (forall g, auto_traits (interface_of c) (Blk g)) /\ (forall k, auto_traits (interface_of c) (EncT k) /\ auto_traits (interface_of c) (DecT k)).
Proof.
  intros c i H E. pose proof (compiles c i H E) as B.
  assert (A : forall g, auto_traits (interface_of c) (Blk g)) by (intros g; apply block_everywhere; auto; cbn; now intros t [<-|[<-|[<-|[]]]]).
  split; [exact A|]. intros k. split; (eapply In_struct; [reflexivity|reflexivity|]; destruct k; fields; apply In_array, A).
Qed.
Print Assumptions C58_auto_traits.

Lemma meets_transfer c c' i i' d : rustc_ok c = true -> rustc_ok c' = true -> impl_of c = Some i -> impl_of c' = Some i' ->
  (match d with Matches _ => False | _ => True end) \/ derives_equality (readme c) = derives_equality (readme c') ->
  meets (interface_of c) d -> meets (interface_of c') d.
Proof.
  intros H H' E E' S M.
  assert (I : forall x, In x (items (interface_of c)) <-> In x (items (interface_of c'))).
  { intros x. rewrite (C58_the_interface c i H E), (C58_the_interface c' i' H' E'). reflexivity. }
  destruct d as [b t f a r|tr ps t asc|t|t]; cbn [meets] in *.
  - destruct M as [M|[-> M]]; [left; now apply I|right; split; [reflexivity|now apply I]].
  - now apply I.
  - revert M. apply transfer; [apply same_types|]. intros u d T _. destruct (C58_auto_traits c' i' H' E') as [A B].
    destruct (types_of c u d T) as [[g ->]|[k [->| ->]]]; [apply A|apply B|apply B].
  - destruct S as [[]|S]. revert M. apply transfer; [apply same_types|]. intros u d T M.
    destruct (C58_constant_patterns c i H E) as [A B], (C58_constant_patterns c' i' H' E') as [A' B'].
    destruct (types_of c u d T) as [[g ->]|[k [->| ->]]]; [apply A'; rewrite <- S; now apply (A g)|exfalso; now apply (proj1 (B k))|exfalso; now apply (proj2 (B k))].
Qed.
Theorem C58_source_compatible : forall c c' i i' program, rustc_ok c = true -> rustc_ok c' = true -> impl_of c = Some i -> impl_of c' = Some i' ->
  matches_no_constant program \/ derives_equality (readme c) = derives_equality (readme c') ->
  compiles_with (interface_of c) program <-> compiles_with (interface_of c') program.
Proof.
  intros c c' i i' program H H' E E' S. unfold compiles_with. rewrite !Forall_forall.
  assert (S' : forall d, In d program -> (match d with Matches _ => False | _ => True end) \/ derives_equality (readme c) = derives_equality (readme c')).
  { intros d I. destruct S as [S|S]; [left; unfold matches_no_constant in S; rewrite Forall_forall in S; now apply S|now right]. }
  split; intros M d I; [apply (meets_transfer c c' i i'); auto|apply (meets_transfer c' c i' i); auto]. destruct (S' d I) as [X|X]; auto.
Qed.
Print Assumptions C58_source_compatible.

(** Two builds accept the same programs exactly if both or neither derive the equality of blocks. *)
Theorem C58_same_programs_exact : forall c c' i i', rustc_ok c = true -> rustc_ok c' = true -> impl_of c = Some i -> impl_of c' = Some i' ->
  (forall program, compiles_with (interface_of c) program <-> compiles_with (interface_of c') program) <->
  derives_equality (readme c) = derives_equality (readme c').
Proof.
  intros c c' i i' H H' E E'. split; [|intros S program; apply (C58_source_compatible c c' i i'); auto].
  intros A. specialize (A [Matches (Blk One)]). destruct (C58_constant_patterns c i H E) as [M _], (C58_constant_patterns c' i' H' E') as [M' _].
  assert (X : forall j, compiles_with j [Matches (Blk One)] <-> matchable j (Blk One)).
  { intros j. unfold compiles_with. split; [intros F; now inversion F|intros F; constructor; [exact F|constructor]]. }
  rewrite !X, (M One), (M' One) in A. destruct (derives_equality (readme c)), (derives_equality (readme c')); try reflexivity;
    [symmetry; now apply A|now apply A].
Qed.
Print Assumptions C58_same_programs_exact.

(** With patterns it is false: [const Z: AesBlock = AesBlock::new([0; 16]); match b { Z => .., _ => .. }] compiles without any target feature and
    stops compiling with -C target-feature=+aes,+sse4.1. *)
Definition a_match : list demand := [Calls true (Blk One) "new" [U8s 16] (Blk One); Matches (Blk One)].
Theorem C58_source_compatible_refuted : exists c c' program, rustc_ok c = true /\ rustc_ok c' = true /\ impl_of c <> None /\ impl_of c' <> None /\
  compiles_with (interface_of c) program /\ ~ compiles_with (interface_of c') program.
Proof.
  exists c_soft, c_x86, a_match. split; [reflexivity|]. split; [reflexivity|]. split; [discriminate|]. split; [discriminate|].
  assert (E : impl_of c_soft = Some (implementation c_soft P_software)) by reflexivity.
  assert (E' : impl_of c_x86 = Some (implementation c_x86 P_aesni)) by reflexivity.
  split.
  - constructor; [|constructor; [|constructor]].
    + left. apply (C58_the_interface c_soft _ eq_refl E). apply in_or_app. left. left. reflexivity.
    + apply (C58_constant_patterns c_soft _ eq_refl E). reflexivity.
  - intros F. inversion F as [|? ? _ F' ]; subst. inversion F' as [|? ? M _]; subst. apply (C58_constant_patterns c_x86 _ eq_refl E') in M. discriminate M.
Qed.
Print Assumptions C58_source_compatible_refuted.

(** Constants are evaluated at compile time in every build: [const B: AesBlockX4 = AesBlockX4::new(..)]. *)
Theorem C58_constants : forall c i g, rustc_ok c = true -> impl_of c = Some i ->
  evaluable (const_bodies c) (Fn true (Blk g) "new" [U8s (group_len g)] (Blk g)).
Proof.
  intros c i g H E. pose proof (compiles c i H E) as B. pose proof (selected c H) as Q. rewrite B in Q.
  assert (A : forall n, In n [16; 32]%nat -> evaluable (const_bodies c) (array_from_slice n)).
  { intros n I. eapply Evaluable.
    - unfold const_bodies. apply in_or_app. right. apply in_or_app. left. apply in_map_iff. exists n. split; [reflexivity|exact I].
    - intros s J. cbn in J. repeat destruct J as [[= <-]|J]; try destruct J; cbn; auto 8.
    - intros x J. cbn in J. repeat destruct J as [J|J]; try discriminate J; destruct J. }
  assert (N : forall g, (forall s, In (Std s) (new_calls c g) -> In s std_const) -> (forall x, In (Crate x) (new_calls c g) -> evaluable (const_bodies c) x) ->
              evaluable (const_bodies c) (Fn true (Blk g) "new" [U8s (group_len g)] (Blk g))).
  { intros h S1 S2. eapply Evaluable; [|exact S1|exact S2]. unfold const_bodies. apply in_or_app. left. apply in_map_iff. exists h. split; [reflexivity|]. destruct h; cbn; auto. }
  assert (E1 : evaluable (const_bodies c) (Fn true (Blk One) "new" [U8s 16] (Blk One))).
  { apply (N One); cbn [new_calls].
    - intros s. destruct (select_block c); cbn; intros J; repeat destruct J as [J|J]; try contradiction; try discriminate J; injection J as <-; auto.
    - intros x. destruct (select_block c) eqn:SB; cbn; intros J; repeat destruct J as [J|J]; try contradiction; try discriminate J. injection J as <-.
      eapply Evaluable; [unfold const_bodies; rewrite ?SB; do 5 right; left; reflexivity|intros s []|intros x []]. }
  assert (E2 : evaluable (const_bodies c) (Fn true (Blk Two) "new" [U8s 32] (Blk Two))).
  { apply (N Two); cbn [new_calls].
    - intros s. destruct (select_x2 c); cbn; intros J; repeat destruct J as [J|J]; try contradiction; try discriminate J; injection J as <-; auto.
    - intros x. destruct (select_x2 c); cbn; intros J; repeat destruct J as [J|J]; try contradiction; try discriminate J; injection J as <-; [assumption|apply A; cbn; auto]. }
  destruct g; [assumption|assumption|]. apply (N Four); cbn [new_calls].
  - intros s. destruct (select_x4 c); cbn; intros J; repeat destruct J as [J|J]; try contradiction; try discriminate J; injection J as <-; auto.
  - intros x. destruct (select_x4 c); cbn; intros J; repeat destruct J as [J|J]; try contradiction; try discriminate J; injection J as <-; [assumption|apply A; cbn; auto].
Qed.
Print Assumptions C58_constants.

(** The clients of C40-C44, C49 ... use the whole interface and nothing else (Eq has no functions). *)
Definition some_calls : list call :=
  flat_map (fun g => map (On g) [New []; From_array []; From_ref []; Try_from []; Zero; Default; And 0 0; Or 0 0; Xor 0 0; Not 0; And_assign 0 0; Or_assign 0 0;
    Xor_assign 0 0; Enc 0 0; Dec 0 0; Enc_last 0 0; Dec_last 0 0; Chain_enc 0 []; Chain_dec 0 []; To_array 0; Store_to 0 []; Is_zero 0; Equal 0 0;
    Debug false None 0; Encrypt 0 0; Decrypt 0 0]) [One; Two; Four] ++
  [From_u128 0; To_u128 0; Mc 0; Imc 0; X2_from_pair 0 0; X2_from_block 0; X2_into_pair 0; X4_from_quad 0 0 0 0; X4_from_pair 0 0; X4_from_block 0;
   X4_from_x2 0; X4_into_quad 0; X4_into_pair 0; Decrypter 0; Encrypter 0; Debug_key false None 0; Copy 0] ++
  map (fun s => Print s false None 0) [LowerHex; UpperHex; Binary; Display] ++
  flat_map (fun k => [Enc_from k []; Dec_from k []]) key_sizes.
Definition is_eq (x : item) : bool := existsb (fun g => if item_dec x (Impl "Eq" [] (Blk g) []) then true else false) [One; Two; Four].
Lemma used_checked : forallb (fun x => orb (is_eq x) (existsb (fun c => is_in (uses c) x) some_calls)) documented = true.
Proof. lazy. reflexivity. Qed.
Theorem C58_clients_use_the_whole_interface :
  (forall x, In x documented -> (exists c, In x (uses c)) \/ exists g, x = Impl "Eq" [] (Blk g) []) /\
  (forall c x, In x (uses c) -> In x documented).
Proof.
  split.
  - intros x I. pose proof used_checked as U. rewrite forallb_forall in U. specialize (U x I). apply orb_true_iff in U. destruct U as [U|U].
    + right. apply existsb_exists in U. destruct U as (g & _ & U). exists g. now destruct (item_dec x (Impl "Eq" [] (Blk g) [])).
    + left. apply existsb_exists in U. destruct U as (c & _ & U). exists c. now apply is_in_ok.
  - intros c x I. apply is_in_ok. revert x I. apply forallb_forall.
    destruct c; try match goal with g : group |- _ => destruct g | st : style |- _ => destruct st | k : key_size |- _ => destruct k end;
      try match goal with c : wcall |- _ => destruct c end; lazy; reflexivity.
Qed.
Print Assumptions C58_clients_use_the_whole_interface.

(** ** Concrete cases *)
(** A program with a constant of four blocks, a function generic in [AesEncrypt<16>], a thread that is sent the key, and the operators. *)
Definition a_program : list demand :=
  [Calls true (Blk Four) "new" [U8s 64] (Blk Four); Relies "From" [U8s 16] (EncT K128) []; Relies "AesEncrypt" [Const 16] (EncT K128) [("Decrypter", DecT K128)];
   Moves (EncT K128); Calls false (EncT K128) "encrypt_4_blocks" [Ref (EncT K128); Blk Four] (Blk Four);
   Relies "BitXor" [Blk Four] (Blk Four) [("Output", Blk Four)]; Relies "From" [Blk Four] (Tup2 (Blk Two) (Blk Two)) []; Moves (Blk Two)].
Example a_program_compiles : forall c i, rustc_ok c = true -> impl_of c = Some i -> compiles_with (interface_of c) a_program.
Proof.
  intros c i H E. destruct (C58_auto_traits c i H E) as [A B]. unfold a_program.
  assert (I : forall x, is_in documented x = true -> In x (items (interface_of c))) by (intros x X; apply (C58_the_interface c i H E); now apply is_in_ok).
  unfold compiles_with. repeat (apply Forall_cons || apply Forall_nil); cbn [meets]; try (apply I; lazy; reflexivity);
    try (left; apply I; lazy; reflexivity); try (right; split; [reflexivity|]; apply I; lazy; reflexivity); first [apply A|apply B].
Qed.
Example a_program_matches_nothing : matches_no_constant a_program.
Proof. unfold matches_no_constant, a_program. repeat constructor. Qed.
(** Ten builds that the theorems speak of, and the one they do not. *)
Example builds_to_compare : forall c, In c [c_soft; c_soft_be; c_ct_le; c_ct_be; c_x86; c_vaes256; c_vaes512; c_neon; c_arm32; c_rv64; c_rv32] ->
  rustc_ok c = true /\ impl_of c <> None.
Proof.
  intros c I. assert (H : rustc_ok c = true /\ be_arm_aes c = false).
  { cbn in I. repeat destruct I as [<-|I]; try destruct I as []; (split; lazy; reflexivity). }
  destruct H as [H B]. split; [exact H|]. rewrite (C25_readme_is_selection c H), B. discriminate.
Qed.
Example two_kinds : derives_equality (readme c_soft) = true /\ derives_equality (readme c_rv64) = true /\ derives_equality (readme c_neon) = false.
Proof. repeat split; lazy; reflexivity. Qed.
(** The interface is not everything: there is no [mc] of two blocks, no [Display] of four, no [Copy] of a key, no constant [zero]. *)
Example not_offered : forall x, In x [Fn false (Blk Two) "mc" [Blk Two] (Blk Two); Impl "Display" [] (Blk Four) []; Impl "Copy" [] (EncT K128) []; Fn true (Blk One) "zero" [] (Blk One)] ->
  ~ In x documented.
Proof.
  intros x I J. assert (X : is_in documented x = true) by (unfold is_in; destruct (in_dec item_dec x documented); [reflexivity|contradiction]).
  revert X. clear J. cbn in I. repeat destruct I as [<-|I]; try destruct I as []; lazy; discriminate.
Qed.
