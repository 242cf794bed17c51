(** Whatever a client does, no call is undefined behaviour, and only two calls can panic. *)
From Coq Require Import Lia Arith String.
From Verif Require Import Word Interface Fips197 Spec_Api Spec_Reach Spec_Cfg Spec_User Spec_Fmt Spec_Client Model_Lib Model_Cfg Model_Fmt Model_Client.
From Verif Require Import Proof_Shape Proof_Word Proof_Fips Proof_Ok Proof_Sem Proof_Lib Proof_Reach Proof_Inst Proof_Cipher Proof_KeySpec Proof_Main Proof_Fmt Props_Rounds Props_Total Props_Fmt Proof_Client.
Open Scope N_scope.
Open Scope list_scope.

Section Safe.
Context (c0 : cfg) (i : impl) (E0 : impl_of c0 = Some i).

Definition good (v : var i) : Prop :=
  match v with V1 x => reach1 i x | V2 x => reach2 i x | V4 x => reach4 i x | VE k e => reachE i k e | VD k d => reachD i k d end.
Definition harmless (c : call) (a : answer) : Prop :=
  a <> Undefined /\
  (a = Panics -> exists g x, c = On g (Chain_enc x []) \/ c = On g (Chain_dec x [])) /\
  (forall b, a = Buffer true b -> exists g x, c = On g (Store_to x b) /\ (List.length b < group_len g)%nat).
Definition safe (c : call) (r : option (answer * list (var i))) : Prop :=
  match r with Some (a, v) => Forall good v /\ harmless c a | None => True end.

Record kind_safe (K : kind i) (g : group) (P : k_type i K -> Prop) : Prop := {
  ks_size : o_size (k_ops i K) = group_len g;
  ks_closed : ops_closed (i_dbg i) (k_ops i K) P;
  ks_calls : block_calls_return _ (k_ops i K) (group_len g) P;
  ks_kept : forall x dst, P x -> (List.length dst < group_len g)%nat -> snd (o_store (k_ops i K) x dst) = dst;
  ks_put : forall x, P x -> good (k_put i K x);
  ks_get : forall v x, good v -> k_get i K v = Some x -> P x;
  ks_chain_enc : forall x ks, P x -> Forall P ks -> (ks = [] /\ k_chain_enc i K x ks = Panic) \/ returns (k_chain_enc i K x ks) P;
  ks_chain_dec : forall x ks, P x -> Forall P ks -> (ks = [] /\ k_chain_dec i K x ks = Panic) \/ returns (k_chain_dec i K x ks) P;
  ks_encrypt : forall k e x, reachE i k e -> P x -> returns (k_encrypt i K k e x) P;
  ks_decrypt : forall k d x, reachD i k d -> P x -> returns (k_decrypt i K k d x) P;
  ks_debug : forall x f, P x -> returns (k_debug i K x f) (fun _ => True)
}.
Lemma kinds_safe : kind_safe (kind1 i) One (reach1 i) /\ kind_safe (kind2 i) Two (reach2 i) /\ kind_safe (kind4 i) Four (reach4 i).
Proof.
  destruct (inst_any c0 i E0) as (s & f1 & f2 & f4 & _ & _ & S1 & R). pose proof (reach_closed i) as A.
  destruct (C26_block_calls_return c0 i E0) as (B1 & B2 & B4). destruct (C26_chain_calls_return c0 i E0) as (H1 & H2 & H4).
  pose proof (fun k => C26_cipher_calls_return c0 i k E0) as Q.
  pose proof (C12_empty_slice_panics i) as Z.
  assert (U1 : forall x, reach1 i x -> exists b, is_bytes 16 b /\ x = f1 b) by (intros x Hx; unreach R S1; eauto).
  assert (U2 : forall x, reach2 i x -> exists b, is_bytes 32 b /\ x = f2 b) by (intros x Hx; unreach R S1; eauto).
  assert (U4 : forall x, reach4 i x -> exists b, is_bytes 64 b /\ x = f4 b) by (intros x Hx; unreach R S1; eauto).
  pose proof (kind1_ok i f1 f2 f4 s R S1) as K1. pose proof (kind2_ok i f1 f2 f4 s R S1) as K2. pose proof (kind4_ok i f1 f2 f4 s R S1) as K4.
  split; [|split]; constructor; cbn [kind1 kind2 kind4 k_ops k_put k_get k_chain_enc k_chain_dec k_encrypt k_decrypt k_debug k_type group_len] in *.
  all: try (first [exact (ac_1 _ _ _ _ _ _ A)|exact (ac_2 _ _ _ _ _ _ A)|exact (ac_4 _ _ _ _ _ _ A)|exact B1|exact B2|exact B4]).
  all: try (first [exact (dk_size _ _ _ (R_d1 _ _ _ _ _ R))|exact (dk_size _ _ _ (R_d2 _ _ _ _ _ R))|exact (dk_size _ _ _ (R_d4 _ _ _ _ _ R))]).
  all: try (intros x Hx; exact Hx).
  all: try (intros [] y Hv Hy; cbn in *; try discriminate; injection Hy as <-; exact Hv).
  all: try (intros k e x He Hx; now apply (Q k)).
  - intros x dst Hx L. destruct (U1 x Hx) as (b & B & ->). rewrite (dk_store _ _ _ (R_d1 _ _ _ _ _ R)) by assumption. destruct (Nat.leb_spec 16 (length dst)); [lia|reflexivity].
  - intros x [|k ks] Hx Hk; [left; split; [reflexivity|apply (Z x (o_zero (i_ops2 i)) (o_zero (i_ops4 i)))]|right; apply H1; [discriminate|assumption..]].
  - intros x [|k ks] Hx Hk; [left; split; [reflexivity|apply (Z x (o_zero (i_ops2 i)) (o_zero (i_ops4 i)))]|right; apply H1; [discriminate|assumption..]].
  - intros x [alt w] Hx. destruct (U1 x Hx) as (b & B & ->). eexists. split; [now apply (ko_debug _ _ _ _ _ _ _ _ K1)|exact I].
  - intros x dst Hx L. destruct (U2 x Hx) as (b & B & ->). rewrite (dk_store _ _ _ (R_d2 _ _ _ _ _ R)) by assumption. destruct (Nat.leb_spec 32 (length dst)); [lia|reflexivity].
  - intros x [|k ks] Hx Hk; [left; split; [reflexivity|apply (Z (o_zero (i_ops1 i)) x (o_zero (i_ops4 i)))]|right; apply H2; [discriminate|assumption..]].
  - intros x [|k ks] Hx Hk; [left; split; [reflexivity|apply (Z (o_zero (i_ops1 i)) x (o_zero (i_ops4 i)))]|right; apply H2; [discriminate|assumption..]].
  - intros x [alt w] Hx. destruct (U2 x Hx) as (b & B & ->). eexists. split; [now apply (ko_debug _ _ _ _ _ _ _ _ K2)|exact I].
  - intros x dst Hx L. destruct (U4 x Hx) as (b & B & ->). rewrite (dk_store _ _ _ (R_d4 _ _ _ _ _ R)) by assumption. destruct (Nat.leb_spec 64 (length dst)); [lia|reflexivity].
  - intros x [|k ks] Hx Hk; [left; split; [reflexivity|apply (Z (o_zero (i_ops1 i)) (o_zero (i_ops2 i)) x)]|right; apply H4; [discriminate|assumption..]].
  - intros x [|k ks] Hx Hk; [left; split; [reflexivity|apply (Z (o_zero (i_ops1 i)) (o_zero (i_ops2 i)) x)]|right; apply H4; [discriminate|assumption..]].
  - intros x [alt w] Hx. destruct (U4 x Hx) as (b & B & ->). eexists. split; [now apply (ko_debug _ _ _ _ _ _ _ _ K4)|exact I].
Qed.

Lemma good_at v x a : Forall good v -> nth_error v x = Some a -> good a.
Proof. intros F H. rewrite Forall_forall in F. apply F. now apply nth_error_In in H. Qed.
Lemma good_assign v x a : Forall good v -> good a -> Forall good (assign v x a).
Proof.
  intros F H. unfold assign. apply Forall_app. split; [|constructor; [exact H|]]; apply Forall_forall; intros y Hy; rewrite Forall_forall in F; apply F.
  - rewrite <- (firstn_skipn x v). apply in_app_iff. now left.
  - rewrite <- (firstn_skipn (S x) v). apply in_app_iff. now right.
Qed.
Lemma harmless_made c n : harmless c (Made n). Proof. split; [discriminate|]. split; [discriminate|]. intros b H. discriminate. Qed.
Lemma safe_made {A} c v (r : outcome A) (P : A -> Prop) (h : A -> nat) (g : A -> list (var i)) : Forall good v -> returns r P -> (forall a, P a -> Forall good (g a)) ->
  safe c (result_of i v r (fun a => (Made (h a), v ++ g a))).
Proof. intros F (a & -> & Pa) G. split; [|apply harmless_made]. apply Forall_app. split; [exact F|now apply G]. Qed.
Lemma safe_says {A} c v (r : outcome A) (P : A -> Prop) (h : A -> answer) : Forall good v -> returns r P -> (forall a, harmless c (h a)) -> safe c (result_of i v r (fun a => (h a, v))).
Proof. intros F (a & -> & Pa) G. split; [exact F|apply G]. Qed.
Lemma returns_ret {A} (a : A) (P : A -> Prop) : P a -> returns (Ret a) P. Proof. intros H. now exists a. Qed.
Ltac quiet := split; [discriminate|split; [discriminate|intros ? ?; discriminate]].

Lemma on_safe K g P v w : kind_safe K g P -> Forall good v -> typed_on g w = true -> safe (On g w) (crate_on i v K w).
Proof.
  intros KS F Ht. pose proof (ks_closed _ _ _ KS) as C. destruct (ks_calls _ _ _ KS) as (C1 & C2 & C3 & C4). pose proof (ks_size _ _ _ KS) as Sz.
  assert (A : forall x k, (forall a, P a -> safe (On g w) (k a)) -> safe (On g w) (obind (obind (nth_error v x) (k_get i K)) k)).
  { intros x k H. destruct (nth_error v x) as [a|] eqn:Ea; [|exact I]. cbn [obind]. destruct (k_get i K a) as [y|] eqn:Ey; [|exact I]. cbn [obind]. apply H.
    apply (ks_get _ _ _ KS a); [now apply (good_at v x)|exact Ey]. }
  assert (AS : forall xs k, (forall l, (l = [] -> xs = []) -> Forall P l -> safe (On g w) (k l)) -> safe (On g w) (obind (oall (map (fun x => obind (nth_error v x) (k_get i K)) xs)) k)).
  { intros xs k H. assert (Q : match oall (map (fun x => obind (nth_error v x) (k_get i K)) xs) with Some l => (l = [] -> xs = []) /\ Forall P l | None => True end).
    { clear H. induction xs as [|x xs IH]; [cbn; now split|]. cbn [map oall fold_right]. fold (@oall (k_type i K)) in *. unfold oall in *.
      destruct (nth_error v x) as [a|] eqn:Ea; [|exact I]. cbn [obind]. destruct (k_get i K a) as [y|] eqn:Ey; [|exact I]. cbn [obind].
      destruct (fold_right _ _ _) as [l|]; [|exact I]. cbn [obind]. split; [discriminate|]. constructor; [|apply IH]. apply (ks_get _ _ _ KS a); [now apply (good_at v x)|exact Ey]. }
    destruct (oall _) as [l|]; [|exact I]. cbn [obind]. now apply H. }
  assert (M : forall r, returns r P -> safe (On g w) (result_of i v r (fun x => (Made 1, v ++ [k_put i K x])))).
  { intros r H. apply (safe_made _ _ _ P (fun _ => 1%nat) (fun x => [k_put i K x])); [exact F|exact H|]. intros a Ha. constructor; [|constructor]. now apply (ks_put _ _ _ KS). }
  assert (ST : forall x r, P r -> safe (On g w) (Some (Made 0, assign v x (k_put i K r)))).
  { intros x r H. split; [|apply harmless_made]. apply good_assign; [exact F|]. now apply (ks_put _ _ _ KS). }
  assert (RK : forall n (b : list N), is_bytesb n b = true -> is_bytes n b) by (intros n b; apply is_bytesb_correct).
  destruct w; cbn [crate_on typed_on] in *.
  - apply M. now apply (C1 b), RK.
  - apply M. now apply (C1 b), RK.
  - apply M. now apply (C1 b), RK.
  - destruct (C2 (i_dbg i) s) as (r & -> & Hr); [exact (proj2 (RK _ _ Ht))|]. cbn [result_of]. destruct r as [x|m].
    + apply (M (Ret x)). now apply returns_ret.
    + split; [exact F|quiet].
  - apply M, returns_ret, C.
  - apply M, returns_ret, C.
  - apply A; intros a Ha; apply A; intros b Hb. now apply M, returns_ret, C.
  - apply A; intros a Ha; apply A; intros b Hb. now apply M, returns_ret, C.
  - apply A; intros a Ha; apply A; intros b Hb. now apply M, returns_ret, C.
  - apply A; intros a Ha. now apply M, returns_ret, C.
  - apply A; intros a Ha; apply A; intros b Hb. now apply ST, C.
  - apply A; intros a Ha; apply A; intros b Hb. now apply ST, C.
  - apply A; intros a Ha; apply A; intros b Hb. now apply ST, C.
  - apply A; intros a Ha; apply A; intros b Hb. now apply M, returns_ret, C.
  - apply A; intros a Ha; apply A; intros b Hb. now apply M, returns_ret, C.
  - apply A; intros a Ha; apply A; intros b Hb. now apply M, returns_ret, C.
  - apply A; intros a Ha; apply A; intros b Hb. now apply M, returns_ret, C.
  - apply A; intros a Ha; apply AS; intros l Hn Hl. destruct (ks_chain_enc _ _ _ KS a l Ha Hl) as [[-> ->]|H]; [|now apply M]. split; [exact F|].
    split; [discriminate|]. split; [|intros ? ?; discriminate]. intros _. exists g, x. left. now rewrite Hn.
  - apply A; intros a Ha; apply AS; intros l Hn Hl. destruct (ks_chain_dec _ _ _ KS a l Ha Hl) as [[-> ->]|H]; [|now apply M]. split; [exact F|].
    split; [discriminate|]. split; [|intros ? ?; discriminate]. intros _. exists g, x. right. now rewrite Hn.
  - apply A; intros a Ha. apply (safe_says _ _ _ (in_bytes (group_len g))); [exact F|now apply C3|]. intros b. quiet.
  - apply A; intros a Ha. pose proof (C4 a dst Ha) as Q. destruct (Nat.ltb_spec (length dst) (group_len g)) as [L|L].
    + pose proof (ks_kept _ _ _ KS a dst Ha L) as Q'. destruct (o_store (k_ops i K) a dst) as [r d]. cbn [fst snd] in *. subst. split; [exact F|]. split; [discriminate|].
      split; [discriminate|]. intros b [= <-]. now exists g, x.
    + destruct (o_store (k_ops i K) a dst) as [r d]. cbn [fst] in Q. subst r. split; [exact F|]. split; [discriminate|]. split; [discriminate|]. intros b; discriminate.
  - apply A; intros a Ha. apply (safe_says _ _ _ (fun _ => True)); [exact F|now apply returns_ret|]. intros b. quiet.
  - apply A; intros a Ha; apply A; intros b Hb. apply (safe_says _ _ _ (fun _ => True)); [exact F|now apply returns_ret|]. intros d. quiet.
  - apply A; intros a Ha. apply (safe_says _ _ _ (fun _ => True)); [exact F|now apply (ks_debug _ _ _ KS)|]. intros b. quiet.
  - destruct (nth_error v e) as [ve|] eqn:Ee; [|exact I]. apply (good_at v e) in Ee; [|exact F]. destruct ve as [| | |k e'|]; try exact I.
    apply A; intros a Ha. apply M. now apply (ks_encrypt _ _ _ KS).
  - destruct (nth_error v d) as [ve|] eqn:Ee; [|exact I]. apply (good_at v d) in Ee; [|exact F]. destruct ve as [| | | |k d']; try exact I.
    apply A; intros a Ha. apply M. now apply (ks_decrypt _ _ _ KS).
Qed.

Lemma step_safe v c : Forall good v -> typed c = true -> safe c (crate i v c).
Proof.
  intros F Ht. destruct kinds_safe as (K1 & K2 & K4). pose proof (reach_closed i) as AC.
  destruct (C26_u128_calls_return c0 i E0) as [U1 U2]. pose proof (fun k => C26_cipher_calls_return c0 i k E0) as Q.
  assert (A1 : forall x k, (forall a, reach1 i a -> safe c (k a)) -> safe c (obind (obind (nth_error v x) (get1 i)) k)).
  { intros x k H. destruct (nth_error v x) as [a|] eqn:Ea; [|exact I]. apply (good_at v x) in Ea; [|exact F]. destruct a; try exact I. now apply H. }
  assert (A2 : forall x k, (forall a, reach2 i a -> safe c (k a)) -> safe c (obind (obind (nth_error v x) (get2 i)) k)).
  { intros x k H. destruct (nth_error v x) as [a|] eqn:Ea; [|exact I]. apply (good_at v x) in Ea; [|exact F]. destruct a; try exact I. now apply H. }
  assert (A4 : forall x k, (forall a, reach4 i a -> safe c (k a)) -> safe c (obind (obind (nth_error v x) (get4 i)) k)).
  { intros x k H. destruct (nth_error v x) as [a|] eqn:Ea; [|exact I]. apply (good_at v x) in Ea; [|exact F]. destruct a; try exact I. now apply H. }
  assert (M : forall {A} (r : outcome A) (h : A -> list (var i)), returns r (fun a => Forall good (h a)) -> safe c (result_of i v r (fun a => (Made (List.length (h a)), v ++ h a)))).
  { intros A r h H. apply (safe_made _ _ _ _ (fun a => List.length (h a)) h F H). auto. }
  assert (X : forall {A} (r : outcome A) (P R : A -> Prop), returns r P -> (forall a, P a -> R a) -> returns r R) by (intros A r P R' (a & -> & Ha) H; exists a; auto).
  assert (one : forall x, good x -> Forall good [x]) by (intros; constructor; [assumption|constructor]).
  destruct c; cbn [crate typed] in *.
  - destruct g; [apply (on_safe _ _ _ _ _ K1)|apply (on_safe _ _ _ _ _ K2)|apply (on_safe _ _ _ _ _ K4)]; assumption.
  - apply N.ltb_lt in Ht. apply (M _ _ (fun x => [V1 x])). apply (X _ _ _ _ (U1 v0 Ht)). intros a Ha. now apply one.
  - apply A1; intros a Ha. apply (safe_says _ _ _ _ _ F (U2 a Ha)). intros b. quiet.
  - apply A1; intros a Ha. apply (M _ _ (fun x => [V1 x])). apply returns_ret, one. now apply AC.
  - apply A1; intros a Ha. apply (M _ _ (fun x => [V1 x])). apply returns_ret, one. now apply AC.
  - apply A1; intros a Ha. destruct (U2 a Ha) as (n & En & _). destruct (C23_printed_forms c0 i a n alternate width E0 Ha En) as (L & U & B & D & _).
    apply (safe_says _ _ _ (fun _ => True)); [exact F| |intros b; quiet]. destruct st; eexists; (split; [eassumption|exact I]).
  - apply A1; intros p Hp; apply A1; intros q Hq. apply (M _ _ (fun x => [V2 x])). apply returns_ret, one. now apply AC.
  - apply A1; intros p Hp. apply (M _ _ (fun x => [V2 x])). apply returns_ret, one. now apply AC.
  - apply A2; intros p Hp. apply (M _ _ (fun p => let '(a, b) := p in [V1 a; V1 b])). apply returns_ret. pose proof (ac_x2_to_pair _ _ _ _ _ _ AC p Hp) as H.
    destruct (x2_to_pair i p) as [a b]. destruct H. now repeat constructor.
  - apply A1; intros p Hp; apply A1; intros q Hq; apply A1; intros r Hr; apply A1; intros t Ht'. apply (M _ _ (fun x => [V4 x])). apply returns_ret, one. now apply AC.
  - apply A2; intros p Hp; apply A2; intros q Hq. apply (M _ _ (fun x => [V4 x])). apply returns_ret, one. now apply AC.
  - apply A1; intros p Hp. apply (M _ _ (fun x => [V4 x])). apply returns_ret, one. now apply AC.
  - apply A2; intros p Hp. apply (M _ _ (fun x => [V4 x])). apply returns_ret, one. now apply AC.
  - apply A4; intros p Hp. apply (M _ _ (fun p => let '(a, b, c, d) := p in [V1 a; V1 b; V1 c; V1 d])). apply returns_ret. pose proof (ac_x4_to_quad _ _ _ _ _ _ AC p Hp) as H.
    destruct (x4_to_quad i p) as [[[a b] c] d]. destruct H as (?&?&?&?). now repeat constructor.
  - apply A4; intros p Hp. apply (M _ _ (fun p => let '(a, b) := p in [V2 a; V2 b])). apply returns_ret. pose proof (ac_x4_to_pair _ _ _ _ _ _ AC p Hp) as H.
    destruct (x4_to_pair i p) as [a b]. destruct H. now repeat constructor.
  - apply is_bytesb_correct in Ht. apply (M _ _ (fun e => [VE k e])). destruct (Q k) as (Q1 & _). eapply X; [now apply (Q1 key Ht)|]. intros a Ha. now apply one.
  - apply is_bytesb_correct in Ht. apply (M _ _ (fun e => [VD k e])). destruct (Q k) as (Q1 & _). eapply X; [now apply (Q1 key Ht)|]. intros a Ha. now apply one.
  - destruct (nth_error v e) as [ve|] eqn:Ee; [|exact I]. apply (good_at v e) in Ee; [|exact F]. destruct ve as [| | |k e'|]; try exact I.
    apply (M _ _ (fun e => [VD k e])). destruct (Q k) as (_ & Q1 & _). eapply X; [now apply (Q1 e')|]. intros a Ha. now apply one.
  - destruct (nth_error v d) as [ve|] eqn:Ee; [|exact I]. apply (good_at v d) in Ee; [|exact F]. destruct ve as [| | | |k d']; try exact I.
    apply (M _ _ (fun e => [VE k e])). destruct (Q k) as (_ & _ & Q1 & _). eapply X; [now apply (Q1 d')|]. intros a Ha. now apply one.
  - destruct (inst_any c0 i E0) as (s & f1 & f2 & f4 & _ & _ & S1 & R).
    destruct (nth_error v x) as [ve|] eqn:Ee; [|exact I]. apply (good_at v x) in Ee; [|exact F]. destruct ve as [| | |k e'|k d']; try exact I; cbn [good] in Ee.
    + apply (safe_says _ _ _ (fun _ => True)); [exact F| |intros b; quiet]. unreach R S1. eexists. split; [unfold fmt_debug_enc; cbn [enc_keys]; eapply (keys_text i f1 f2 f4 s R); eassumption|exact I].
    + apply (safe_says _ _ _ (fun _ => True)); [exact F| |intros b; quiet]. unreach R S1. eexists. split; [unfold fmt_debug_dec; cbn [dec_keys]; eapply (keys_text i f1 f2 f4 s R); eassumption|exact I].
  - destruct (nth_error v x) as [ve|] eqn:Ee; [|exact I]. apply (good_at v x) in Ee; [|exact F]. cbn [obind]. apply (M _ _ (fun v => [v])). now apply returns_ret, one.
Qed.

Lemma play_safe p : forall v, Forall good v -> Forall (fun ca => harmless (fst ca) (snd ca)) (play (crate i) v p).
Proof.
  induction p as [|c next IH]; intros v F; [constructor|]. cbn [play]. destruct (typed c) eqn:Ht.
  - pose proof (step_safe v c F Ht) as Q. destruct (crate i v c) as [[a v']|].
    + destruct Q as [F' H]. constructor; [exact H|now apply IH].
    + constructor; [cbn; quiet|now apply IH].
  - constructor; [cbn; quiet|now apply IH].
Qed.
End Safe.
