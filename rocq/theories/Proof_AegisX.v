(** AEGIS-128X: the programs of Spec_AegisX compute the cipher, and opening undoes sealing (for every number of lanes). *)
From Coq Require Import Lia Arith.
From Verif Require Import Word Interface Fips197 Spec_Api Spec_Reach Spec_Cfg Spec_User Spec_Aegis Spec_AegisX Model_Lib Model_Cfg.
From Verif Require Import Proof_Shape Proof_Word Proof_Fips Proof_Ok Proof_Wide Proof_Sem Proof_Lib Proof_Reach Proof_Inst Proof_Cipher Proof_Main.
From Verif Require Import Samples Props_Rounds Props_Batch Props_Aegis.
Open Scope N_scope.

(** ** Lists *)
Lemma map2_maps {A B C E} (g : B -> C -> E) (a : A -> B) (b : A -> C) l : map2 g (map a l) (map b l) = map (fun x => g (a x) (b x)) l.
Proof. induction l as [|x l IH]; [reflexivity|]. cbn [map map2]. now rewrite IH. Qed.
Lemma map_const {A B} (b : B) (l : list A) : map (fun _ => b) l = repeat b (length l).
Proof. induction l as [|x l IH]; [reflexivity|]. cbn [map length repeat]. now rewrite IH. Qed.
Lemma map2_concat (g : N -> N -> N) u v : length u = length v -> Forall (fun x => length x = 16%nat) u -> Forall (fun x => length x = 16%nat) v ->
  map2 g (concat u) (concat v) = concat (map2 (map2 g) u v).
Proof.
  revert v. induction u as [|x u IH]; intros [|y v] L Fu Fv; try discriminate L; [reflexivity|]. cbn [concat map2].
  rewrite map2_app by (inversion Fu; inversion Fv; congruence). rewrite IH; [reflexivity|now injection L|now inversion Fu|now inversion Fv].
Qed.

Section Lanes.
  Context (D : nat) (HD : (0 < D)%nat).
  Definition vec (v : list (list N)) : Prop := length v = D /\ Forall (is_bytes 16) v.
  Definition wstate (ss : list (list (list N))) : Prop := length ss = D /\ Forall state ss.
  Definition row (j : nat) (ss : list (list (list N))) : list (list N) := map (fun s => nth j s []) ss.

  Lemma vec_lens v : vec v -> Forall (fun x => length x = 16%nat) v.
  Proof. intros [_ F]. eapply Forall_impl; [|exact F]. intros x H. apply H. Qed.
  Lemma vec_concat v : vec v -> is_bytes (16 * D) (concat v).
  Proof. intros [<- F]. now apply concat_bytes. Qed.
  Lemma vec_lanes v : vec v -> lanes D (concat v) = v.
  Proof. intros [<- F]. now apply lanes_concat. Qed.
  Lemma lanes_vec x : is_bytes (16 * D) x -> vec (lanes D x).
  Proof. intros H. split; [apply lanes_length|now apply lanes_bytes]. Qed.
  Lemma vec_map2 g u v : (forall a b, is_bytes 16 a -> is_bytes 16 b -> is_bytes 16 (g a b)) -> vec u -> vec v -> vec (map2 g u v).
  Proof. intros G [Lu Fu] [Lv Fv]. split; [rewrite map2_length, Lu, Lv; apply Nat.min_id|]. eapply Forall_map2; [exact G|exact Fu|exact Fv]. Qed.
  Lemma vec_map {A} (g : A -> list N) (l : list A) : length l = D -> (forall x, In x l -> is_bytes 16 (g x)) -> vec (map g l).
  Proof. intros L H. split; [rewrite map_length; exact L|]. apply Forall_forall. intros y Y. apply in_map_iff in Y. destruct Y as (x & <- & X). now apply H. Qed.
  Lemma row_vec j ss : (j < 8)%nat -> wstate ss -> vec (row j ss).
  Proof.
    intros J [L F]. apply vec_map; [exact L|]. intros s S. rewrite Forall_forall in F. specialize (F s S). destruct F as [Ls Fs]. rewrite Forall_forall in Fs. apply Fs.
    apply nth_In. rewrite Ls. exact J.
  Qed.
  Lemma update_lanes_map {A} (g : A -> list (list N)) a b (l : list A) : update_lanes (map g l) (map a l) (map b l) = map (fun x => update (g x) (a x) (b x)) l.
  Proof. induction l as [|x l IH]; [reflexivity|]. cbn [map update_lanes]. now rewrite IH. Qed.
  Lemma update_wstate ss m0 m1 : wstate ss -> vec m0 -> vec m1 -> wstate (update_lanes ss m0 m1).
  Proof.
    unfold wstate, vec. generalize D. revert m0 m1. induction ss as [|s ss IH]; intros m0 m1 n [L F] [L0 F0] [L1 F1]; [split; [exact L|exact (Forall_nil _)]|].
    cbn [length] in L. subst n. destruct m0 as [|a m0]; [discriminate L0|]. destruct m1 as [|b m1]; [discriminate L1|]. cbn [update_lanes].
    inversion F; subst. inversion F0; subst. inversion F1; subst.
    cbn [length] in L0, L1.
    destruct (IH m0 m1 (length ss)) as [L' F']; [split; [reflexivity|assumption]|split; [lia|assumption]|split; [lia|assumption]|].
    split; [cbn [length]; now rewrite L'|]. constructor; [|exact F']. now apply update_state.
  Qed.
  Lemma rows_update ss m0 m1 : length ss = D -> length m0 = D -> length m1 = D ->
    row 0 (update_lanes ss m0 m1) = map2 aes_round (row 7 ss) (map2 xor (row 0 ss) m0) /\
    row 1 (update_lanes ss m0 m1) = map2 aes_round (row 0 ss) (row 1 ss) /\
    row 2 (update_lanes ss m0 m1) = map2 aes_round (row 1 ss) (row 2 ss) /\
    row 3 (update_lanes ss m0 m1) = map2 aes_round (row 2 ss) (row 3 ss) /\
    row 4 (update_lanes ss m0 m1) = map2 aes_round (row 3 ss) (map2 xor (row 4 ss) m1) /\
    row 5 (update_lanes ss m0 m1) = map2 aes_round (row 4 ss) (row 5 ss) /\
    row 6 (update_lanes ss m0 m1) = map2 aes_round (row 5 ss) (row 6 ss) /\
    row 7 (update_lanes ss m0 m1) = map2 aes_round (row 6 ss) (row 7 ss).
  Proof.
    generalize D. revert m0 m1. unfold row. induction ss as [|s ss IH]; intros m0 m1 n L L0 L1; [repeat split|].
    cbn [length] in L. subst n. destruct m0 as [|a m0]; [discriminate L0|]. destruct m1 as [|b m1]; [discriminate L1|]. injection L0 as L0. injection L1 as L1.
    destruct (IH m0 m1 (length ss) eq_refl L0 L1) as (E0 & E1 & E2 & E3 & E4 & E5 & E6 & E7). cbn [update_lanes map map2]. rewrite E0, E1, E2, E3, E4, E5, E6, E7.
    unfold update. cbn [nth]. repeat split.
  Qed.

  (** Pieces of at most 32 * D bytes *)
  Definition xpiece (p : list N) : Prop := (length p <= 32 * D)%nat /\ bytes_ok p.
  Lemma xpad_bytes p : xpiece p -> is_bytes (32 * D) (pad_x D p).
  Proof. intros [L F]. unfold pad_x. split; [rewrite app_length, repeat_length; lia|]. apply bytes_ok_app; [exact F|]. now apply bytes_ok_repeat. Qed.
  Lemma xhalves l : is_bytes (32 * D) l -> is_bytes (16 * D) (firstn (16 * D) l) /\ is_bytes (16 * D) (skipn (16 * D) l).
  Proof. intros [L F]. split; split; [rewrite firstn_length; lia|now apply bytes_ok_firstn|rewrite skipn_length; lia|now apply bytes_ok_skipn]. Qed.
  Lemma absorb_wstate ss p : wstate ss -> xpiece p -> wstate (absorb_x D ss p).
  Proof. intros H P. destruct (xhalves _ (xpad_bytes p P)). unfold absorb_x. apply update_wstate; [assumption|now apply lanes_vec|now apply lanes_vec]. Qed.
  Definition z0 (ss : list (list (list N))) : list (list N) := map2 xor (map2 xor (row 6 ss) (row 1 ss)) (map2 (map2 N.land) (row 2 ss) (row 3 ss)).
  Definition z1 (ss : list (list (list N))) : list (list N) := map2 xor (map2 xor (row 2 ss) (row 5 ss)) (map2 (map2 N.land) (row 6 ss) (row 7 ss)).
  Lemma keystream_rows ss : keystream_x ss = concat (z0 ss) ++ concat (z1 ss).
  Proof. unfold keystream_x, z0, z1, row. now rewrite !map2_maps. Qed.
  Lemma z_vec ss : wstate ss -> vec (z0 ss) /\ vec (z1 ss).
  Proof.
    intros H. pose proof (fun j J => row_vec j ss J H) as V. split; unfold z0, z1; repeat (apply vec_map2; [first [exact xor16|exact (is_bytes_and 16)]| |]); apply V; lia.
  Qed.
  Lemma keystream_x_bytes ss : wstate ss -> is_bytes (32 * D) (keystream_x ss).
  Proof.
    intros H. destruct (z_vec ss H) as [V0 V1]. rewrite keystream_rows. replace (32 * D)%nat with (16 * D + 16 * D)%nat by lia. apply is_bytes_app; now apply vec_concat.
  Qed.
  Lemma xor_xpiece ss p : wstate ss -> xpiece p -> length (xor p (keystream_x ss)) = length p /\ xpiece (xor p (keystream_x ss)).
  Proof.
    intros H [L F]. pose proof (keystream_x_bytes ss H) as [LK FK].
    assert (E : length (xor p (keystream_x ss)) = length p) by (apply xor_length; lia). split; [exact E|]. split; [rewrite E; exact L|].
    unfold xor. rewrite <- firstn_xor. apply (xor_bytes (length p)); split; [reflexivity|exact F|rewrite firstn_length; lia|now apply bytes_ok_firstn].
  Qed.
  Lemma xor_x_twice ss p : wstate ss -> xpiece p -> xor (xor p (keystream_x ss)) (keystream_x ss) = p.
  Proof.
    intros H [L F]. pose proof (keystream_x_bytes ss H) as [LK FK].
    assert (E : length (xor p (keystream_x ss)) = length p) by (apply xor_length; lia).
    assert (X : xor p (keystream_x ss) = map2 N.lxor p (firstn (length p) (keystream_x ss))) by (symmetry; apply firstn_xor).
    unfold xor at 1. rewrite <- firstn_xor, E, X. apply (xor_xor (length p)); [reflexivity|rewrite firstn_length; lia].
  Qed.
  Lemma xpieces_are n l : bytes_ok l -> Forall xpiece (chunks (32 * D) n l).
  Proof.
    revert l. induction n as [|n IH]; intros l F; [constructor|]. cbn [chunks]. constructor; [|apply IH; now apply bytes_ok_skipn].
    split; [rewrite firstn_length; lia|now apply bytes_ok_firstn].
  Qed.
  Lemma xblock_state (dec : bool) ss p : wstate ss -> xpiece p -> let '(ss', o) := (if dec then dec_x D else enc_x D) ss p in wstate ss' /\ xpiece o /\ length o = length p.
  Proof. intros H P. destruct (xor_xpiece ss p H P) as [L O]. destruct dec; cbn [dec_x enc_x]; (split; [now apply absorb_wstate|split; assumption]). Qed.

  (** Init and Finalize, lane by lane *)
  Lemma context_bytes k : (k < 256)%nat -> (D <= 256)%nat -> is_bytes 16 (context D k).
  Proof.
    intros K HD'. split; [reflexivity|]. unfold context. apply bytes_ok_app; [|now apply bytes_ok_repeat]. repeat (apply Forall_cons; [lia|]). apply Forall_nil.
  Qed.
  Lemma add_context_state k s : is_bytes 16 (context D k) -> state s -> state (add_context D k s).
  Proof. intros C H. open_state H. unfold add_context. cbn [nth]. apply state_intro; try assumption; now apply xor16. Qed.
  Lemma init_lane_state n key nonce k s : is_bytes 16 (context D k) -> is_bytes 16 key -> is_bytes 16 nonce -> state s ->
    state (Nat.iter n (fun s => update (add_context D k s) nonce key) s).
  Proof. intros C K Nn H. induction n as [|n IH]; [exact H|]. cbn [Nat.iter nat_rect]. apply update_state; [now apply add_context_state|assumption|assumption]. Qed.
  Lemma wstate_map {A} (g : A -> list (list N)) (l : list A) : length l = D -> (forall x, In x l -> state (g x)) -> wstate (map g l).
  Proof. intros L H. split; [rewrite map_length; exact L|]. apply Forall_forall. intros y Y. apply in_map_iff in Y. destruct Y as (x & <- & X). now apply H. Qed.
  Lemma init_x_ok key nonce : (D <= 256)%nat -> is_bytes 16 key -> is_bytes 16 nonce -> wstate (init_x D key nonce).
  Proof.
    intros HD' K Nn. apply wstate_map; [apply seq_length|]. intros k I. apply in_seq in I. unfold init_lane. apply init_lane_state; [apply context_bytes; lia|assumption|assumption|].
    now apply start_ok.
  Qed.
  Lemma fold_xor_bytes l x : Forall (is_bytes 16) l -> is_bytes 16 x -> is_bytes 16 (fold_left xor l x).
  Proof. intros F. revert x. induction F as [|y l Y _ IH]; intros x X; [exact X|]. cbn [fold_left]. apply IH. now apply xor16. Qed.
  Lemma finalize_x_bytes ss a m : wstate ss -> is_bytes 16 (finalize_x ss a m).
  Proof.
    intros [_ F]. unfold finalize_x. apply fold_xor_bytes; [|split; [reflexivity|now apply bytes_ok_repeat]]. apply Forall_forall. intros y Y. apply in_map_iff in Y.
    destruct Y as (s & <- & S). apply finalize_bytes. rewrite Forall_forall in F. now apply F.
  Qed.

  (** ** Opening undoes sealing *)
  Lemma over_x_length (dec : bool) n : forall ss l, wstate ss -> bytes_ok l -> let '(ss', o) := over_x (if dec then dec_x D else enc_x D) ss (chunks (32 * D) n l) in
    wstate ss' /\ bytes_ok o /\ length o = length (concat (chunks (32 * D) n l)).
  Proof.
    induction n as [|n IH]; intros ss l H F; [split; [exact H|split; [apply Forall_nil|reflexivity]]|]. cbn [chunks over_x concat].
    assert (P : xpiece (firstn (32 * D) l)) by (split; [rewrite firstn_length; lia|now apply bytes_ok_firstn]).
    pose proof (xblock_state dec ss _ H P) as B. destruct ((if dec then dec_x D else enc_x D) ss (firstn (32 * D) l)) as [ss' o]. destruct B as (B & O & L).
    specialize (IH ss' (skipn (32 * D) l) B (bytes_ok_skipn _ _ F)). destruct (over_x _ ss' _) as [ss'' os]. destruct IH as (S2 & Fo & Lo).
    split; [exact S2|]. split; [apply bytes_ok_app; [apply O|exact Fo]|]. rewrite !app_length, L, Lo. reflexivity.
  Qed.
  Lemma concat_xchunks n (l : list N) : (length l <= 32 * D * n)%nat -> concat (chunks (32 * D) n l) = l.
  Proof.
    revert l. induction n as [|n IH]; intros l H; [destruct l; [reflexivity|cbn [length] in H; lia]|]. cbn [chunks concat]. rewrite IH by (rewrite skipn_length; lia). apply firstn_skipn.
  Qed.
  Lemma over_x_undone (dec : bool) n : forall ss l, wstate ss -> bytes_ok l -> (length l <= 32 * D * n)%nat ->
    let '(ss', o) := over_x (if dec then dec_x D else enc_x D) ss (chunks (32 * D) n l) in
    over_x (if dec then enc_x D else dec_x D) ss (chunks (32 * D) n o) = (ss', l).
  Proof.
    induction n as [|n IH]; intros ss l H F Ln; [destruct l; [reflexivity|cbn [length] in Ln; lia]|]. cbn [chunks over_x].
    assert (P : xpiece (firstn (32 * D) l)) by (split; [rewrite firstn_length; lia|now apply bytes_ok_firstn]).
    pose proof (xblock_state dec ss _ H P) as B. pose proof (xor_x_twice ss _ H P) as XX.
    assert (U : let '(ss', o) := (if dec then dec_x D else enc_x D) ss (firstn (32 * D) l) in (if dec then enc_x D else dec_x D) ss o = (ss', firstn (32 * D) l)).
    { destruct dec; cbn [dec_x enc_x]; unfold dec_x, enc_x; cbn zeta; now rewrite XX. }
    destruct ((if dec then dec_x D else enc_x D) ss (firstn (32 * D) l)) as [ss' o]. destruct B as (B & O & L).
    assert (Ln' : (length (skipn (32 * D) l) <= 32 * D * n)%nat) by (rewrite skipn_length; lia).
    specialize (IH ss' (skipn (32 * D) l) B (bytes_ok_skipn _ _ F) Ln'). pose proof (over_x_length dec n ss' (skipn (32 * D) l) B (bytes_ok_skipn _ _ F)) as OL.
    destruct (over_x (if dec then dec_x D else enc_x D) ss' _) as [ss'' os]. destruct OL as (_ & _ & OL). rewrite concat_xchunks in OL by exact Ln'.
    assert (FS : firstn (32 * D) (o ++ os) = o /\ skipn (32 * D) (o ++ os) = os).
    { rewrite firstn_length in L. rewrite skipn_length in OL. destruct (Nat.leb_spec (32 * D) (length l)) as [C|C].
      - assert (length o = 32 * D)%nat by lia. split; [now apply firstn_exact|now apply skipn_exact].
      - assert (Z : os = []) by (destruct os; [reflexivity|cbn [length] in OL; lia]). rewrite Z, app_nil_r. split; [apply firstn_all2; lia|apply skipn_all2; lia]. }
    destruct FS as [-> ->]. rewrite U, IH. now rewrite firstn_skipn.
  Qed.
  Lemma xpieces_bound (l : list N) : (length l <= 32 * D * ((length l + (32 * D - 1)) / (32 * D)))%nat.
  Proof.
    pose proof (Nat.div_mod (length l + (32 * D - 1)) (32 * D)). pose proof (Nat.mod_upper_bound (length l + (32 * D - 1)) (32 * D)).
    set (q := Nat.div _ _) in *. set (r := Nat.modulo _ _) in *. clearbody q r. lia.
  Qed.
  Lemma seal_open_x key nonce ad msg ct tag : (D <= 256)%nat -> is_bytes 16 key -> is_bytes 16 nonce -> bytes_ok ad -> bytes_ok msg -> bytes_ok ct ->
    (aegisx_seal D key nonce ad msg = (ct, tag) <-> aegisx_open D key nonce ad ct tag = Some msg).
  Proof.
    intros HD' K Nn A M Bc. unfold aegisx_seal, aegisx_open.
    assert (S1 : wstate (fold_left (absorb_x D) (pieces_x D ad) (init_x D key nonce))).
    { pose proof (init_x_ok key nonce HD' K Nn) as H. revert H. generalize (init_x D key nonce). pose proof (xpieces_are (Nat.div (length ad + (32 * D - 1)) (32 * D)) ad A) as P.
      fold (pieces_x D ad) in P. induction P as [|p ps P _ IH]; intros ss H; [exact H|]. cbn [fold_left]. apply IH. now apply absorb_wstate. }
    set (ss := fold_left (absorb_x D) (pieces_x D ad) (init_x D key nonce)) in *. clearbody ss. unfold pieces_x. split.
    - pose proof (over_x_undone false _ ss msg S1 M (xpieces_bound msg)) as U. pose proof (over_x_length false (Nat.div (length msg + (32 * D - 1)) (32 * D)) ss msg S1 M) as OL.
      rewrite concat_xchunks in OL by apply xpieces_bound. cbn iota in U, OL. destruct (over_x (enc_x D) ss _) as [ss' o]. destruct OL as (_ & _ & OL). intros H. injection H as <- <-.
      rewrite OL, U. destruct (list_eq_dec N.eq_dec _ _) as [|n]; [reflexivity|now destruct n].
    - pose proof (over_x_undone true _ ss ct S1 Bc (xpieces_bound ct)) as U. pose proof (over_x_length true (Nat.div (length ct + (32 * D - 1)) (32 * D)) ss ct S1 Bc) as OL.
      rewrite concat_xchunks in OL by apply xpieces_bound. cbn iota in U, OL. destruct (over_x (dec_x D) ss _) as [ss' o]. destruct OL as (_ & _ & OL).
      destruct (list_eq_dec N.eq_dec _ _) as [e|]; [|discriminate]. intros H. injection H as <-. rewrite OL, U, e. now rewrite OL.
  Qed.

  (** ** The programs *)
  Section Follow.
    Context (HD' : (D <= 256)%nat) (i : impl) (f1 : list N -> T1 i) {T : Type} (o : ops T) (f : list N -> T) (wide : T1 i -> T) (split : T -> list (T1 i)).
    Context (D1 : data_ok (i_ops1 i) 16 f1) (Dn : data_ok o (16 * D) f) (En : lane_ok (o_enc o) D f spec_enc)
      (Wd : forall a, is_bytes 16 a -> wide (f1 a) = f (concat (repeat a D))) (Sp : forall v, vec v -> split (f (concat v)) = map f1 v).
    Definition F (v : list (list N)) : T := f (concat v).
    Definition V (ss : list (list (list N))) : list T :=
      [F (row 0 ss); F (row 1 ss); F (row 2 ss); F (row 3 ss); F (row 4 ss); F (row 5 ss); F (row 6 ss); F (row 7 ss)].

    Lemma encF u v : vec u -> vec v -> o_enc o (F u) (F v) = F (map2 aes_round u v).
    Proof. intros U W. unfold F. rewrite En by now apply vec_concat. unfold on_lanes. now rewrite !vec_lanes by assumption. Qed.
    Lemma xorF u v : vec u -> vec v -> o_xor o (F u) (F v) = F (map2 xor u v).
    Proof. intros U W. unfold F. rewrite (dk_xor _ _ _ Dn) by now apply vec_concat. rewrite map2_concat; [reflexivity|rewrite (proj1 U); symmetry; apply W|now apply vec_lens|now apply vec_lens]. Qed.
    Lemma andF u v : vec u -> vec v -> o_and o (F u) (F v) = F (map2 (map2 N.land) u v).
    Proof. intros U W. unfold F. rewrite (dk_and _ _ _ Dn) by now apply vec_concat. rewrite map2_concat; [reflexivity|rewrite (proj1 U); symmetry; apply W|now apply vec_lens|now apply vec_lens]. Qed.
    Lemma vec_xor u v : vec u -> vec v -> vec (map2 xor u v).
    Proof. apply vec_map2. exact xor16. Qed.
    Lemma wide_all {A} a (l : list A) : is_bytes 16 a -> length l = D -> wide (f1 a) = F (map (fun _ => a) l).
    Proof. intros B L. rewrite Wd by assumption. unfold F. now rewrite map_const, L. Qed.
    Lemma step_rows r0 r1 r2 r3 r4 r5 r6 r7 m0 m1 ss : vec r0 -> vec r1 -> vec r2 -> vec r3 -> vec r4 -> vec r5 -> vec r6 -> vec r7 -> vec m0 -> vec m1 -> length ss = D ->
      row 0 ss = r0 -> row 1 ss = r1 -> row 2 ss = r2 -> row 3 ss = r3 -> row 4 ss = r4 -> row 5 ss = r5 -> row 6 ss = r6 -> row 7 ss = r7 ->
      step_x o [F r0; F r1; F r2; F r3; F r4; F r5; F r6; F r7] (F m0) (F m1) = V (update_lanes ss m0 m1).
    Proof.
      intros B0 B1 B2 B3 B4 B5 B6 B7 M0 M1 L E0 E1 E2 E3 E4 E5 E6 E7. unfold step_x. cbn [nth].
      rewrite !xorF by assumption. rewrite !encF by (assumption || now apply vec_xor). unfold V.
      destruct (rows_update ss m0 m1 L (proj1 M0) (proj1 M1)) as (-> & -> & -> & -> & -> & -> & -> & ->). rewrite E0, E1, E2, E3, E4, E5, E6, E7. reflexivity.
    Qed.
    Lemma step_follow ss m0 m1 : wstate ss -> vec m0 -> vec m1 -> step_x o (V ss) (F m0) (F m1) = V (update_lanes ss m0 m1).
    Proof. intros H M0 M1. unfold V at 1. apply step_rows; try reflexivity; try assumption; try (apply row_vec; [lia|assumption]). apply H. Qed.
    Lemma load_xok p : xpiece p -> load_x o D p = Ret (f (firstn (16 * D) (pad_x D p)), f (skipn (16 * D) (pad_x D p))).
    Proof. intros P. destruct (xhalves _ (xpad_bytes p P)). unfold load_x. rewrite !(dk_from _ _ _ Dn) by assumption. reflexivity. Qed.
    Lemma F_lanes x : is_bytes (16 * D) x -> F (lanes D x) = f x.
    Proof. intros [L _]. unfold F. now rewrite concat_lanes. Qed.
    Lemma init_xfollow key nonce : is_bytes 16 key -> is_bytes 16 nonce -> init_xprog i o wide D key nonce = Ret (V (init_x D key nonce)).
    Proof.
      intros K Nn. pose proof C0_bytes as B0. pose proof C1_bytes as B1. set (L := seq 0 D). assert (HL : length L = D) by apply seq_length.
      assert (CV : forall k, In k L -> is_bytes 16 (context D k)) by (intros k I; apply in_seq in I; apply context_bytes; lia).
      assert (CX : vec (map (context D) L)) by (apply vec_map; assumption).
      unfold init_xprog. rewrite !(dk_from _ _ _ D1) by assumption. cbn [bind]. rewrite (dk_from _ _ _ Dn) by now apply vec_concat. cbn [bind].
      rewrite !(wide_all _ L) by assumption. fold L. cbn zeta. fold (F (map (context D) L)).
      assert (KV : forall a, is_bytes 16 a -> vec (map (fun _ : nat => a) L)) by (intros a B; apply vec_map; [exact HL|now intros]).
      rewrite !xorF by now apply KV. rewrite !map2_maps. f_equal.
      transitivity (Nat.iter 10 (fun s => step_x o [nth 0 s (o_zero o); nth 1 s (o_zero o); nth 2 s (o_zero o); o_xor o (nth 3 s (o_zero o)) (F (map (context D) L)); nth 4 s (o_zero o); nth 5 s (o_zero o);
        nth 6 s (o_zero o); o_xor o (nth 7 s (o_zero o)) (F (map (context D) L))] (F (map (fun _ => nonce) L)) (F (map (fun _ => key) L))) (V (map (fun _ => start_state key nonce) L))).
      { f_equal. unfold V, row. rewrite !map_map. reflexivity. }
      unfold init_x, init_lane. fold L. fold (start_state key nonce). pose proof (start_ok key nonce K Nn) as S0. set (stp := fun s : list T => step_x o _ _ _).
      set (G := fun n x => Nat.iter n (fun s => update (add_context D x s) nonce key) (start_state key nonce)).
      enough (Q : forall n, Nat.iter n stp (V (map (fun _ => start_state key nonce) L)) = V (map (G n) L)) by apply (Q 10%nat).
      induction n as [|n IH]; [reflexivity|].
      change (stp (Nat.iter n stp (V (map (fun _ => start_state key nonce) L))) = V (map (fun x => update (add_context D x (G n x)) nonce key) L)). rewrite IH. clear IH.
      assert (HG : forall x, In x L -> state (G n x)) by (intros x I; exact (init_lane_state n key nonce x _ (CV x I) K Nn S0)). revert HG. generalize (G n). clear G. intros g HG.
      pose proof (wstate_map g L HL HG) as W. subst stp. cbv beta.
      rewrite <- (update_lanes_map (fun x => add_context D x (g x)) (fun _ => nonce) (fun _ => key) L). unfold V at 1 2 3 4 5 6 7 8. cbn [nth].
      rewrite !xorF by (first [exact CX|apply row_vec; [lia|exact W]]).
      apply step_rows; first [now apply KV|apply row_vec; [lia|exact W]|apply vec_xor; [apply row_vec; [lia|exact W]|exact CX]|rewrite map_length; exact HL
        |unfold row; rewrite ?map_map, ?map2_maps; apply map_ext_in; intros x I; reflexivity].
    Qed.
    Lemma absorb_xfollow ss p : wstate ss -> xpiece p -> absorb_xprog o D (V ss) p = Ret (V (absorb_x D ss p)).
    Proof.
      intros H P. destruct (xhalves _ (xpad_bytes p P)) as [H0 H1]. unfold absorb_xprog. rewrite load_xok by assumption. cbn [bind fst snd]. f_equal. unfold absorb_x.
      rewrite <- (F_lanes _ H0), <- (F_lanes _ H1). apply step_follow; [assumption|now apply lanes_vec|now apply lanes_vec].
    Qed.
    Lemma absorbs_xfollow ps : Forall xpiece ps -> forall ss, wstate ss ->
      ofold (absorb_xprog o D) ps (V ss) = Ret (V (fold_left (absorb_x D) ps ss)) /\ wstate (fold_left (absorb_x D) ps ss).
    Proof.
      induction 1 as [|p ps P _ IH]; intros ss H; [now split|]. cbn [ofold fold_left]. rewrite absorb_xfollow by assumption. cbn [bind]. apply IH. now apply absorb_wstate.
    Qed.
    Lemma crypt_xfollow (dec : bool) ss p : wstate ss -> xpiece p ->
      crypt_xprog o D dec (V ss) p = let '(ss', c) := (if dec then dec_x D else enc_x D) ss p in Ret (V ss', c).
    Proof.
      intros H P. destruct (xhalves _ (xpad_bytes p P)) as [P0 P1]. destruct (xor_xpiece ss p H P) as [_ O]. destruct (z_vec ss H) as [Z0 Z1].
      pose proof (fun j J => row_vec j ss J H) as VR.
      unfold crypt_xprog. rewrite load_xok by assumption. cbn [bind fst snd]. unfold V at 1 2 3 4 5 6 7 8. cbn [nth].
      rewrite !andF by (apply VR; lia). rewrite (xorF (row 6 ss)) by (apply VR; lia). rewrite (xorF (row 2 ss)) by (apply VR; lia).
      assert (AV : forall a b, (a < 8)%nat -> (b < 8)%nat -> vec (map2 (map2 N.land) (row a ss) (row b ss))) by (intros a b Ha Hb; apply vec_map2; [exact (is_bytes_and 16)|now apply VR|now apply VR]).
      assert (XV : forall a b, (a < 8)%nat -> (b < 8)%nat -> vec (map2 xor (row a ss) (row b ss))) by (intros a b Ha Hb; apply vec_xor; now apply VR).
      rewrite !xorF by (first [apply AV|apply XV]; lia). fold (z0 ss). fold (z1 ss). cbn zeta. unfold F at 1 2.
      rewrite !(dk_xor _ _ _ Dn) by (assumption || now apply vec_concat). rewrite !(to_bytes_ok _ (16 * D) f _ Dn) by (apply xor_bytes; [assumption|now apply vec_concat]). cbn [bind].
      assert (EO : firstn (length p) (map2 N.lxor (firstn (16 * D) (pad_x D p)) (concat (z0 ss)) ++ map2 N.lxor (skipn (16 * D) (pad_x D p)) (concat (z1 ss))) = xor p (keystream_x ss)).
      { unfold xor. rewrite <- map2_app by (rewrite (is_bytes_len _ _ P0), (is_bytes_len _ _ (vec_concat _ Z0)); reflexivity). rewrite firstn_skipn, <- keystream_rows, firstn_map2. unfold pad_x.
        rewrite firstn_exact by reflexivity. apply firstn_xor. }
      rewrite EO. destruct dec; rewrite absorb_xfollow by assumption; reflexivity.
    Qed.
    Lemma pieces_xfollow (dec : bool) ps : Forall xpiece ps -> forall ss, wstate ss ->
      let '(ss', c) := over_x (if dec then dec_x D else enc_x D) ss ps in pieces_xprog o D dec (V ss) ps = Ret (V ss', c) /\ wstate ss'.
    Proof.
      induction 1 as [|p ps P _ IH]; intros ss H; [now split|]. cbn [over_x pieces_xprog]. rewrite crypt_xfollow by assumption.
      pose proof (xblock_state dec ss p H P) as B. destruct ((if dec then dec_x D else enc_x D) ss p) as [ss' c]. destruct B as (B & _). cbn [bind fst snd].
      specialize (IH ss' B). destruct (over_x _ ss' ps) as [ss'' cs]. destruct IH as [-> S']. cbn [bind fst snd]. now split.
    Qed.
    Lemma fold_xorF l x : Forall (is_bytes 16) l -> is_bytes 16 x -> fold_left (o_xor (i_ops1 i)) (map f1 l) (f1 x) = f1 (fold_left xor l x).
    Proof.
      intros Fl. revert x. induction Fl as [|y l Y _ IH]; intros x X; [reflexivity|]. cbn [map fold_left]. rewrite (dk_xor _ _ _ D1) by assumption. apply IH. now apply xor16.
    Qed.
    Lemma tag_xfollow ss a m : wstate ss -> tag_xprog i o wide split (V ss) a m = Ret (f1 (finalize_x ss a m)).
    Proof.
      intros H. unfold tag_xprog, finalize_x, finalize. rewrite (dk_from _ _ _ D1) by apply lens_bytes. cbn [bind]. f_equal. set (u := to_le 8 _ ++ to_le 8 _).
      assert (U : is_bytes 16 u) by apply lens_bytes. change (nth 2 (V ss) (o_zero o)) with (F (row 2 ss)). cbn zeta. rewrite (wide_all u ss) by (assumption || apply H).
      assert (UV : vec (map (fun _ : list (list N) => u) ss)) by (apply vec_map; [apply H|now intros]).
      set (t := fun s : list (list N) => xor (nth 2 s []) u).
      assert (ET : o_xor o (F (row 2 ss)) (F (map (fun _ => u) ss)) = F (map t ss)).
      { rewrite xorF by (first [exact UV|apply row_vec; [lia|exact H]]). unfold row. now rewrite map2_maps. }
      rewrite ET. clear ET.
      assert (Ts : forall s, In s ss -> state s /\ is_bytes 16 (t s)).
      { intros s I. destruct H as [_ Fs]. rewrite Forall_forall in Fs. specialize (Fs s I). split; [exact Fs|]. apply xor16; [open_state Fs; assumption|exact U]. }
      assert (TV : vec (map t ss)) by (apply vec_map; [apply H|intros s I; now apply Ts]).
      assert (IT : forall n, Nat.iter n (fun s => step_x o s (F (map t ss)) (F (map t ss))) (V ss) = V (map (fun s => Nat.iter n (fun x => update x (t s) (t s)) s) ss) /\
        wstate (map (fun s => Nat.iter n (fun x => update x (t s) (t s)) s) ss)).
      { induction n as [|n [IH IW]]; [cbn [Nat.iter nat_rect]; rewrite map_id; split; [reflexivity|exact H]|]. split.
        - cbn [Nat.iter nat_rect]. unfold Nat.iter in IH. rewrite IH. rewrite step_follow; [|exact IW|exact TV|exact TV]. now rewrite update_lanes_map.
        - apply wstate_map; [apply H|]. intros s I. apply (iter_state (S n)); now apply Ts. }
      destruct (IT 7%nat) as [-> W]. match type of W with wstate ?x => set (ss7 := x) in * end.
      transitivity (fold_left (o_xor (i_ops1 i)) (map f1 (map (fun s => xor (xor (xor (xor (xor (xor (nth 0 s []) (nth 1 s [])) (nth 2 s [])) (nth 3 s [])) (nth 4 s [])) (nth 5 s [])) (nth 6 s [])) ss7)) (o_zero (i_ops1 i))).
      - f_equal. pose proof (fun j J => row_vec j ss7 J W) as VR. unfold V. cbn [nth]. rewrite !xorF by (try (repeat apply vec_xor); apply VR; lia).
        unfold F. rewrite Sp by (repeat apply vec_xor; apply VR; lia). f_equal. unfold row. now rewrite !map2_maps.
      - rewrite (dk_zero _ _ _ D1). rewrite fold_xorF; [subst ss7; rewrite map_map; reflexivity| |split; [reflexivity|now apply bytes_ok_repeat]].
        apply Forall_forall. intros y Y. apply in_map_iff in Y. destruct Y as (s & <- & S). destruct W as [_ Fs]. rewrite Forall_forall in Fs. specialize (Fs s S). open_state Fs. cbn [nth].
        repeat apply xor16; assumption.
    Qed.
    Lemma seal_xfollow key nonce ad msg : is_bytes 16 key -> is_bytes 16 nonce -> bytes_ok ad -> bytes_ok msg ->
      seal_xprog i o wide split D key nonce ad msg = Ret (aegisx_seal D key nonce ad msg).
    Proof.
      intros K Nn A M. unfold seal_xprog, aegisx_seal. rewrite init_xfollow by assumption. cbn [bind].
      destruct (absorbs_xfollow (pieces_x D ad) (xpieces_are _ _ A) (init_x D key nonce) (init_x_ok _ _ HD' K Nn)) as [-> S1]. cbn [bind].
      pose proof (pieces_xfollow false (pieces_x D msg) (xpieces_are _ _ M) _ S1) as Q. cbn iota in Q. destruct (over_x (enc_x D) _ _) as [ss ct]. destruct Q as [-> S2]. cbn [bind fst snd].
      rewrite tag_xfollow by assumption. cbn [bind]. rewrite (to_bytes_ok _ 16 f1 _ D1) by now apply finalize_x_bytes. reflexivity.
    Qed.
    Lemma open_xfollow key nonce ad ct tag : is_bytes 16 key -> is_bytes 16 nonce -> bytes_ok ad -> bytes_ok ct -> is_bytes 16 tag ->
      open_xprog i o wide split D key nonce ad ct tag = Ret (aegisx_open D key nonce ad ct tag).
    Proof.
      intros K Nn A M B. unfold open_xprog, aegisx_open. rewrite init_xfollow by assumption. cbn [bind].
      destruct (absorbs_xfollow (pieces_x D ad) (xpieces_are _ _ A) (init_x D key nonce) (init_x_ok _ _ HD' K Nn)) as [-> S1]. cbn [bind].
      pose proof (pieces_xfollow true (pieces_x D ct) (xpieces_are _ _ M) _ S1) as Q. cbn iota in Q. destruct (over_x (dec_x D) _ _) as [ss msg]. destruct Q as [-> S2]. cbn [bind fst snd].
      rewrite tag_xfollow by assumption. cbn [bind]. rewrite (dk_from _ _ _ D1) by assumption. cbn [bind]. f_equal.
      pose proof (dk_eq _ _ _ D1 tag _ B (finalize_x_bytes ss (length ad) (length msg) S2)) as E.
      destruct (list_eq_dec N.eq_dec tag _) as [e|e]; destruct (o_eq _ _ _); [reflexivity|discriminate (proj2 E e)|destruct e; now apply E|reflexivity].
    Qed.
  End Follow.
End Lanes.

(** One lane is AEGIS-128L *)
Lemma xor_zero n l : length l = n -> xor l (repeat 0 n) = l.
Proof. intros <-. unfold xor. induction l as [|x l IH]; [reflexivity|]. cbn [length repeat map2]. now rewrite N.lxor_0_r, IH. Qed.

Lemma absorb_one s p : piece p -> absorb_x 1 [s] p = [absorb s p].
Proof.
  intros P. unfold absorb_x, absorb, pad_x. change (32 * 1)%nat with 32%nat. change (16 * 1)%nat with 16%nat. fold (zero_pad p). destruct (halves _ (pad_bytes p P)) as [[L0 _] [L1 _]].
  unfold lanes. cbn [chunks update_lanes]. rewrite (firstn_all2 (firstn 16 _)), (firstn_all2 (skipn 16 _)) by lia. reflexivity.
Qed.
Lemma keystream_one s : keystream_x [s] = keystream s.
Proof. unfold keystream_x, keystream. cbn [map concat]. now rewrite !app_nil_r. Qed.
Lemma add_context_zero s : state s -> add_context 1 0 s = s.
Proof.
  intros H. assert (Z : forall v, is_bytes 16 v -> xor v (context 1 0) = v) by (intros v B; exact (xor_zero 16 v (proj1 B))).
  open_state H. unfold add_context. cbn [nth]. now rewrite !Z by assumption.
Qed.
Lemma init_one key nonce : is_bytes 16 key -> is_bytes 16 nonce -> init_x 1 key nonce = [init key nonce].
Proof.
  intros K Nn. unfold init_x. cbn [seq map]. f_equal. unfold init_lane, init. fold (start_state key nonce). pose proof (start_ok key nonce K Nn) as S0.
  generalize 10%nat. intros n. induction n as [|n IH]; [reflexivity|].
  change (update (add_context 1 0 (Nat.iter n (fun s => update (add_context 1 0 s) nonce key) (start_state key nonce))) nonce key =
    update (Nat.iter n (fun s => update s nonce key) (start_state key nonce)) nonce key). rewrite IH. f_equal.
  apply add_context_zero. exact (iter_state n _ nonce key S0 Nn K).
Qed.
Lemma over_one (dec : bool) ps : Forall piece ps -> forall s, state s ->
  over_x (if dec then dec_x 1 else enc_x 1) [s] ps = let '(s', o) := over_pieces (if dec then dec_block else enc_block) s ps in ([s'], o).
Proof.
  induction 1 as [|p ps P _ IH]; intros s H; [destruct dec; reflexivity|]. cbn [over_x over_pieces].
  pose proof (block_state dec s p H P) as B.
  assert (O : (if dec then dec_x 1 else enc_x 1) [s] p = let '(s', o) := (if dec then dec_block else enc_block) s p in ([s'], o)).
  { destruct (xor_piece s p H P) as [_ Q]. destruct dec; cbn [dec_x enc_x]; unfold dec_x, enc_x, dec_block, enc_block; cbn zeta; rewrite keystream_one, absorb_one by assumption; reflexivity. }
  rewrite O. destruct ((if dec then dec_block else enc_block) s p) as [s' o]. destruct B as (B & _). specialize (IH s' B). rewrite IH. destruct (over_pieces _ s' ps) as [s'' os]. reflexivity.
Qed.
Lemma absorbs_one ps : Forall piece ps -> forall s, state s -> fold_left (absorb_x 1) ps [s] = [fold_left absorb ps s] /\ state (fold_left absorb ps s).
Proof. induction 1 as [|p ps P _ IH]; intros s H; [now split|]. cbn [fold_left]. rewrite absorb_one by assumption. apply IH. now apply absorb_state. Qed.
Lemma finalize_one s a m : state s -> finalize_x [s] a m = finalize s a m.
Proof.
  intros H. unfold finalize_x. cbn [map fold_left]. pose proof (finalize_bytes s a m H) as [L _]. revert L. generalize (finalize s a m). intros t L.
  rewrite <- (xor_zero 16 t L) at 2. unfold xor. apply map2_comm, N.lxor_comm.
Qed.
Lemma one_lane_seals key nonce ad msg : is_bytes 16 key -> is_bytes 16 nonce -> bytes_ok ad -> bytes_ok msg -> aegisx_seal 1 key nonce ad msg = aegis_seal key nonce ad msg.
Proof.
  intros K Nn A M. unfold aegisx_seal, aegis_seal, pieces_x. change (32 * 1)%nat with 32%nat. change (32 - 1)%nat with 31%nat. fold (pieces ad). fold (pieces msg).
  rewrite init_one by assumption. destruct (absorbs_one (pieces ad) (pieces_are _ _ A) (init key nonce) (init_ok _ _ K Nn)) as [-> S1].
  pose proof (over_one false (pieces msg) (pieces_are _ _ M) _ S1) as O. cbn iota in O. rewrite O.
  pose proof (over_length false (Nat.div (length msg + 31) 32) _ msg S1 M) as OL. cbn iota in OL. fold (pieces msg) in OL. destruct (over_pieces enc_block _ _) as [s' o]. now rewrite finalize_one by apply OL.
Qed.
Lemma one_lane_opens key nonce ad ct tag : is_bytes 16 key -> is_bytes 16 nonce -> bytes_ok ad -> bytes_ok ct -> aegisx_open 1 key nonce ad ct tag = aegis_open key nonce ad ct tag.
Proof.
  intros K Nn A M. unfold aegisx_open, aegis_open, pieces_x. change (32 * 1)%nat with 32%nat. change (32 - 1)%nat with 31%nat. fold (pieces ad). fold (pieces ct).
  rewrite init_one by assumption. destruct (absorbs_one (pieces ad) (pieces_are _ _ A) (init key nonce) (init_ok _ _ K Nn)) as [-> S1].
  pose proof (over_one true (pieces ct) (pieces_are _ _ M) _ S1) as O. cbn iota in O. rewrite O.
  pose proof (over_length true (Nat.div (length ct + 31) 32) _ ct S1 M) as OL. cbn iota in OL. fold (pieces ct) in OL. destruct (over_pieces dec_block _ _) as [s' o]. now rewrite finalize_one by apply OL.
Qed.
