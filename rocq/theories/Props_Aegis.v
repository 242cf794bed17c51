(** C50: AEGIS-128L built from [AesBlock::enc] or [AesBlockX4::enc], on every configuration that compiles. *)
From Coq Require Import Lia Arith.
From Verif Require Import Word Interface Fips197 Spec_Api Spec_Reach Spec_Cfg Spec_User Spec_Aegis Model_Lib Model_Cfg.
From Verif Require Import Proof_Shape Proof_Word Proof_Fips Proof_Ok Proof_Wide Proof_Sem Proof_Lib Proof_Reach Proof_Inst Proof_Cipher Proof_Main.
From Verif Require Import Samples Props_Rounds Props_Batch.
Open Scope N_scope.

(** ** States *)
Definition state (s : list (list N)) : Prop := length s = 8%nat /\ Forall (is_bytes 16) s.
Lemma state_inv s : state s -> exists a b c d e f g h, s = [a; b; c; d; e; f; g; h] /\
  is_bytes 16 a /\ is_bytes 16 b /\ is_bytes 16 c /\ is_bytes 16 d /\ is_bytes 16 e /\ is_bytes 16 f /\ is_bytes 16 g /\ is_bytes 16 h.
Proof.
  intros [L F]. destruct s as [|a [|b [|c [|d [|e [|f [|g [|h [|]]]]]]]]]; try discriminate L. exists a, b, c, d, e, f, g, h. split; [reflexivity|].
  rewrite !Forall_cons_iff in F. tauto.
Qed.
Lemma state_intro a b c d e f g h : is_bytes 16 a -> is_bytes 16 b -> is_bytes 16 c -> is_bytes 16 d -> is_bytes 16 e -> is_bytes 16 f -> is_bytes 16 g -> is_bytes 16 h ->
  state [a; b; c; d; e; f; g; h].
Proof. intros. split; [reflexivity|]. repeat (apply Forall_cons; [assumption|]). apply Forall_nil. Qed.
Ltac open_state H := let E := fresh in destruct (state_inv _ H) as (? & ? & ? & ? & ? & ? & ? & ? & E & ? & ? & ? & ? & ? & ? & ? & ?); subst; try clear H.

Lemma round_bytes a b : is_bytes 16 a -> is_bytes 16 b -> is_bytes 16 (aes_round a b).
Proof. apply spec_enc_bop. Qed.
Lemma xor16 a b : is_bytes 16 a -> is_bytes 16 b -> is_bytes 16 (xor a b).
Proof. apply xor_bytes. Qed.
Lemma update_state s m0 m1 : state s -> is_bytes 16 m0 -> is_bytes 16 m1 -> state (update s m0 m1).
Proof. intros H H0 H1. open_state H. unfold update. cbn [nth]. apply state_intro; repeat (apply round_bytes || apply xor16); assumption. Qed.
Lemma iter_state n s m0 m1 : state s -> is_bytes 16 m0 -> is_bytes 16 m1 -> state (Nat.iter n (fun s => update s m0 m1) s).
Proof. intros H H0 H1. induction n as [|n IH]; [exact H|]. cbn [Nat.iter nat_rect]. apply update_state; assumption. Qed.
Lemma C0_bytes : is_bytes 16 C0. Proof. apply is_bytesb_correct. reflexivity. Qed.
Lemma C1_bytes : is_bytes 16 C1. Proof. apply is_bytesb_correct. reflexivity. Qed.
Definition start_state (key nonce : list N) := [xor key nonce; C1; C0; C1; xor key nonce; xor key C0; xor key C1; xor key C0].
Lemma start_ok key nonce : is_bytes 16 key -> is_bytes 16 nonce -> state (start_state key nonce).
Proof. intros K Nn. pose proof C0_bytes. pose proof C1_bytes. apply state_intro; repeat apply xor16; assumption. Qed.
Lemma init_ok key nonce : is_bytes 16 key -> is_bytes 16 nonce -> state (init key nonce).
Proof. intros K Nn. apply iter_state; [now apply start_ok|assumption|assumption]. Qed.

(** Pieces of at most 32 bytes *)
Definition piece (p : list N) : Prop := (length p <= 32)%nat /\ bytes_ok p.
Lemma pad_bytes p : piece p -> is_bytes 32 (zero_pad p).
Proof.
  intros [L F]. unfold zero_pad. split; [rewrite app_length, repeat_length; lia|]. apply bytes_ok_app; [exact F|]. now apply bytes_ok_repeat.
Qed.
Lemma halves l : is_bytes 32 l -> is_bytes 16 (firstn 16 l) /\ is_bytes 16 (skipn 16 l).
Proof. intros [L F]. split; split; [rewrite firstn_length; lia|now apply bytes_ok_firstn|rewrite skipn_length; lia|now apply bytes_ok_skipn]. Qed.
Lemma absorb_state s p : state s -> piece p -> state (absorb s p).
Proof. intros H P. destruct (halves _ (pad_bytes p P)). unfold absorb. apply update_state; assumption. Qed.
Lemma keystream_bytes s : state s -> is_bytes 32 (keystream s).
Proof.
  intros H. open_state H. unfold keystream. cbn [nth]. apply (is_bytes_app 16 16); repeat apply xor16; try assumption; now apply is_bytes_and.
Qed.
Lemma xor_length a b : (length a <= length b)%nat -> length (xor a b) = length a.
Proof. intros H. unfold xor. rewrite map2_length. lia. Qed.
Lemma firstn_xor a b : map2 N.lxor a (firstn (length a) b) = map2 N.lxor a b.
Proof. revert b. induction a as [|x a IH]; intros [|y b]; try reflexivity. cbn [length firstn map2]. now rewrite IH. Qed.
Lemma xor_piece s p : state s -> piece p -> length (xor p (keystream s)) = length p /\ piece (xor p (keystream s)).
Proof.
  intros H [L F]. pose proof (keystream_bytes s H) as [LK FK].
  assert (E : length (xor p (keystream s)) = length p) by (apply xor_length; lia). split; [exact E|]. split; [rewrite E; exact L|].
  unfold xor. rewrite <- firstn_xor. apply (xor_bytes (length p)); split; [reflexivity|exact F|rewrite firstn_length; lia|now apply bytes_ok_firstn].
Qed.
Lemma xor_twice s p : state s -> piece p -> xor (xor p (keystream s)) (keystream s) = p.
Proof.
  intros H [L F]. pose proof (keystream_bytes s H) as [LK FK].
  assert (E : length (xor p (keystream s)) = length p) by (apply xor_length; lia).
  assert (X : xor p (keystream s) = map2 N.lxor p (firstn (length p) (keystream s))) by (symmetry; apply firstn_xor).
  unfold xor at 1. rewrite <- firstn_xor, E, X. apply (xor_xor (length p)); [reflexivity|rewrite firstn_length; lia].
Qed.
Lemma pieces_are n l : bytes_ok l -> Forall piece (chunks 32 n l).
Proof.
  revert l. induction n as [|n IH]; intros l F; [constructor|]. cbn [chunks]. constructor; [|apply IH; now apply bytes_ok_skipn].
  split; [rewrite firstn_length; lia|now apply bytes_ok_firstn].
Qed.

(** ** The programs compute it *)
Section Follow.
  Context (i : impl) (f1 : list N -> T1 i) (f2 : list N -> T2 i) (f4 : list N -> T4 i) (s : sem).
  Context (E : s_enc s = spec_enc) (R : refines i f1 f2 f4 s).
  Let D := R_d1 _ _ _ _ _ R.

  Definition follows (step : list (T1 i) -> T1 i -> T1 i -> list (T1 i)) : Prop := forall st m0 m1, state st -> is_bytes 16 m0 -> is_bytes 16 m1 ->
    step (map f1 st) (f1 m0) (f1 m1) = map f1 (update st m0 m1).
  Lemma enc1 a b : is_bytes 16 a -> is_bytes 16 b -> o_enc (i_ops1 i) (f1 a) (f1 b) = f1 (aes_round a b).
  Proof. intros A B. rewrite (ln1 _ f1 (s_enc s)) by (assumption || apply R). now rewrite E. Qed.
  Lemma xor1 a b : is_bytes 16 a -> is_bytes 16 b -> o_xor (i_ops1 i) (f1 a) (f1 b) = f1 (xor a b).
  Proof. apply (dk_xor _ _ _ D). Qed.
  Lemma enc4 a b c d a' b' c' d' : is_bytes 16 a -> is_bytes 16 b -> is_bytes 16 c -> is_bytes 16 d -> is_bytes 16 a' -> is_bytes 16 b' -> is_bytes 16 c' -> is_bytes 16 d' ->
    x4_to_quad i (o_enc (i_ops4 i) (x4_of_quad i (f1 a, f1 b, f1 c, f1 d)) (x4_of_quad i (f1 a', f1 b', f1 c', f1 d'))) =
      (f1 (aes_round a a'), f1 (aes_round b b'), f1 (aes_round c c'), f1 (aes_round d d')).
  Proof.
    intros. rewrite !(R_x4_of_quad _ _ _ _ _ R) by assumption.
    rewrite (ro_enc _ _ _ _ (R_r4 _ _ _ _ _ R)) by (apply (is_bytes_app 16 48); [assumption|apply (is_bytes_app 16 32); [assumption|now apply (is_bytes_app 16 16)]]).
    unfold on_lanes. rewrite !lanes4_app by assumption. cbn [map2 concat]. rewrite app_nil_r, E.
    apply (R_x4_to_quad _ _ _ _ _ R); now apply spec_enc_bop.
  Qed.
  Lemma blocks_follow : follows (update_blocks i).
  Proof.
    intros st m0 m1 H H0 H1. open_state H. unfold update_blocks, update. cbn [nth map].
    rewrite !xor1 by assumption. rewrite !enc1 by (assumption || now apply xor16). reflexivity.
  Qed.
  Lemma wide_follow : follows (update_wide i).
  Proof.
    intros st m0 m1 H H0 H1. open_state H. unfold update_wide, update. cbn [nth map].
    rewrite !xor1 by assumption. rewrite !enc4 by (assumption || now apply xor16). reflexivity.
  Qed.

  Context (step : list (T1 i) -> T1 i -> T1 i -> list (T1 i)) (Hs : follows step).
  Lemma iter_follow n st m0 m1 : state st -> is_bytes 16 m0 -> is_bytes 16 m1 ->
    Nat.iter n (fun s => step s (f1 m0) (f1 m1)) (map f1 st) = map f1 (Nat.iter n (fun s => update s m0 m1) st).
  Proof.
    intros H H0 H1. induction n as [|n IH]; [reflexivity|]. cbn [Nat.iter nat_rect]. unfold Nat.iter in IH. rewrite IH. apply Hs; try assumption. now apply (iter_state n).
  Qed.
  Lemma load_ok p : piece p -> load i p = Ret (f1 (firstn 16 (zero_pad p)), f1 (skipn 16 (zero_pad p))).
  Proof. intros P. destruct (halves _ (pad_bytes p P)). unfold load. rewrite !(dk_from _ _ _ D) by assumption. reflexivity. Qed.
  Lemma init_follow key nonce : is_bytes 16 key -> is_bytes 16 nonce -> init_prog i step key nonce = Ret (map f1 (init key nonce)).
  Proof.
    intros K Nn. pose proof C0_bytes. pose proof C1_bytes. unfold init_prog. rewrite !(dk_from _ _ _ D) by assumption. cbn [bind]. rewrite !xor1 by assumption. f_equal.
    apply (iter_follow 10 (start_state key nonce)); [now apply start_ok|assumption|assumption].
  Qed.
  Lemma absorb_follow st p : state st -> piece p -> absorb_prog i step (map f1 st) p = Ret (map f1 (absorb st p)).
  Proof. intros H P. destruct (halves _ (pad_bytes p P)). unfold absorb_prog. rewrite load_ok by assumption. cbn [bind fst snd]. f_equal. unfold absorb. apply Hs; assumption. Qed.
  Lemma absorbs_follow ps : Forall piece ps -> forall st, state st ->
    ofold (absorb_prog i step) ps (map f1 st) = Ret (map f1 (fold_left absorb ps st)) /\ state (fold_left absorb ps st).
  Proof.
    induction 1 as [|p ps P _ IH]; intros st H; [now split|]. cbn [ofold fold_left]. rewrite absorb_follow by assumption. cbn [bind].
    apply IH. now apply absorb_state.
  Qed.
  Lemma crypt_follow (dec : bool) st p : state st -> piece p ->
    crypt_prog i step dec (map f1 st) p = let '(st', o) := (if dec then dec_block else enc_block) st p in Ret (map f1 st', o).
  Proof.
    intros H P. destruct (halves _ (pad_bytes p P)) as [P0 P1]. pose proof H as H'. destruct (xor_piece st p H P) as [_ O].
    unfold crypt_prog. rewrite load_ok by assumption. cbn [bind fst snd].
    assert (Z : exists z0 z1, is_bytes 16 z0 /\ is_bytes 16 z1 /\ keystream st = z0 ++ z1 /\
      o_xor (i_ops1 i) (o_xor (i_ops1 i) (nth 6 (map f1 st) (o_zero (i_ops1 i))) (nth 1 (map f1 st) (o_zero (i_ops1 i)))) (o_and (i_ops1 i) (nth 2 (map f1 st) (o_zero (i_ops1 i))) (nth 3 (map f1 st) (o_zero (i_ops1 i)))) = f1 z0 /\
      o_xor (i_ops1 i) (o_xor (i_ops1 i) (nth 2 (map f1 st) (o_zero (i_ops1 i))) (nth 5 (map f1 st) (o_zero (i_ops1 i)))) (o_and (i_ops1 i) (nth 6 (map f1 st) (o_zero (i_ops1 i))) (nth 7 (map f1 st) (o_zero (i_ops1 i)))) = f1 z1).
    { clear H'. open_state H. unfold keystream. cbn [nth map]. rewrite !(dk_and _ _ _ D) by assumption. rewrite !xor1 by (try assumption; (apply is_bytes_and || apply xor16); assumption).
      eexists _, _. split; [|split; [|split; [reflexivity|split; reflexivity]]]; apply xor16; (apply is_bytes_and || apply xor16); assumption. }
    destruct Z as (z0 & z1 & Z0 & Z1 & EK & -> & ->). rewrite !xor1 by assumption. rewrite !(to_bytes_ok _ 16 f1 _ D) by (now apply xor16). cbn [bind].
    assert (EO : firstn (length p) (xor (firstn 16 (zero_pad p)) z0 ++ xor (skipn 16 (zero_pad p)) z1) = xor p (keystream st)).
    { unfold xor. rewrite <- map2_app by (rewrite (is_bytes_len _ _ P0), (is_bytes_len _ _ Z0); reflexivity). rewrite firstn_skipn, <- EK, firstn_map2. unfold zero_pad.
      rewrite firstn_exact by reflexivity. apply firstn_xor. }
    rewrite EO. destruct dec.
    - rewrite absorb_follow by assumption. reflexivity.
    - rewrite absorb_follow by assumption. reflexivity.
  Qed.
  Lemma block_state (dec : bool) st p : state st -> piece p -> let '(st', o) := (if dec then dec_block else enc_block) st p in state st' /\ piece o /\ length o = length p.
  Proof. intros H P. destruct (xor_piece st p H P) as [L O]. destruct dec; cbn [dec_block enc_block]; (split; [now apply absorb_state|split; assumption]). Qed.
  Lemma pieces_follow (dec : bool) ps : Forall piece ps -> forall st, state st ->
    let '(st', o) := over_pieces (if dec then dec_block else enc_block) st ps in pieces_prog i step dec (map f1 st) ps = Ret (map f1 st', o) /\ state st'.
  Proof.
    induction 1 as [|p ps P _ IH]; intros st H; [now split|]. cbn [over_pieces pieces_prog]. rewrite crypt_follow by assumption.
    pose proof (block_state dec st p H P) as B. destruct ((if dec then dec_block else enc_block) st p) as [st' o]. destruct B as (B & _). cbn [bind fst snd].
    specialize (IH st' B). destruct (over_pieces _ st' ps) as [st'' os]. destruct IH as [-> S']. cbn [bind fst snd]. now split.
  Qed.
  Lemma lens_bytes a b : is_bytes 16 (to_le 8 a ++ to_le 8 b).
  Proof. apply (is_bytes_app 8 8); split; (apply to_le_length || apply to_le_ok). Qed.
  Lemma finalize_bytes st a m : state st -> is_bytes 16 (finalize st a m).
  Proof.
    intros H. unfold finalize. set (t := xor (nth 2 st []) _). assert (T : is_bytes 16 t) by (apply xor16; [open_state H; assumption|apply lens_bytes]).
    pose proof (iter_state 7 st t t H T T) as H7. cbn zeta. set (s7 := Nat.iter 7 _ st) in *. clearbody s7. open_state H7. cbn [nth]. repeat apply xor16; assumption.
  Qed.
  Lemma tag_follow st a m : state st -> tag_prog i step (map f1 st) a m = Ret (f1 (finalize st a m)).
  Proof.
    intros H. unfold tag_prog, finalize. rewrite (dk_from _ _ _ D) by apply lens_bytes. cbn [bind]. f_equal. set (u := to_le 8 _ ++ to_le 8 _).
    assert (N2 : nth 2 (map f1 st) (o_zero (i_ops1 i)) = f1 (nth 2 st []) /\ is_bytes 16 (nth 2 st [])) by (open_state H; now split). destruct N2 as [-> B2].
    assert (U : is_bytes 16 u) by apply lens_bytes. rewrite xor1 by assumption. set (t := xor (nth 2 st []) u). assert (T : is_bytes 16 t) by now apply xor16.
    cbn zeta. rewrite iter_follow by assumption. pose proof (iter_state 7 st t t H T T) as H7. set (s7 := Nat.iter 7 _ st) in *. clearbody s7. open_state H7. cbn [nth map].
    rewrite !xor1 by (assumption || (repeat apply xor16; assumption)). reflexivity.
  Qed.
  Lemma seal_follow key nonce ad msg : is_bytes 16 key -> is_bytes 16 nonce -> bytes_ok ad -> bytes_ok msg ->
    seal_prog i step key nonce ad msg = Ret (aegis_seal key nonce ad msg).
  Proof.
    intros K Nn A M. unfold seal_prog, aegis_seal. rewrite init_follow by assumption. cbn [bind].
    destruct (absorbs_follow (pieces ad) (pieces_are _ _ A) (init key nonce) (init_ok _ _ K Nn)) as [-> S1]. cbn [bind].
    pose proof (pieces_follow false (pieces msg) (pieces_are _ _ M) _ S1) as F. cbn iota in F. destruct (over_pieces enc_block _ _) as [st ct]. destruct F as [-> S2]. cbn [bind fst snd].
    rewrite tag_follow by assumption. cbn [bind]. rewrite (to_bytes_ok _ 16 f1 _ D) by now apply finalize_bytes. reflexivity.
  Qed.
  Lemma open_follow key nonce ad ct tag : is_bytes 16 key -> is_bytes 16 nonce -> bytes_ok ad -> bytes_ok ct -> is_bytes 16 tag ->
    open_prog i step key nonce ad ct tag = Ret (aegis_open key nonce ad ct tag).
  Proof.
    intros K Nn A M T. unfold open_prog, aegis_open. rewrite init_follow by assumption. cbn [bind].
    destruct (absorbs_follow (pieces ad) (pieces_are _ _ A) (init key nonce) (init_ok _ _ K Nn)) as [-> S1]. cbn [bind].
    pose proof (pieces_follow true (pieces ct) (pieces_are _ _ M) _ S1) as F. cbn iota in F. destruct (over_pieces dec_block _ _) as [st msg]. destruct F as [-> S2]. cbn [bind fst snd].
    rewrite tag_follow by assumption. cbn [bind]. rewrite (dk_from _ _ _ D) by assumption. cbn [bind]. f_equal.
    pose proof (dk_eq _ _ _ D tag _ T (finalize_bytes st (length ad) (length msg) S2)) as Q.
    destruct (list_eq_dec N.eq_dec tag _) as [e|e]; destruct (o_eq _ _ _); [reflexivity|discriminate (proj2 Q e)|destruct e; now apply Q|reflexivity].
  Qed.
End Follow.

(** ** Opening undoes sealing *)
Lemma over_length (dec : bool) n : forall st l, state st -> bytes_ok l -> let '(st', o) := over_pieces (if dec then dec_block else enc_block) st (chunks 32 n l) in
  state st' /\ bytes_ok o /\ length o = length (concat (chunks 32 n l)).
Proof.
  induction n as [|n IH]; intros st l H F; [split; [exact H|split; [apply Forall_nil|reflexivity]]|]. cbn [chunks over_pieces concat].
  assert (P : piece (firstn 32 l)) by (split; [rewrite firstn_length; lia|now apply bytes_ok_firstn]).
  pose proof (block_state dec st _ H P) as B. destruct ((if dec then dec_block else enc_block) st (firstn 32 l)) as [st' o]. destruct B as (B & O & L).
  specialize (IH st' (skipn 32 l) B (bytes_ok_skipn _ _ F)). destruct (over_pieces _ st' _) as [st'' os]. destruct IH as (S2 & Fo & Lo).
  split; [exact S2|]. split; [apply bytes_ok_app; [apply O|exact Fo]|]. rewrite !app_length, L, Lo. reflexivity.
Qed.
Lemma concat_chunks32 n (l : list N) : (length l <= 32 * n)%nat -> concat (chunks 32 n l) = l.
Proof.
  revert l. induction n as [|n IH]; intros l H; [destruct l; [reflexivity|cbn in H; lia]|]. cbn [chunks concat]. rewrite IH by (rewrite skipn_length; lia). apply firstn_skipn.
Qed.
Lemma over_undone (dec : bool) n : forall st l, state st -> bytes_ok l -> (length l <= 32 * n)%nat ->
  let '(st', o) := over_pieces (if dec then dec_block else enc_block) st (chunks 32 n l) in
  over_pieces (if dec then enc_block else dec_block) st (chunks 32 n o) = (st', l).
Proof.
  induction n as [|n IH]; intros st l H F Ln; [destruct l; [reflexivity|cbn in Ln; lia]|]. cbn [chunks over_pieces].
  assert (P : piece (firstn 32 l)) by (split; [rewrite firstn_length; lia|now apply bytes_ok_firstn]).
  pose proof (block_state dec st _ H P) as B. destruct (xor_piece st _ H P) as [LX PX]. pose proof (xor_twice st _ H P) as XX.
  assert (U : let '(st', o) := (if dec then dec_block else enc_block) st (firstn 32 l) in (if dec then enc_block else dec_block) st o = (st', firstn 32 l)).
  { destruct dec; cbn [dec_block enc_block]; unfold dec_block, enc_block; cbn zeta; now rewrite XX. }
  destruct ((if dec then dec_block else enc_block) st (firstn 32 l)) as [st' o]. destruct B as (B & O & L).
  assert (Ln' : (length (skipn 32 l) <= 32 * n)%nat) by (rewrite skipn_length; lia).
  specialize (IH st' (skipn 32 l) B (bytes_ok_skipn _ _ F) Ln'). pose proof (over_length dec n st' (skipn 32 l) B (bytes_ok_skipn _ _ F)) as OL.
  destruct (over_pieces (if dec then dec_block else enc_block) st' _) as [st'' os]. destruct OL as (_ & _ & OL). rewrite concat_chunks32 in OL by exact Ln'.
  assert (FS : firstn 32 (o ++ os) = o /\ skipn 32 (o ++ os) = os).
  { rewrite firstn_length in L. rewrite skipn_length in OL. destruct (Nat.leb_spec 32 (length l)) as [C|C].
    - assert (length o = 32%nat) by lia. split; [now apply firstn_exact|now apply skipn_exact].
    - assert (Z : os = []) by (destruct os; [reflexivity|cbn [length] in OL; lia]). rewrite Z, app_nil_r. split; [apply firstn_all2; lia|apply skipn_all2; lia]. }
  destruct FS as [-> ->]. rewrite U, IH. now rewrite firstn_skipn.
Qed.
Lemma pieces_bound (l : list N) : (length l <= 32 * ((length l + 31) / 32))%nat.
Proof. pose proof (Nat.div_mod (length l + 31) 32). pose proof (Nat.mod_upper_bound (length l + 31) 32). lia. Qed.
Lemma seal_open key nonce ad msg ct tag : is_bytes 16 key -> is_bytes 16 nonce -> bytes_ok ad -> bytes_ok msg -> bytes_ok ct ->
  (aegis_seal key nonce ad msg = (ct, tag) <-> aegis_open key nonce ad ct tag = Some msg).
Proof.
  intros K Nn A M Bc. unfold aegis_seal, aegis_open.
  assert (S1 : state (fold_left absorb (pieces ad) (init key nonce))).
  { pose proof (init_ok key nonce K Nn) as H. revert H. generalize (init key nonce). pose proof (pieces_are (Nat.div (length ad + 31) 32) ad A) as P. fold (pieces ad) in P.
    induction P as [|p ps P _ IH]; intros st H; [exact H|]. cbn [fold_left]. apply IH. now apply absorb_state. }
  set (st := fold_left absorb (pieces ad) (init key nonce)) in *. clearbody st. unfold pieces. split.
  - pose proof (over_undone false _ st msg S1 M (pieces_bound msg)) as U. pose proof (over_length false (Nat.div (length msg + 31) 32) st msg S1 M) as OL. rewrite concat_chunks32 in OL by apply pieces_bound.
    cbn iota in U, OL. destruct (over_pieces enc_block st _) as [st' o]. destruct OL as (_ & _ & OL). intros H. injection H as <- <-. rewrite OL, U. destruct (list_eq_dec N.eq_dec _ _) as [|n]; [reflexivity|now destruct n].
  - pose proof (over_undone true _ st ct S1 Bc (pieces_bound ct)) as U. pose proof (over_length true (Nat.div (length ct + 31) 32) st ct S1 Bc) as OL. rewrite concat_chunks32 in OL by apply pieces_bound.
    cbn iota in U, OL. destruct (over_pieces dec_block st _) as [st' o]. destruct OL as (_ & _ & OL). destruct (list_eq_dec N.eq_dec _ _) as [e|]; [|discriminate]. intros H. injection H as <-. rewrite OL, U, e. now rewrite OL.
Qed.

(** ** C50 *)
(** Any build that compiles, RV32 and big-endian constant-time included: the encryption round is the AES round there too (C09). *)
Theorem C50_aegis_sealing : forall c i key nonce ad msg,
  impl_of c = Some i -> is_bytes 16 key -> is_bytes 16 nonce -> bytes_ok ad -> bytes_ok msg ->
  seal_prog i (update_blocks i) key nonce ad msg = Ret (aegis_seal key nonce ad msg) /\
  seal_prog i (update_wide i) key nonce ad msg = Ret (aegis_seal key nonce ad msg).
Proof.
  intros c i key nonce ad msg H K Nn A M. destruct (inst_any c i H) as (s & f1 & f2 & f4 & E & _ & _ & R).
  split; apply (seal_follow i f1 f2 f4 s R); try assumption; [now apply (blocks_follow i f1 f2 f4 s)|now apply (wide_follow i f1 f2 f4 s)].
Qed.
Print Assumptions C50_aegis_sealing.
Theorem C50_aegis_opening : forall c i key nonce ad ct tag,
  impl_of c = Some i -> is_bytes 16 key -> is_bytes 16 nonce -> bytes_ok ad -> bytes_ok ct -> is_bytes 16 tag ->
  open_prog i (update_blocks i) key nonce ad ct tag = Ret (aegis_open key nonce ad ct tag) /\
  open_prog i (update_wide i) key nonce ad ct tag = Ret (aegis_open key nonce ad ct tag).
Proof.
  intros c i key nonce ad ct tag H K Nn A M T. destruct (inst_any c i H) as (s & f1 & f2 & f4 & E & _ & _ & R).
  split; apply (open_follow i f1 f2 f4 s R); try assumption; [now apply (blocks_follow i f1 f2 f4 s)|now apply (wide_follow i f1 f2 f4 s)].
Qed.
Print Assumptions C50_aegis_opening.
(** What one build seals every other build opens, and a message opens only if it is the very one that sealing produces. *)
Theorem C50_opens_what_was_sealed : forall c c' i i' key nonce ad msg ct tag,
  impl_of c = Some i -> impl_of c' = Some i' -> is_bytes 16 key -> is_bytes 16 nonce -> bytes_ok ad -> bytes_ok msg -> bytes_ok ct -> is_bytes 16 tag ->
  (seal_prog i (update_wide i) key nonce ad msg = Ret (ct, tag) <-> open_prog i' (update_blocks i') key nonce ad ct tag = Ret (Some msg)).
Proof.
  intros c c' i i' key nonce ad msg ct tag H H' K Nn A M B T. rewrite (proj2 (C50_aegis_sealing c i key nonce ad msg H K Nn A M)), (proj1 (C50_aegis_opening c' i' key nonce ad ct tag H' K Nn A B T)).
  pose proof (seal_open key nonce ad msg ct tag K Nn A M B) as Q. split; intros X; f_equal; apply Q; now injection X.
Qed.
Print Assumptions C50_opens_what_was_sealed.

(** ** Cases: the draft's test vectors 1 and 4 (16 bytes of message; 8 bytes of associated data and 14 of message) *)
Definition draft_key : list N := [0x10; 0x01] ++ repeat 0 14.
Definition draft_nonce : list N := [0x10; 0x00; 0x02] ++ repeat 0 13.
Definition draft_ct1 : list N := to_be 16 0xc1c0e58bd913006feba00f4b3cc3594e.
Definition draft_tag1 : list N := to_be 16 0xabe0ece80c24868a226a35d16bdae37a.
Definition draft_ad2 : list N := [0; 1; 2; 3; 4; 5; 6; 7].
Definition draft_msg2 : list N := [0; 1; 2; 3; 4; 5; 6; 7; 8; 9; 10; 11; 12; 13].
Definition draft_ct2 : list N := to_be 14 0x79d94593d8c2119d7e8fd9b8fc77.
Definition draft_tag2 : list N := to_be 16 0x5c04b3dba849b2701effbe32c7f0fab7.
Lemma draft_1 : aegis_seal draft_key draft_nonce [] (repeat 0 16) = (draft_ct1, draft_tag1).
Proof. vm_compute. reflexivity. Qed.
Lemma draft_2 : aegis_seal draft_key draft_nonce draft_ad2 draft_msg2 = (draft_ct2, draft_tag2).
Proof. vm_compute. reflexivity. Qed.
Ltac bytes := apply is_bytesb_correct; vm_compute; reflexivity.
Lemma draft_bytes : is_bytes 16 draft_key /\ is_bytes 16 draft_nonce /\ is_bytes 16 draft_tag2 /\ is_bytes 8 draft_ad2 /\ is_bytes 14 draft_msg2 /\ is_bytes 14 draft_ct2.
Proof. split; [|split; [|split; [|split; [|split]]]]; bytes. Qed.
Example C50_sealing_case : forall c, In c samples -> exists i, impl_of c = Some i /\
  seal_prog i (update_blocks i) draft_key draft_nonce [] (repeat 0 16) = Ret (draft_ct1, draft_tag1) /\
  seal_prog i (update_wide i) draft_key draft_nonce draft_ad2 draft_msg2 = Ret (draft_ct2, draft_tag2).
Proof.
  intros c H. destruct (sample_impl c H) as [i E]. exists i. destruct draft_bytes as (K & Nn & _ & A & M & _). split; [exact E|]. rewrite <- draft_1, <- draft_2. split.
  - refine (proj1 (C50_aegis_sealing c i draft_key draft_nonce [] (repeat 0 16) E K Nn (Forall_nil _) _)). now apply bytes_ok_repeat.
  - exact (proj2 (C50_aegis_sealing c i draft_key draft_nonce draft_ad2 draft_msg2 E K Nn (proj2 A) (proj2 M))).
Qed.
(** the right tag opens, one bit off does not *)
Example C50_opening_case : forall c, In c samples -> exists i, impl_of c = Some i /\
  open_prog i (update_wide i) draft_key draft_nonce draft_ad2 draft_ct2 draft_tag2 = Ret (Some draft_msg2) /\
  open_prog i (update_blocks i) draft_key draft_nonce draft_ad2 draft_ct2 (map2 N.lxor draft_tag2 (repeat 0 15 ++ [1])) = Ret None.
Proof.
  intros c H. destruct (sample_impl c H) as [i E]. exists i. destruct draft_bytes as (K & Nn & T & A & M & C). split; [exact E|].
  pose proof (proj1 (seal_open draft_key draft_nonce draft_ad2 draft_msg2 draft_ct2 draft_tag2 K Nn (proj2 A) (proj2 M) (proj2 C)) draft_2) as O. split.
  - rewrite <- O. exact (proj2 (C50_aegis_opening c i draft_key draft_nonce draft_ad2 draft_ct2 draft_tag2 E K Nn (proj2 A) (proj2 C) T)).
  - assert (T' : is_bytes 16 (map2 N.lxor draft_tag2 (repeat 0 15 ++ [1]))) by bytes.
    rewrite (proj1 (C50_aegis_opening c i draft_key draft_nonce draft_ad2 draft_ct2 _ E K Nn (proj2 A) (proj2 C) T')). apply (f_equal Ret). revert O. unfold aegis_open.
    destruct (over_pieces dec_block _ _) as [st m]. set (t := finalize st _ _). clearbody t. destruct (list_eq_dec N.eq_dec draft_tag2 t) as [<-|]; [|discriminate]. intros _.
    destruct (list_eq_dec N.eq_dec _ draft_tag2) as [e|]; [|reflexivity]. apply (f_equal (fun l => last l 0)) in e. revert e. vm_compute. discriminate.
Qed.
(** sealed with VAES-512, opened on RV32 *)
Example C50_across_case : exists i i', impl_of c_vaes512 = Some i /\ impl_of c_rv32 = Some i' /\
  seal_prog i (update_wide i) draft_key draft_nonce draft_ad2 draft_msg2 = Ret (draft_ct2, draft_tag2) /\
  open_prog i' (update_blocks i') draft_key draft_nonce draft_ad2 draft_ct2 draft_tag2 = Ret (Some draft_msg2).
Proof.
  destruct (sample_impl c_vaes512) as [i E]; [cbn; tauto|]. destruct (sample_impl c_rv32) as [i' E']; [cbn; tauto|]. exists i, i'. destruct draft_bytes as (K & Nn & T & A & M & C).
  split; [exact E|]. split; [exact E'|].
  assert (S0 : seal_prog i (update_wide i) draft_key draft_nonce draft_ad2 draft_msg2 = Ret (draft_ct2, draft_tag2)).
  { rewrite <- draft_2. exact (proj2 (C50_aegis_sealing _ i draft_key draft_nonce draft_ad2 draft_msg2 E K Nn (proj2 A) (proj2 M))). }
  split; [exact S0|]. apply (C50_opens_what_was_sealed c_vaes512 c_rv32 i i'); try assumption; [exact (proj2 A)|exact (proj2 M)|exact (proj2 C)].
Qed.
