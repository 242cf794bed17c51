(** The models of the software backends' arithmetic are the source text: for every function listed in [Source.v] (translated token by token from /repo/src),
    evaluating its syntax tree, with the functions it calls meaning their models, gives the function's own model. *)
From Coq Require Import String Lia.
From Verif Require Import Word Interface Tables Model_Columns Model_Bitslice Model_Table Rust Source Proof_Word.
Open Scope N_scope.
Open Scope string_scope.

(** Types of arguments: a [w]-bit integer (0: a constant argument), an array or tuple of [k] of them *)
Inductive ty := U (w : N) | Ints (w : N) (k : nat).
Definition has_type (v : val) (t : ty) : Prop :=
  match t with U w => exists n, v = I w n | Ints w k => exists l, length l = k /\ v = A (map (I w) l) end.
Definition typed (ts : list ty) (args : list val) : Prop := Forall2 (fun t v => has_type v t) ts args.
(** What the names mean: the models for the functions of the file, [methods] for the rest *)
Definition meaning (models : list (string * (list val -> val))) (be : bool) (f : string) (args : list val) : val :=
  match assoc f models with Some g => g args | None => methods be f args end.
(** Every function of the source text [src], applied to arguments of its types, evaluates to its model *)
Definition models_are_source (models : list (string * (list val -> val))) (be : bool) (src : list (string * fn)) (types : string -> list ty) : Prop :=
  forall name f args, In (name, f) src -> typed (types name) args ->
    exists g, assoc name models = Some g /\ run (meaning models be) be f args = g args.
Definition nums (v : val) : list N := match v with A l => map num l | _ => [] end.

(** ** aes_bitslice.rs *)
Definition u128 (n : N) : val := I 128 n.
Definition block128 (n : N) : val := A [I 128 n].
Definition bitslice_models (be : bool) : list (string * (list val -> val)) :=
  let i0 a := num (nth 0 a Bad) in let i1 a := num (nth 1 a Bad) in let i2 a := num (nth 2 a Bad) in
  let self a := hd 0 (nums (nth 0 a Bad)) in let other a := hd 0 (nums (nth 1 a Bad)) in
  [("rep", fun a => u128 (rep 16 (i0 a))); ("ror1", fun a => u128 (ror1 16 (i0 a))); ("swap2", fun a => u128 (swap2 16 (i0 a)));
   ("step_a", fun a => u128 (step_a 16 (i0 a) (i1 a) (i2 a))); ("step_b", fun a => u128 (step_b 16 (i0 a) (i1 a)));
   ("sub_word", fun a => I 32 (bs_sub_word (i0 a))); ("subbytes", fun a => u128 (subbytes 16 (i0 a))); ("invsubbytes", fun a => u128 (invsubbytes 16 (i0 a)));
   ("shiftrows", fun a => u128 (shiftrows be (nums (nth 0 a Bad)))); ("invshiftrows", fun a => u128 (invshiftrows be (nums (nth 0 a Bad))));
   ("xtime", fun a => u128 (xtime (i0 a))); ("swap16", fun a => u128 (swap16 (i0 a))); ("swap8", fun a => u128 (swap8 (i0 a)));
   ("ror8_32", fun a => u128 (ror8_32 be (i0 a))); ("mixcolumns", fun a => u128 (mixcolumns be (i0 a))); ("invmixcolumns", fun a => u128 (invmixcolumns be (i0 a)));
   ("bitand", fun a => block128 (o_and (bitslice_ops be) (self a) (other a))); ("bitor", fun a => block128 (o_or (bitslice_ops be) (self a) (other a)));
   ("bitxor", fun a => block128 (o_xor (bitslice_ops be) (self a) (other a))); ("not", fun a => block128 (o_not (bitslice_ops be) (self a)));
   ("enc", fun a => block128 (o_enc (bitslice_ops be) (self a) (other a))); ("enc_last", fun a => block128 (o_enc_last (bitslice_ops be) (self a) (other a)));
   ("dec", fun a => block128 (o_dec (bitslice_ops be) (self a) (other a))); ("dec_last", fun a => block128 (o_dec_last (bitslice_ops be) (self a) (other a)));
   ("mc", fun a => block128 (e_mc (bitslice_ext be) (self a))); ("imc", fun a => block128 (e_imc (bitslice_ext be) (self a)))].
Definition bitslice_types (f : string) : list ty :=
  match assoc f [("rep", [U 8]); ("step_a", [U 128; U 128; U 128]); ("step_b", [U 128; U 128]); ("sub_word", [U 32]); ("shiftrows", [Ints 8 16]); ("invshiftrows", [Ints 8 16]);
    ("not", [Ints 128 1]); ("mc", [Ints 128 1]); ("imc", [Ints 128 1]); ("bitand", [Ints 128 1; Ints 128 1]); ("bitor", [Ints 128 1; Ints 128 1]); ("bitxor", [Ints 128 1; Ints 128 1]);
    ("enc", [Ints 128 1; Ints 128 1]); ("enc_last", [Ints 128 1; Ints 128 1]); ("dec", [Ints 128 1; Ints 128 1]); ("dec_last", [Ints 128 1; Ints 128 1])] with
  | Some l => l | None => [U 128] end.


(** One let of the source is one [LET] of the model; [c] is what remains of the model *)
Lemma let_step F be env x e ls res w a (k : N -> N) (c : N -> val) :
  eval F be env e = I w a -> (forall n, eval F be (lets F be ((x, I w n) :: env) ls) res = c (k n)) ->
  eval F be (lets F be env ((x, e) :: ls)) res = c (let_in a k).
Proof. intros E H. cbn [lets]. rewrite E. apply H. Qed.
Lemma let_last F be env x e ls res w a (c : N -> val) :
  eval F be env e = I w a -> (forall n, eval F be (lets F be ((x, I w n) :: env) ls) res = c n) ->
  eval F be (lets F be env ((x, e) :: ls)) res = c a.
Proof. intros E H. cbn [lets]. rewrite E. apply H. Qed.
Definition after_invert (x : N) : val := u128 (bs_basis_out 16 x).
Definition after_inv_invert (x : N) : val := u128 (bs_inv_basis_out 16 x).
Definition after_basis (x : N) : val := after_invert (bs_invert 16 x).
Definition after_inv_basis (x : N) : val := after_inv_invert (bs_invert 16 x).
Ltac step c := lazymatch goal with |- _ = _ (let_in _ _) => idtac end; eapply (fun w a k => let_step _ _ _ _ _ _ _ w a k c); [reflexivity | intro; cbv beta].
Ltac last c := eapply (fun w a => let_last _ _ _ _ _ _ _ w a c); [reflexivity | intro; cbv beta].
Lemma subbytes_source be x : run (meaning (bitslice_models be) be) be bitslice_subbytes [u128 x] = u128 (subbytes 16 x).
Proof.
  change (u128 (subbytes 16 x)) with (after_basis (bs_basis_in 16 x)).
  unfold bs_basis_in, bitslice_subbytes, run. cbn [length Nat.eqb combine].
  repeat step after_basis. last after_basis.
  match goal with |- _ = after_basis ?n => change (after_basis n) with (after_invert (bs_invert 16 n)) end.
  unfold bs_invert. repeat step after_invert. last after_invert.
  match goal with |- _ = after_invert ?n => change (after_invert n) with (u128 (bs_basis_out 16 n)) end.
  unfold bs_basis_out. repeat step u128. reflexivity.
Qed.

Lemma invsubbytes_source be x : run (meaning (bitslice_models be) be) be bitslice_invsubbytes [u128 x] = u128 (invsubbytes 16 x).
Proof.
  change (u128 (invsubbytes 16 x)) with (after_inv_basis (bs_inv_basis_in 16 x)).
  unfold bs_inv_basis_in, bitslice_invsubbytes, run. cbn [length Nat.eqb combine].
  repeat step after_inv_basis. last after_inv_basis.
  match goal with |- _ = after_inv_basis ?n => change (after_inv_basis n) with (after_inv_invert (bs_invert 16 n)) end.
  unfold bs_invert. repeat step after_inv_invert. last after_inv_invert.
  match goal with |- _ = after_inv_invert ?n => change (after_inv_invert n) with (u128 (bs_inv_basis_out 16 n)) end.
  unfold bs_inv_basis_out. repeat step u128. reflexivity.
Qed.
Lemma num_bytes l : map num (map (I 8) l) = l.
Proof. induction l; cbn [map num]; [reflexivity | now rewrite IHl]. Qed.
Lemma rep_source be x : run (meaning (bitslice_models be) be) be bitslice_rep [I 8 x] = u128 (rep 16 x).
Proof. destruct be; reflexivity. Qed.
Lemma to_ne_bytes be n : meaning (bitslice_models be) be "to_ne_bytes" [I 128 n] = A (map (I 8) (to_ne be 16 n)).
Proof. reflexivity. Qed.

Lemma shiftrows_source be f g (l : list N) : length l = 16%nat -> (f, g) = (bitslice_shiftrows, shiftrows) \/ (f, g) = (bitslice_invshiftrows, invshiftrows) ->
  run (meaning (bitslice_models be) be) be f [A (map (I 8) l)] = u128 (g be (nums (A (map (I 8) l)))).
Proof.
  intros L [H | H]; injection H as -> ->; unfold nums; rewrite num_bytes;
    do 16 (destruct l as [|? l]; [discriminate L | injection L as L]); reflexivity.
Qed.
Lemma ror8_32_source be x : run (meaning (bitslice_models be) be) be bitslice_ror8_32 [u128 x] = u128 (ror8_32 be x).
Proof. destruct be; reflexivity. Qed.
Section Rounds.
  Local Opaque subbytes invsubbytes shiftrows invshiftrows mixcolumns invmixcolumns to_ne map.
  Lemma sub_word_source be x : run (meaning (bitslice_models be) be) be bitslice_sub_word [I 32 x] = I 32 (bs_sub_word x).
  Proof. reflexivity. Qed.
  Lemma enc_source be x k : run (meaning (bitslice_models be) be) be bitslice_enc [block128 x; block128 k] = block128 (bs_enc be x k).
  Proof.
    transitivity (block128 (N.lxor (mixcolumns be (subbytes 16 (shiftrows be (nums (A (map (I 8) (to_ne be 16 x))))))) k)); [reflexivity |].
    unfold nums. rewrite num_bytes. reflexivity.
  Qed.
  Lemma enc_last_source be x k : run (meaning (bitslice_models be) be) be bitslice_enc_last [block128 x; block128 k] = block128 (bs_enc_last be x k).
  Proof.
    transitivity (block128 (N.lxor (subbytes 16 (shiftrows be (nums (A (map (I 8) (to_ne be 16 x)))))) k)); [reflexivity |].
    unfold nums. rewrite num_bytes. reflexivity.
  Qed.
  Lemma dec_source be x k : run (meaning (bitslice_models be) be) be bitslice_dec [block128 x; block128 k] = block128 (bs_dec be x k).
  Proof.
    transitivity (block128 (N.lxor (invmixcolumns be (invsubbytes 16 (invshiftrows be (nums (A (map (I 8) (to_ne be 16 x))))))) k)); [reflexivity |].
    unfold nums. rewrite num_bytes. reflexivity.
  Qed.
  Lemma dec_last_source be x k : run (meaning (bitslice_models be) be) be bitslice_dec_last [block128 x; block128 k] = block128 (bs_dec_last be x k).
  Proof.
    transitivity (block128 (N.lxor (invsubbytes 16 (invshiftrows be (nums (A (map (I 8) (to_ne be 16 x)))))) k)); [reflexivity |].
    unfold nums. rewrite num_bytes. reflexivity.
  Qed.
End Rounds.

Theorem bitslice_models_are_source be : models_are_source (bitslice_models be) be bitslice_fns bitslice_types.
Proof.
  intros name f args H T. unfold bitslice_fns in H.
  repeat (destruct H as [H | H]; [injection H as <- <-; eexists; (split; [reflexivity|]); cbn in T;
    repeat match goal with
           | H : typed _ _ |- _ => unfold typed in H
           | H : Forall2 _ (_ :: _) _ |- _ => inversion H; clear H; subst
           | H : Forall2 _ [] _ |- _ => inversion H; clear H; subst
           | H : has_type _ (U _) |- _ => destruct H as [? ->]
           | H : has_type _ (Ints _ _) |- _ => destruct H as (? & ? & ->)
           | H : length ?l = 1%nat |- _ => destruct l as [|? [|? ?]]; [discriminate H | clear H | discriminate H]
           end
    |]); [.. | destruct H].
  all: lazymatch goal with
       | |- context [bitslice_rep] => apply rep_source
       | |- context [bitslice_subbytes] => apply subbytes_source
       | |- context [bitslice_invsubbytes] => apply invsubbytes_source
       | |- context [bitslice_sub_word] => apply sub_word_source
       | |- context [bitslice_ror8_32] => apply ror8_32_source
       | |- context [bitslice_enc] => apply enc_source
       | |- context [bitslice_enc_last] => apply enc_last_source
       | |- context [bitslice_dec] => apply dec_source
       | |- context [bitslice_dec_last] => apply dec_last_source
       | |- context [bitslice_shiftrows] => apply (shiftrows_source be bitslice_shiftrows shiftrows); [assumption | left; reflexivity]
       | |- context [bitslice_invshiftrows] => apply (shiftrows_source be bitslice_invshiftrows invshiftrows); [assumption | right; reflexivity]
       | _ => reflexivity
       end.
Qed.
Print Assumptions bitslice_models_are_source.

(** ** aes_table_based.rs *)
Definition u32 (n : N) : val := I 32 n.
Definition block32 (w : w4) : val := A [I 32 (w_0 w); I 32 (w_1 w); I 32 (w_2 w); I 32 (w_3 w)].
Definition six32 (w : w6) : val := A [I 32 (v_0 w); I 32 (v_1 w); I 32 (v_2 w); I 32 (v_3 w); I 32 (v_4 w); I 32 (v_5 w)].
Definition unblock32 (v : val) : w4 := match v with A [I _ a; I _ b; I _ c; I _ d] => W4 a b c d | _ => W4 0 0 0 0 end.
Definition unsix32 (v : val) : w6 := match v with A [I _ a; I _ b; I _ c; I _ d; I _ e; I _ f] => W6 a b c d e f | _ => W6 0 0 0 0 0 0 end.
(** a panic is no value *)
Definition returned {B} (f : B -> val) (r : outcome B) : val := match r with Ret b => f b | _ => Bad end.
Definition table_models : list (string * (list val -> val)) :=
  let i0 a := num (nth 0 a Bad) in let b0 a := unblock32 (nth 0 a Bad) in let b1 a := unblock32 (nth 1 a Bad) in let b2 a := unblock32 (nth 2 a Bad) in
  let word f := fun a => u32 (f (i0 a)) in let one f := fun a => block32 (f (b0 a)) in let two f := fun a => block32 (f (b0 a) (b1 a)) in
  let static t := fun _ => A (map (I 32) t) in
  [("bitand", two (o_and table_ops)); ("bitor", two (o_or table_ops)); ("bitxor", two (o_xor table_ops)); ("not", one (o_not table_ops));
   ("enc", two (o_enc table_ops)); ("enc_last", two (o_enc_last table_ops)); ("dec", two (o_dec table_ops)); ("dec_last", two (o_dec_last table_ops));
   ("mc", one tb_mc); ("imc", one tb_imc); ("sub_word", word tb_sub_word);
   ("keyexp_128", fun a => block32 (tb_keyexp_128 (i0 a) (b1 a))); ("keyexp_192", fun a => six32 (tb_keyexp_192 (i0 a) (unsix32 (nth 1 a Bad))));
   ("keyexp_256_1", fun a => block32 (tb_keyexp_256_1 (i0 a) (b1 a) (b2 a))); ("keyexp_256_2", two tb_keyexp_256_2);
   ("keygen_128", fun a => returned (fun l => A (map block32 l)) (tb_keygen_128 (nums (nth 0 a Bad))));
   ("keygen_192", fun a => returned (fun l => A (map block32 l)) (tb_keygen_192 (nums (nth 0 a Bad))));
   ("te0", word te0); ("te1", word te1); ("te2", word te2); ("te3", word te3); ("td0", word td0); ("td1", word td1); ("td2", word td2); ("td3", word td3);
   ("te4_0", word te4_0); ("te4_1", word te4_1); ("te4_2", word te4_2); ("te4_3", word te4_3); ("td4_0", word td4_0); ("td4_1", word td4_1); ("td4_2", word td4_2); ("td4_3", word td4_3);
   ("TE0", static TE0); ("TE1", static TE1); ("TE2", static TE2); ("TE3", static TE3); ("TE4", static TE4);
   ("TD0", static TD0); ("TD1", static TD1); ("TD2", static TD2); ("TD3", static TD3); ("TD4", static TD4);
   (* the two functions that read a byte array *)
   ("into", fun a => returned block32 (tb_new (nums (nth 0 a Bad)))); ("load_u32_be", fun a => returned u32 (load_u32_be (nums (nth 0 a Bad)) (N.to_nat (num (nth 1 a Bad)))))].
Definition table_types (f : string) : list ty :=
  match assoc f [("not", [Ints 32 4]); ("mc", [Ints 32 4]); ("imc", [Ints 32 4]); ("bitand", [Ints 32 4; Ints 32 4]); ("bitor", [Ints 32 4; Ints 32 4]); ("bitxor", [Ints 32 4; Ints 32 4]);
    ("enc", [Ints 32 4; Ints 32 4]); ("enc_last", [Ints 32 4; Ints 32 4]); ("dec", [Ints 32 4; Ints 32 4]); ("dec_last", [Ints 32 4; Ints 32 4]);
    ("keyexp_128", [U 32; Ints 32 4]); ("keyexp_192", [U 32; Ints 32 6]); ("keyexp_256_1", [U 32; Ints 32 4; Ints 32 4]); ("keyexp_256_2", [Ints 32 4; Ints 32 4]);
    ("keygen_128", [Ints 8 16]); ("keygen_192", [Ints 8 24])] with
  | Some l => l | None => [U 32] end.

(** The ten statics of the source are the model's tables *)
Theorem tables_are_source : [table_TE0; table_TE1; table_TE2; table_TE3; table_TE4; table_TD0; table_TD1; table_TD2; table_TD3; table_TD4] =
  [TE0; TE1; TE2; TE3; TE4; TD0; TD1; TD2; TD3; TD4].
Proof. reflexivity. Qed.
Print Assumptions tables_are_source.

Lemma table_entry t x : length t = 256%nat -> elem (A (map (I 32) t)) (N.to_nat (as_u8 x)) = u32 (lut t x).
Proof.
  intros L. assert (B : as_u8 x < 256) by exact (trunc_lt 8 x). unfold elem, lut.
  rewrite (nth_indep (map (I 32) t) Bad (I 32 0)) by (rewrite map_length; lia). apply (map_nth (I 32)).
Qed.
Lemma masked_entry F t m x : length t = 256%nat ->
  match elem (A (map (I 32) t)) (N.to_nat (as_u8 x)) with A l => F "bitand" [A l; I 0 m] | v => bin And v (I 0 m) end = u32 (N.land (lut t x) m).
Proof. intros L. rewrite table_entry by exact L. reflexivity. Qed.
Lemma macro_source be name f x : In (name, f) table_macro_fns ->
  exists g, assoc name table_models = Some g /\ run (meaning table_models be) be f [u32 x] = g [u32 x].
Proof.
  intros H. unfold table_macro_fns in H.
  repeat (destruct H as [H | H]; [injection H as <- <-; eexists; (split; [reflexivity|])|]); [.. | destruct H].
  - exact (table_entry TE0 x eq_refl).
  - exact (table_entry TE1 x eq_refl).
  - exact (table_entry TE2 x eq_refl).
  - exact (table_entry TE3 x eq_refl).
  - exact (table_entry TD0 x eq_refl).
  - exact (table_entry TD1 x eq_refl).
  - exact (table_entry TD2 x eq_refl).
  - exact (table_entry TD3 x eq_refl).
  - exact (masked_entry (meaning table_models be) TE4 0xff000000 x eq_refl).
  - exact (masked_entry (meaning table_models be) TD4 0xff000000 x eq_refl).
  - exact (masked_entry (meaning table_models be) TE4 0xff0000 x eq_refl).
  - exact (masked_entry (meaning table_models be) TD4 0xff0000 x eq_refl).
  - exact (masked_entry (meaning table_models be) TE4 0xff00 x eq_refl).
  - exact (masked_entry (meaning table_models be) TD4 0xff00 x eq_refl).
  - exact (masked_entry (meaning table_models be) TE4 0xff x eq_refl).
  - exact (masked_entry (meaning table_models be) TD4 0xff x eq_refl).
Qed.
Section Words.
  Local Opaque te0 te1 te2 te3 td0 td1 td2 td3 te4_0 te4_1 te4_2 te4_3 td4_0 td4_1 td4_2 td4_3 load_u32_be.
  Lemma keyexp_128_call be rc w : meaning table_models be "keyexp_128" [I 0 rc; block32 w] = block32 (tb_keyexp_128 rc w).
  Proof. destruct w. reflexivity. Qed.
  Lemma keyexp_192_call be rc w : meaning table_models be "keyexp_192" [I 0 rc; six32 w] = six32 (tb_keyexp_192 rc w).
  Proof. destruct w. reflexivity. Qed.
End Words.
Lemma tb_new_ret key : length key = 16%nat -> exists w, tb_new key = Ret w.
Proof. intros L. do 16 (destruct key as [|? key]; [discriminate L | injection L as L]). eexists. reflexivity. Qed.
Lemma load_ret key o : length key = 24%nat -> (o <= 20)%nat -> exists x, load_u32_be key o = Ret x.
Proof.
  intros L O. do 24 (destruct key as [|? key]; [discriminate L | injection L as L]).
  do 21 (destruct o as [|o]; [eexists; reflexivity |]). lia.
Qed.
Lemma let_val F be env x e ls res u v : eval F be env e = u -> eval F be (lets F be ((x, u) :: env) ls) res = v -> eval F be (lets F be env ((x, e) :: ls)) res = v.
Proof. intros E H. cbn [lets]. rewrite E. exact H. Qed.
Section Schedules.
  Local Opaque tb_keyexp_128 tb_keyexp_192 tb_new load_u32_be.
  Ltac look := cbn [eval map assoc String.eqb Ascii.eqb Bool.eqb].
  Lemma keygen_128_source be key : length key = 16%nat ->
    run (meaning table_models be) be table_keygen_128 [A (map (I 8) key)] = returned (fun l => A (map block32 l)) (tb_keygen_128 key).
  Proof.
    intros L. unfold table_keygen_128, run, tb_keygen_128. cbn [length Nat.eqb combine].
    destruct (tb_new_ret key L) as [key0 E0]. rewrite E0. cbn [bind].
    apply (let_val _ _ _ _ _ _ _ (block32 key0)).
    { change (returned block32 (tb_new (nums (A (map (I 8) key)))) = block32 key0). unfold nums. rewrite num_bytes, E0. reflexivity. }
    do 10 (eapply let_val; [look; apply keyexp_128_call |]). reflexivity.
  Qed.
  Lemma keygen_192_source be key : length key = 24%nat ->
    run (meaning table_models be) be table_keygen_192 [A (map (I 8) key)] = returned (fun l => A (map block32 l)) (tb_keygen_192 key).
  Proof.
    intros L. unfold table_keygen_192, run, tb_keygen_192. cbn [length Nat.eqb combine].
    destruct (load_ret key 0 L ltac:(lia)) as [a0 E0]. destruct (load_ret key 4 L ltac:(lia)) as [a1 E1]. destruct (load_ret key 8 L ltac:(lia)) as [a2 E2].
    destruct (load_ret key 12 L ltac:(lia)) as [a3 E3]. destruct (load_ret key 16 L ltac:(lia)) as [a4 E4]. destruct (load_ret key 20 L ltac:(lia)) as [a5 E5].
    rewrite E0, E1, E2, E3, E4, E5. cbn [bind].
    apply (let_val _ _ _ _ _ _ _ (six32 (W6 a0 a1 a2 a3 a4 a5))).
    { transitivity (A [returned u32 (load_u32_be (nums (A (map (I 8) key))) 0); returned u32 (load_u32_be (nums (A (map (I 8) key))) 4);
        returned u32 (load_u32_be (nums (A (map (I 8) key))) 8); returned u32 (load_u32_be (nums (A (map (I 8) key))) 12);
        returned u32 (load_u32_be (nums (A (map (I 8) key))) 16); returned u32 (load_u32_be (nums (A (map (I 8) key))) 20)]); [reflexivity |].
      unfold nums. rewrite num_bytes, E0, E1, E2, E3, E4, E5. reflexivity. }
    repeat (lazymatch goal with |- eval _ _ (lets _ _ _ (_ :: _)) _ = _ => idtac end; eapply let_val;
      [lazymatch goal with |- eval _ _ _ (Call _ _) = _ => look; apply keyexp_192_call | _ => look; cbn [elem nth six32 N.to_nat Pos.to_nat Pos.iter_op Nat.add]; reflexivity end |]).
    reflexivity.
  Qed.
End Schedules.

(** Every function of this form, and every lookup of the macro [declare!] *)
Theorem table_models_are_source be : models_are_source table_models be (table_fns ++ table_macro_fns) table_types.
Proof.
  intros name f args H T. apply in_app_or in H. destruct H as [H | H].
  2:{ assert (E : table_types name = [U 32]).
      { unfold table_macro_fns in H. repeat (destruct H as [H | H]; [injection H as <- _; reflexivity |]). destruct H. }
      rewrite E in T. unfold typed in T. destruct args as [|a [|b args]]; inversion T as [|t v ts vs Ha T']; subst.
      - destruct Ha as [x ->]. exact (macro_source be name f x H).
      - inversion T'. }
  unfold table_fns in H.
  repeat (destruct H as [H | H]; [injection H as <- <-; eexists; (split; [reflexivity|]); cbn in T;
    repeat match goal with
           | H : typed _ _ |- _ => unfold typed in H
           | H : Forall2 _ (_ :: _) _ |- _ => inversion H; clear H; subst
           | H : Forall2 _ [] _ |- _ => inversion H; clear H; subst
           | H : has_type _ (U _) |- _ => destruct H as [? ->]
           | H : has_type _ (Ints _ _) |- _ => destruct H as (? & ? & ->)
           | H : length ?l = 4%nat |- _ => destruct l as [|? [|? [|? [|? [|? ?]]]]]; try discriminate H; clear H
           | H : length ?l = 6%nat |- _ => destruct l as [|? [|? [|? [|? [|? [|? [|? ?]]]]]]]; try discriminate H; clear H
           end
    |]); [.. | destruct H].
  all: lazymatch goal with
       | |- context [table_keygen_128] => unfold nums, nth; rewrite num_bytes; apply keygen_128_source; assumption
       | |- context [table_keygen_192] => unfold nums, nth; rewrite num_bytes; apply keygen_192_source; assumption
       | _ => idtac
       end.
  all: reflexivity.
Qed.
Print Assumptions table_models_are_source.

(** Concrete cases, evaluated from the source text: the S-box of 16 bytes 0x00 is 16 bytes 0x63, and the first round key of FIPS 197, appendix A.1 *)
Example source_subbytes_zero : run (meaning (bitslice_models false) false) false bitslice_subbytes [u128 0] = u128 0x63636363636363636363636363636363.
Proof. vm_compute. reflexivity. Qed.
Example source_keyexp_128 : run (meaning table_models false) false table_keyexp_128 [u32 0x01000000; block32 (W4 0x2b7e1516 0x28aed2a6 0xabf71588 0x09cf4f3c)] =
  block32 (W4 0xa0fafe17 0x88542cb1 0x23a33939 0x2a6c7605).
Proof. vm_compute. reflexivity. Qed.
