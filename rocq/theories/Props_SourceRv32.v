(** The model of the RV32 backend is the source text ([Props_Source]): the operators, the rounds with the macro [outer!], MixColumns and [sub_word] of aes_riscv32.rs,
    with every intrinsic meaning what [Isa_riscv] says.  (What is wrong with this backend, C30 and C33, is in these functions.) *)
From Coq Require Import String Lia.
From Verif Require Import Word Interface Isa_riscv Model_Rv32 Rust Source Props_Source.
Open Scope N_scope.
Open Scope string_scope.

Definition rv32_models : list (string * (list val -> val)) :=
  let i k a := num (nth k a Bad) in let b0 a := unblock32 (nth 0 a Bad) in let b1 a := unblock32 (nth 1 a Bad) in
  let one f := fun a => block32 (f (b0 a)) in let two f := fun a => block32 (f (b0 a) (b1 a)) in let insn f := fun a => I 32 (f (i 0%nat a) (i 1%nat a) (i 2%nat a)) in
  let inner f := fun a => I 32 (r32_inner f (i 0%nat a) (i 1%nat a) (i 2%nat a) (i 3%nat a) (i 4%nat a)) in
  [("bitand", two (o_and rv32_ops)); ("bitor", two (o_or rv32_ops)); ("bitxor", two (o_xor rv32_ops)); ("not", one (o_not rv32_ops)); ("Self::zero", fun _ => block32 (o_zero rv32_ops));
   ("enc", two (o_enc rv32_ops)); ("enc_last", two (o_enc_last rv32_ops)); ("dec", two (o_dec rv32_ops)); ("dec_last", two (o_dec_last rv32_ops));
   ("pre_enc", two r32_pre_enc); ("pre_enc_last", two r32_pre_enc_last); ("pre_dec", two r32_pre_dec); ("pre_dec_last", two r32_pre_dec_last);
   ("mc", one r32_mc); ("imc", one r32_imc); ("sub_word", fun a => I 32 (r32_sub_word (i 0%nat a) (i 1%nat a)));
   ("inner_aes32esmi", inner aes32esmi); ("inner_aes32esi", inner aes32esi); ("inner_aes32dsmi", inner aes32dsmi); ("inner_aes32dsi", inner aes32dsi);
   ("aes32esmi", insn aes32esmi); ("aes32esi", insn aes32esi); ("aes32dsmi", insn aes32dsmi); ("aes32dsi", insn aes32dsi)].
Definition rv32_types (f : string) : list ty :=
  match assoc f [("not", [Ints 32 4]); ("mc", [Ints 32 4]); ("imc", [Ints 32 4]); ("sub_word", [U 32; U 32]); ("inner_aes32esmi", [U 32; U 32; U 32; U 32; U 32]);
    ("inner_aes32esi", [U 32; U 32; U 32; U 32; U 32]); ("inner_aes32dsmi", [U 32; U 32; U 32; U 32; U 32]); ("inner_aes32dsi", [U 32; U 32; U 32; U 32; U 32])] with
  | Some l => l | None => [Ints 32 4; Ints 32 4] end.
Section Rv32Opaque.
  Local Opaque aes32esmi aes32esi aes32dsmi aes32dsi.
  Section Whole.
    Local Opaque r32_pre_enc r32_pre_enc_last r32_pre_dec r32_pre_dec_last r32_enc r32_dec.
    Lemma unblock32_block w : unblock32 (block32 w) = w.
    Proof. destruct w. reflexivity. Qed.
    Notation m be := (meaning rv32_models be).
    Lemma rv32_mc_source be s : run (m be) be aes_riscv32_mc [block32 s] = block32 (r32_mc s).
    Proof.
      transitivity (block32 (r32_enc (unblock32 (block32 (r32_pre_dec_last (unblock32 (block32 s)) w4_zero))) w4_zero)); [reflexivity |].
      rewrite !unblock32_block. reflexivity.
    Qed.
    Lemma rv32_imc_source be s : run (m be) be aes_riscv32_imc [block32 s] = block32 (r32_imc s).
    Proof.
      transitivity (block32 (r32_dec (unblock32 (block32 (r32_pre_enc_last (unblock32 (block32 s)) w4_zero))) w4_zero)); [reflexivity |].
      rewrite !unblock32_block. reflexivity.
    Qed.
  End Whole.
  Section Rounds.
    Local Opaque r32_pre_enc r32_pre_enc_last r32_pre_dec r32_pre_dec_last.
    Lemma rv32_round_source be f g : In (f, g) [(aes_riscv32_enc, r32_enc); (aes_riscv32_enc_last, r32_enc_last); (aes_riscv32_dec, r32_dec); (aes_riscv32_dec_last, r32_dec_last)] ->
      forall s k, run (meaning rv32_models be) be f [block32 s; block32 k] = block32 (g s k).
    Proof.
      intros H s k. repeat (destruct H as [H | H]; [injection H as <- <- |]); [.. | destruct H].
      - transitivity (block32 (w4_xor (unblock32 (block32 (r32_pre_enc (unblock32 (block32 s)) w4_zero))) (unblock32 (block32 k)))); [reflexivity | rewrite !unblock32_block; reflexivity].
      - transitivity (block32 (w4_xor (unblock32 (block32 (r32_pre_enc_last (unblock32 (block32 s)) w4_zero))) (unblock32 (block32 k)))); [reflexivity | rewrite !unblock32_block; reflexivity].
      - transitivity (block32 (w4_xor (unblock32 (block32 (r32_pre_dec (unblock32 (block32 s)) w4_zero))) (unblock32 (block32 k)))); [reflexivity | rewrite !unblock32_block; reflexivity].
      - transitivity (block32 (w4_xor (unblock32 (block32 (r32_pre_dec_last (unblock32 (block32 s)) w4_zero))) (unblock32 (block32 k)))); [reflexivity | rewrite !unblock32_block; reflexivity].
    Qed.
  End Rounds.
  Theorem rv32_models_are_source be : models_are_source rv32_models be aes_riscv32_fns rv32_types.
  Proof.
    intros name f args H T. unfold aes_riscv32_fns in H.
    repeat (destruct H as [H | H]; [injection H as <- <-; eexists; (split; [reflexivity|]); cbn in T;
      repeat match goal with
           | H : typed _ _ |- _ => unfold typed in H
           | H : Forall2 _ (_ :: _) _ |- _ => inversion H; clear H; subst
           | H : Forall2 _ [] _ |- _ => inversion H; clear H; subst
           | H : has_type _ (U _) |- _ => destruct H as [? ->]
           | H : has_type _ (Ints _ _) |- _ => destruct H as (? & ? & ->)
           | H : length ?l = 4%nat |- _ => destruct l as [|? [|? [|? [|? [|? ?]]]]]; try discriminate H; clear H
           end
      |]); [.. | destruct H].
    all: lazymatch goal with
         | |- context [aes_riscv32_mc] => match goal with |- context [map _ [?a; ?b; ?c; ?d]] => apply (rv32_mc_source be (W4 a b c d)) end
         | |- context [aes_riscv32_imc] => match goal with |- context [map _ [?a; ?b; ?c; ?d]] => apply (rv32_imc_source be (W4 a b c d)) end
         | |- run _ _ ?f [A (map _ [?a; ?b; ?c; ?d]); A (map _ [?e; ?g; ?h; ?j])] = _ =>
             lazymatch f with
             | aes_riscv32_enc => apply (rv32_round_source be f r32_enc ltac:(cbn; tauto) (W4 a b c d) (W4 e g h j))
             | aes_riscv32_enc_last => apply (rv32_round_source be f r32_enc_last ltac:(cbn; tauto) (W4 a b c d) (W4 e g h j))
             | aes_riscv32_dec => apply (rv32_round_source be f r32_dec ltac:(cbn; tauto) (W4 a b c d) (W4 e g h j))
             | aes_riscv32_dec_last => apply (rv32_round_source be f r32_dec_last ltac:(cbn; tauto) (W4 a b c d) (W4 e g h j))
             | _ => reflexivity
             end
         | _ => reflexivity
         end.
  Qed.
  Print Assumptions rv32_models_are_source.
End Rv32Opaque.
(** A concrete case, from the source text: sub_word xors SubWord of 0x00010203 (FIPS 197: 63 7c 77 7b) into its first argument *)
Example source_rv32_sub_word : run (meaning rv32_models false) false aes_riscv32_sub_word [I 32 1; I 32 0x00010203] = I 32 0x637c777a.
Proof. vm_compute. reflexivity. Qed.
