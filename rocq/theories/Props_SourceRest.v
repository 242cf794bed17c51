(** The models of the Arm and RV64 backends are the source text ([Props_Source]): the operators, rounds, MixColumns and key expansion steps of aes_arm.rs and
    aes_riscv64.rs, with every intrinsic meaning what [Isa_arm] and [Isa_riscv] say. *)
From Coq Require Import String Lia.
From Verif Require Import Word Interface Isa_arm Isa_riscv Model_Arm Model_Rv64 Rust Source Props_Source Props_SourceX86.
Open Scope N_scope.
Open Scope string_scope.

(** ** aes_arm.rs; a vector register is the list of its lanes *)
Definition arm_models (arm32 : bool) : list (string * (list val -> val)) := ops_models (arm_ops arm32) ++
  [("Self::zero", fun _ => blk arm_zero); ("mc", fun a => blk (arm_mc (r0 a))); ("imc", fun a => blk (arm_imc (r0 a)));
   ("aese", fun a => blk (vaeseq_u8 (r0 a) (r1 a))); ("aesd", fun a => blk (vaesdq_u8 (r0 a) (r1 a)));
   ("pre_enc", fun a => blk (arm_pre_enc (r0 a) (r1 a))); ("pre_dec", fun a => blk (arm_pre_dec (r0 a) (r1 a))); ("sub_word", fun a => I 32 (arm_sub_word (c0 a)));
   ("vandq_u8", fun a => V (vandq_u8 (r0 a) (r1 a))); ("vorrq_u8", fun a => V (vorrq_u8 (r0 a) (r1 a))); ("veorq_u8", fun a => V (veorq_u8 (r0 a) (r1 a)));
   ("vmvnq_u8", fun a => V (vmvnq_u8 (r0 a))); ("vdupq_n_u8", fun a => V (vdupq_n_u8 (c0 a))); ("vdupq_n_u32", fun a => V (vdupq_n_u32 (c0 a)));
   ("vreinterpretq_u8_u32", fun a => V (vreinterpretq_u8_u32 (r0 a))); ("vreinterpretq_u32_u8", fun a => V (vreinterpretq_u32_u8 (r0 a)));
   ("vgetq_lane_u32", fun a => I 32 (vgetq_lane (N.to_nat (c0 a)) (r1 a)));
   ("vaeseq_u8", fun a => V (vaeseq_u8 (r0 a) (r1 a))); ("vaesdq_u8", fun a => V (vaesdq_u8 (r0 a) (r1 a))); ("vaesmcq_u8", fun a => V (vaesmcq_u8 (r0 a))); ("vaesimcq_u8", fun a => V (vaesimcq_u8 (r0 a)))].
Definition arm_types (f : string) : list xty :=
  match assoc f [("not", [Blk]); ("zero", []); ("mc", [Blk]); ("imc", [Blk]); ("sub_word", [Const])] with Some l => l | None => [Blk; Blk] end.
Section ArmOpaque.
  Local Opaque vandq_u8 vorrq_u8 veorq_u8 vmvnq_u8 vdupq_n_u8 vdupq_n_u32 vreinterpretq_u8_u32 vreinterpretq_u32_u8 vgetq_lane vaeseq_u8 vaesdq_u8 vaesmcq_u8 vaesimcq_u8.
  Theorem arm_models_are_source arm32 be : x_models_are_source (arm_models arm32) be aes_arm_fns arm_types.
  Proof.
    intros name f args H T. unfold aes_arm_fns in H.
    repeat (destruct H as [H | H]; [injection H as <- <-; eexists; (split; [reflexivity|]); given T |]).
    all: try (destruct H; fail). all: reflexivity.
  Qed.
  Print Assumptions arm_models_are_source.
End ArmOpaque.

(** ** aes_riscv64.rs *)
Definition block64 (w : w2) : val := A [I 64 (d_0 w); I 64 (d_1 w)].
Definition unblock64 (v : val) : w2 := match v with A [I _ a; I _ b] => W2 a b | _ => W2 0 0 end.
Definition rv64_models : list (string * (list val -> val)) :=
  let i0 a := num (nth 0 a Bad) in let i1 a := num (nth 1 a Bad) in
  let b0 a := unblock64 (nth 0 a Bad) in let b1 a := unblock64 (nth 1 a Bad) in let b2 a := unblock64 (nth 2 a Bad) in
  let one f := fun a => block64 (f (b0 a)) in let two f := fun a => block64 (f (b0 a) (b1 a)) in let insn f := fun a => I 64 (f (i0 a) (i1 a)) in
  [("bitand", two (o_and rv64_ops)); ("bitor", two (o_or rv64_ops)); ("bitxor", two (o_xor rv64_ops)); ("not", one (o_not rv64_ops));
   ("enc", two (o_enc rv64_ops)); ("enc_last", two (o_enc_last rv64_ops)); ("dec", two (o_dec rv64_ops)); ("dec_last", two (o_dec_last rv64_ops));
   ("mc", one r64_mc); ("imc", one r64_imc); ("keyexp_128", fun a => block64 (r64_keyexp_128 (i0 a) (b1 a)));
   ("keyexp_256_1", fun a => block64 (r64_keyexp_256_1 (i0 a) (b1 a) (b2 a))); ("keyexp_256_2", two r64_keyexp_256_2);
   ("keygen_128", fun a => returned (fun l => A (map block64 l)) (r64_keygen_128 (nums (nth 0 a Bad)))); ("AesBlock::from", fun a => returned block64 (r64_new (nums (nth 0 a Bad))));
   ("aes64esm", insn aes64esm); ("aes64es", insn aes64es); ("aes64dsm", insn aes64dsm); ("aes64ds", insn aes64ds); ("aes64im", fun a => I 64 (aes64im (i0 a)));
   ("aes64ks1i", insn aes64ks1i); ("aes64ks2", insn aes64ks2)].
Definition rv64_types (f : string) : list ty :=
  match assoc f [("not", [Ints 64 2]); ("mc", [Ints 64 2]); ("imc", [Ints 64 2]); ("keyexp_128", [U 32; Ints 64 2]); ("keyexp_256_1", [U 32; Ints 64 2; Ints 64 2]); ("keygen_128", [Ints 8 16])] with
  | Some l => l | None => [Ints 64 2; Ints 64 2] end.
Lemma r64_keyexp_128_call be rc w : meaning rv64_models be "keyexp_128" [I 0 rc; block64 w] = block64 (r64_keyexp_128 rc w).
Proof. destruct w. reflexivity. Qed.
Section Rv64Opaque.
  Local Opaque aes64esm aes64es aes64dsm aes64ds aes64im aes64ks1i aes64ks2.
  Section Keygen.
    Local Opaque r64_keyexp_128.
    Lemma rv64_keygen_128_source be key :
      run (meaning rv64_models be) be aes_riscv64_keygen_128 [A (map (I 8) key)] = returned (fun l => A (map block64 l)) (r64_keygen_128 key).
    Proof.
      unfold aes_riscv64_keygen_128, run, r64_keygen_128, r64_new. cbn [length Nat.eqb combine bind].
      set (key0 := W2 _ _). apply (let_val _ _ _ _ _ _ _ (block64 key0)).
      { change (returned block64 (r64_new (nums (A (map (I 8) key)))) = block64 key0). unfold nums. rewrite num_bytes. reflexivity. }
      clearbody key0. do 10 (eapply let_val; [cbn [eval map assoc String.eqb Ascii.eqb Bool.eqb]; apply r64_keyexp_128_call |]). reflexivity.
    Qed.
  End Keygen.
  Theorem rv64_models_are_source be : models_are_source rv64_models be aes_riscv64_fns rv64_types.
  Proof.
    intros name f args H T. unfold aes_riscv64_fns in H.
    repeat (destruct H as [H | H]; [injection H as <- <-; eexists; (split; [reflexivity|]); cbn in T;
      repeat match goal with
           | H : typed _ _ |- _ => unfold typed in H
           | H : Forall2 _ (_ :: _) _ |- _ => inversion H; clear H; subst
           | H : Forall2 _ [] _ |- _ => inversion H; clear H; subst
           | H : has_type _ (U _) |- _ => destruct H as [? ->]
           | H : has_type _ (Ints _ _) |- _ => destruct H as (? & ? & ->)
           | H : length ?l = 2%nat |- _ => destruct l as [|? [|? [|? ?]]]; try discriminate H; clear H
           end
      |]); [.. | destruct H].
    all: lazymatch goal with
         | |- context [aes_riscv64_keygen_128] => unfold nums, nth; rewrite num_bytes; apply rv64_keygen_128_source
         | _ => reflexivity
         end.
  Qed.
  Print Assumptions rv64_models_are_source.
End Rv64Opaque.
(** A concrete case: the first round key of FIPS 197, appendix A.1, from the source text *)
Example source_rv64_keyexp_128 : run (meaning rv64_models false) false aes_riscv64_keyexp_128 [I 0 0; block64 (W2 0xa6d2ae2816157e2b 0x3c4fcf098815f7ab)] =
  block64 (W2 0xb12c548817fefaa0 0x05766c2a3939a323).
Proof. vm_compute. reflexivity. Qed.
