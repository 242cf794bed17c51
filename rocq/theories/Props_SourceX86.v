(** The models of the x86 backends are the source text ([Props_Source] for the software backends): aes_x86.rs, aesni_x2.rs, aesni_x4.rs,
    with every intrinsic meaning what [Isa_x86] says. *)
From Coq Require Import String Lia.
From Verif Require Import Word Interface Isa_x86 Model_X86 Model_Vaes Rust Source Props_Source.
Open Scope N_scope.
Open Scope string_scope.

(** Types of arguments: a constant, a register, a block (a struct of a register), an array of bytes *)
Inductive xty := Const | Reg | Blk | Bytes (k : nat).
Definition x_has_type (v : val) (t : xty) : Prop :=
  match t with Const => exists w n, v = I w n | Reg => exists l, v = V l | Blk => exists l, v = A [V l] | Bytes k => exists l, length l = k /\ v = A (map (I 8) l) end.
Definition x_models_are_source (models : list (string * (list val -> val))) (be : bool) (src : list (string * fn)) (types : string -> list xty) : Prop :=
  forall name f args, In (name, f) src -> Forall2 (fun t v => x_has_type v t) (types name) args ->
    exists g, assoc name models = Some g /\ run (meaning models be) be f args = g args.
Definition reg (v : val) : list N := match v with V l => l | A [V l] => l | _ => [] end.
Definition blk (l : list N) : val := A [V l].
Definition all_ones (n : nat) (v : val) : val := match v with I 64 0xffffffffffffffff => V (mm_set1_m1 n) | _ => Bad end.
Section Fns.
  Context (a : list val).
  Definition r0 := reg (nth 0 a Bad). Definition r1 := reg (nth 1 a Bad). Definition r2 := reg (nth 2 a Bad).
  Definition c0 := num (nth 0 a Bad).
End Fns.
(** What the intrinsics and [-n] of an i64 mean *)
Definition intrinsics : list (string * (list val -> val)) :=
  [("neg", fun a => I 64 (wrapping_sub 64 0 (c0 a)));
   ("_mm_and_si128", fun a => V (mm_and (r0 a) (r1 a))); ("_mm_or_si128", fun a => V (mm_or (r0 a) (r1 a))); ("_mm_xor_si128", fun a => V (mm_xor (r0 a) (r1 a)));
   ("_mm_set1_epi64x", fun a => all_ones 16 (nth 0 a Bad)); ("_mm_setzero_si128", fun _ => V (mm_setzero 16));
   ("_mm_aesenc_si128", fun a => V (mm_aesenc (r0 a) (r1 a))); ("_mm_aesenclast_si128", fun a => V (mm_aesenclast (r0 a) (r1 a)));
   ("_mm_aesdec_si128", fun a => V (mm_aesdec (r0 a) (r1 a))); ("_mm_aesdeclast_si128", fun a => V (mm_aesdeclast (r0 a) (r1 a))); ("_mm_aesimc_si128", fun a => V (mm_aesimc (r0 a)));
   ("_mm_bslli_si128", fun a => V (mm_bslli (N.to_nat (c0 a)) (r1 a))); ("_mm_shuffle_epi32", fun a => V (mm_shuffle_epi32 (c0 a) (r1 a)));
   ("_mm_aeskeygenassist_si128", fun a => V (mm_aeskeygenassist (c0 a) (r1 a)));
   ("_mm256_and_si256", fun a => V (mm_and (r0 a) (r1 a))); ("_mm256_or_si256", fun a => V (mm_or (r0 a) (r1 a))); ("_mm256_xor_si256", fun a => V (mm_xor (r0 a) (r1 a)));
   ("_mm256_set1_epi64x", fun a => all_ones 32 (nth 0 a Bad)); ("_mm256_setzero_si256", fun _ => V (mm_setzero 32));
   ("_mm256_aesenc_epi128", fun a => V (lanewise 2 mm_aesenc (r0 a) (r1 a))); ("_mm256_aesenclast_epi128", fun a => V (lanewise 2 mm_aesenclast (r0 a) (r1 a)));
   ("_mm256_aesdec_epi128", fun a => V (lanewise 2 mm_aesdec (r0 a) (r1 a))); ("_mm256_aesdeclast_epi128", fun a => V (lanewise 2 mm_aesdeclast (r0 a) (r1 a)));
   ("_mm512_and_si512", fun a => V (mm_and (r0 a) (r1 a))); ("_mm512_or_si512", fun a => V (mm_or (r0 a) (r1 a))); ("_mm512_xor_si512", fun a => V (mm_xor (r0 a) (r1 a)));
   ("_mm512_set1_epi64", fun a => all_ones 64 (nth 0 a Bad)); ("_mm512_setzero_si512", fun _ => V (mm_setzero 64));
   ("_mm512_aesenc_epi128", fun a => V (lanewise 4 mm_aesenc (r0 a) (r1 a))); ("_mm512_aesenclast_epi128", fun a => V (lanewise 4 mm_aesenclast (r0 a) (r1 a)));
   ("_mm512_aesdec_epi128", fun a => V (lanewise 4 mm_aesdec (r0 a) (r1 a))); ("_mm512_aesdeclast_epi128", fun a => V (lanewise 4 mm_aesdeclast (r0 a) (r1 a)))].
(** The operations of a backend, by their names in the source *)
Definition ops_models (o : ops (list N)) : list (string * (list val -> val)) :=
  [("bitand", fun a => blk (o_and o (r0 a) (r1 a))); ("bitor", fun a => blk (o_or o (r0 a) (r1 a))); ("bitxor", fun a => blk (o_xor o (r0 a) (r1 a)));
   ("not", fun a => blk (o_not o (r0 a))); ("zero", fun _ => blk (o_zero o));
   ("enc", fun a => blk (o_enc o (r0 a) (r1 a))); ("enc_last", fun a => blk (o_enc_last o (r0 a) (r1 a)));
   ("dec", fun a => blk (o_dec o (r0 a) (r1 a))); ("dec_last", fun a => blk (o_dec_last o (r0 a) (r1 a)))].
Definition x86_models : list (string * (list val -> val)) := ops_models x86_ops ++
  [("mc", fun a => blk (x86_mc (r0 a))); ("imc", fun a => blk (x86_imc (r0 a))); ("mix", fun a => V (x86_mix (r0 a)));
   ("keyexp_128", fun a => blk (x86_keyexp_128 (c0 a) (r1 a))); ("keyexp_256_1", fun a => blk (x86_keyexp_256_1 (c0 a) (r1 a) (r2 a))); ("keyexp_256_2", fun a => blk (x86_keyexp_256_2 (r0 a) (r1 a)));
   ("keygen_128", fun a => returned (fun l => A (map blk l)) (x86_keygen_128 (nums (nth 0 a Bad)))); ("AesBlock::from", fun a => returned blk (x86_from (nums (nth 0 a Bad))))] ++ intrinsics.
Definition x_types (f : string) : list xty :=
  match assoc f [("not", [Blk]); ("zero", []); ("mc", [Blk]); ("imc", [Blk]); ("mix", [Reg]); ("keyexp_128", [Const; Blk]); ("keyexp_256_1", [Const; Blk; Blk]); ("keygen_128", [Bytes 16])] with
  | Some l => l | None => [Blk; Blk] end.

Lemma x86_from_ret key : length key = 16%nat -> exists v, x86_from key = Ret v.
Proof. intros L. do 16 (destruct key as [|? key]; [discriminate L | injection L as L]). eexists. reflexivity. Qed.
Ltac given T := cbn in T; repeat match goal with
           | H : Forall2 _ (_ :: _) _ |- _ => inversion H; clear H; subst
           | H : Forall2 _ [] _ |- _ => inversion H; clear H; subst
           | H : x_has_type _ Const |- _ => destruct H as (? & ? & ->)
           | H : x_has_type _ Reg |- _ => destruct H as (? & ->)
           | H : x_has_type _ Blk |- _ => destruct H as (? & ->)
           | H : x_has_type _ (Bytes _) |- _ => destruct H as (? & ? & ->)
           end.
Section Opaque.
  Local Opaque mm_xor mm_and mm_or mm_setzero mm_set1_m1 mm_aesenc mm_aesenclast mm_aesdec mm_aesdeclast mm_aesimc mm_bslli mm_shuffle_epi32 mm_aeskeygenassist lanewise x86_from map.
  Lemma x86_keygen_128_source be key : length key = 16%nat ->
    run (meaning x86_models be) be aes_x86_keygen_128 [A (map (I 8) key)] = returned (fun l => A (map blk l)) (x86_keygen_128 key).
  Proof.
    intros L. destruct (x86_from_ret key L) as [key0 E0]. unfold aes_x86_keygen_128, run, x86_keygen_128. rewrite E0. cbn [length Nat.eqb combine bind].
    apply (let_val _ _ _ _ _ _ _ (blk key0)).
    { change (returned blk (x86_from (nums (A (map (I 8) key)))) = blk key0). unfold nums. rewrite num_bytes, E0. reflexivity. }
    reflexivity.
  Qed.
  Theorem x86_models_are_source be : x_models_are_source x86_models be aes_x86_fns x_types.
  Proof.
    intros name f args H T. unfold aes_x86_fns in H.
    repeat (destruct H as [H | H]; [injection H as <- <-; eexists; (split; [reflexivity|]); given T |]); [.. | destruct H].
    all: lazymatch goal with
         | |- context [aes_x86_keygen_128] => unfold nums, nth; rewrite num_bytes; apply x86_keygen_128_source; assumption
         | _ => reflexivity
         end.
  Qed.
  Print Assumptions x86_models_are_source.
  Theorem vaes_models_are_source be : x_models_are_source (ops_models vaes2_ops ++ intrinsics) be aesni_x2_fns x_types /\ x_models_are_source (ops_models vaes4_ops ++ intrinsics) be aesni_x4_fns x_types.
  Proof.
    split; intros name f args H T; [unfold aesni_x2_fns in H | unfold aesni_x4_fns in H];
    repeat (destruct H as [H | H]; [injection H as <- <-; eexists; (split; [reflexivity|]); given T |]).
    all: try (destruct H; fail). all: reflexivity.
  Qed.
  Print Assumptions vaes_models_are_source.
End Opaque.
(** A concrete case: the first round key of FIPS 197, appendix A.1, from the source text *)
Example source_x86_keyexp_128 : run (meaning x86_models false) false aes_x86_keyexp_128
    [I 0 1; blk [0x2b; 0x7e; 0x15; 0x16; 0x28; 0xae; 0xd2; 0xa6; 0xab; 0xf7; 0x15; 0x88; 0x09; 0xcf; 0x4f; 0x3c]] =
  blk [0xa0; 0xfa; 0xfe; 0x17; 0x88; 0x54; 0x2c; 0xb1; 0x23; 0xa3; 0x39; 0x39; 0x2a; 0x6c; 0x76; 0x05].
Proof. vm_compute. reflexivity. Qed.
