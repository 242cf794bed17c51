(** SPECIFICATION for C38: a user's program that encrypts or decrypts a buffer where it lies, one API call for each
    group of 1, 2 or 4 blocks:
    [for g: let x = AesBlock*::try_from(&buf[at..]).unwrap(); enc.encrypt_*(x).store_to(&mut buf[at..]); at += len] *)
From Verif Require Import Word Interface Fips197 Model_Lib Spec_User Spec_Mem Model_Mem.
Open Scope N_scope.

(** The pointer code of the three block types of a build. *)
Record pointers (i : impl) : Type := Pointers { pt1 : ptr_ops (T1 i); pt2 : ptr_ops (T2 i); pt4 : ptr_ops (T4 i) }.
Arguments pt1 {i}. Arguments pt2 {i}. Arguments pt4 {i}.
Definition pointers_of (i : impl) (p : pointers i) : Prop :=
  pointer_code (i_ops1 i) (pt1 p) /\ pointer_code (i_ops2 i) (pt2 p) /\ pointer_code (i_ops4 i) (pt4 p).

(** One group: [call] is encrypt_block, decrypt_4_blocks, ... *)
Definition in_place {T} (dbg : bool) (n : nat) (p : ptr_ops T) (la : nat -> nat) (call : T -> outcome T) : mcode := fun m s =>
  match q_try_from dbg n p la m s with
  | Ret (Ok x) => match call x with Ret y => q_store p y m s | Panic => (Panic, m) | UB => (UB, m) end
  | Ret (Err _) | Panic => (Panic, m)
  | UB => (UB, m)
  end.

Section InPlace.
  Context (i : impl) (k : key_size) (p : pointers i) (dbg : bool) (la : nat -> nat).
  Definition encrypt_group_in_place (e : enc_obj i) (g : group) : mcode :=
    match g with
    | One => in_place dbg 16 (pt1 p) la (encrypt_block i k e)
    | Two => in_place dbg 32 (pt2 p) la (encrypt_2_blocks i k e)
    | Four => in_place dbg 64 (pt4 p) la (encrypt_4_blocks i k e)
    end.
  Definition decrypt_group_in_place (d : dec_obj i) (g : group) : mcode :=
    match g with
    | One => in_place dbg 16 (pt1 p) la (decrypt_block i k d)
    | Two => in_place dbg 32 (pt2 p) la (decrypt_2_blocks i k d)
    | Four => in_place dbg 64 (pt4 p) la (decrypt_4_blocks i k d)
    end.
  Fixpoint groups_in_place (f : group -> mcode) (gs : list group) : mcode :=
    match gs with
    | [] => fun m _ => (Ret tt, m)
    | g :: gs' => m_then (f g) (m_from (group_len g) (groups_in_place f gs'))
    end.
  Definition encrypt_in_place (key : list N) (gs : list group) : mcode := fun m s =>
    match enc_new i k key with Ret e => groups_in_place (encrypt_group_in_place e) gs m s | Panic => (Panic, m) | UB => (UB, m) end.
  Definition decrypt_in_place (key : list N) (gs : list group) : mcode := fun m s =>
    match dec_new i k key with Ret d => groups_in_place (decrypt_group_in_place d) gs m s | Panic => (Panic, m) | UB => (UB, m) end.
End InPlace.
