(** The crate as a client sees it: every [call] of Spec_Client performed by the model's API functions (lib.rs). *)
From Coq Require Import String.
From Verif Require Import Word Interface Fips197 Spec_User Spec_Client Model_Lib Model_Fmt.
Open Scope N_scope.
Open Scope list_scope.

Section Crate.
  Context (i : impl).
  (** A variable of a client: one of the three block types, or one of the six key objects. *)
  (* The types lib.rs exports: lib.rs:50-119 (blocks), lib.rs:430-522 (key objects). *)
  Inductive var : Type := V1 (x : T1 i) | V2 (x : T2 i) | V4 (x : T4 i) | VE (k : key_size) (e : enc_obj i) | VD (k : key_size) (d : dec_obj i).

  (** What the three block types have in common. *)
  (* The functions lib.rs:127-277, 366-426, 467-516 define by macro for each of the three block types. *)
  Record kind : Type := Kind {
    k_type : Type;
    k_ops : ops k_type;
    k_put : k_type -> var;
    k_get : var -> option k_type;
    k_chain_enc : k_type -> list k_type -> outcome k_type;
    k_chain_dec : k_type -> list k_type -> outcome k_type;
    k_encrypt : key_size -> enc_obj i -> k_type -> outcome k_type;
    k_decrypt : key_size -> dec_obj i -> k_type -> outcome k_type;
    k_debug : k_type -> fopts -> outcome string
  }.
  (* No counterpart in the source: Rust's types say which variable holds which block type (lib.rs:50-119). *)
  Definition get1 (v : var) : option (T1 i) := match v with V1 x => Some x | _ => None end.
  (* As above, AesBlockX2 (lib.rs:100-105). *)
  Definition get2 (v : var) : option (T2 i) := match v with V2 x => Some x | _ => None end.
  (* As above, AesBlockX4 (lib.rs:115-120). *)
  Definition get4 (v : var) : option (T4 i) := match v with V4 x => Some x | _ => None end.
  (** AesBlock, AesBlockX2, AesBlockX4 (lib.rs:213, 426, 467-515, 215-277) *)
  Definition kind1 : kind := Kind _ (i_ops1 i) V1 get1 (chain_enc1 i) (chain_dec1 i) (encrypt_block i) (decrypt_block i) (fmt_debug i).
  Definition kind2 : kind := Kind _ (i_ops2 i) V2 get2 (chain_enc2 i) (chain_dec2 i) (encrypt_2_blocks i) (decrypt_2_blocks i) (fmt_debug_x2 i).
  Definition kind4 : kind := Kind _ (i_ops4 i) V4 get4 (chain_enc4 i) (chain_dec4 i) (encrypt_4_blocks i) (decrypt_4_blocks i) (fmt_debug_x4 i).

  (* No counterpart in the source: how a call's outcome (all of lib.rs) is reported to the client. *)
  Definition result_of {A} (vars : list var) (r : outcome A) (f : A -> answer * list var) : option (answer * list var) :=
    Some match r with Ret a => f a | Panic => (Panics, vars) | UB => (Undefined, vars) end.

  (** The functions the three types have in common. *)
  (* lib.rs:127-210 and the block functions of the selected modules (see Interface.v), for one block type. *)
  Definition crate_on (vars : list var) (K : kind) (c : wcall) : option (answer * list var) :=
    let o := k_ops K in
    let at_ x := obind (nth_error vars x) (k_get K) in
    let arg x k := obind (at_ x) k in
    let args xs k := obind (oall (map at_ xs)) k in
    let new x := (Made 1, vars ++ [k_put K x]) in
    let made r := result_of vars r new in
    let says {A} (r : outcome A) (f : A -> answer) := result_of vars r (fun a => (f a, vars)) in
    let sets x v := Some (Made 0, assign vars x (k_put K v)) in
    match c with
    | New b => made (o_new o b)
    | From_array b => made (o_from o b)
    | From_ref b => made (from_ref o b)
    | Try_from s => result_of vars (try_from o (i_dbg i) s) (fun r => match r with Ok x => new x | Err e => (Too_short e, vars) end)
    | Zero => made (Ret (o_zero o))
    | Default => made (Ret (default o))
    | And x y => arg x (fun a => arg y (fun b => made (Ret (o_and o a b))))
    | Or x y => arg x (fun a => arg y (fun b => made (Ret (o_or o a b))))
    | Xor x y => arg x (fun a => arg y (fun b => made (Ret (o_xor o a b))))
    | Not x => arg x (fun a => made (Ret (o_not o a)))
    | And_assign x y => arg x (fun a => arg y (fun b => sets x (and_assign o a b)))
    | Or_assign x y => arg x (fun a => arg y (fun b => sets x (or_assign o a b)))
    | Xor_assign x y => arg x (fun a => arg y (fun b => sets x (xor_assign o a b)))
    | Enc x y => arg x (fun a => arg y (fun b => made (Ret (o_enc o a b))))
    | Dec x y => arg x (fun a => arg y (fun b => made (Ret (o_dec o a b))))
    | Enc_last x y => arg x (fun a => arg y (fun b => made (Ret (o_enc_last o a b))))
    | Dec_last x y => arg x (fun a => arg y (fun b => made (Ret (o_dec_last o a b))))
    | Chain_enc x ks => arg x (fun a => args ks (fun l => made (k_chain_enc K a l)))
    | Chain_dec x ks => arg x (fun a => args ks (fun l => made (k_chain_dec K a l)))
    | To_array x => arg x (fun a => says (to_bytes o a) Bytes)
    | Store_to x dst => arg x (fun a =>
        Some match o_store o a dst with (Ret _, d) => (Buffer false d, vars) | (Panic, d) => (Buffer true d, vars) | (UB, _) => (Undefined, vars) end)
    | Is_zero x => arg x (fun a => says (Ret (o_is_zero o a)) Truth)
    | Equal x y => arg x (fun a => arg y (fun b => says (Ret (o_eq o a b)) Truth))
    | Debug alt w x => arg x (fun a => says (k_debug K a (FOpts alt w)) Text)
    | Encrypt e x => match nth_error vars e with Some (VE k e) => arg x (fun a => made (k_encrypt K k e a)) | _ => None end
    | Decrypt d x => match nth_error vars d with Some (VD k d) => arg x (fun a => made (k_decrypt K k d a)) | _ => None end
    end.

  (* Every public function of lib.rs:127-522, dispatched on the call. *)
  Definition crate (vars : list var) (c : call) : option (answer * list var) :=
    let arg1 x k := obind (obind (nth_error vars x) get1) k in
    let arg2 x k := obind (obind (nth_error vars x) get2) k in
    let arg4 x k := obind (obind (nth_error vars x) get4) k in
    let made {A} (r : outcome A) (f : A -> list var) := result_of vars r (fun a => (Made (List.length (f a)), vars ++ f a)) in
    let says {A} (r : outcome A) (f : A -> answer) := result_of vars r (fun a => (f a, vars)) in
    match c with
    | On One c => crate_on vars kind1 c
    | On Two c => crate_on vars kind2 c
    | On Four c => crate_on vars kind4 c
    | From_u128 v => made (of_u128 (i_ops1 i) v) (fun x => [V1 x])
    | To_u128 x => arg1 x (fun a => says (to_u128 (i_ops1 i) a) Number)
    | Mc x => arg1 x (fun a => made (Ret (e_mc (i_ext i) a)) (fun x => [V1 x]))
    | Imc x => arg1 x (fun a => made (Ret (e_imc (i_ext i) a)) (fun x => [V1 x]))
    | Print st alt w x => arg1 x (fun a => says
        (match st with LowerHex => fmt_lower_hex i a | UpperHex => fmt_upper_hex i a | Binary => fmt_binary i a | Display => fmt_display i a end (FOpts alt w)) Text)
    | X2_from_pair a b => arg1 a (fun a => arg1 b (fun b => made (Ret (x2_of_pair i (a, b))) (fun x => [V2 x])))
    | X2_from_block a => arg1 a (fun a => made (Ret (x2_of_block i a)) (fun x => [V2 x]))
    | X2_into_pair x => arg2 x (fun a => made (Ret (x2_to_pair i a)) (fun p => let '(a, b) := p in [V1 a; V1 b]))
    | X4_from_quad a b c d => arg1 a (fun a => arg1 b (fun b => arg1 c (fun c => arg1 d (fun d => made (Ret (x4_of_quad i (a, b, c, d))) (fun x => [V4 x])))))
    | X4_from_pair a b => arg2 a (fun a => arg2 b (fun b => made (Ret (x4_of_pair i (a, b))) (fun x => [V4 x])))
    | X4_from_block a => arg1 a (fun a => made (Ret (x4_of_block i a)) (fun x => [V4 x]))
    | X4_from_x2 a => arg2 a (fun a => made (Ret (x4_of_x2 i a)) (fun x => [V4 x]))
    | X4_into_quad x => arg4 x (fun a => made (Ret (x4_to_quad i a)) (fun p => let '(a, b, c, d) := p in [V1 a; V1 b; V1 c; V1 d]))
    | X4_into_pair x => arg4 x (fun a => made (Ret (x4_to_pair i a)) (fun p => let '(a, b) := p in [V2 a; V2 b]))
    | Enc_from k key => made (enc_new i k key) (fun e => [VE k e])
    | Dec_from k key => made (dec_new i k key) (fun d => [VD k d])
    | Decrypter e => match nth_error vars e with Some (VE k e) => made (decrypter i k e) (fun d => [VD k d]) | _ => None end
    | Encrypter d => match nth_error vars d with Some (VD k d) => made (encrypter i k d) (fun e => [VE k e]) | _ => None end
    | Debug_key alt w x =>
        match nth_error vars x with
        | Some (VE k e) => says (fmt_debug_enc i k e (FOpts alt w)) Text
        | Some (VD k d) => says (fmt_debug_dec i k d (FOpts alt w)) Text
        | _ => None
        end
    | Copy x => obind (nth_error vars x) (fun v => made (Ret v) (fun v => [v]))   (* Copy / Clone, lib.rs:430, 445 and the derives of the block types *)
    end.
End Crate.
Arguments V1 {i}. Arguments V2 {i}. Arguments V4 {i}. Arguments VE {i}. Arguments VD {i}.
